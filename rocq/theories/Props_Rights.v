(** * C85 and C86: a set-uid program gives its caller no rights he does not have. *)
From Verif Require Export ConfigFiles.
From Verif Require Import FSFacts PathFacts Checkers Props_Creds Props_Config Props_ConfigFiles Props_Accept.

(** ** C85: bind mounts *)
(** Inside the sandbox, the user [r] opens [s] below the place something was bound to: he needs search permission from
    the bound object downwards only (and for the directories above the place, which are his business).  No link on the way. *)
Definition opens_below (f : fs) (r : cred) (src s : path) (want : N) : Prop :=
  (∀ a x b, s = a ++ x :: b → x ≠ ".." ∧ (∃ d, f !! (src ++ a) = Some d ∧ is_kdir (n_kind d) = true ∧ may r d 1 = true) ∧
     ∃ n, f !! (src ++ a ++ [x]) = Some n ∧ is_klink (n_kind n) = false) ∧
  ∃ n, f !! (src ++ s) = Some n ∧ may r n want = true.

(** What the caller may do below a bind he asked for, he may do on the host. *)
Definition C85_full : Prop :=
  ∀ (f : fs) (cwd : path) (r : cred) (home : res string) (arg : string) (b : bind_mount) (s : path) (want : N),
    wf_tree f → parse_bind_mount f cwd home arg = Ok b → b_options b ≠ Mask →
    opens_below f r (pb_comps (b_source b)) s want →
    eaccess f r (pb_comps (b_source b) ++ s) want = Ok tt.

(** /root is closed, but a file in it need not be: [sandbox --bind /root/notes:/home/u/notes]. *)
Definition closed_fs : fs := list_to_map
  [ ([], Node KDir 493 0 0 1 ∅); (["home"], Node KDir 493 0 0 1 ∅); (["home"; "u"], Node KDir 493 1000 1000 1 ∅);
    (["root"], Node KDir 448 0 0 1 ∅); (["root"; "notes"], Node KDir 493 0 0 1 ∅); (["root"; "notes"; "n"], Node (KFile "n") 420 0 0 1 ∅) ].
Definition caller_r : cred := user_cred 1000 1000 [1000%N].
Theorem C85_refuted : ¬ C85_full.
Proof.
  intros H.
  assert (parse_bind_mount closed_fs ["home"; "u"] (Ok "/home/u") "/root/notes:/home/u/notes" =
    Ok (BindMount (PB true ["root"; "notes"]) (PB true ["home"; "u"; "notes"]) ReadWrite "/root/notes:/home/u/notes")) as Hp by (vm_compute; reflexivity).
  assert (wf_tree closed_fs) as Hwf by (apply wf_treeb_spec; vm_compute; reflexivity).
  pose proof (H closed_fs ["home"; "u"] caller_r (Ok "/home/u") _ _ ["n"] 4%N Hwf Hp ltac:(discriminate)) as Hx.
  assert (eaccess closed_fs caller_r (["root"; "notes"] ++ ["n"]) 4 = Err EACCES) as E by (vm_compute; reflexivity).
  cbn [b_source pb_comps] in Hx. rewrite E in Hx. discriminate Hx. split.
  - intros a x y Ha. destruct a as [|? [|? ?]]; try discriminate Ha. injection Ha as <- <-. split; [discriminate|]. split.
    + exists (Node KDir 493 0 0 1 ∅). repeat split; vm_compute; reflexivity.
    + exists (Node (KFile "n") 420 0 0 1 ∅). split; vm_compute; reflexivity.
  - exists (Node (KFile "n") 420 0 0 1 ∅). split; vm_compute; reflexivity.
Qed.
Print Assumptions C85_refuted.

(** No component of [q] is a link. *)
Definition linkless (f : fs) (q : path) : Prop := ∀ a x b, q = a ++ x :: b →
  x ≠ ".." ∧ ∀ n, f !! (a ++ [x]) = Some n → is_klink (n_kind n) = false.
Lemma linkless_removelast (f : fs) (q : path) : linkless f q → linkless f (removelast q).
Proof.
  intros H. destruct (path_snoc_case q) as [-> |(q' & y & ->)]; [done|]. rewrite removelast_snoc.
  intros a x b ->. apply (H a x (b ++ [y])). by rewrite <-app_assoc.
Qed.
Lemma linkless_nil (f : fs) : linkless f [].
Proof. intros a x b H. by destruct a. Qed.
Lemma linkless_snoc (f : fs) (q : path) (x : string) : linkless f q → x ≠ ".." → (∀ n, f !! (q ++ [x]) = Some n → is_klink (n_kind n) = false) → linkless f (q ++ [x]).
Proof.
  intros Hq Hx Hn a y b Hy. destruct (path_snoc_case b) as [-> |(b' & z & ->)].
  - apply app_inj_tail in Hy as [<- <-]. done.
  - apply (Hq a y b'). rewrite app_comm_cons, app_assoc in Hy. apply app_inj_tail in Hy as [-> _]. done.
Qed.
Lemma walk_linkless (f : fs) : ∀ n todo cur q, linkless f cur → walk n f true cur todo = Ok q → linkless f q.
Proof.
  induction n as [|n IHn]; intros todo.
  all: induction todo as [|x rest IH]; intros cur q Hc H; cbn [walk] in H; [injection H as <-; exact Hc|];
    cbn [walk] in IH; (destruct (String.eqb x "" || String.eqb x "."); [by apply (IH _ _ Hc)|]);
    (destruct (String.eqb x "..") eqn:Ex; [by apply (IH _ _ (linkless_removelast _ _ Hc))|]); apply String.eqb_neq in Ex;
    (destruct (f !! cur) as [d|]; [|discriminate H]); (destruct (is_kdir (n_kind d)); [|discriminate H]); cbv zeta in H;
    (destruct (f !! (cur ++ [x])) as [k|] eqn:Eq;
     [|destruct rest; [injection H as <-|discriminate H]; apply linkless_snoc; [done|done|]; intros k Hk; congruence]);
    (assert (is_klink (n_kind k) = false → linkless f (cur ++ [x])) as Hnew;
     [intros Hl; apply linkless_snoc; [done|done|]; intros k' Hk'; congruence|]);
    destruct (n_kind k) as [| |t| | | |]; try (by apply (IH _ _ (Hnew eq_refl)));
    destruct rest; first [discriminate H | (apply IHn in H; [exact H|]; destruct (is_abs t); [apply linkless_nil|exact Hc])].
Qed.
Lemma pwalk_linkless (f : fs) (r : cred) (n : nat) : ∀ s cur q, linkless f (cur ++ s) → pwalk n f r cur s = Ok q → q = cur ++ s.
Proof.
  induction s as [|x s IH]; intros cur q Hl H; [rewrite app_nil_r; destruct n; by injection H as <-|].
  destruct (Hl cur x s eq_refl) as [Hx Hk].
  specialize (IH (cur ++ [x])). rewrite <-app_assoc in IH. cbn [app] in IH. specialize (IH q Hl).
  destruct n; cbn [pwalk] in H; cbn [pwalk] in IH; (destruct (f !! cur) as [d|]; [|discriminate H]); (destruct (negb (is_kdir (n_kind d))); [discriminate H|]);
    (destruct (negb (may r d 1)); [discriminate H|]); apply String.eqb_neq in Hx; rewrite Hx in H; cbv zeta in H;
    (destruct (f !! (cur ++ [x])) as [k|]; [|discriminate H]); specialize (Hk k eq_refl); destruct (n_kind k); try (by apply IH); discriminate Hk.
Qed.

(** It holds for a source the caller can reach, which is what a check of the source would establish. *)
Theorem C85_reachable_sources_partial (f : fs) (cwd : path) (r : cred) (home : res string) (arg : string) (b : bind_mount) (s : path) (want : N) :
  parse_bind_mount f cwd home arg = Ok b →
  eaccess f r (pb_comps (b_source b)) 0 = Ok tt →
  opens_below f r (pb_comps (b_source b)) s want →
  eaccess f r (pb_comps (b_source b) ++ s) want = Ok tt.
Proof.
  intros Hparse Hreach [Hsteps (n & Hn & Hm)].
  apply C35_bind_argument in Hparse. destruct (bs_parts _ _ _ _ _ Hparse) as (x & x' & t' & t & o & _ & _ & _ & (c & (_ & Hl & Hc) & Hs) & _).
  rewrite Hs in *. cbn [pb_comps] in *. apply walk_linkless in Hl; [|apply linkless_nil].
  assert (clear f r c) as Hsrc.
  { unfold eaccess in Hreach. destruct (pwalk max_links f r [] c) as [q|] eqn:Ep; [|discriminate Hreach].
    pose proof (pwalk_linkless f r max_links c [] q Hl Ep) as ->. eapply pwalk_clear; [apply clear_nil|exact Ep]. }
  assert (clear f r (c ++ s)) as Hclear.
  { clear Hn. induction s as [|y s IH] using rev_ind; [by rewrite app_nil_r|]. intros a z k Ha.
    destruct (path_snoc_case k) as [-> |(k' & w & ->)].
    - rewrite app_assoc in Ha. apply app_inj_tail in Ha as [<- <-].
      destruct (Hsteps s y [] eq_refl) as (H1 & H2 & H3). rewrite <-app_assoc. done.
    - rewrite app_assoc, app_comm_cons, app_assoc in Ha. apply app_inj_tail in Ha as [Ha _]. assert (clear f r (c ++ s)) as Hc'.
      { apply IH. intros a' x0 b' ->. apply (Hsteps a' x0 (b' ++ [y])). by rewrite <-app_assoc. }
      exact (Hc' a z k' Ha). }
  unfold eaccess. rewrite (clear_pwalk f r max_links (c ++ s) []) by exact Hclear. cbn [rbind app]. by rewrite Hn, Hm.
Qed.
Print Assumptions C85_reachable_sources_partial.
Example C85_nonvacuous :
  parse_bind_mount closed_fs ["home"; "u"] (Ok "/home/u") "/home:/h:ro" = Ok (BindMount (PB true ["home"]) (PB true ["h"]) ReadOnly "/home:/h:ro") ∧
  eaccess closed_fs caller_r ["home"] 0 = Ok tt ∧ opens_below closed_fs caller_r ["home"] ["u"] 7.
Proof.
  split; [vm_compute; reflexivity|]. split; [vm_compute; reflexivity|]. split.
  - intros a x b Ha. destruct a as [|? [|? ?]]; try discriminate Ha. injection Ha as <- <-. split; [discriminate|]. split.
    + exists (Node KDir 493 0 0 1 ∅). repeat split; vm_compute; reflexivity.
    + exists (Node KDir 493 1000 1000 1 ∅). split; vm_compute; reflexivity.
  - exists (Node KDir 493 1000 1000 1 ∅). split; vm_compute; reflexivity.
Qed.

(** ** C86: accept *)
(** What a user may do for himself, as far as it is needed here: make a file, a directory or a link of his own in a
    directory he can reach and write.  Only root can set trusted attributes, make devices and give files away. *)
Inductive user_step (r : cred) (f : fs) : fs → Prop :=
  | us_create (q : path) (x : string) (n : node) :
      q ++ [x] ≠ [] → f !! (q ++ [x]) = None → x ≠ ".." → (∃ d, f !! q = Some d ∧ is_kdir (n_kind d) = true) → eaccess f r q 3 = Ok tt →
      (∀ dv, n_kind n ≠ KChr dv) → (∀ dv, n_kind n ≠ KBlk dv) → n_uid n = euid r → n_gid n = egid r → n_xattr n = ∅ →
      user_step r f (<[q ++ [x] := n]> f).
(** The user may write the directory [q] is in, or [q] is below something that does not exist yet and that he could make. *)
Definition could_change (f : fs) (r : cred) (q : path) : Prop := ∃ a x b,
  q = a ++ x :: b ∧ (b = [] ∨ f !! (a ++ [x]) = None) ∧ eaccess f r a 2 = Ok tt.
(** Accepting a sandbox after doing some such things changes nothing the user could not have changed. *)
Definition C86_full : Prop :=
  ∀ (e : env) (r : cred) (f0 f : fs) (ub : path) (inc : bool) (pats : list string) (q : path),
    wf_tree f0 → env_ok e → euid r ≠ 0%N → rtc (user_step r) f0 f → under ub q = false →
    o_fs (accept e ub inc pats f) !! q ≠ f !! q → could_change f0 r q.

(** A user stages a password file of his own making and has it accepted. *)
Definition own (k : kind) (perm : N) : node := Node k perm 1000 1000 1 ∅.
Definition plain_fs : fs := list_to_map [ ([], dir0); (["etc"], dir0); (["home"], dir0); (["u"], own KDir 493) ].
Definition plant (f : fs) (q : path) (n : node) : fs := <[q := n]> f.
Definition planted_fs : fs :=
  plant (plant (plant (plant plain_fs ["u"; "up"] (own KDir 493)) ["u"; "up"; "F4"] (own KDir 493)) ["u"; "up"; "F4"; "etc"] (own KDir 493))
    ["u"; "up"; "F4"; "etc"; "x"] (own (KFile "root::0:0") 420).
Lemma planted : rtc (user_step caller_r) plain_fs planted_fs.
Proof.
  eapply rtc_l; [|eapply rtc_l; [|eapply rtc_l; [|eapply rtc_l; [|apply rtc_refl]]]].
  - apply (us_create caller_r _ ["u"] "up" (own KDir 493)); try discriminate; try reflexivity; try (vm_compute; reflexivity).
    eexists; split; vm_compute; reflexivity.
  - apply (us_create caller_r _ ["u"; "up"] "F4" (own KDir 493)); try discriminate; try reflexivity; try (vm_compute; reflexivity).
    eexists; split; vm_compute; reflexivity.
  - apply (us_create caller_r _ ["u"; "up"; "F4"] "etc" (own KDir 493)); try discriminate; try reflexivity; try (vm_compute; reflexivity).
    eexists; split; vm_compute; reflexivity.
  - apply (us_create caller_r _ ["u"; "up"; "F4"; "etc"] "x" (own (KFile "root::0:0") 420)); try discriminate; try reflexivity; try (vm_compute; reflexivity).
    eexists; split; vm_compute; reflexivity.
Qed.
Theorem C86_refuted : ¬ C86_full.
Proof.
  intros H.
  assert (wf_tree plain_fs) as Hwf by (apply wf_treeb_spec; vm_compute; reflexivity).
  assert (eaccess plain_fs caller_r ["etc"] 2 = Err EACCES) as Ee by (vm_compute; reflexivity).
  assert (o_fs (accept demo_env ["u"; "up"] true ["/"] planted_fs) !! ["etc"; "x"] = Some (own (KFile "root::0:0") 420)) as Ea by (vm_compute; reflexivity).
  assert (planted_fs !! ["etc"; "x"] = None) as Ep by (vm_compute; reflexivity).
  pose proof (H demo_env caller_r plain_fs planted_fs ["u"; "up"] true ["/"] ["etc"; "x"] Hwf demo_env_ok ltac:(discriminate) planted ltac:(reflexivity)) as Hx.
  rewrite Ea, Ep in Hx. specialize (Hx ltac:(discriminate)). destruct Hx as (a & x & b & Hq & Hb & Hacc).
  destruct a as [|a1 [|a2 [|? ?]]]; try discriminate Hq; injection Hq as; subst.
  - assert (plain_fs !! ["etc"] = Some dir0) as Hd by (vm_compute; reflexivity). destruct Hb as [Hb|Hb]; [discriminate Hb|]. cbn [app] in Hb. rewrite Hd in Hb. discriminate Hb.
  - rewrite Ee in Hacc. discriminate Hacc.
Qed.
Print Assumptions C86_refuted.

Lemma with_extension_parent (p : path) (u : string) : removelast (with_extension p u) = removelast p.
Proof.
  destruct (path_snoc_case p) as [-> |(q & x & ->)]; [done|]. by rewrite with_extension_snoc, !removelast_snoc.
Qed.
(** It holds, at every moment of the command, when each selected change is one the caller could make himself: which is what
    the overlay enforces on the processes of a sandbox, and what accept does not check again. *)
Theorem C86_checked_changes_partial (e : env) (r : cred) (f : fs) (ub : path) (ms : list path) (inc : bool) (pats : list string) (sel : list change) :
  sandbox_ok f ub ms → env_ok e → fresh_uuids e f → selected e f ub inc pats = Ok sel →
  (∀ c, c ∈ sel → could_change f r (c_dest c)) →
  ∀ st q, st ∈ states (accept e ub inc pats f) → under ub q = false → st !! q ≠ f !! q → could_change f r q.
Proof.
  intros Hok He Hfu Hsel Hmay st q Hst Hu Hne.
  assert (∀ c, c ∈ sel → c_dest c ≠ []) as Hnn.
  { intros c Hc E. destruct (Hmay c Hc) as (a & x & b & Hd & _). rewrite E in Hd. by destruct a. }
  destruct (decide (q ≠ [] ∧ Exists (λ c, removelast (c_dest c) = removelast q) sel)) as [[Hq Hx]|Hx].
  - apply Exists_exists in Hx as (c & Hc & Hp). destruct (Hmay c Hc) as (a & x & b & Hd & Hb & Ha).
    destruct (path_snoc_case q) as [-> |(q' & y & ->)]; [done|]. rewrite removelast_snoc in Hp.
    destruct (path_snoc_case b) as [-> |(b' & z & ->)].
    + rewrite Hd, removelast_snoc in Hp. subst q'. exists a, y, []. split; [done|]. split; [by left|exact Ha].
    + rewrite Hd, app_comm_cons, app_assoc, removelast_snoc in Hp. subst q'. exists a, x, (b' ++ [y]). split; [by rewrite <-app_assoc|].
      split; [|exact Ha]. right. destruct Hb as [Hb|Hb]; [by destruct b'|exact Hb].
  - exfalso. apply Hne. rewrite Exists_exists in Hx.
    destruct (C02_accept_frame_partial e f ub ms inc pats sel Hok He Hfu Hsel q Hu) as [Hall _].
    { intros c Hc <-. apply Hx. split; [by apply Hnn|]. by exists c. }
    apply Hall; [exact Hst|]. intros c i Hc E. apply Hx. split.
    + pose proof (Hnn c Hc) as Hn. destruct (path_snoc_case (c_dest c)) as [En|(d & x & Ed)]; [done|].
      rewrite Ed, with_extension_snoc in E. rewrite E. by destruct d.
    + exists c. split; [exact Hc|]. by rewrite E, with_extension_parent.
Qed.
Print Assumptions C86_checked_changes_partial.
Definition demo_user : cred := user_cred 5 5 [5%N].
Definition open_fs : fs := (λ n : node, match n_kind n with KDir => Node KDir 511 (n_uid n) (n_gid n) (n_dev n) (n_xattr n) | _ => n end) <$> demo_fs.
Definition could_changeb (f : fs) (r : cred) (q : path) : bool :=
  existsb (λ k, bool_decide (S k = length q ∨ f !! take (S k) q = None) && match eaccess f r (take k q) 2 with Ok _ => true | _ => false end) (seq 0 (length q)).
Lemma could_changeb_spec (f : fs) (r : cred) (q : path) : could_changeb f r q = true → could_change f r q.
Proof.
  unfold could_changeb. rewrite existsb_exists. intros (k & Hk & Hb). apply in_seq in Hk. apply andb_true_iff in Hb as [Hb He].
  apply bool_decide_eq_true in Hb. destruct (lookup_lt_is_Some_2 q k) as [x Hx]; [lia|].
  exists (take k q), x, (drop (S k) q). split; [symmetry; by apply take_drop_middle|]. split.
  - destruct Hb as [Hb|Hb]; [left; apply drop_ge; lia|right; by rewrite <-take_S_r].
  - destruct (eaccess f r (take k q) 2) as [[]|]; [reflexivity|discriminate He].
Qed.
Definition open_sel : list change := match selected demo_env open_fs demo_ub true ["/"] with Ok l => l | Err _ => [] end.
Example C86_nonvacuous : sandbox_ok open_fs demo_ub [[]] ∧ fresh_uuids demo_env open_fs ∧
  selected demo_env open_fs demo_ub true ["/"] = Ok open_sel ∧ length open_sel = 14 ∧ ∀ c, c ∈ open_sel → could_change open_fs demo_user (c_dest c).
Proof.
  split; [apply sandbox_okb_spec; vm_compute; reflexivity|].
  split; [apply (fresh_suffixb_spec _ _ "uuid"); [reflexivity|]; vm_compute; reflexivity|].
  split; [vm_compute; reflexivity|]. split; [vm_compute; reflexivity|]. intros c Hc. apply could_changeb_spec.
  assert (forallb (λ c, could_changeb open_fs demo_user (c_dest c)) open_sel = true) as Hb by (vm_compute; reflexivity).
  rewrite forallb_forall in Hb. exact (Hb c (proj1 (elem_of_list_In open_sel c) Hc)).
Qed.
