(** * C40, C41, C46, C47: names and files of sandboxes, --last, --new *)
From Verif Require Export FSFacts SysFacts RmdirFacts Order PathFacts Checkers Lifecycle.

(** ** Strings *)
Lemma contains_app_l (p s t : string) : contains p s = true → contains p (s +:+ t) = true.
Proof.
  rewrite !contains_spec. intros (a & b & ->). exists a, (b +:+ t). by rewrite <-!str_app_assoc.
Qed.
Lemma slash_app (s t : string) : contains "/" s = false → contains "/" t = false →
  contains "/" (s +:+ t) = false.
Proof.
  induction s as [|a s IH]; intros Hs Ht; [done|].
  apply contains_cons_false in Hs as [H1 H2].
  change (String a s +:+ t) with (String a (s +:+ t)).
  specialize (IH H2 Ht). destruct (contains "/" (String a (s +:+ t))) eqn:E; [|done].
  change (starts_with "/" (String a (s +:+ t)) || contains "/" (s +:+ t) = true) in E.
  rewrite IH, orb_false_r in E. apply starts_with_spec in E as [u E]. by injection E.
Qed.
Lemma str_app_eq_l (a b c : string) : a +:+ b = a +:+ c → b = c.
Proof. induction a as [|x a IH]; [done|]. intros H. injection H as H. by apply IH. Qed.
Lemma str_app_len (a b : string) : String.length (a +:+ b) = String.length a + String.length b.
Proof. induction a as [|x a IH]; [done|]. cbn [String.length]. simpl. by rewrite <-IH. Qed.
Lemma str_app_eq_r (a b c : string) : a +:+ c = b +:+ c → a = b.
Proof.
  revert b. induction a as [|x a IH]; intros [|y b] H.
  - done.
  - apply (f_equal String.length) in H. rewrite !str_app_len in H. cbn [String.length] in H. lia.
  - apply (f_equal String.length) in H. rewrite !str_app_len in H. cbn [String.length] in H. lia.
  - injection H as -> H. f_equal. by apply IH.
Qed.
(** The last character of a string that ends with a given one. *)
Lemma suffix_last (a b : string) (x y : ascii) : a +:+ String x "" = b +:+ String y "" → x = y.
Proof.
  revert b. induction a as [|u a IH]; intros [|v b] H.
  - by injection H.
  - injection H as _ H. by destruct b.
  - injection H as _ H. by destruct a.
  - injection H as _ H. by apply (IH b).
Qed.

Lemma suffixed_ok (name suf : string) : contains "/" name = false → contains "/" suf = false →
  2 < String.length suf → comp_ok (name +:+ suf).
Proof.
  intros H1 H2 Hl. repeat split; try (intros E; apply (f_equal String.length) in E;
    rewrite str_app_len in E; cbn [String.length] in E; lia).
  by apply slash_app.
Qed.
Lemma lock_comp_ok (name : string) : contains "/" name = false → comp_ok (name +:+ ".lock").
Proof. intros H. apply suffixed_ok; [done|done|]. cbn [String.length]. lia. Qed.
Lemma pid_comp_ok (name : string) : contains "/" name = false → comp_ok (name +:+ ".pid").
Proof. intros H. apply suffixed_ok; [done|done|]. cbn [String.length]. lia. Qed.

Lemma validate_spec (name : string) : validate_name name = Ok tt ↔ contains "/" name = false.
Proof. unfold validate_name. by destruct (contains "/" name). Qed.

(** ** C40 *)
(** [p] names a direct child of the storage directory. *)
Definition direct_child (f : fs) (storage p : path) : Prop :=
  ∃ x, comp_ok x ∧ lookup_l f p = Ok (storage ++ [x]).

Definition C40_full : Prop := ∀ f storage name,
  wf_tree f → is_dir_at f storage → validate_name name = Ok tt →
  direct_child f storage (base_of storage name) ∧ direct_child f storage (lock_of storage name) ∧
  direct_child f storage (pid_of storage name).

Lemma direct_child_snoc (f : fs) (storage : path) (x : string) : wf_tree f → is_dir_at f storage → comp_ok x →
  direct_child f storage (storage ++ [x]).
Proof.
  intros Hwf Hd Hx. exists x. split; [done|]. apply lookup_l_dirpath. by apply dirpath_snoc.
Qed.

(** What is missing: the names "", "." and "..", which are accepted. *)
Theorem C40_names_confined_partial : ∀ f storage name,
  wf_tree f → is_dir_at f storage → validate_name name = Ok tt →
  name ≠ "" → name ≠ "." → name ≠ ".." →
  direct_child f storage (base_of storage name) ∧ direct_child f storage (lock_of storage name) ∧
  direct_child f storage (pid_of storage name).
Proof.
  intros f storage name Hwf Hd Hv H1 H2 H3. apply validate_spec in Hv.
  split; [|split]; apply direct_child_snoc; try done; [by apply lock_comp_ok|by apply pid_comp_ok].
Qed.

Lemma walk_base (n : nat) (f : fs) (follow : bool) (cur todo : path) (c : string) :
  (∀ q x r, todo = q ++ x :: r → is_dir_at f (cur ++ q) ∧ comp_ok x) → is_dir_at f (cur ++ todo) →
  walk n f follow cur (todo ++ [c]) = walk n f follow (cur ++ todo) [c].
Proof.
  revert cur. induction todo as [|x todo IH]; intros cur H Hd.
  - by rewrite app_nil_r.
  - rewrite <-app_comm_cons, walk_cons. destruct (H [] x todo eq_refl) as [(d & Hn & Hk) Hc].
    rewrite app_nil_r in Hn. destruct (comp_ok_tests x Hc) as [-> ->]. rewrite Hn, Hk. cbn [is_kdir].
    assert (is_dir_at f (cur ++ [x])) as (dx & Hx & Hkx).
    { destruct todo as [|y todo].
      - done.
      - apply (H [x] y todo eq_refl). }
    rewrite Hx, Hkx. change (x :: todo) with ([x] ++ todo). rewrite app_assoc.
    apply IH.
    + intros q y r ->. rewrite <-app_assoc. by apply (H (x :: q) y r).
    + by rewrite <-app_assoc.
Qed.
Lemma lookup_storage (f : fs) (storage : path) (name : string) : wf_tree f → is_dir_at f storage →
  lookup_l f (base_of storage name) = walk max_links f false storage [name].
Proof.
  intros Hwf Hd. unfold lookup_l, base_of. rewrite walk_base; [done| |done].
  intros q x r ->. exact (is_dir_at_dirpath f _ Hwf Hd q x r eq_refl).
Qed.

(** The three other accepted names: the sandbox's directory is the storage directory itself, or its
    parent. *)
Theorem C40_special_names : ∀ f storage, wf_tree f → is_dir_at f storage →
  (lookup_l f (base_of storage "") = Ok storage ∧ validate_name "" = Ok tt) ∧
  (lookup_l f (base_of storage ".") = Ok storage ∧ validate_name "." = Ok tt) ∧
  (lookup_l f (base_of storage "..") = Ok (removelast storage) ∧ validate_name ".." = Ok tt).
Proof.
  intros f storage Hwf Hd. rewrite !lookup_storage by done.
  rewrite !walk_cons, !walk_nil. done.
Qed.

Definition home_fs : fs :=
  list_to_map
    [([], Node KDir 493 0 0 1 ∅); (["home"], Node KDir 493 1000 1000 1 ∅);
     (["home"; ".sandboxes"], Node KDir 493 1000 1000 1 ∅);
     (["home"; ".sandboxes"; "a"], Node KDir 493 1000 1000 1 ∅);
     (["home"; ".sandboxes"; "a"; "upper"], Node KDir 493 1000 1000 1 ∅);
     (["home"; ".sandboxes"; "a"; "work"], Node KDir 493 1000 1000 1 ∅);
     (["home"; ".sandboxes"; "a"; "overlay"], Node KDir 493 1000 1000 1 ∅);
     (["home"; ".sandboxes"; "a.lock"], Node (KFile "") 420 0 0 1 ∅);
     (["home"; "letter"], Node (KFile "dear") 420 1000 1000 1 ∅)].
Definition home_storage : path := ["home"; ".sandboxes"].

Theorem C40_refuted : ¬ C40_full.
Proof.
  intros H. destruct (H home_fs home_storage "..") as [(x & _ & E) _].
  - by apply wf_treeb_spec; vm_compute.
  - by apply dirb_spec; vm_compute.
  - done.
  - by vm_compute in E.
Qed.

Example C40_nonvacuous :
  wf_tree home_fs ∧ is_dir_at home_fs home_storage ∧ validate_name "my sandbox.2" = Ok tt ∧
  direct_child home_fs home_storage (base_of home_storage "my sandbox.2").
Proof.
  assert (wf_tree home_fs) as Hwf by (by apply wf_treeb_spec; vm_compute).
  assert (is_dir_at home_fs home_storage) as Hd by (by apply dirb_spec; vm_compute).
  split; [exact Hwf|]. split; [exact Hd|]. split; [reflexivity|].
  pose proof (C40_names_confined_partial home_fs home_storage "my sandbox.2" Hwf Hd) as H.
  destruct H as [H _]; [reflexivity|discriminate..|exact H].
Qed.

(** ** C41 *)
(** The places used by a sandbox. *)
Definition places (f : fs) (storage : path) (name : string) : list (res path) :=
  lookup_l f <$> [base_of storage name; lock_of storage name; pid_of storage name].
Definition share (f : fs) (storage : path) (n1 n2 : string) : Prop :=
  ∃ p, Ok p ∈ places f storage n1 ∧ Ok p ∈ places f storage n2.

Definition C41_full : Prop := ∀ f storage n1 n2,
  wf_tree f → is_dir_at f storage → validate_name n1 = Ok tt → validate_name n2 = Ok tt →
  n1 ≠ n2 → ¬ share f storage n1 n2.

Lemma places_ok (f : fs) (storage : path) (n : string) : wf_tree f → is_dir_at f storage → comp_ok n →
  places f storage n = [Ok (storage ++ [n]); Ok (storage ++ [n +:+ ".lock"]); Ok (storage ++ [n +:+ ".pid"])].
Proof.
  intros Hwf Hd Hn. assert (contains "/" n = false) as Hs by apply Hn.
  unfold places, base_of, lock_of, pid_of. cbn [fmap list_fmap].
  rewrite !lookup_l_dirpath; [done|..]; apply dirpath_snoc; try done.
  - by apply pid_comp_ok.
  - by apply lock_comp_ok.
Qed.

Lemma lock_not_pid (a b : string) : a +:+ ".lock" ≠ b +:+ ".pid".
Proof.
  intros H. change ".lock" with (".loc" +:+ "k") in H. change ".pid" with (".pi" +:+ "d") in H.
  rewrite !str_app_assoc in H. by apply suffix_last in H.
Qed.

(** Exactly which names collide: one is the other with ".lock" or ".pid" appended. Missing from the
    full property: those, and the names "", "." and "..". *)
Theorem C41_share_iff_partial : ∀ f storage n1 n2,
  wf_tree f → is_dir_at f storage → comp_ok n1 → comp_ok n2 →
  share f storage n1 n2 ↔
  n1 = n2 ∨ n2 = n1 +:+ ".lock" ∨ n2 = n1 +:+ ".pid" ∨ n1 = n2 +:+ ".lock" ∨ n1 = n2 +:+ ".pid".
Proof.
  intros f storage n1 n2 Hwf Hd H1 H2. unfold share. rewrite !places_ok by done. split.
  - intros (p & P1 & P2).
    repeat (apply elem_of_cons in P1 as [P1|P1]); try (by apply elem_of_nil in P1);
    repeat (apply elem_of_cons in P2 as [P2|P2]); try (by apply elem_of_nil in P2);
    rewrite P1 in P2; injection P2 as P2; apply app_inj_tail in P2 as [_ P2]; auto.
    + left. by apply str_app_eq_r in P2.
    + by apply lock_not_pid in P2.
    + symmetry in P2. by apply lock_not_pid in P2.
    + left. by apply str_app_eq_r in P2.
  - intros H. destruct H as [-> | [-> | [-> | [-> | ->]]]].
    + exists (storage ++ [n2]). rewrite !elem_of_cons. auto.
    + exists (storage ++ [n1 +:+ ".lock"]). rewrite !elem_of_cons. auto.
    + exists (storage ++ [n1 +:+ ".pid"]). rewrite !elem_of_cons. auto.
    + exists (storage ++ [n2 +:+ ".lock"]). rewrite !elem_of_cons. auto.
    + exists (storage ++ [n2 +:+ ".pid"]). rewrite !elem_of_cons. auto.
Qed.

Theorem C41_refuted : ¬ C41_full.
Proof.
  intros H. assert (wf_tree home_fs) as Hwf by (by apply wf_treeb_spec; vm_compute).
  assert (is_dir_at home_fs home_storage) as Hd by (by apply dirb_spec; vm_compute).
  apply (H home_fs home_storage "a" "a.lock" Hwf Hd); [reflexivity|reflexivity|discriminate|].
  apply C41_share_iff_partial; [exact Hwf|exact Hd|..].
  - by apply comp_okb_spec; vm_compute.
  - by apply comp_okb_spec; vm_compute.
  - right. by left.
Qed.

Example C41_nonvacuous : ¬ share home_fs home_storage "a" "a.locked".
Proof.
  assert (wf_tree home_fs) as Hwf by (by apply wf_treeb_spec; vm_compute).
  assert (is_dir_at home_fs home_storage) as Hd by (by apply dirb_spec; vm_compute).
  rewrite C41_share_iff_partial; [|exact Hwf|exact Hd|by apply comp_okb_spec; vm_compute..].
  intros [H|[H|[H|[H|H]]]]; by vm_compute in H.
Qed.

(** ** C46 *)
(** [x] is a sandbox of the storage directory. *)
Definition leads_to_dir (f : fs) (p : path) : Prop := ∃ n, stat f p = Ok n ∧ n_kind n = KDir.
Definition sandbox_entry (f : fs) (storage : path) (x : string) : Prop :=
  is_Some (f !! (storage ++ [x])) ∧
  ∀ r, r ∈ [[]; ["upper"]; ["work"]; ["overlay"]] → leads_to_dir f ((storage ++ [x]) ++ r).
Lemma is_dir_leads (f : fs) (p : path) : is_dir f p = true ↔ leads_to_dir f p.
Proof.
  unfold is_dir, leads_to_dir. destruct (stat f p) as [n|].
  - rewrite is_kdir_true. split; [by exists n|]. intros (n' & E & H). injection E as <-. done.
  - split; [done|]. intros (n & E & _). done.
Qed.
Lemma is_sandbox_dir_spec (f : fs) (storage : path) (x : string) :
  sandbox_entry f storage x ↔ is_Some (f !! (storage ++ [x])) ∧ is_sandbox_dir f (storage ++ [x]) = true.
Proof.
  unfold sandbox_entry, is_sandbox_dir. rewrite !andb_true_iff, !is_dir_leads. split.
  - intros [H1 H2]. split; [exact H1|]. pose proof (H2 []) as H3. rewrite app_nil_r in H3.
    split; [split; [split|]|]; [apply H3; left|apply H2; right; left|apply H2; right; right; left|apply H2; right; right; right; left].
  - intros [H1 [[[H2 H3] H4] H5]]. split; [exact H1|]. intros r Hr. rewrite !elem_of_cons in Hr.
    destruct Hr as [-> |[-> |[-> |[-> |Hr]]]]; [rewrite (app_nil_r (storage ++ [x])); exact H2|exact H3|exact H4|exact H5|].
    exfalso. by apply elem_of_nil in Hr.
Qed.
(** When an entry was made, as far as the file system tells. *)
Definition recorded (birth : path → option Z) (mtime : path → Z) (p : path) : Z :=
  match birth p with Some t => t | None => mtime p end.

(** The property: [made] are the true times of creation, which the file system records or not. *)
Definition C46_full : Prop := ∀ (made : path → Z) birth mtime f storage,
  (∀ p t, birth p = Some t → t = made p) → wf_tree f → is_dir_at f storage →
  (∀ x, sandbox_entry f storage x → utf8_valid x = true) →
  (∀ name, find_last_sandbox birth mtime f storage = Ok name →
     sandbox_entry f storage name ∧ ∀ x, sandbox_entry f storage x → (made (storage ++ [x]) ≤ made (storage ++ [name]))%Z) ∧
  (is_ok (find_last_sandbox birth mtime f storage) = false ↔ ∀ x, ¬ sandbox_entry f storage x).

(** UTF-8 names are shown as they are. *)

Lemma newest_first_preorder : cmp_preorder newest_first.
Proof.
  split.
  - intros [a x]. apply Z.compare_refl.
  - intros [a x] [b y]. unfold newest_first. simpl. by rewrite Z.compare_antisym.
  - intros [a x] [b y] [c z]. unfold newest_first. simpl.
    fold (Z.le y x) (Z.le z y) (Z.le z x). lia.
Qed.

(** The name selected is a sandbox and no sandbox is newer; it fails exactly when there is none. The
    time of an entry is its creation time, or its modification time where none is recorded. *)
Theorem C46_last_partial : ∀ birth mtime f storage,
  wf_tree f → is_dir_at f storage →
  (∀ x, sandbox_entry f storage x → utf8_valid x = true) →
  (∀ name, find_last_sandbox birth mtime f storage = Ok name →
     sandbox_entry f storage name ∧
     ∀ x, sandbox_entry f storage x →
       (recorded birth mtime (storage ++ [x]) ≤ recorded birth mtime (storage ++ [name]))%Z) ∧
  (is_ok (find_last_sandbox birth mtime f storage) = false ↔ ∀ x, ¬ sandbox_entry f storage x).
Proof.
  intros birth mtime f storage Hwf Hd Hu.
  assert (∀ p, recorded birth mtime p = entry_time birth mtime p) as Hrec by (intros p; unfold recorded, entry_time; by destruct (birth p)).
  assert (∃ entries, readdir f storage = Ok entries) as [entries Er].
  { unfold readdir. destruct Hd as (d & Hn & Hk). rewrite lookup_f_dirpath.
    - cbn [rbind]. rewrite Hn, Hk. eauto.
    - by eapply wf_dirpath.
    - intros n Hn'. rewrite Hn in Hn'. injection Hn' as <-. by rewrite Hk. }
  assert (∀ x, sandbox_entry f storage x ↔
    x ∈ filter (λ x, is_sandbox_dir f (storage ++ [x]) = true) entries) as Hin.
  { intros x. rewrite elem_of_list_filter, is_sandbox_dir_spec.
    assert (x ∈ entries ↔ is_Some (f !! (storage ++ [x]))) as ->; [|tauto].
    apply (readdir_elem f storage); [done| |..|done].
    - by apply dirpath_nolink, is_dir_at_dirpath.
    - destruct Hd as (d & Hn & Hk). intros n Hn'. rewrite Hn in Hn'. injection Hn' as <-. by rewrite Hk. }
  unfold find_last_sandbox. rewrite Er. cbn [rbind].
  set (cands := filter (λ x, is_sandbox_dir f (storage ++ [x]) = true) entries) in *.
  set (l := (λ x, (lossy x, entry_time birth mtime (storage ++ [x]))) <$> cands).
  pose proof (sort_by_sorted newest_first l newest_first_preorder) as Hs.
  pose proof (sort_by_perm newest_first l) as Hp.
  destruct (sort_by newest_first l) as [|[name t] rest] eqn:El.
  - split; [done|]. split; [|done]. intros _ x Hx. apply Hin in Hx.
    apply Permutation_nil in Hp. unfold l in Hp. apply fmap_nil_inv in Hp. rewrite Hp in Hx.
    by apply elem_of_nil in Hx.
  - assert ((name, t) ∈ l) as Hm by (rewrite <-Hp; left).
    unfold l in Hm. apply elem_of_list_fmap in Hm as (y & Ey & Hy). injection Ey as En Et.
    assert (sandbox_entry f storage y) as Hse by (by apply Hin).
    rewrite (lossy_valid y (Hu y Hse)) in En. subst y.
    split; [|split; [done|]; intros H; exfalso; by apply (H name)].
    intros name' E. injection E as <-. split; [done|]. intros x Hx. rewrite (Hrec (storage ++ [x])), (Hrec (storage ++ [name])).
    pose proof Hx as Hx'. apply Hin in Hx.
    assert ((lossy x, entry_time birth mtime (storage ++ [x])) ∈ (name, t) :: rest) as Hxin.
    { rewrite Hp. unfold l. apply elem_of_list_fmap. eauto. }
    apply elem_of_cons in Hxin as [Hxin|Hxin].
    + injection Hxin as _ Hxt. lia.
    + apply StronglySorted_inv in Hs as [_ Hs]. rewrite Forall_forall in Hs. apply Hs in Hxin.
      unfold cmp_le, newest_first in Hxin. simpl in Hxin.
      change (entry_time birth mtime (storage ++ [x]) ≤ t)%Z in Hxin. lia.
Qed.
Print Assumptions C46_last_partial.

Example C46_nonvacuous :
  wf_tree home_fs ∧ is_dir_at home_fs home_storage ∧
  (∀ x, sandbox_entry home_fs home_storage x → utf8_valid x = true) ∧
  find_last_sandbox (λ _, None) (λ _, 7%Z) home_fs home_storage = Ok "a".
Proof.
  split; [by apply wf_treeb_spec; vm_compute|]. split; [by apply dirb_spec; vm_compute|].
  split; [|by vm_compute].
  intros x [[n Hx] _]. apply elem_of_map_to_list in Hx.
  assert (map_to_list home_fs = map_to_list home_fs) as E by done. revert Hx.
  set (l := map_to_list home_fs). vm_compute in l. unfold l. unfold home_storage.
  rewrite !elem_of_cons, elem_of_nil. cbn [app].
  intros Hx. repeat (destruct Hx as [Hx|Hx]; [try (by inversion Hx)|]); try done;
    injection Hx as <- _; by vm_compute.
Qed.

(** Where the file system records no creation times, the sandbox written to last is selected. *)
Definition two_fs : fs :=
  <[home_storage ++ ["b"] := Node KDir 493 1000 1000 1 ∅]>
  (<[home_storage ++ ["b"; "upper"] := Node KDir 493 1000 1000 1 ∅]>
  (<[home_storage ++ ["b"; "work"] := Node KDir 493 1000 1000 1 ∅]>
  (<[home_storage ++ ["b"; "overlay"] := Node KDir 493 1000 1000 1 ∅]> home_fs))).
Theorem C46_refuted : ¬ C46_full.
Proof.
  intros H.
  destruct (H (λ p, if decide (p = home_storage ++ ["b"]) then 2%Z else 1%Z) (λ _, None)
              (λ p, if decide (p = home_storage ++ ["b"]) then 3%Z else 4%Z) two_fs home_storage) as [H1 _].
  - intros p t E. discriminate E.
  - apply wf_treeb_spec. vm_compute. reflexivity.
  - apply dirb_spec. vm_compute. reflexivity.
  - intros x [[n Hx] _].
    assert (forallb (λ kv, match rev kv.1 with c :: _ => utf8_valid c | [] => true end) (map_to_list two_fs) = true) as K by (vm_compute; reflexivity).
    rewrite forallb_forall in K. apply elem_of_map_to_list, elem_of_list_In, K in Hx. cbn [fst] in Hx.
    rewrite rev_app_distr in Hx. exact Hx.
  - destruct (H1 "a") as [_ H2]; [vm_compute; reflexivity|].
    assert (sandbox_entry two_fs home_storage "b") as Hb.
    { apply is_sandbox_dir_spec. split; [|vm_compute; reflexivity]. refine (bool_decide_unpack _ _). vm_compute. exact I. }
    apply H2 in Hb. revert Hb. vm_compute. intros Hb. apply Hb. reflexivity.
Qed.
Print Assumptions C46_refuted.

(** A directory whose name is not UTF-8 is selected under a name that does not exist. *)
Definition odd_name : string := String (ascii_of_N 255) "".
Definition odd_fs : fs :=
  <[home_storage ++ [odd_name] := Node KDir 493 1000 1000 1 ∅]>
  (<[home_storage ++ [odd_name; "upper"] := Node KDir 493 1000 1000 1 ∅]>
  (<[home_storage ++ [odd_name; "work"] := Node KDir 493 1000 1000 1 ∅]>
  (<[home_storage ++ [odd_name; "overlay"] := Node KDir 493 1000 1000 1 ∅]> home_fs))).
Theorem C46_not_utf8 : ¬ (∀ birth mtime f storage name,
  wf_tree f → is_dir_at f storage → find_last_sandbox birth mtime f storage = Ok name →
  sandbox_entry f storage name).
Proof.
  intros H.
  destruct (H (λ p, if decide (p = home_storage ++ [odd_name]) then Some 9%Z else Some 1%Z) (λ _, 7%Z)
              odd_fs home_storage (lossy odd_name)) as [[n Hn] _].
  - by apply wf_treeb_spec; vm_compute.
  - by apply dirb_spec; vm_compute.
  - by vm_compute.
  - by vm_compute in Hn.
Qed.

(** ** C47 *)
Lemma digit_inj (a b : N) : digit a = digit b → (a mod 10 = b mod 10)%N.
Proof.
  unfold digit. intros H. injection H as H.
  pose proof (N.mod_lt a 10 ltac:(done)). pose proof (N.mod_lt b 10 ltac:(done)).
  apply (f_equal N_of_ascii) in H. rewrite !N_ascii_embedding in H by lia. lia.
Qed.
Lemma str_app_inj_len (a b c d : string) : String.length a = String.length c →
  a +:+ b = c +:+ d → a = c ∧ b = d.
Proof.
  revert c. induction a as [|x a IH]; intros [|y c] Hl H; try done.
  injection Hl as Hl. injection H as -> H. destruct (IH c Hl H) as [-> ->]. done.
Qed.
Lemma pad2_inj (a b : N) : (a < 100 → b < 100 → pad2 a = pad2 b → a = b)%N.
Proof.
  intros Ha Hb H. unfold pad2 in H. apply str_app_inj_len in H as [H1 H2]; [|done].
  apply digit_inj in H1, H2.
  rewrite !(N.mod_small (_ / 10)) in H1 by (apply N.div_lt_upper_bound; lia).
  rewrite (N.div_mod a 10), (N.div_mod b 10) by done. lia.
Qed.
Lemma pad3_inj (a b : N) : (a < 1000 → b < 1000 → pad3 a = pad3 b → a = b)%N.
Proof.
  intros Ha Hb H. unfold pad3, pad2 in H.
  apply str_app_inj_len in H as [H1 H2]; [|done]. apply str_app_inj_len in H2 as [H2 H3]; [|done].
  apply digit_inj in H1, H2, H3.
  rewrite !(N.mod_small (_ / 100)) in H1 by (apply N.div_lt_upper_bound; lia).
  assert (a / 100 = a / 10 / 10)%N as E1 by (by rewrite N.div_div).
  assert (b / 100 = b / 10 / 10)%N as E2 by (by rewrite N.div_div).
  rewrite E1, E2 in H1.
  rewrite (N.div_mod a 10), (N.div_mod b 10) by done.
  rewrite (N.div_mod (a / 10) 10), (N.div_mod (b / 10) 10) by done. lia.
Qed.
Lemma pad4_inj (a b : N) : (a < 10000 → b < 10000 → pad4 a = pad4 b → a = b)%N.
Proof.
  intros Ha Hb H. unfold pad4, pad3, pad2 in H.
  apply str_app_inj_len in H as [H0 H1]; [|done].
  apply str_app_inj_len in H1 as [H1 H2]; [|done]. apply str_app_inj_len in H2 as [H2 H3]; [|done].
  apply digit_inj in H0, H1, H2, H3.
  rewrite !(N.mod_small (_ / 1000)) in H0 by (apply N.div_lt_upper_bound; lia).
  assert (∀ c, c / 1000 = c / 10 / 10 / 10)%N as E1 by (intros c; by rewrite !N.div_div).
  assert (∀ c, c / 100 = c / 10 / 10)%N as E2 by (intros c; by rewrite !N.div_div).
  rewrite !E1 in H0. rewrite !E2 in H1.
  rewrite (N.div_mod a 10), (N.div_mod b 10) by done.
  rewrite (N.div_mod (a / 10) 10), (N.div_mod (b / 10) 10) by done.
  rewrite (N.div_mod (a / 10 / 10) 10), (N.div_mod (b / 10 / 10) 10) by done. lia.
Qed.
Definition stamp_ok (t : stamp) : Prop :=
  (t_year t < 10000 ∧ t_month t < 100 ∧ t_day t < 100 ∧ t_hour t < 100 ∧ t_min t < 100 ∧ t_sec t < 100
   ∧ t_ms t < 1000)%N.
Lemma milli_name_inj (t u : stamp) : stamp_ok t → stamp_ok u → milli_name t = milli_name u → t = u.
Proof.
  intros (T1 & T2 & T3 & T4 & T5 & T6 & T7) (U1 & U2 & U3 & U4 & U5 & U6 & U7) H.
  unfold milli_name, second_name in H.
  rewrite <-!str_app_assoc in H.
  apply str_app_eq_l in H.
  apply str_app_inj_len in H as [Y H]; [|done]. apply str_app_eq_l in H.
  apply str_app_inj_len in H as [Mo H]; [|done]. apply str_app_eq_l in H.
  apply str_app_inj_len in H as [D H]; [|done]. apply str_app_eq_l in H.
  apply str_app_inj_len in H as [Ho H]; [|done]. apply str_app_eq_l in H.
  apply str_app_inj_len in H as [Mi H]; [|done]. apply str_app_eq_l in H.
  apply str_app_inj_len in H as [Se H]; [|done]. apply str_app_eq_l in H.
  apply pad4_inj in Y; [|done..]. apply pad2_inj in Mo, D, Ho, Mi, Se; [|done..].
  apply pad3_inj in H; [|done..].
  destruct t, u. simpl in *. congruence.
Qed.

Lemma slash_digit (n : N) : contains "/" (digit n) = false.
Proof.
  unfold digit. pose proof (N.mod_lt n 10 ltac:(done)) as Hm. revert Hm.
  generalize (n mod 10)%N as k. intros k Hk.
  destruct (contains "/" (String (ascii_of_N (48 + k)) "")) eqn:E; [|done].
  apply contains_spec in E as (a & b & E). destruct a as [|x a].
  - injection E as E _. apply (f_equal N_of_ascii) in E. rewrite N_ascii_embedding in E by lia.
    change (N_of_ascii "/") with 47%N in E. lia.
  - injection E as _ E. by destruct a.
Qed.
Lemma slash_milli (t : stamp) : contains "/" (second_name t) = false ∧ contains "/" (milli_name t) = false.
Proof.
  assert (contains "/" (second_name t) = false) as H.
  { unfold second_name, pad4, pad3, pad2. repeat apply slash_app; try apply slash_digit; done. }
  split; [done|]. unfold milli_name, pad3, pad2. repeat apply slash_app; try apply slash_digit; done.
Qed.

(** The generated name is unused when it is chosen, and is an ordinary name. *)
Theorem C47_fresh : ∀ fuel clock disk storage i j name,
  generate_timestamp_name fuel clock disk storage i = Some (j, name) →
  exists_ (disk j) (base_of storage name) = false ∧ comp_ok name.
Proof.
  intros fuel clock disk storage i j name. revert i. induction fuel as [|n IH]; intros i; [done|].
  cbn [generate_timestamp_name]. unfold new_name_round.
  destruct (slash_milli (clock i)) as [S1 S2].
  destruct (exists_ (disk i) (storage ++ [second_name (clock i)])) eqn:E1; cbn [negb].
  - destruct (exists_ (disk i) (storage ++ [milli_name (clock i)])) eqn:E2; cbn [negb].
    + apply IH.
    + intros H. injection H as <- <-. done.
  - intros H. injection H as <- <-. done.
Qed.

(** Termination: if the clock shows no millisecond twice in so many rounds and nobody else changes the
    storage directory, the loop ends after at most one round more than there are entries. *)
Lemma generate_none (n : nat) (clock : nat → stamp) (f : fs) (storage : path) (i : nat) :
  generate_timestamp_name n clock (λ _, f) storage i = None →
  ∀ k, i ≤ k < i + n → exists_ f (storage ++ [milli_name (clock k)]) = true.
Proof.
  revert i. induction n as [|n IH]; intros i H k Hk; [lia|].
  cbn [generate_timestamp_name] in H. unfold new_name_round in H.
  destruct (exists_ f (storage ++ [second_name (clock i)])); cbn [negb] in H; [|done].
  destruct (exists_ f (storage ++ [milli_name (clock i)])) eqn:E2; cbn [negb] in H; [|done].
  destruct (decide (k = i)) as [->|Hne]; [done|]. apply (IH (S i) H). lia.
Qed.
Theorem C47_terminates_partial : ∀ clock f storage entries,
  wf_tree f → is_dir_at f storage →
  readdir f storage = Ok entries →
  (∀ i j, i ≤ length entries → j ≤ length entries → clock i = clock j → i = j) →
  (∀ i, i ≤ length entries → stamp_ok (clock i)) →
  ∃ j name, generate_timestamp_name (S (length entries)) clock (λ _, f) storage 0 = Some (j, name).
Proof.
  intros clock f storage entries Hwf Hd Hr Hinj Hok.
  destruct (generate_timestamp_name (S (length entries)) clock (λ _, f) storage 0) as [[j name]|] eqn:E; [eauto|].
  exfalso. pose proof (generate_none _ _ _ _ _ E) as H.
  set (names := (λ k, milli_name (clock k)) <$> seq 0 (S (length entries))).
  assert (NoDup names) as HN.
  { unfold names. apply NoDup_fmap_2_strong; [|apply NoDup_seq].
    intros a b Ha Hb Hab. apply elem_of_seq in Ha, Hb.
    apply Hinj; [lia|lia|]. apply milli_name_inj; [apply Hok; lia..|done]. }
  assert (names ⊆ entries) as Hsub.
  { intros x Hx. unfold names in Hx. apply elem_of_list_fmap in Hx as (k & -> & Hk).
    apply elem_of_seq in Hk. specialize (H k ltac:(lia)).
    apply (readdir_elem f storage entries); [done| |..|done|].
    - by apply dirpath_nolink, is_dir_at_dirpath.
    - destruct Hd as (d & Hn & Hkd). intros n Hn'. rewrite Hn in Hn'. injection Hn' as <-. by rewrite Hkd.
    - unfold exists_, stat, is_ok in H.
      destruct (f !! (storage ++ [milli_name (clock k)])) as [n|] eqn:En; [done|]. exfalso.
      rewrite lookup_f_dirpath in H.
      + cbn [rbind] in H. by rewrite En in H.
      + apply dirpath_snoc; [done|done|]. by destruct (slash_milli (clock k)).
      + intros n Hn. congruence. }
  pose proof (submseteq_length names entries (NoDup_submseteq names entries HN Hsub)) as Hl.
  unfold names in Hl. rewrite fmap_length, seq_length in Hl. lia.
Qed.
Print Assumptions C47_terminates_partial.

Definition noon (ms : N) : stamp := Stamp 2026 11 18 12 0 0 ms.
Definition busy_fs : fs :=
  <[home_storage ++ [second_name (noon 5)] := Node KDir 493 1000 1000 1 ∅]> home_fs.
Example C47_nonvacuous :
  stamp_ok (noon 5) ∧
  generate_timestamp_name 3 (λ i, noon (N.of_nat i)) (λ _, busy_fs) home_storage 0
    = Some (0, "ephemeral_2026-11-18_12-00-00.000") ∧
  (∀ i j : nat, i ≤ 3 → j ≤ 3 → noon (N.of_nat i) = noon (N.of_nat j) → i = j) ∧
  (∀ i : nat, i ≤ 3 → stamp_ok (noon (N.of_nat i))) ∧
  (∃ l, readdir busy_fs home_storage = Ok l ∧ length l = 3).
Proof.
  split; [repeat split; reflexivity|]. split; [vm_compute; reflexivity|]. split.
  { intros i j _ _ H. injection H as H. lia. }
  split; [|eexists; split; [vm_compute; reflexivity|reflexivity]].
  intros i Hi. repeat split; simpl; lia.
Qed.

(** With a clock that stands still (or is set back again and again) the loop does not end. *)
Definition full_fs : fs :=
  <[home_storage ++ [milli_name (noon 5)] := Node KDir 493 1000 1000 1 ∅]> busy_fs.
Theorem C47_stuck_clock : ∀ fuel i,
  generate_timestamp_name fuel (λ _, noon 5) (λ _, full_fs) home_storage i = None.
Proof.
  assert (new_name_round full_fs home_storage (noon 5) = None) as E by (vm_compute; reflexivity).
  induction fuel as [|n IH]; intros i; [reflexivity|]. cbn [generate_timestamp_name]. rewrite E. apply IH.
Qed.

(** Two runs of --new started in the same second choose the same name: the name is only reserved
    when the sandbox is created later. *)
Theorem C47_two_runs_share : ¬ (∀ clock f storage n1 n2,
  wf_tree f → is_dir_at f storage → clock 0 ≠ clock 1 →
  generate_timestamp_name 1 clock (λ _, f) storage 0 = Some (0, n1) →
  generate_timestamp_name 1 clock (λ _, f) storage 1 = Some (1, n2) → n1 ≠ n2).
Proof.
  intros H. apply (H (λ i, noon (N.of_nat i)) home_fs home_storage
    "ephemeral_2026-11-18_12-00-00" "ephemeral_2026-11-18_12-00-00").
  - apply wf_treeb_spec; vm_compute; reflexivity.
  - apply dirb_spec; vm_compute; reflexivity.
  - discriminate.
  - vm_compute; reflexivity.
  - vm_compute; reflexivity.
  - reflexivity.
Qed.
