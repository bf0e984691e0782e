(** * C31 without restrictions on the sandbox, and what ignoring a renamed directory does (C31, C63) *)
From Verif Require Export Props_Ignore Props_Rename.

(** ** Specification *)
(** The staged path [p] of mount [base] was ignored by this rule evaluation: some earlier visits
    filled the cache, then the verdict was "ignored". *)
Definition ignored_by_rules (e : env) (f : fs) (ub p : path) : Prop :=
  ∃ enc base sub c c', p = ub ++ enc :: sub ∧ decode_base enc = Some base ∧
    is_ignored (e_glob e) f ub enc base sub c = (Ok true, c').

(** The staged directory [p] was renamed from the host path [sp]. *)
Definition renamed_from (f : fs) (ub p sp : path) : Prop :=
  ∃ enc base sub d r, p = ub ++ enc :: sub ∧ decode_base enc = Some base ∧
    from_path f p = Ok (Some d) ∧ is_renamed f d = Ok (Some r) ∧ get_source f (ub ++ [enc]) base sub = Ok (Some sp).

(** [c] is a change of the staged path [p]. *)
Definition change_of (f : fs) (ub p : path) (c : change) : Prop :=
  (∃ d, c_staged c = Some d ∧ d_path d = p) ∨
  (** a part of a host directory that [p] deletes or hides *)
  (c_op c = ORemove ∧ c_staged c = None ∧ ∃ enc base sub sp, p = ub ++ enc :: sub ∧ decode_base enc = Some base ∧
     get_source f (ub ++ [enc]) base sub = Ok (Some sp) ∧ under sp (c_dest c) = true).

(** ** Lemmas *)
Lemma rmap_in {A B : Type} (g : A → res B) (l : list A) (r : list B) : rmap g l = Ok r → ∀ y, y ∈ r ↔ ∃ x, x ∈ l ∧ g x = Ok y.
Proof.
  revert r. induction l as [|x l IH]; intros r H; cbn [rmap] in H.
  - injection H as <-. intros y. split; [intros Hy; by apply elem_of_nil in Hy|]. intros (x & Hx & _). by apply elem_of_nil in Hx.
  - destruct (g x) as [y0|] eqn:E; [|done]. cbn [rbind] in H. destruct (rmap g l) as [ys|] eqn:E2; [|done]. cbn [rbind] in H.
    injection H as <-. intros y. rewrite elem_of_cons, (IH ys eq_refl). split.
    + intros [-> |(x' & Hx & Hg)]; [exists x; split; [left|done]|exists x'; split; [by right|done]].
    + intros (x' & Hx & Hg). apply elem_of_cons in Hx as [-> |Hx]; [left; congruence|right; by exists x'].
Qed.
Lemma rmap_ok {A B : Type} (g : A → res B) (l : list A) (r : list B) : rmap g l = Ok r → ∀ x, x ∈ l → ∃ y, g x = Ok y ∧ y ∈ r.
Proof.
  intros H x Hx. assert (∃ y, g x = Ok y) as [y Hy]; [|exists y; split; [done|]; apply (rmap_in g l r H); by exists x].
  revert r H. induction l as [|x0 l IH]; intros r H; [by apply elem_of_nil in Hx|]. cbn [rmap] in H.
  destruct (g x0) as [y0|] eqn:E; [|done]. cbn [rbind] in H. destruct (rmap g l) as [ys|] eqn:E2; [|done].
  apply elem_of_cons in Hx as [-> |Hx]; [by exists y0|]. by apply (IH Hx ys).
Qed.

(** What an upper entry of either listing is. *)
Definition entry_at (f : fs) (ub p : path) (x : upper_entry) : Prop :=
  ∃ enc base sub sd, p = ub ++ enc :: sub ∧ sub ≠ [] ∧ decode_base enc = Some base ∧
    get_source f (ub ++ [enc]) base sub = Ok (ue_source x) ∧
    (match ue_source x with Some sp => from_path f sp | None => Ok None end) = Ok sd ∧ ue_source_details x = sd ∧
    from_path f p = Ok (Some (ue_details x)) ∧ ue_upper x = p ∧ ue_lower x = base ++ sub.

Lemma entry_at_fun (f : fs) (ub p : path) (x y : upper_entry) : entry_at f ub p x → entry_at f ub p y → x = y.
Proof.
  intros (enc & base & sub & sd & E & _ & Hb & Hs & Hsd & Ex & Hf & Hu & Hl) (enc' & base' & sub' & sd' & E' & _ & Hb' & Hs' & Hsd' & Ex' & Hf' & Hu' & Hl').
  rewrite E in E'. apply app_inv_head in E'. injection E' as <- <-. assert (base' = base) as -> by congruence.
  destruct x as [xl xu xd xs xsd], y as [yl yu yd ys ysd]. cbn in *.
  assert (xs = ys) as -> by congruence. assert (xd = yd) as -> by congruence. congruence.
Qed.

Lemma path_strip_inv (a p r : path) : path_strip a p = Some r → p = a ++ r.
Proof. apply path_strip_spec. Qed.
Lemma elem_of_ord (e : env) : env_ok e → ∀ (l : list path) (q : path), q ∈ e_ord e l → q ∈ l.
Proof. intros He l q. by rewrite (He l). Qed.

Lemma entry_true (e : env) (f : fs) (ub p : path) (c c' : cache) (o : option upper_entry) :
  upper_entry_of e f ub true p c = (Ok o, c') → match o with Some x => entry_at f ub p x | None => True end.
Proof.
  unfold upper_entry_of. destruct (path_strip ub p) as [[|enc sub]|] eqn:Ep; [intros [= <- _]; done| |done].
  apply path_strip_inv in Ep. destruct (decode_base enc) as [base|] eqn:Eb; [|intros [= <- _]; done].
  destruct sub as [|s0 sub]; [intros [= <- _]; done|]. cbv beta iota zeta.
  set (sub' := s0 :: sub) in *. intros H. injection H as H _.
  destruct (get_source f (ub ++ [enc]) base sub') as [src|] eqn:Es; [|done]. cbn [rbind] in H.
  destruct (match src with Some sp => from_path f sp | None => Ok None end) as [sd|] eqn:Esd; [|done]. cbn [rbind] in H.
  destruct (from_path f ((ub ++ [enc]) ++ sub')) as [[ud|]|] eqn:Eu; [|done|done]. cbn [rbind] in H. injection H as <-.
  rewrite <-app_assoc in Eu. exists enc, base, sub', sd. cbn. rewrite <-app_assoc.
  rewrite Ep. split; [done|]. split; [done|]. split; [done|]. split; [done|]. split; [done|]. split; [done|]. split; [exact Eu|]. done.
Qed.
(** Without --ignored the same entry, or nothing because a rule says so. *)
Lemma entry_false (e : env) (f : fs) (ub p : path) (c c' c1 c1' : cache) (o o1 : option upper_entry) :
  upper_entry_of e f ub true p c1 = (Ok o1, c1') → upper_entry_of e f ub false p c = (Ok o, c') →
  o = o1 ∨ (o = None ∧ ignored_by_rules e f ub p).
Proof.
  unfold upper_entry_of. destruct (path_strip ub p) as [[|enc sub]|] eqn:Ep; [intros [= <- _] [= <- _]; by left| |done].
  apply path_strip_inv in Ep. destruct (decode_base enc) as [base|] eqn:Eb; [|intros [= <- _] [= <- _]; by left].
  destruct sub as [|s0 sub]; [intros [= <- _] [= <- _]; by left|]. cbv beta iota zeta.
  set (sub' := s0 :: sub) in *. intros H1.
  destruct (is_ignored (e_glob e) f ub enc base sub' c) as [[[]|] c2] eqn:Ei; [| |done].
  - intros [= <- _]. right. split; [done|]. by exists enc, base, sub', c, c2.
  - intros H2. left. injection H1 as H1 _. injection H2 as H2 _. congruence.
Qed.

Lemma entries_both (e : env) (f : fs) (ub : path) (ps : list path) (c c1 : cache) (es es1 : list upper_entry) :
  upper_entries_loop e f ub true ps c1 = Ok es1 → upper_entries_loop e f ub false ps c = Ok es →
  (∀ x, x ∈ es → x ∈ es1) ∧
  (∀ x, x ∈ es1 → x ∈ es ∨ ignored_by_rules e f ub (ue_upper x)) ∧
  (∀ x, x ∈ es1 → entry_at f ub (ue_upper x) x).
Proof.
  revert c c1 es es1. induction ps as [|p ps IH]; intros c c1 es es1 H1 H; cbn [upper_entries_loop] in *.
  - injection H1 as <-. injection H as <-. split; [|split]; intros x Hx; by apply elem_of_nil in Hx.
  - destruct (upper_entry_of e f ub true p c1) as [[o1|] c1'] eqn:E1; [|done].
    destruct (upper_entry_of e f ub false p c) as [[o|] c'] eqn:E; [|done]. cbn [rbind] in *.
    destruct (upper_entries_loop e f ub true ps c1') as [t1|] eqn:Et1; [|done].
    destruct (upper_entries_loop e f ub false ps c') as [t|] eqn:Et; [|done]. cbn [rbind] in *.
    injection H1 as <-. injection H as <-.
    destruct (IH _ _ _ _ Et1 Et) as (Ha & Hb & Hc).
    pose proof (entry_true _ _ _ _ _ _ _ E1) as Hat.
    destruct (entry_false _ _ _ _ _ _ _ _ _ _ E1 E) as [-> |[-> Hig]].
    + destruct o1 as [x1|]; [|done]. assert (ue_upper x1 = p) as Eup by (by destruct Hat as (?&?&?&?&?&?&?&?&?&?&?&?&?)).
      split; [|split].
      * intros x Hx. apply elem_of_cons in Hx as [-> |Hx]; [left|right; by apply Ha].
      * intros x Hx. apply elem_of_cons in Hx as [-> |Hx]; [left; left|]. destruct (Hb x Hx); [left; by right|by right].
      * intros x Hx. apply elem_of_cons in Hx as [-> |Hx]; [by rewrite Eup|by apply Hc].
    + destruct o1 as [x1|]; [|done]. assert (ue_upper x1 = p) as Eup by (by destruct Hat as (?&?&?&?&?&?&?&?&?&?&?&?&?)).
      split; [|split].
      * intros x Hx. right. by apply Ha.
      * intros x Hx. apply elem_of_cons in Hx as [-> |Hx]; [right; by rewrite Eup|by apply Hb].
      * intros x Hx. apply elem_of_cons in Hx as [-> |Hx]; [by rewrite Eup|by apply Hc].
Qed.

Lemma renamed_paths_in (f : fs) (es : list upper_entry) (ps : list path) : renamed_paths f es = Ok ps →
  ∀ sp, sp ∈ ps ↔ ∃ x r, x ∈ es ∧ is_renamed f (ue_details x) = Ok (Some r) ∧ ue_source x = Some sp.
Proof.
  revert ps. induction es as [|x es IH]; intros ps H sp; cbn [renamed_paths] in H.
  - injection H as <-. split; [intros Hs; by apply elem_of_nil in Hs|]. intros (x & r & Hx & _). by apply elem_of_nil in Hx.
  - destruct (is_renamed f (ue_details x)) as [r|] eqn:E; [|done]. cbn [rbind] in H.
    destruct (renamed_paths f es) as [qs|] eqn:E2; [|done]. cbn [rbind] in H. injection H as <-.
    specialize (IH qs eq_refl sp). split.
    + intros Hs. assert ((∃ r0, r = Some r0 ∧ ue_source x = Some sp) ∨ sp ∈ qs) as [(r0 & -> & Hsp)|Hq].
      { destruct r as [r0|], (ue_source x) as [sp0|]; auto. apply elem_of_cons in Hs as [-> |Hs]; [left; by exists r0|by right]. }
      * exists x, r0. split; [left|done].
      * apply IH in Hq as (y & r0 & Hy & H). exists y, r0. split; [by right|done].
    + intros (y & r0 & Hy & Hr & Hsp). apply elem_of_cons in Hy as [-> |Hy].
      * rewrite E in Hr. injection Hr as ->. rewrite Hsp. left.
      * assert (sp ∈ qs) as Hq by (apply IH; by exists y, r0). destruct r as [r1|], (ue_source x) as [sp0|]; auto. by right.
Qed.

Lemma walkdir_under (f : fs) (p q : path) : q ∈ walkdir f p → under p q = true.
Proof.
  unfold walkdir. destruct (lookup_f f p) as [c|]; [|intros H; by apply elem_of_nil in H].
  destruct (f !! c) as [n|]; [|intros H; by apply elem_of_nil in H].
  destruct (is_kdir (n_kind n)).
  - intros H. apply elem_of_list_omap in H as (k & _ & Hk). destruct (path_strip c k); [|done]. injection Hk as <-. apply under_app.
  - intros H. apply elem_of_list_singleton in H as ->. apply under_refl.
Qed.

(** What one entry lists. *)
Lemma entry_changes_of (e : env) (f : fs) (ub p : path) (rp : list path) (x : upper_entry) (cs : list change) (c : change) :
  env_ok e → entry_at f ub p x → entry_changes e f rp x = Ok cs → c ∈ cs → change_of f ub p c.
Proof.
  intros He (enc & base & sub & sd & Ep & _ & Hb & Hs & Hsd & Ex & Hf & Hu & Hl) H Hc.
  assert (d_path (ue_details x) = p) as Hdp.
  { unfold from_path in Hf. destruct (lstat f p) as [n|er]; [|by destruct er]. injection Hf as <-. done. }
  unfold entry_changes in H. rewrite Hu, Hf in H. cbn [rbind] in H.
  destruct (remove_changes e f rp x) as [rs|] eqn:Er; [|done]. cbn [rbind] in H.
  destruct (set_changes f x (ue_details x)) as [ss|] eqn:Es; [|done]. cbn [rbind] in H. injection H as <-.
  apply elem_of_app in Hc as [Hc|Hc].
  - unfold remove_changes in Er. destruct (_ || _ || _); [|injection Er as <-; by apply elem_of_nil in Hc].
    destruct (ue_source x) as [sp|] eqn:Esp; [|injection Er as <-; by apply elem_of_nil in Hc].
    destruct (decide (sp ∈ rp)); [injection Er as <-; by apply elem_of_nil in Hc|].
    destruct (is_dir f sp).
    + unfold remove_walk in Er. pose proof (rmap_in _ _ _ Er c) as Hin. apply Hin in Hc as (q & Hq & Hg).
      apply (elem_of_ord e He) in Hq. destruct (from_path f q) as [[d|]|]; [|done|done]. cbn [rbind] in Hg. injection Hg as <-.
      destruct (decide (q = sp)) as [-> |Hne]; [left; by eexists|right]. split; [done|]. split; [done|].
      exists enc, base, sub, sp. split; [done|]. split; [done|]. split; [done|]. cbn. by apply walkdir_under in Hq.
    + injection Er as <-. apply elem_of_list_singleton in Hc as ->. left. by eexists.
  - left. unfold set_changes in Es. destruct (is_removed f (ue_details x)); [injection Es as <-; by apply elem_of_nil in Hc|].
    destruct (is_renamed f (ue_details x)) as [[r|]|]; [| |done]; cbn [rbind] in Es.
    + destruct (ue_source_details x); injection Es as <-; apply elem_of_list_singleton in Hc as ->; by eexists.
    + destruct (_ && _); injection Es as <-; apply elem_of_list_singleton in Hc as ->; by eexists.
Qed.
(** The list of renamed sources only suppresses removals. *)
Lemma entry_changes_renamed (e : env) (f : fs) (rp rp1 : list path) (x : upper_entry) (cs cs1 : list change) (c : change) :
  env_ok e → entry_changes e f rp x = Ok cs → entry_changes e f rp1 x = Ok cs1 → c ∈ cs →
  c ∈ cs1 ∨ (c_op c = ORemove ∧ ∃ sp, ue_source x = Some sp ∧ sp ∈ rp1 ∧ sp ∉ rp ∧ under sp (c_dest c) = true).
Proof.
  intros He H H1 Hc. unfold entry_changes in *. destruct (from_path f (ue_upper x)) as [[ufd|]|]; [|done|done]. cbn [rbind] in *.
  destruct (remove_changes e f rp x) as [rs|] eqn:Er; [|done]. destruct (remove_changes e f rp1 x) as [rs1|] eqn:Er1; [|done]. cbn [rbind] in *.
  destruct (set_changes f x ufd) as [ss|]; [|done]. cbn [rbind] in *. injection H as <-. injection H1 as <-.
  apply elem_of_app in Hc as [Hc|Hc]; [|left; apply elem_of_app; by right].
  unfold remove_changes in Er, Er1. destruct (_ || _ || _); [|injection Er as <-; by apply elem_of_nil in Hc].
  destruct (ue_source x) as [sp|] eqn:Esp; [|injection Er as <-; by apply elem_of_nil in Hc].
  destruct (decide (sp ∈ rp)); [injection Er as <-; by apply elem_of_nil in Hc|].
  destruct (decide (sp ∈ rp1)); [right|left; apply elem_of_app; left; congruence].
  destruct (is_dir f sp).
  - unfold remove_walk in Er. pose proof (rmap_in _ _ _ Er c) as Hin. apply Hin in Hc as (q & Hq & Hg).
    apply (elem_of_ord e He) in Hq. destruct (from_path f q) as [[d|]|]; [|done|done]. cbn [rbind] in Hg. injection Hg as <-.
    split; [done|]. exists sp. split; [done|]. split; [done|]. split; [done|]. by apply walkdir_under in Hq.
  - injection Er as <-. apply elem_of_list_singleton in Hc as ->. split; [done|]. exists sp. cbn. by rewrite under_refl.
Qed.

(** ** C31 for every sandbox *)
Theorem C31_ignored_only_adds : ∀ e f ub l all, env_ok e →
  changes e f ub false = Ok l → changes e f ub true = Ok all →
  (** what is listed without --ignored is listed with it, in the same way; except that a host
      directory whose new name is ignored looks deleted *)
  (∀ c, c ∈ l → c ∈ all ∨
     (c_op c = ORemove ∧ ∃ p sp, ignored_by_rules e f ub p ∧ renamed_from f ub p sp ∧ under sp (c_dest c) = true)) ∧
  (** and what is only listed with it belongs to an ignored path *)
  (∀ c, c ∈ all → c ∈ l ∨ ∃ p, ignored_by_rules e f ub p ∧ change_of f ub p c).
Proof.
  intros e f ub l all He Hl Hall. unfold changes, upper_entries in *.
  destruct (upper_entries_loop e f ub false _ ∅) as [es|] eqn:Ees; [|done]. cbn [rbind] in Hl.
  destruct (upper_entries_loop e f ub true _ ∅) as [es1|] eqn:Ees1; [|done]. cbn [rbind] in Hall.
  destruct (renamed_paths f es) as [rp|] eqn:Erp; [|done]. cbn [rbind] in Hl.
  destruct (renamed_paths f es1) as [rp1|] eqn:Erp1; [|done]. cbn [rbind] in Hall.
  destruct (rmap (entry_changes e f rp) es) as [css|] eqn:Ec; [|done]. cbn [rbind] in Hl. injection Hl as <-.
  destruct (rmap (entry_changes e f rp1) es1) as [css1|] eqn:Ec1; [|done]. cbn [rbind] in Hall. injection Hall as <-.
  destruct (entries_both _ _ _ _ _ _ _ _ Ees1 Ees) as (Ha & Hb & Hat).
  assert (∀ sp, sp ∈ rp → sp ∈ rp1) as Hrp.
  { intros sp Hs. apply (renamed_paths_in _ _ _ Erp) in Hs as (x & r & Hx & H). apply (renamed_paths_in _ _ _ Erp1). exists x, r. split; [by apply Ha|done]. }
  split.
  - intros c Hc. apply elem_of_list_join in Hc as (cs & Hc & Hcs). apply (rmap_in _ _ _ Ec) in Hcs as (x & Hx & Hg).
    destruct (rmap_ok _ _ _ Ec1 x (Ha x Hx)) as (cs1 & Hg1 & Hcs1).
    destruct (entry_changes_renamed _ _ _ _ _ _ _ c He Hg Hg1 Hc) as [Hin|(Ho & sp & Hsp & Hin1 & Hnin & Hu)].
    + left. apply elem_of_list_join. by exists cs1.
    + right. split; [done|].
      apply (renamed_paths_in _ _ _ Erp1) in Hin1 as (y & r & Hy & Hr & Hys).
      exists (ue_upper y), sp. split; [|split; [|done]].
      * destruct (Hb y Hy) as [Hy'|]; [|done]. exfalso. apply Hnin. apply (renamed_paths_in _ _ _ Erp). by exists y, r.
      * destruct (Hat y Hy) as (enc & base & sub & sd & Ep & _ & Hbs & Hs & _ & _ & Hf & _ & _).
        exists enc, base, sub, (ue_details y), r. split; [done|]. split; [done|]. split; [done|]. split; [done|]. congruence.
  - intros c Hc. apply elem_of_list_join in Hc as (cs1 & Hc & Hcs). apply (rmap_in _ _ _ Ec1) in Hcs as (x & Hx & Hg1).
    destruct (Hb x Hx) as [Hx'|Hig].
    + destruct (rmap_ok _ _ _ Ec x Hx') as (cs & Hg & Hcs).
      destruct (entry_changes_renamed _ _ _ _ _ _ _ c He Hg1 Hg Hc) as [Hin|(_ & sp & _ & Hin1 & Hnin & _)].
      * left. apply elem_of_list_join. by exists cs.
      * exfalso. by apply Hnin, Hrp.
    + right. exists (ue_upper x). split; [done|]. by eapply entry_changes_of; [done|apply Hat| |].
Qed.
Print Assumptions C31_ignored_only_adds.

(** The staged names a rule of the concrete run ignores, and some changes of each kind. *)
Definition glob_build : string → string → bool := λ p s, String.eqb p s || String.eqb p "**/build" && String.eqb s "build".
Definition build_env : env := Env glob_build (λ l, l) (λ _ _, "uuid") ["home"] 18.
(** The project directory [/w] has a [.gitignore] with the line "build"; in the sandbox:
    [mv /w/out /w/build], with the old name deleted. *)
Definition build_fs : fs := list_to_map
  [ ([], dir0); (["home"], dir0); (["w"], dir0); (["w"; ".gitignore"], file_ "build"); (["w"; "out"], dir0); (["w"; "out"; "data"], file_ "precious");
    (["sbx"], dir0); (["sbx"; "up"], dir0); (["sbx"; "up"; "F4"], dir0); (["sbx"; "up"; "F4"; "w"], dir0);
    (["sbx"; "up"; "F4"; "w"; "build"], rdir "out"); (["sbx"; "up"; "F4"; "w"; "out"], wh); (["sbx"; "up"; "F4"; "w"; "new"], file_ "n") ].
Definition glob_build' : string → string → bool := λ p s, String.eqb p "/**" || glob_build p s.
Definition build_env' : env := Env glob_build' (λ l, l) (λ _ _, "uuid") ["home"] 18.

(** Without the exception the statement is false. *)
Definition C31_full : Prop := ∀ e f ub l all, env_ok e → storage_ok f ub [[]] →
  changes e f ub false = Ok l → changes e f ub true = Ok all → ∀ c, c ∈ l → c ∈ all.
Definition build_listing (inc : bool) : list change := match changes build_env' build_fs demo_ub inc with Ok l => l | Err _ => [] end.
Lemma build_storage : storage_ok build_fs demo_ub [[]].
Proof. apply storage_okb_spec. vm_compute. reflexivity. Qed.
Theorem C31_rename_refuted : ¬ C31_full.
Proof.
  intros H.
  pose proof (H build_env' build_fs demo_ub (build_listing false) (build_listing true) ltac:(intros l; reflexivity) build_storage
    ltac:(vm_compute; reflexivity) ltac:(vm_compute; reflexivity)) as H1. clear H.
  assert (existsb (λ c, match c_op c with ORemove => true | _ => false end) (build_listing false) = true) as Ha by (vm_compute; reflexivity).
  assert (forallb (λ c, match c_op c with ORemove => false | _ => true end) (build_listing true) = true) as Hb by (vm_compute; reflexivity).
  apply existsb_exists in Ha as (c & Hc & Ho). apply elem_of_list_In, H1, elem_of_list_In in Hc.
  rewrite forallb_forall in Hb. specialize (Hb c Hc). clear Hc H1. destruct (c_op c); discriminate.
Qed.
Print Assumptions C31_rename_refuted.
Example C31_general_nonvacuous : changes build_env' build_fs demo_ub false = Ok (build_listing false) ∧
  changes build_env' build_fs demo_ub true = Ok (build_listing true) ∧ length (build_listing false) = 4 ∧ length (build_listing true) = 3.
Proof. repeat split; vm_compute; reflexivity. Qed.
(** What it means for the user: the sandbox shows the directory under its new name; [sandbox
    accept] without --ignored reports success, deletes it from the host, and drops the sandbox's
    record of it too: no copy of the file is left anywhere. *)
Example C31_data_lost : let o := accept build_env' demo_ub false ["/"] build_fs in
  kernel_source build_fs demo_ub [] ["w"; "build"; "data"] = ["w"; "out"; "data"] ∧
  is_ok (o_res o) = true ∧ ∀ q k, o_fs o !! q = Some k → n_kind k ≠ KFile "precious".
Proof.
  cbv zeta. split; [vm_compute; reflexivity|]. split; [vm_compute; reflexivity|].
  intros q k Hk.
  assert (on_fs (o_fs (accept build_env' demo_ub false ["/"] build_fs)) (λ _ n, match n_kind n with KFile c => negb (String.eqb c "precious") | _ => true end) = true) as Hb
    by (vm_compute; reflexivity).
  apply (on_fs_spec _ _ Hb) in Hk. clear Hb. intros E. rewrite E in Hk. vm_compute in Hk. discriminate Hk.
Qed.
