(** * Listings and effects with renamed directories (C06, C11, C12, C14, C15, C51, C52, C54) *)
From Verif Require Export Props_RenameView Props_Listing Props_Ignored.

(** The object seen at [m ++ s] in the sandbox is the host object [q], unchanged: nothing is
    staged at [s], and the directory it is seen in is merged with the directory holding [q]. *)
Definition shows (f : fs) (ub m s q : path) : Prop :=
  f !! (upper_dir ub m ++ s) = None ∧ ∃ a x p, s = a ++ [x] ∧ lower_dir f ub m a = Some p ∧ q = p ++ [x].

(** What [shows] means for a sandboxed process. *)
Lemma shows_view (f : fs) (ub m s q : path) (dev : N) : renamed_ok f ub m dev → shows f ub m s q → renamed_view f ub m s = f !! q.
Proof.
  intros Hok (Hn & a & x & p & -> & Hl & ->). rewrite (view_unstaged f ub m dev Hok a x Hn). by rewrite Hl.
Qed.

(** A change called a modification has a host object to compare with. *)
Lemma modify_source (e : env) (f : fs) (ub : path) (inc : bool) (all : list change) : changes e f ub inc = Ok all →
  ∀ c, c ∈ all → c_op c = OSet Modify → is_Some (c_source c).
Proof.
  intros H c Hc Ho. unfold changes in H. destruct (upper_entries e f ub inc) as [es|]; [|done]. cbn [rbind] in H.
  destruct (renamed_paths f es) as [rp|]; [|done]. cbn [rbind] in H.
  destruct (rmap (entry_changes e f rp) es) as [css|] eqn:E; [|done]. cbn [rbind] in H. injection H as <-.
  apply elem_of_list_join in Hc as (cs & Hc & Hcs). apply (rmap_in _ _ _ E) in Hcs as (x & _ & Hx).
  unfold entry_changes in Hx. destruct (from_path f (ue_upper x)) as [[ufd|]|]; [|done|done]. cbn [rbind] in Hx.
  destruct (remove_changes e f rp x) as [rs|] eqn:Er; [|done]. cbn [rbind] in Hx.
  destruct (set_changes f x ufd) as [ss|] eqn:Es; [|done]. cbn [rbind] in Hx. injection Hx as <-.
  apply elem_of_app in Hc as [Hc|Hc].
  - exfalso. unfold remove_changes in Er. destruct (_ || _ || _); [|injection Er as <-; by apply elem_of_nil in Hc].
    destruct (ue_source x) as [sp|]; [|injection Er as <-; by apply elem_of_nil in Hc].
    destruct (decide (sp ∈ rp)); [injection Er as <-; by apply elem_of_nil in Hc|].
    destruct (is_dir f sp).
    + unfold remove_walk in Er. destruct (proj1 (rmap_in _ _ _ Er c) Hc) as (p & _ & Hp).
      destruct (from_path f p) as [[d|]|]; [|done|done]. cbn [rbind] in Hp. injection Hp as <-. done.
    + injection Er as <-. apply elem_of_list_singleton in Hc as ->. done.
  - unfold set_changes in Es. destruct (is_removed f (ue_details x)); [injection Es as <-; by apply elem_of_nil in Hc|].
    destruct (is_renamed f ufd) as [[r|]|]; [| |done]; cbn [rbind] in Es.
    + destruct (ue_source_details x); injection Es as <-; apply elem_of_list_singleton in Hc as ->; done.
    + destruct (_ && _ && _); injection Es as <-; apply elem_of_list_singleton in Hc as ->; [done|].
      cbn [c_op c_source] in *. destruct (ue_source_details x) as [sd|]; [by eexists|done].
Qed.

Section sandbox.
  Context (f : fs) (ub m : path) (dev : N) (Hok : renamed_ok f ub m dev).
  Let Hst : storage_ok f ub [m] := ro_storage _ _ _ _ Hok.
  Let Hwf : wf_tree f := so_wf _ _ _ Hst.
  #[local] Notation U := (upper_dir ub m).
  #[local] Notation src := (kernel_source f ub m).
  #[local] Notation away := (renamed_away f ub m).

  Lemma deleted_not_shown (q s : path) : deleted f ub m q → ¬ shows f ub m s q.
  Proof.
    intros (s0 & n & Hr & Hna & Hu & _) (Hun & a & x & p & -> & Hl & ->).
    destruct (low_src f ub m Hst a p Hl) as [-> _]. apply under_snoc in Hu as [E|Hu].
    - destruct s0 as [|c' s0 _] using rev_ind; [by destruct Hr as [[? _] _]|].
      destruct (replaces_parent f ub m dev Hok s0 c' n Hr) as (Hp1 & Hp2 & _). rewrite Hp2 in E. apply app_inj_tail in E as [E ->].
      rewrite E in Hp1. pose proof (ro_once _ _ _ _ Hok _ _ _ Hp1 Hl) as ->. destruct Hr as [[_ Hn] _]. congruence.
    - by rewrite (not_deleted f ub m dev Hok s0 a n Hr Hna Hl) in Hu.
  Qed.

  (** A destination holds nothing of the host that is not moved away. *)
  Lemma dest_vacant (s : path) (n : node) : renamed_at f ub m s n → ∀ t, is_Some (f !! (m ++ s ++ t)) → ∃ y, away y ∧ under y (m ++ s ++ t) = true.
  Proof.
    remember (length s) as len eqn:El. revert s n El. induction (lt_wf len) as [len _ IH]. intros s n El Hr t [k Hk].
    destruct s as [|c a _] using rev_ind; [by destruct Hr as [[? _] _]|].
    destruct (base_exists f ub m a) as (sb & r & -> & Hb). destruct (proj1 Hb) as [-> |[n' Hn']].
    - pose proof (base_src f ub m Hst [] r Hb) as E. rewrite src_nil in E. cbn [app] in *.
      destruct (ro_free _ _ _ _ Hok r c n Hr) as [H|H]; rewrite E in H.
      + exfalso. destruct (decide (t = [])) as [-> |Ht].
        * rewrite app_nil_r, app_assoc in Hk. congruence.
        * rewrite app_assoc in Hk. destruct (wf_prefix f _ t k Hwf Hk Ht) as (d & Hd & _). rewrite app_assoc in Hd. congruence.
      + exists ((m ++ r) ++ [c]). split; [done|]. rewrite (app_assoc m), (app_assoc m). apply under_app.
    - rewrite <-!app_assoc in *. eapply (IH (length sb)); [|reflexivity|exact Hn'|by eexists].
      rewrite !app_length in El. cbn [length] in El. lia.
  Qed.
End sandbox.

Lemma removal_dest (f : fs) (ub m : path) (l : list (path * node)) (all : list change) : staged_list f ub m l → all_listed f ub m l all →
  ∀ c, c ∈ all → c_op c = ORemove → removed_path c = Some (c_dest c).
Proof.
  intros Hl Hal c Hc Ho. destruct (listed_staged f ub m l all Hl Hal c Hc) as (s & n & Hs & [Hr|[Hr|Hr]]).
  - destruct Hr as (_ & _ & q & k & _ & _ & ->). done.
  - destruct Hr as (_ & k & _ & ->). done.
  - destruct Hr as (_ & _ & ty & ->). done.
Qed.
Lemma removed_op (c : change) (p : path) : removed_path c = Some p → c_op c = ORemove.
Proof. unfold removed_path. by destruct (c_op c). Qed.

Lemma is_remove_op (c : change) : is_remove c = true → c_op c = ORemove.
Proof. unfold is_remove. by destruct (c_op c). Qed.

Definition is_setb (c : change) : bool := match c_op c with OSet _ => true | _ => false end.
Lemma is_setb_spec (c : change) : is_setb c = true ↔ is_set c.
Proof.
  unfold is_setb, is_set. destruct (c_op c); split; intros H; try done; try by destruct H. by eexists.
Qed.

(** *** C12: every listed change is real *)
Theorem C12_renamed_listed_real_partial : ∀ e f ub m dev all, renamed_ok f ub m dev → env_ok e → changes e f ub true = Ok all →
  ∀ c, c ∈ all →
  match c_op c with
  | OSet t =>
      (* seen in the sandbox as staged; called a modification only if the host object it replaces exists *)
      ∃ s n, staged_at f ub m s n ∧ c_dest c = m ++ s ∧ c_staged c = Some (details_of (upper_dir ub m ++ s) n) ∧
        renamed_view f ub m s = Some n ∧ (t = Modify → is_Some (f !! kernel_source f ub m s))
  | ORename =>
      (* a directory seen in the sandbox at the destination, holding what the host directory
         named as source holds *)
      ∃ s n k, staged_at f ub m s n ∧ c_dest c = m ++ s ∧ renamed_view f ub m s = Some n ∧ n_kind n = KDir ∧
        c_source c = Some (details_of (kernel_source f ub m s) k) ∧ f !! kernel_source f ub m s = Some k ∧ n_kind k = KDir ∧
        ∀ x, f !! (upper_dir ub m ++ s ++ [x]) = None → renamed_view f ub m (s ++ [x]) = f !! (kernel_source f ub m s ++ [x])
  | ORemove =>
      (* an existing host object which the sandbox shows nowhere *)
      ∃ k, f !! c_dest c = Some k ∧ c_source c = Some (details_of (c_dest c) k) ∧ ∀ s, ¬ shows f ub m s (c_dest c)
  | OError _ => False
  end.
Proof.
  intros e f ub m dev all Hok He Hall c Hc. pose proof (ro_storage _ _ _ _ Hok) as Hst.
  destruct (all_changes f ub m dev Hok e He) as (l & all' & Hall' & Hl & Hal).
  assert (all' = all) as -> by congruence. clear Hall'.
  destruct (listed_staged f ub m l all Hl Hal c Hc) as (s & n & Hs & [Hr|[Hr|Hr]]).
  - pose proof Hr as (Hrep & Hna & q & k & Hu & Hk & Ec). rewrite Ec. cbn [c_op c_dest c_source].
    exists k. split; [done|]. split; [done|]. intros s'. apply (deleted_not_shown f ub m dev Hok).
    exists s, n. split; [done|]. split; [done|]. split; [done|by eexists].
  - destruct Hr as (Hr & k & Hk & ->). cbn [c_op c_dest c_source]. exists s, n, k.
    pose proof (renamed_low f ub m dev Hok s n Hr) as Hlow.
    destruct (low_src f ub m Hst s _ Hlow) as [_ (k' & Hk' & Hkd)]. assert (k' = k) as -> by congruence.
    split; [done|]. split; [done|]. split.
    { rewrite (view_staged f ub m dev Hok s n Hs), (renamed_not_whiteout f ub m dev Hok s n Hr). done. }
    split; [destruct Hr as [_ [r Er]]; by apply (ef_redirect n (ro_format _ _ _ _ Hok s n Hs) r Er)|].
    split; [done|]. split; [done|]. split; [done|]. intros x Hx.
    rewrite (view_unstaged f ub m dev Hok s x Hx). by rewrite Hlow.
  - destruct Hr as (H1 & H2 & ty & Ec). rewrite Ec. cbn [c_op c_dest c_staged]. exists s, n. split; [done|]. split; [done|]. split; [done|].
    split; [by rewrite (view_staged f ub m dev Hok s n Hs), H2|]. intros ->.
    pose proof (modify_source e f ub true all Hall c Hc) as Hms. rewrite Ec in Hms. cbn [c_op c_source] in Hms.
    destruct (Hms eq_refl) as [d Hd]. unfold source_details in Hd. destruct (exists_ f (kernel_source f ub m s)); [|done].
    destruct (f !! kernel_source f ub m s); [by eexists|done].
Qed.
Print Assumptions C12_renamed_listed_real_partial.

(** *** C11: every difference is listed *)
(** Where the sandbox differs from the host, status lists a change of that path, or a rename of
    a directory above it, from there or to there. *)
Theorem C11_renamed_differences_listed_partial : ∀ e f ub m dev pats, renamed_ok f ub m dev → env_ok e → selects_all e f ub pats →
  ∀ s, s ≠ [] → ¬ same_view (renamed_view f ub m s) (f !! (m ++ s)) →
  ∃ rep l c, status e f ub true pats = Ok rep ∧ sr_changes rep = Some l ∧ c ∈ l ∧
    (c_dest c = m ++ s ∨
     c_op c = ORename ∧ (under (c_dest c) (m ++ s) = true ∨ ∃ d, c_source c = Some d ∧ under (d_path d) (m ++ s) = true)).
Proof.
  intros e f ub m dev pats Hok He Hpats s Hne Hdiff. pose proof (ro_storage _ _ _ _ Hok) as Hst. pose proof (so_wf _ _ _ Hst) as Hwf.
  destruct (all_changes f ub m dev Hok e He) as (l & all & Hall & Hl & Hal).
  assert (∃ c, c ∈ all ∧ shown c ∧ (c_dest c = m ++ s ∨
     c_op c = ORename ∧ (under (c_dest c) (m ++ s) = true ∨ ∃ d, c_source c = Some d ∧ under (d_path d) (m ++ s) = true))) as (c & Hc & Hsh & Hcase).
  2: { destruct (status_lists e f ub pats all Hall Hpats c Hc Hsh) as (rep & l' & H1 & H2 & H3). by exists rep, l', c. }
  assert (∀ s' n', renamed_at f ub m s' n' → ∃ c k, c ∈ all ∧ shown c ∧ c_op c = ORename ∧ c_dest c = m ++ s' ∧ c_source c = Some (details_of (kernel_source f ub m s') k)) as Hren.
  { intros s' n' Hr. destruct (al_rename _ _ _ _ _ Hal s' n') as (c & Hc & _ & k & Hk & ->); [apply Hl; apply Hr|done|].
    eexists _, k. split; [exact Hc|]. done. }
  destruct (base_exists f ub m s) as (sb & r & E & Hb).
  destruct (proj1 Hb) as [-> |[nb Hnb]].
  2: { destruct (Hren sb nb Hnb) as (c & k & Hc & Hsh & Ho & Hd & _). exists c. split; [done|]. split; [done|]. right. split; [done|]. left.
       rewrite Hd, E. rewrite app_assoc. apply under_app. }
  cbn [app] in E. subst r. pose proof (base_src f ub m Hst [] s Hb) as Es. rewrite src_nil in Es. cbn [app] in Es.
  assert (lost f ub m [] (m ++ s) → is_Some (f !! (m ++ s)) → ∃ c, c ∈ all ∧ shown c ∧ (c_dest c = m ++ s ∨
     c_op c = ORename ∧ (under (c_dest c) (m ++ s) = true ∨ ∃ d, c_source c = Some d ∧ under (d_path d) (m ++ s) = true))) as Hlost.
  { intros [H|[H|(y & (s' & n' & Hr & <-) & _ & Hu)]] [k Hk].
    - congruence.
    - apply (removals_deleted f ub m l all Hl Hal) in H. apply elem_of_removals in H as (c & Hc & Hr).
      pose proof (removed_op c _ Hr) as Eo. pose proof (removal_dest f ub m l all Hl Hal c Hc Eo) as Hd. rewrite Hr in Hd. injection Hd as Hd.
      exists c. split; [done|]. split; [by unfold shown; rewrite Eo|by left].
    - destruct (Hren s' n' Hr) as (c & k' & Hc & Hsh & Ho & _ & Hd). exists c. split; [done|]. split; [done|]. right. split; [done|]. right.
      eexists. split; [exact Hd|]. done. }
  destruct (f !! (upper_dir ub m ++ s)) as [n|] eqn:En.
  - assert (staged_at f ub m s n) as Hs by done. rewrite (view_staged f ub m dev Hok s n Hs) in Hdiff.
    destruct (whiteout n) eqn:Ew.
    + destruct (f !! (m ++ s)) as [k|] eqn:Ek; [|by destruct Hdiff]. rewrite <-Es. rewrite <-Es in Hlost. apply Hlost.
      * pose proof (whiteout_lost f ub m dev Hok [] s n Hb Hs Ew) as H. exact H.
      * by eexists.
    + destruct (redirect n) as [rd|] eqn:Er.
      { assert (renamed_at f ub m s n) as Hr by (split; [done|by eexists]).
        destruct (Hren s n Hr) as (c & k & Hc & Hsh & _ & Hd & _). exists c. split; [done|]. split; [done|by left]. }
      destruct (al_install _ _ _ _ _ Hal s n) as (c & Hc & _ & _ & ty & Ec); [by apply Hl|done|done|].
      exists c. split; [done|]. split; [|left; by rewrite Ec].
      unfold shown. rewrite Ec. cbn [c_op c_staged c_source]. destruct ty; [done|]. rewrite Es.
      intros (st & so & [= <-] & Eso & E1 & E2 & E3 & E4). apply Hdiff.
      unfold source_details in Eso. destruct (exists_ f (m ++ s)); [|done].
      destruct (f !! (m ++ s)) as [k|] eqn:Ek; [|done]. injection Eso as <-. simpl in E1, E2, E3, E4.
      pose proof (wf_perm _ Hwf _ _ En) as P1. pose proof (wf_perm _ Hwf _ _ Ek) as P2.
      rewrite d_is_dir_of in E4. apply is_kdir_true in E4.
      destruct (st_mode_inj n k P1 P2 E3) as [T P]. rewrite E4 in T.
      assert (n_kind k = KDir) as Ekd by (by destruct (n_kind k)).
      split; [by rewrite E4|]. split; [done|]. split; [done|]. intros _. done.
  - destruct s as [|x a _] using rev_ind; [done|]. rewrite (view_unstaged f ub m dev Hok a x En) in Hdiff.
    pose proof (base_up f ub m [] a [x] Hb) as Hba. pose proof (base_src f ub m Hst [] a Hba) as Ea. rewrite src_nil in Ea. cbn [app] in Ea.
    destruct (lower_dir f ub m a) as [p|] eqn:Elow.
    + destruct (low_src f ub m Hst a p Elow) as [-> _]. rewrite Ea, <-app_assoc in Hdiff. destruct Hdiff. apply same_view_refl.
    + destruct (f !! (m ++ a ++ [x])) as [k|] eqn:Ek; [|by destruct Hdiff]. apply Hlost; [|by eexists].
      pose proof (hidden_lost f ub m dev Hok [] a Hba Elow [x] ltac:(done)) as H. cbn [app] in H. rewrite Ea, <-app_assoc in H. exact H.
Qed.
Print Assumptions C11_renamed_differences_listed_partial.

(** *** C14: deletions are listed *)
(** When an object was deleted, replaced or emptied in the sandbox, at its own place or below a
    renamed directory, it is listed as removed with everything below it, each path once; unless
    it is the origin of a renamed directory. *)
Theorem C14_renamed_deletions_listed_partial : ∀ e f ub m dev, renamed_ok f ub m dev → env_ok e →
  ∃ all, changes e f ub true = Ok all ∧
  ∀ q, (∃ s n k, staged_at f ub m s n ∧ f !! kernel_source f ub m s = Some k ∧
          (whiteout n = true ∨ opaque n = true ∨ n_kind n ≠ KDir ∧ n_kind k = KDir) ∧
          ¬ renamed_away f ub m (kernel_source f ub m s) ∧ under (kernel_source f ub m s) q = true ∧ is_Some (f !! q)) ↔
       length (filter (λ c, is_remove c = true ∧ c_dest c = q) all) = 1.
Proof.
  intros e f ub m dev Hok He. destruct (all_changes f ub m dev Hok e He) as (l & all & Hall & Hl & Hal).
  exists all. split; [done|]. intros q.
  assert (NoDup (removals all)) as Hnd by apply (al_removals _ _ _ _ _ Hal).
  transitivity (q ∈ removals all).
  - rewrite (removals_deleted f ub m l all Hl Hal). split.
    + intros (s & n & k & Hs & Hk & Hr & Hna & Hu & Hq). exists s, n. split; [|done]. split; [done|]. exists k. split; [done|].
      destruct Hr as [?|[?|[H1 H2]]]; [by left|by right; left|right; right]. split; [|done].
      destruct (is_kdir (n_kind n)) eqn:E; [|done]. by apply is_kdir_true in E.
    + intros (s & n & (Hs & k & Hk & Hr) & Hna & Hu & Hq). exists s, n, k. split; [done|]. split; [done|]. split; [|done].
      destruct Hr as [?|[?|[H1 H2]]]; [by left|by right; left|right; right]. split; [|done]. intros E. by rewrite E in H1.
  - pose proof (removal_dest f ub m l all Hl Hal) as Hrd. clear Hal Hall. revert Hnd Hrd. generalize all as cs. induction cs as [|c cs IH]; intros Hnd Hrd.
    + split; [intros H; by apply elem_of_nil in H|done].
    + unfold removals in *. rewrite filter_cons. cbn [omap list_omap] in *. destruct (removed_path c) as [p|] eqn:E.
      * assert (c_op c = ORemove ∧ c_dest c = p) as [Ho <-].
        { pose proof (removed_op c p E) as Ho. pose proof (Hrd c ltac:(left) Ho). split; [done|congruence]. }
        assert (∀ c', c' ∈ cs → c_op c' = ORemove → removed_path c' = Some (c_dest c')) as Hrd' by (intros c' H'; apply Hrd; by right).
        apply NoDup_cons in Hnd as [Hni Hnd]. assert (is_remove c = true) as Hrm by (unfold is_remove; by rewrite Ho). destruct (decide (is_remove c = true ∧ c_dest c = q)) as [[_ <-]|Hno].
        -- split; [|intros _; left]. intros _. cbn [length]. f_equal.
           destruct (filter (λ c0, is_remove c0 = true ∧ c_dest c0 = c_dest c) cs) as [|c' l'] eqn:Ef; [done|].
           assert (c' ∈ filter (λ c0, is_remove c0 = true ∧ c_dest c0 = c_dest c) cs) as Hin by (rewrite Ef; left).
           apply elem_of_list_filter in Hin as [[Ho' Hd'] Hin]. destruct Hni. apply elem_of_list_omap. exists c'. split; [done|].
           rewrite <-Hd'. apply Hrd'; [done|]. by apply is_remove_op.
        -- rewrite elem_of_cons, <-(IH Hnd Hrd'). split; [intros [-> |H]; [by destruct Hno|done]|by right].
      * destruct (decide (is_remove c = true ∧ c_dest c = q)) as [[Ho _]|Hno].
        -- pose proof (Hrd c ltac:(left) (is_remove_op c Ho)). congruence.
        -- apply IH; [done|]. intros c' H'. apply Hrd. by right.
Qed.
Print Assumptions C14_renamed_deletions_listed_partial.

(** *** C54: diff completes *)
Theorem C54_renamed_diff_completes_partial : ∀ out e f ub m dev pats, renamed_ok f ub m dev → env_ok e →
  (∀ l r, utf8_valid (out l r) = true) →
  (∀ s n q, replaces f ub m s n → ¬ renamed_away f ub m (kernel_source f ub m s) → under (kernel_source f ub m s) q = true → q ≠ kernel_source f ub m s → is_Some (f !! q) → is_file f q = true) →
  is_ok (diff out e f ub true pats) = true.
Proof.
  intros out e f ub m dev pats Hok He Hout Hfiles.
  destruct (all_changes f ub m dev Hok e He) as (l & all & Hall & Hl & Hal). unfold diff. rewrite Hall. cbn [rbind].
  apply diff_all_ok. intros c Hc. apply elem_of_list_filter in Hc as [_ Hc].
  assert (∀ a, is_ok (match a with D_diff l r => if utf8_valid (out l r) then Ok tt
     else Err (EApp "Failed to read line from diff output") | _ => Ok tt end) = true) as Ha.
  { intros [| |l0 r0]; [done|done|]. by rewrite Hout. }
  unfold diff_run.
  destruct (listed_staged f ub m l all Hl Hal c Hc) as (s & n & Hs & [Hr|[Hr|Hr]]).
  - destruct Hr as (Hrep & Hna & q & k & Hu & Hk & ->). unfold diff_one; cbn [c_op c_dest c_staged c_source].
    destruct (decide (q = kernel_source f ub m s)) as [->|Hne].
    + destruct (is_file f (kernel_source f ub m s)); cbn [negb rbind]; [apply (Ha (D_diff _ _))|].
      destruct (d_is_file _); cbn [negb rbind]; [apply (Ha (D_diff _ _))|done].
    + rewrite (Hfiles s n q) by (done || by eexists). cbn [negb rbind]. apply (Ha (D_diff _ _)).
  - destruct Hr as (_ & k & _ & ->). unfold diff_one; cbn [c_op c_dest c_staged c_source rbind]. done.
  - destruct Hr as (_ & _ & ty & ->). unfold diff_one; cbn [c_op c_dest c_staged c_source].
    destruct (is_file f (m ++ s)); cbn [negb rbind]; [apply (Ha (D_diff _ _))|].
    destruct (d_is_file _); cbn [negb rbind]; [apply (Ha (D_diff _ _))|done].
Qed.
Print Assumptions C54_renamed_diff_completes_partial.

(** *** C06, C51, C52: what accepting everything does *)
(** Every accepted entry leaves the storage. *)
Theorem C06_renamed_accepted_leave_partial : ∀ e f ub m dev udev pats, renamed_ok f ub m dev → cwd_ok f ub m (e_cwd e) →
  identifiers_ok (e_uuid e) f → one_device f ub udev → env_ok e → selects_all e f ub pats →
  ∃ all, changes e f ub true = Ok all ∧ is_ok (o_res (accept e ub true pats f)) = true ∧
  ∀ c d, c ∈ all → c_staged c = Some d → is_Some (f !! d_path d) ∧ o_fs (accept e ub true pats f) !! d_path d = None.
Proof.
  intros e f ub m dev udev pats Hok Hcwd Hid Hud He Hpats.
  destruct (all_changes f ub m dev Hok e He) as (l0 & all0 & Hc0 & _ & _).
  destruct (accepted' e f ub m dev udev pats Hok Hcwd Hid Hud He Hpats) as (l & all & Hch & Hl & Hall & H1 & H2 & H3 & H4).
  exists all. split; [done|]. split; [done|]. intros c d Hc Hd.
  assert (∃ s n, staged_at f ub m s n ∧ d = details_of (upper_dir ub m ++ s) n) as (s & n & Hs & ->).
  { destruct (listed_staged f ub m l all Hl Hall c Hc) as (s & n & Hs & Hr). exists s, n. split; [done|].
    destruct Hr as [(_ & _ & q & k & _ & _ & ->)|[(_ & k & _ & ->)|(_ & _ & ty & ->)]]; cbn [c_staged] in Hd; [|congruence|congruence].
    destruct (decide (q = _)); [congruence|done]. }
  cbn [d_path details_of]. split; [eexists; apply Hs|]. apply H4.
  - unfold upper_dir. rewrite <-app_assoc. apply under_app.
  - exists c, (details_of (upper_dir ub m ++ s) n). split; [done|]. split; [done|]. apply under_refl.
Qed.
Print Assumptions C06_renamed_accepted_leave_partial.

(** What was neither deleted, replaced nor moved is still there. *)
Theorem C51_renamed_only_deleted_disappear_partial : ∀ e f ub m dev udev pats, renamed_ok f ub m dev → cwd_ok f ub m (e_cwd e) →
  identifiers_ok (e_uuid e) f → one_device f ub udev → env_ok e → selects_all e f ub pats →
  ∀ p k, under ub p = false → f !! p = Some k →
    (∀ s n, replaces f ub m s n → under (kernel_source f ub m s) p = false) →
    (∀ s n, renamed_at f ub m s n → under (kernel_source f ub m s) p = false) →
    is_Some (o_fs (accept e ub true pats f) !! p) ∧
    ((∀ s n, staged_at f ub m s n → m ++ s ≠ p) → o_fs (accept e ub true pats f) !! p = Some k).
Proof.
  intros e f ub m dev udev pats Hok Hcwd Hid Hud He Hpats p k Hu Hk Hnr Hnm.
  destruct (accepted' e f ub m dev udev pats Hok Hcwd Hid Hud He Hpats) as (l & all & Hch & Hl & Hall & H1 & H2 & H3 & H4).
  assert ((∀ c, c ∈ all → is_set c → c_dest c ≠ p) → o_fs (accept e ub true pats f) !! p = Some k) as Hkept.
  { intros Hno. destruct (H2 p Hu Hno) as [_ Harr]. rewrite Harr.
    - rewrite left_behind_out.
      + rewrite without_out; [done|]. rewrite (removals_deleted f ub m l all Hl Hall). intros (s & n & Hr & _ & Hq & _).
        by rewrite (Hnr s n Hr) in Hq.
      + intros [y d] Hm'. apply (moves_renamed f ub m l all Hl Hall) in Hm' as (s & n & Hr & -> & ->). cbn [fst]. by apply (Hnm s n).
    - intros [y d] Hm'. apply (moves_renamed f ub m l all Hl Hall) in Hm' as (s & n & Hr & -> & ->). cbn [snd].
      destruct (under (m ++ s) p) eqn:E; [|done]. exfalso. apply under_spec in E as [t ->]. rewrite <-app_assoc in Hk.
      destruct (dest_vacant f ub m dev Hok s n Hr t ltac:(by eexists)) as (y & (s' & n' & Hr' & <-) & Hy).
      rewrite <-app_assoc in Hnm. by rewrite (Hnm s' n' Hr') in Hy. }
  split.
  - destruct (decide (Exists (λ c, is_setb c = true ∧ c_dest c = p) all)) as [Hex|Hno].
    + apply Exists_exists in Hex as (c & Hc & Hset & <-). apply is_setb_spec in Hset.
      destruct (sets_installed f ub m l all Hl Hall c Hc Hset) as (s & n & [_ Hs] & _ & _ & _ & Hcs).
      destruct (H3 c _ n Hc Hset Hcs Hs) as (n' & Hn' & _). by eexists.
    + rewrite Hkept; [by eexists|]. intros c Hc Hset E. apply Hno, Exists_exists. apply is_setb_spec in Hset. by exists c.
  - intros Hst. apply Hkept. intros c Hc Hset. destruct (sets_installed f ub m l all Hl Hall c Hc Hset) as (s & n & Hs & _ & _ & -> & _).
    by apply (Hst s n).
Qed.
Print Assumptions C51_renamed_only_deleted_disappear_partial.

(** Ownership and mode are the sandbox's. *)
Theorem C52_renamed_ownership_partial : ∀ e f ub m dev udev pats, renamed_ok f ub m dev → cwd_ok f ub m (e_cwd e) →
  identifiers_ok (e_uuid e) f → one_device f ub udev → env_ok e → selects_all e f ub pats →
  ∀ s n, s ≠ [] → under ub (m ++ s) = false → renamed_view f ub m s = Some n →
  ∃ h, o_fs (accept e ub true pats f) !! (m ++ s) = Some h ∧ n_kind h = n_kind n ∧ n_uid h = n_uid n ∧ n_gid h = n_gid n ∧
    (is_klink (n_kind n) = false → n_perm h = n_perm n).
Proof.
  intros e f ub m dev udev pats Hok Hcwd Hid Hud He Hpats s n Hne Hu Hv.
  destruct (C01_renamed_directories_partial e f ub m dev udev pats Hok Hcwd Hid Hud He Hpats) as (_ & H & _).
  specialize (H s Hne Hu). rewrite Hv in H. destruct (o_fs (accept e ub true pats f) !! (m ++ s)) as [h|]; [|done].
  exists h. split; [done|]. unfold same_view in H. destruct H as (K & U & G & P). repeat split; congruence || (intros; symmetry; auto) || auto.
Qed.
Print Assumptions C52_renamed_ownership_partial.

(** The hypotheses are met by the sandbox of [C01_renamed_nonvacuous]. *)
Example C12_renamed_nonvacuous : ∃ all, changes view_env view_fs demo_ub true = Ok all ∧ length all = 19 ∧
  length (filter (λ c, is_rename c = true) all) = 4 ∧ length (filter (λ c, is_remove c = true) all) = 6.
Proof. eexists. split; [vm_compute; reflexivity|]. split; [vm_compute; reflexivity|]. split; vm_compute; reflexivity. Qed.
(** Below a renamed directory; nothing is staged there. *)
Example C11_renamed_nonvacuous :
  ¬ same_view (renamed_view view_fs demo_ub [] ["new"; "b"; "h"]) (view_fs !! ["new"; "b"; "h"]) ∧
  view_fs !! (upper_dir demo_ub [] ++ ["new"; "b"; "h"]) = None.
Proof. vm_compute. tauto. Qed.
(** [rm /new/b/g] after [mv /a /new/b] deletes the host file /a/g. *)
Example C14_renamed_nonvacuous : ∃ all, changes view_env view_fs demo_ub true = Ok all ∧
  length (filter (λ c, is_remove c = true ∧ c_dest c = ["a"; "g"]) all) = 1.
Proof.
  destruct (C14_renamed_deletions_listed_partial view_env view_fs demo_ub [] 1 view_ok view_env_ok) as (all & Hall & H).
  exists all. split; [exact Hall|]. apply H. exists ["new"; "b"; "g"], wh, (file_ "g").
  split; [split; [discriminate|vm_compute; reflexivity]|]. split; [vm_compute; reflexivity|]. split; [left; reflexivity|].
  split; [|split; [vm_compute; reflexivity|eexists; vm_compute; reflexivity]].
  intros (s & n & [Hs [r Hr]] & E).
  assert (each_staged view_fs demo_ub [] (λ s n, negb (renamedb n && bool_decide (kernel_source view_fs demo_ub [] s = kernel_source view_fs demo_ub [] ["new"; "b"; "g"]))) = true)
    as Hc by (vm_compute; reflexivity).
  pose proof (each_staged_spec _ _ _ _ Hc s n Hs) as H'. cbv beta in H'. apply negb_true_iff, andb_false_iff in H' as [H'|H'].
  - unfold renamedb in H'. rewrite Hr in H'. discriminate.
  - apply bool_decide_eq_false in H'. exact (H' E).
Qed.
Definition diff_fs : fs := delete ["old"; "d"; "z"] (delete ["old"; "d"] view_fs).
Example C54_renamed_nonvacuous : renamed_ok diff_fs demo_ub [] 1 ∧
  (∀ s n q, replaces diff_fs demo_ub [] s n → ¬ renamed_away diff_fs demo_ub [] (kernel_source diff_fs demo_ub [] s) → under (kernel_source diff_fs demo_ub [] s) q = true →
     q ≠ kernel_source diff_fs demo_ub [] s → is_Some (diff_fs !! q) → is_file diff_fs q = true) ∧
  diff (λ _ _, "") view_env diff_fs demo_ub true ["/"] = Ok tt.
Proof.
  split; [apply renamed_okb_spec; vm_compute; reflexivity|]. split; [|vm_compute; reflexivity].
  intros s n q Hr Hna Hu Hne [k Hk].
  assert (each_staged diff_fs demo_ub [] (λ s n, negb (replacesb diff_fs demo_ub [] s n) || bool_decide (s = ["a"]) || bool_decide (s = ["new"; "b"; "in"]) ||
     on_fs diff_fs (λ q _, negb (under (kernel_source diff_fs demo_ub [] s) q) || bool_decide (q = kernel_source diff_fs demo_ub [] s) || is_file diff_fs q)) = true)
    as Hc by (vm_compute; reflexivity).
  pose proof (each_staged_spec _ _ _ _ Hc s n (proj1 Hr)) as H'. cbv beta in H'. rewrite (replacesb_spec diff_fs demo_ub [] s n Hr) in H'. cbn [negb orb] in H'.
  apply orb_true_iff in H' as [H'|H'].
  { apply orb_true_iff in H' as [H'|H']; apply bool_decide_eq_true in H'; subst s; destruct Hna.
    - exists ["new"; "b"], (rdir "/a"). split; [split; [split; [discriminate|vm_compute; reflexivity]|eexists; vm_compute; reflexivity]|vm_compute; reflexivity].
    - exists ["e"], (rdir "/a/in"). split; [split; [split; [discriminate|vm_compute; reflexivity]|eexists; vm_compute; reflexivity]|vm_compute; reflexivity]. }
  pose proof (on_fs_spec _ _ H' q k Hk) as H2. cbv beta in H2. rewrite Hu in H2. cbn [negb orb] in H2. apply orb_true_iff in H2 as [H2|H2]; [|exact H2].
  apply bool_decide_eq_true in H2. destruct (Hne H2).
Qed.
(** /a/sub/r is neither deleted nor staged, but moved; /home is neither. *)
Example C51_renamed_nonvacuous :
  (∀ s n, replaces view_fs demo_ub [] s n → under (kernel_source view_fs demo_ub [] s) ["home"] = false) ∧
  (∀ s n, renamed_at view_fs demo_ub [] s n → under (kernel_source view_fs demo_ub [] s) ["home"] = false) ∧
  o_fs (accept view_env demo_ub true ["/"] view_fs) !! ["home"] = Some dir0 ∧
  o_fs (accept view_env demo_ub true ["/"] view_fs) !! ["new"; "b"; "sub"; "r"] = Some (file_ "r").
Proof.
  assert (each_staged view_fs demo_ub [] (λ s n, negb (under (kernel_source view_fs demo_ub [] s) ["home"])) = true) as Hc by (vm_compute; reflexivity).
  split; [|split; [|split; vm_compute; reflexivity]].
  - intros s n [Hs _]. pose proof (each_staged_spec _ _ _ _ Hc s n Hs) as H. cbv beta in H. apply negb_true_iff in H. exact H.
  - intros s n [Hs _]. pose proof (each_staged_spec _ _ _ _ Hc s n Hs) as H. cbv beta in H. apply negb_true_iff in H. exact H.
Qed.
