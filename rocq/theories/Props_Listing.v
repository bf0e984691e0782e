(** * Properties of [sandbox status], [sandbox diff] and of the change list
    (C11, C12, C15, C16, C18-C21, C54, C55). *)
From Verif Require Export Props_Accept Status PathFacts.

(** ** C16: status prints each matching change exactly once *)

(** The changes a user must see: errors, removals, renames, creations, and modifications of
    anything but a directory whose owner, group and mode are the host's. *)
Definition shown (c : change) : Prop :=
  match c_op c with
  | OSet Modify =>
      ¬ ∃ st so, c_staged c = Some st ∧ c_source c = Some so ∧ d_uid st = d_uid so ∧
        d_gid st = d_gid so ∧ d_mode st = d_mode so ∧ d_is_dir st = true
  | _ => True
  end.

Lemma modified_spec c t : c_op c = OSet t → is_actually_modified c = true ↔ shown c.
Proof.
  intros Ho. unfold is_actually_modified, shown. rewrite Ho. destruct t; [done|].
  destruct (c_staged c) as [st|].
  2: { split; [|done]. intros _ (st & so & ? & _). done. }
  destruct (c_source c) as [so|].
  2: { split; [|done]. intros _ (st' & so & _ & ? & _). done. }
  destruct (N.eqb_spec (d_gid st) (d_gid so)) as [E1|N1]; simpl.
  2: { split; [|done]. intros _ (x & y & [= <-] & [= <-] & _ & ? & _). done. }
  destruct (N.eqb_spec (d_uid st) (d_uid so)) as [E2|N2]; simpl.
  2: { split; [|done]. intros _ (x & y & [= <-] & [= <-] & ? & _). done. }
  destruct (N.eqb_spec (d_mode st) (d_mode so)) as [E3|N3]; simpl.
  2: { split; [|done]. intros _ (x & y & [= <-] & [= <-] & _ & _ & ? & _). done. }
  destruct (d_is_dir st) eqn:Ed; simpl.
  - split; [done|]. intros H. destruct H. by exists st, so.
  - split; [|done]. intros _ (x & y & [= <-] & [= <-] & _ & _ & _ & ?). congruence.
Qed.

Lemma not_placeholder_spec c : not_placeholder c = true ↔ shown c.
Proof.
  unfold not_placeholder. destruct (c_op c) eqn:Eo; [by eapply modified_spec| | |];
    unfold shown; by rewrite Eo.
Qed.
#[global] Instance shown_dec c : Decision (shown c).
Proof. destruct (not_placeholder c) eqn:E; [left|right]; rewrite <-not_placeholder_spec; congruence. Defined.

Lemma filter_perm {A : Type} (P : A → Prop) `{∀ x, Decision (P x)} (l k : list A) :
  l ≡ₚ k → filter P l ≡ₚ filter P k.
Proof. intros E. by rewrite E. Qed.

Lemma printed_perm l : printed l ≡ₚ filter shown l.
Proof.
  unfold printed.
  set (l1 := sort_by by_destination l). set (l2 := sort_by by_reverse_source l1).
  set (l3 := sort_by by_reverse_source l2). set (l4 := sort_by by_destination l3).
  assert (l1 ≡ₚ l) as E1 by apply sort_by_perm.
  assert (l2 ≡ₚ l) as E2 by (unfold l2; by rewrite sort_by_perm).
  assert (l3 ≡ₚ l) as E3 by (unfold l3; by rewrite sort_by_perm).
  assert (l4 ≡ₚ l) as E4 by (unfold l4; by rewrite sort_by_perm).
  rewrite (filter_perm _ l1 l E1), (filter_perm _ l2 l E2), (filter_perm _ l3 l E3), (filter_perm _ l4 l E4).
  clearbody l1 l2 l3 l4. clear.
  induction l as [|c l IH]; [done|]. rewrite !filter_cons.
  destruct (decide (shown c)) as [Hs|Hs]; rewrite <-IH.
  - unfold is_error, is_remove, is_rename, is_modified_set. destruct (c_op c) as [t| | |er] eqn:Eo; simpl.
    + rewrite (decide_True _ _ (proj2 (modified_spec c t Eo) Hs)).
      rewrite !app_assoc. rewrite <-Permutation_middle. by rewrite <-!app_assoc.
    + by rewrite <-Permutation_middle.
    + rewrite !app_assoc. rewrite <-!app_assoc. rewrite <-!Permutation_middle. done.
    + done.
  - unfold is_error, is_remove, is_rename, is_modified_set.
    destruct (c_op c) as [t| | |er] eqn:Eo; simpl;
      [|by destruct Hs; unfold shown; rewrite Eo..].
    rewrite decide_False; [done|]. by rewrite (modified_spec c t Eo).
Qed.

Theorem C16_status_prints_each_once : ∀ e f ub inc pats all rep,
  changes e f ub inc = Ok all → status e f ub inc pats = Ok rep →
  let sel := matching (e_glob e) (e_cwd e) pats all in
  match sr_changes rep with
  | Some l => l ≡ₚ filter shown sel ∧ ∃ c, c ∈ l
  | None => ∀ c, c ∈ sel → ¬ shown c
  end.
Proof.
  intros e f ub inc pats all rep Hall Hst sel. unfold status in Hst. rewrite Hall in Hst. simpl in Hst.
  injection Hst as <-. cbn [sr_changes]. fold sel.
  destruct (existsb not_placeholder sel) eqn:Ex.
  - split; [apply printed_perm|]. apply existsb_exists in Ex as (c & Hc & Hn). exists c.
    rewrite printed_perm, elem_of_list_filter. split; [by apply not_placeholder_spec|by apply elem_of_list_In].
  - intros c Hc Hs. rewrite <-Bool.not_true_iff_false in Ex. apply Ex. apply existsb_exists.
    exists c. split; [by apply elem_of_list_In|by apply not_placeholder_spec].
Qed.
Print Assumptions C16_status_prints_each_once.

(** Status fails exactly when listing fails, and reports as "not matching" the actionable changes it did not select (C17). *)
Theorem C16_status_total : ∀ e f ub inc pats,
  (∀ all, changes e f ub inc = Ok all → ∃ rep, status e f ub inc pats = Ok rep ∧
     sr_other rep = length (filter (λ c, actionable c = true) all)
                  - length (filter (λ c, actionable c = true) (matching (e_glob e) (e_cwd e) pats all))) ∧
  (∀ er, changes e f ub inc = Err er → status e f ub inc pats = Err er).
Proof.
  intros e f ub inc pats. split.
  - intros all H. unfold status. rewrite H. simpl. eexists. split; done.
  - intros er H. unfold status. by rewrite H.
Qed.
Print Assumptions C16_status_total.

Example C16_nonvacuous : ∃ all rep l, changes demo_env demo_fs demo_ub true = Ok all ∧
  status demo_env demo_fs demo_ub true ["/"] = Ok rep ∧ sr_changes rep = Some l ∧ length l = 11 ∧ length all = 14.
Proof. do 3 eexists. vm_compute. done. Qed.

(** ** C11: every difference is listed *)
Definition C11_full : Prop := ∀ e f ub ms pats, overlay_state f ub ms → env_ok e → selects_all e f ub pats →
  ∀ m s, owns ms m (m ++ s) → s ≠ [] → under ub (m ++ s) = false →
    ¬ same_view (sandbox_view f ub m s) (f !! (m ++ s)) →
  ∃ rep l c, status e f ub true pats = Ok rep ∧ sr_changes rep = Some l ∧ c ∈ l ∧ c_dest c = m ++ s.

(** False: the deletion of a dangling host symlink is not listed. *)
Lemma dangling_selects : selects_all demo_env dangling_fs demo_ub ["/"].
Proof. by apply selects_all_root. Qed.
Theorem C11_refuted : ¬ C11_full.
Proof.
  intros H.
  pose proof (H demo_env dangling_fs demo_ub [[]] ["/"] dangling_state demo_env_ok dangling_selects [] ["l"] (owns_root _)
    ltac:(discriminate)) as H1. clear H.
  assert (under demo_ub ([] ++ ["l"]) = false) as Hu by (vm_compute; reflexivity). specialize (H1 Hu). clear Hu.
  destruct H1 as (rep & l & c & Hs & Hl & _).
  - vm_compute. tauto.
  - vm_compute in Hs. injection Hs as <-. vm_compute in Hl. discriminate.
Qed.
Print Assumptions C11_refuted.

Lemma land_perm (p : N) : (p < 4096)%N → N.land p o7777 = p.
Proof.
  intros H. change o7777 with (N.ones 12). rewrite N.land_ones. apply N.mod_small. exact H.
Qed.
Lemma st_mode_inj a b : (n_perm a < 4096)%N → (n_perm b < 4096)%N → st_mode a = st_mode b →
  kind_type (n_kind a) = kind_type (n_kind b) ∧ n_perm a = n_perm b.
Proof.
  intros Ha Hb E. split.
  - by rewrite <-!mode_type, E.
  - rewrite <-(land_perm _ Ha), <-(land_perm _ Hb), <-!mode_perm. by rewrite E.
Qed.

Lemma status_lists e f ub pats all : changes e f ub true = Ok all → selects_all e f ub pats →
  ∀ c, c ∈ all → shown c → ∃ rep l, status e f ub true pats = Ok rep ∧ sr_changes rep = Some l ∧ c ∈ l.
Proof.
  intros Hall Hsel c Hc Hs. destruct (proj1 (C16_status_total e f ub true pats) all Hall) as (rep & Hrep & _).
  pose proof (C16_status_prints_each_once e f ub true pats all rep Hall Hrep) as H. cbv zeta in H.
  assert (c ∈ matching (e_glob e) (e_cwd e) pats all) as Hm.
  { by rewrite (Hsel all Hall). }
  destruct (sr_changes rep) as [l|] eqn:El; [|by destruct (H c Hm)].
  exists rep, l. split; [done|]. split; [done|]. rewrite (proj1 H), elem_of_list_filter. done.
Qed.

Theorem C11_every_difference_listed_partial : ∀ e f ub ms pats,
  sandbox_ok f ub ms → env_ok e → selects_all e f ub pats →
  ∀ m s, owns ms m (m ++ s) → s ≠ [] →
    ¬ same_view (sandbox_view f ub m s) (f !! (m ++ s)) →
  ∃ rep l c, status e f ub true pats = Ok rep ∧ sr_changes rep = Some l ∧ c ∈ l ∧ c_dest c = m ++ s.
Proof.
  intros e f ub ms pats Hok He Hsel m s Hown Hs Hdiff. pose proof (proj1 Hown) as Hm.
  pose proof (so_wf _ _ _ (sb_storage _ _ _ Hok)) as Hwf.
  destruct (changes_complete f ub ms Hok e He) as (all & Hall & Hin).
  assert (∃ c, lists f ub ms c ∧ shown c ∧ c_dest c = m ++ s) as (c & Hl & Hc & Hd).
  { destruct (overlay_both f (upper_dir ub m) m s Hwf Hs) as (V1 & V2 & V3).
    fold (sandbox_view f ub m s) in V1, V2, V3.
    destruct (f !! (upper_dir ub m ++ s)) as [n|] eqn:En.
    - specialize (V1 n eq_refl). rewrite V1 in Hdiff. assert (staged_at f ub m s n) as Hsa by done.
      destruct (whiteout n) eqn:Ew.
      + destruct (f !! (m ++ s)) as [k|] eqn:Ek; [|by destruct Hdiff].
        eexists. split; [exists m, s, n; split; [done|]; split; [done|]; left; split; [by exists k; auto|];
          exists (m ++ s), k; split; [apply under_refl|]; split; [done|]; reflexivity|].
        split; done.
      + destruct (supported n) eqn:Es.
        * eexists. split; [exists m, s, n; split; [done|]; split; [done|]; right; left; split; [done|];
            split; [done|]; reflexivity|]. split; [|done].
          unfold shown. cbn [c_op c_staged c_source]. destruct (set_type_of f ub m s) eqn:Et; [done|].
          intros (st & so & [= <-] & Eso & E1 & E2 & E3 & E4). apply Hdiff.
          unfold source_details in Eso. destruct (exists_ f (m ++ s)); [|done].
          destruct (f !! (m ++ s)) as [k|] eqn:Ek; [|done]. injection Eso as <-. simpl in *.
          pose proof (wf_perm _ Hwf _ _ En) as P1. pose proof (wf_perm _ Hwf _ _ Ek) as P2.
          rewrite d_is_dir_of in E4. apply is_kdir_true in E4.
          destruct (st_mode_inj n k P1 P2 E3) as [T P]. rewrite E4 in T.
          assert (n_kind k = KDir) as Ekd by (by destruct (n_kind k)).
          split; [by rewrite E4|]. split; [done|]. split; [done|]. intros _. done.
        * eexists. split; [exists m, s, n; split; [done|]; split; [done|]; right; right; split; [done|];
            split; [done|]; reflexivity|]. split; done.
    - specialize (V2 eq_refl). specialize (V3 eq_refl).
      destruct (hidden_dec f (upper_dir ub m) s) as [Hh|Hh].
      2: { rewrite (V3 Hh) in Hdiff. destruct Hdiff. apply same_view_refl. }
      rewrite (V2 Hh) in Hdiff. destruct (f !! (m ++ s)) as [k|] eqn:Ek; [|by destruct Hdiff].
      destruct Hh as (s1 & c1 & r & n & E & Hs1 & Hn & Hh).
      assert (is_dir_at f (m ++ s1)) as (k1 & Hk1 & Hk1d).
      { rewrite E in Ek. rewrite app_assoc in Ek. by apply wf_prefix in Ek. }
      assert (removal_root f m s1 n) as Hroot.
      { exists k1. split; [done|]. unfold hides in Hh. rewrite !orb_true_iff, negb_true_iff in Hh.
        destruct Hh as [[?|?]|?]; auto. }
      eexists. split; [exists m, s1, n; split; [done|]; split; [done|]; left; split; [done|];
          exists (m ++ s), k; split; [|split; [done|]; reflexivity]|].
      + rewrite E, app_assoc. apply under_app.
      + split; done. }
  destruct (status_lists e f ub pats all Hall Hsel c ltac:(by apply Hin) Hc) as (rep & l & H1 & H2 & H3).
  by exists rep, l, c.
Qed.
Print Assumptions C11_every_difference_listed_partial.

(** A path hidden by a recreated directory, at which nothing is staged. *)
Example C11_nonvacuous : ¬ same_view (sandbox_view demo_fs demo_ub [] ["home"; "r"; "old"]) (demo_fs !! ["home"; "r"; "old"])
  ∧ demo_fs !! (upper_dir demo_ub [] ++ ["home"; "r"; "old"]) = None.
Proof. vm_compute. tauto. Qed.
Example C11_demo : ∃ rep l c, status demo_env demo_fs demo_ub true ["/"] = Ok rep ∧ sr_changes rep = Some l ∧ c ∈ l ∧
  c_dest c = ["home"; "r"; "old"].
Proof.
  apply (C11_every_difference_listed_partial demo_env demo_fs demo_ub [[]] ["/"] demo_ok demo_env_ok demo_selects [] ["home"; "r"; "old"]
    (owns_root _) ltac:(discriminate) (proj1 C11_nonvacuous)).
Qed.

(** ** C12: every listed change is real *)
Theorem C12_listed_changes_real_partial : ∀ e f ub ms inc all,
  sandbox_ok f ub ms → env_ok e → changes e f ub inc = Ok all →
  ∀ c, c ∈ all → ∃ m s n, m ∈ ms ∧ staged_at f ub m s n ∧
    match c_op c with
    | OSet t =>
        (* the path exists in the sandbox as the staged file, directory or symlink; it exists on
           the host too when the change is called a modification *)
        c_dest c = m ++ s ∧ c_staged c = Some (details_of (upper_dir ub m ++ s) n) ∧
        sandbox_view f ub m s = Some n ∧
        (is_kfile (n_kind n) || is_kdir (n_kind n) || is_klink (n_kind n)) = true ∧
        (t = Modify → is_Some (f !! (m ++ s)))
    | OError er =>
        c_dest c = m ++ s ∧ er = UnsupportedFileType ∧ sandbox_view f ub m s = Some n ∧
        (is_kfile (n_kind n) || is_kdir (n_kind n) || is_klink (n_kind n)) = false
    | ORemove =>
        (* an existing host path at or below [m ++ s], which was deleted, recreated or replaced
           by something that is not a directory *)
        ∃ k k0, f !! c_dest c = Some k ∧ under (m ++ s) (c_dest c) = true ∧ f !! (m ++ s) = Some k0 ∧
          c_source c = Some (details_of (c_dest c) k) ∧
          (sandbox_view f ub m s = None ∨ opaque n = true ∨ (n_kind k0 = KDir ∧ n_kind n ≠ KDir))
    | ORename => False
    end.
Proof.
  intros e f ub ms inc all Hok He Hall c Hc.
  pose proof (so_wf _ _ _ (sb_storage _ _ _ Hok)) as Hwf.
  destruct (changes_sound f ub ms Hok e inc all He Hall c Hc) as (m & s & n & Hm & Hs & Hl).
  exists m, s, n. split; [done|]. split; [done|].
  destruct (overlay_both f (upper_dir ub m) m s Hwf (proj1 Hs)) as (V1 & _ & _).
  fold (sandbox_view f ub m s) in V1. specialize (V1 n (proj2 Hs)).
  destruct Hl as [(Hroot & q & k & Hu & Hk & ->)|[(Hw & Hsup & ->)|(Hw & Hsup & ->)]]; cbn [c_op c_dest c_staged c_source].
  - destruct Hroot as (k0 & Hk0 & Hcase). exists k, k0. split; [done|]. split; [done|]. split; [done|]. split; [done|].
    destruct Hcase as [?|[Hw|[Hnd Hkd]]]; [auto|left; by rewrite V1, Hw|]. right. right. split; [done|].
    intros E. by rewrite E in Hnd.
  - rewrite Hw in V1. split; [done|]. split; [done|]. split; [done|]. split.
    + unfold supported in Hsup. by destruct (n_kind n).
    + unfold set_type_of, source_details. destruct (exists_ f (m ++ s)); [|done]. by destruct (f !! (m ++ s)).
  - rewrite Hw in V1. split; [done|]. split; [done|]. split; [done|].
    unfold supported in Hsup. by destruct (n_kind n).
Qed.
Print Assumptions C12_listed_changes_real_partial.
Example C12_nonvacuous : ∃ all, changes demo_env demo_fs demo_ub true = Ok all ∧ length all = 14.
Proof. exists (match changes demo_env demo_fs demo_ub true with Ok l => l | Err _ => [] end). split; first [vm_compute; reflexivity | split; vm_compute; reflexivity]. Qed.

(** A change is called a modification exactly if the host has something at that path (not a dangling link)
    and no directory above it was recreated in the sandbox. Otherwise it is a creation.
    (The storage itself must not carry overlay attributes.) *)
Definition plain_storage (f : fs) (ub m : path) : Prop :=
  ∀ q n, under q (upper_dir ub m) = true → f !! q = Some n → n_xattr n !! "trusted.overlay.opaque" = None.
Definition sandbox_storage_utf8 (f : fs) (ub m : path) : Prop := ∀ q, under q (upper_dir ub m) = true → utf8_path q.
Lemma opaque_above_plain f ub m q : sandbox_storage_utf8 f ub m → wf_tree f → plain_storage f ub m →
  under q (upper_dir ub m) = true → is_Some (f !! q) → opaque_above f (rev q) = false.
Proof.
  intros Hu8 Hwf Hp. induction q as [|c q IH] using rev_ind; intros Hu [n Hn]; [done|].
  rewrite rev_app_distr. cbn [rev app opaque_above]. rewrite rev_involutive.
  destruct (wf_prefix f q [c] n Hwf Hn) as (d & Hd & _); [done|].
  assert (under q (upper_dir ub m) = true) as Hq.
  { apply under_spec in Hu as [s Hs]. apply under_spec. exists ([c] ++ s). by rewrite app_assoc. }
  rewrite (from_path_dom f q d Hwf Hd). unfold is_opaque. cbn [d_path details_of].
  rewrite cstring_utf8, (lgetxattr_dom f q d) by (first [done|by apply Hu8]). unfold XOPAQUE. rewrite (Hp q d Hq Hd). cbn [is_ok].
  apply IH; [done|by eexists].
Qed.
Lemma opaque_above_spec f ub ms m s n : sandbox_ok f ub ms → m ∈ ms → plain_storage f ub m → staged_at f ub m s n →
  has_opaque_ancestor f (upper_dir ub m ++ s) = true ↔ below_opaque f ub m s.
Proof.
  intros Hok Hm Hp. pose proof (sb_storage _ _ _ Hok) as Hst. pose proof (so_wf _ _ _ Hst) as Hwf. unfold has_opaque_ancestor.
  revert n. induction s as [|c s IH] using rev_ind; intros n [Hne Hn]; [done|].
  rewrite app_assoc, rev_app_distr. cbn [rev app opaque_above]. rewrite rev_involutive.
  rewrite app_assoc in Hn. destruct (wf_prefix f (upper_dir ub m ++ s) [c] n Hwf Hn) as (d & Hd & Hdk); [done|].
  rewrite (from_path_dom f _ d Hwf Hd). destruct (decide (s = [])) as [->|Hs].
  - rewrite app_nil_r in *.
    assert (sandbox_storage_utf8 f ub m) as Hu8.
    { intros q Hq. apply under_spec in Hq as [t Ht].
      assert (utf8_path (upper_dir ub m)) as H8. { eapply (so_utf8 _ _ _ Hst); [exact Hd|]. unfold upper_dir. apply under_app. }
      unfold utf8_path in *. rewrite Ht, Forall_app in H8. apply H8. }
    unfold is_opaque. cbn [d_path details_of].
    rewrite cstring_utf8, (lgetxattr_dom f _ d) by (first [done|apply Hu8, under_refl]). unfold XOPAQUE.
    rewrite (Hp _ d (under_refl _) Hd). cbn [is_ok].
    rewrite (opaque_above_plain f ub m) by (first [done|apply under_refl|by eexists]). split; [done|].
    intros (s1 & r & n1 & E & Hr & Hs1 & _). destruct s1; [by destruct Hs1|]. injection E as -> E. symmetry in E. by apply app_nil in E as [_ ->].
  - assert (staged_at f ub m s d) as Hsd by done.
    rewrite (is_opaque_dom f _ d Hwf Hd); [|by apply (utf8_staged f ub ms Hok m s d)|by apply (sb_entry _ _ _ Hok m s d)].
    destruct (opaque d) eqn:Eo.
    + split; [|done]. intros _. by exists s, [c], d.
    + rewrite (IH d Hsd). split.
      * intros (s1 & r & n1 & -> & Hr & H1 & H2). exists s1, (r ++ [c]), n1. split; [by rewrite app_assoc|]. split; [by destruct r|done].
      * intros (s1 & r & n1 & E & Hr & H1 & H2). destruct r as [|y r _] using rev_ind; [done|].
        rewrite app_assoc in E. apply app_inj_tail in E as [E _]. exists s1, r, n1. split; [done|]. split; [|done].
        intros ->. rewrite app_nil_r in E. subst s1. destruct H1 as [_ H1]. destruct Hsd as [_ Hsd]. congruence.
Qed.
Theorem C12_created_or_modified_partial : ∀ e f ub ms inc all,
  sandbox_ok f ub ms → env_ok e → (∀ m, m ∈ ms → plain_storage f ub m) → changes e f ub inc = Ok all →
  ∀ c t, c ∈ all → c_op c = OSet t → ∃ m s n, m ∈ ms ∧ staged_at f ub m s n ∧ c_dest c = m ++ s ∧
    (t = Modify ↔ is_Some (f !! (m ++ s)) ∧ is_ok (stat f (m ++ s)) = true ∧ ¬ below_opaque f ub m s).
Proof.
  intros e f ub ms inc all Hok He Hp Hall c t Hc Ht.
  pose proof (so_wf _ _ _ (sb_storage _ _ _ Hok)) as Hwf.
  destruct (changes_sound f ub ms Hok e inc all He Hall c Hc) as (m & s & n & Hm & Hs & Hl).
  exists m, s, n. split; [done|]. split; [done|].
  destruct Hl as [(Hroot & q & k & Hu & Hk & ->)|[(Hw & Hsup & ->)|(Hw & Hsup & ->)]]; cbn [c_op c_dest c_staged c_source] in *; [done| |done].
  split; [done|]. injection Ht as <-. rewrite <-(opaque_above_spec f ub ms m s n Hok Hm (Hp m Hm) Hs).
  unfold set_type_of, source_details, exists_. destruct (is_ok (stat f (m ++ s))) eqn:Eok.
  - destruct (f !! (m ++ s)) as [k|] eqn:Ek.
    + destruct (has_opaque_ancestor f (upper_dir ub m ++ s)); split; intros H; try done; destruct H as (_ & _ & H); by destruct H.
    + split; [done|]. intros [[? ?] _]. done.
  - split; [done|]. intros (_ & ? & _). done.
Qed.
Print Assumptions C12_created_or_modified_partial.

(** In a recreated directory: what the host also has two levels down is a creation. *)
Definition deep_fs : fs := list_to_map
  [ ([], dir0); (["d"], dir0); (["d"; "e"], dir0); (["d"; "e"; "x"], file_ "old"); (["k"], file_ "old");
    (["st"], dir0); (["st"; "F4"], dir0); (["st"; "F4"; "k"], file_ "new");
    (["st"; "F4"; "d"], Node KDir 493 0 0 0 {["trusted.overlay.opaque" := "y"]});
    (["st"; "F4"; "d"; "e"], dir0); (["st"; "F4"; "d"; "e"; "x"], file_ "new") ].
Example C12_created_nonvacuous : match changes demo_env deep_fs ["st"] true with
  | Ok all => (λ c, match c_op c with OSet Create => "+" | OSet Modify => "~" | _ => "-" end +:+ path_str (c_dest c)) <$> all
              ≡ₚ ["-/d"; "-/d/e"; "-/d/e/x"; "~/d"; "+/d/e"; "+/d/e/x"; "~/k"]
  | Err _ => False end.
Proof. refine (bool_decide_unpack _ _). vm_compute. exact I. Qed.

(** ** C15: what status hides changes nothing *)
Theorem C15_hidden_is_unchanged_directory_partial : ∀ e f ub ms inc all,
  sandbox_ok f ub ms → env_ok e → changes e f ub inc = Ok all →
  ∀ c, c ∈ all → ¬ shown c →
  ∃ n k d, c_staged c = Some d ∧ f !! d_path d = Some n ∧ f !! c_dest c = Some k ∧
    n_kind n = KDir ∧ n_kind k = KDir ∧ n_uid k = n_uid n ∧ n_gid k = n_gid n ∧ n_perm k = n_perm n.
Proof.
  intros e f ub ms inc all Hok He Hall c Hc Hns.
  pose proof (so_wf _ _ _ (sb_storage _ _ _ Hok)) as Hwf.
  destruct (changes_sound f ub ms Hok e inc all He Hall c Hc) as (m & s & n & Hm & Hs & Hl).
  destruct Hl as [(Hroot & q & k & Hu & Hk & ->)|[(Hw & Hsup & ->)|(Hw & Hsup & ->)]]; [by destruct Hns| |by destruct Hns].
  rewrite <-not_placeholder_spec in Hns. unfold not_placeholder, is_actually_modified in Hns.
  cbn [c_op c_staged c_source c_dest] in *. destruct (set_type_of f ub m s); [done|].
  unfold source_details in Hns. destruct (exists_ f (m ++ s)); [|done].
  destruct (f !! (m ++ s)) as [k|] eqn:Ek; [|done]. cbn [d_gid d_uid d_mode details_of] in Hns.
  destruct (N.eqb_spec (n_gid n) (n_gid k)) as [E1|]; [|done].
  destruct (N.eqb_spec (n_uid n) (n_uid k)) as [E2|]; [|done].
  destruct (N.eqb_spec (st_mode n) (st_mode k)) as [E3|]; [|done]. cbn [negb] in Hns.
  destruct (d_is_dir (details_of (upper_dir ub m ++ s) n)) eqn:Ed; [|done].
  rewrite d_is_dir_of in Ed. apply is_kdir_true in Ed. destruct Hs as [Hne Hn].
  destruct (st_mode_inj n k (wf_perm _ Hwf _ _ Hn) (wf_perm _ Hwf _ _ Ek) E3) as [T P].
  exists n, k, (details_of (upper_dir ub m ++ s) n). split; [done|]. split; [done|]. split; [done|]. split; [done|].
  split; [|done]. rewrite Ed in T. by destruct (n_kind k).
Qed.
Print Assumptions C15_hidden_is_unchanged_directory_partial.

(** Accepting leaves the host path of every hidden change as it was, and accepting a selection of
    hidden changes only leaves the whole host as it was. *)
Theorem C15_accepting_hidden_changes_nothing_partial : ∀ e f ub ms inc pats sel,
  sandbox_ok f ub ms → env_ok e → fresh_uuids e f → selected e f ub inc pats = Ok sel →
  let o := accept e ub inc pats f in is_ok (o_res o) = true →
  (∀ c, c ∈ sel → ¬ shown c → same_view (f !! c_dest c) (o_fs o !! c_dest c)) ∧
  ((∀ c, c ∈ sel → ¬ shown c) → ∀ q, under ub q = false → same_view (f !! q) (o_fs o !! q)).
Proof.
  intros e f ub ms inc pats sel Hok He Hfu Hsel o Hoks.
  assert (∀ c, c ∈ sel → ¬ shown c → same_view (f !! c_dest c) (o_fs o !! c_dest c)) as H1.
  { intros c Hc Hns. unfold selected in Hsel.
    destruct (changes e f ub inc) as [all|] eqn:Eall; [|done]. simpl in Hsel.
    assert (c ∈ all) as Hca. { injection Hsel as <-. by apply elem_of_list_filter in Hc as [_ ?]. }
    destruct (C15_hidden_is_unchanged_directory_partial e f ub ms inc all Hok He Eall c Hca Hns)
      as (n & k & d & Hd & Hn & Hk & Kn & Kk & U & G & P).
    assert (selected e f ub inc pats = Ok sel) as Hsel' by (unfold selected; by rewrite Eall).
    assert (is_set c) as Hset.
    { unfold is_set. destruct (c_op c) as [t| | |] eqn:Eo; [by exists t|destruct Hns; unfold shown; by rewrite Eo..]. }
    destruct (final_set e f ub ms inc pats sel Hok He Hfu Hsel' c n Hoks Hc Hset) as (x & Hx & K' & U' & G' & P').
    { intros st Est. by assert (st = d) as -> by congruence. }
    unfold o. rewrite Hk, Hx. split; [congruence|]. split; [congruence|]. split; [congruence|].
    intros _. rewrite P. apply P'. by rewrite Kn. }
  split; [done|]. intros Hns q Hu.
  destruct (decide (q ∈ c_dest <$> sel)) as [Hq|Hq].
  - apply elem_of_list_fmap in Hq as (c & -> & Hc). apply H1; [done|by apply Hns].
  - unfold o. rewrite (final_frame e f ub ms inc pats sel Hok He Hfu Hsel q Hoks Hu); [apply same_view_refl|].
    intros c Hc <-. apply Hq. by apply elem_of_list_fmap_1.
Qed.
Print Assumptions C15_accepting_hidden_changes_nothing_partial.
Example C15_nonvacuous : ∃ all c, changes demo_env demo_fs demo_ub true = Ok all ∧ c ∈ all ∧ ¬ shown c ∧ c_dest c = ["etc"].
Proof.
  destruct (changes demo_env demo_fs demo_ub true) as [all|] eqn:E; [|vm_compute in E; done].
  assert (find (λ c, bool_decide (c_dest c = ["etc"])) all = Some (Change ["etc"] (OSet Modify)
     (Some (details_of ["etc"] dir0)) (Some (details_of ["sbx"; "up"; "F4"; "etc"] dir0)) None)) as Hf.
  { vm_compute in E. injection E as <-. vm_compute. reflexivity. }
  clear E. apply find_some in Hf as [Hf _]. eexists all, _. split; [reflexivity|].
  split; [apply elem_of_list_In, Hf|]. split; [|reflexivity].
  intros H. apply H. do 2 eexists. vm_compute. repeat split.
Qed.

(** ** C18: selection by pattern *)
Lemma filter_sub {A : Type} (P : A → Prop) `{∀ x, Decision (P x)} (l : list A) : filter P l `sublist_of` l.
Proof.
  induction l as [|x l IH]; [constructor|]. rewrite filter_cons. destruct (decide (P x)); by constructor.
Qed.
Theorem C18_selection_by_pattern : ∀ glob cwd pats all,
  (* listed order is kept and nothing is invented or duplicated *)
  matching glob cwd pats all `sublist_of` all ∧
  (* with patterns, exactly the changes whose path matches one of the normalised patterns *)
  (∀ c, pats ≠ [] → c ∈ matching glob cwd pats all ↔
     c ∈ all ∧ ∃ p, p ∈ pats ∧ glob (norm_pattern all cwd p) (lossy (path_str (c_dest c))) = true) ∧
  (* more patterns never select less *)
  (∀ more c, pats ≠ [] → c ∈ matching glob cwd pats all → pats ⊆ more → c ∈ matching glob cwd more all).
Proof.
  intros glob cwd pats all.
  assert (∀ ps c, ps ≠ [] → c ∈ matching glob cwd ps all ↔
     c ∈ all ∧ ∃ p, p ∈ ps ∧ glob (norm_pattern all cwd p) (lossy (path_str (c_dest c))) = true) as H.
  { intros ps c Hne. unfold matching. rewrite elem_of_list_filter.
    destruct (norm_pattern all cwd <$> ps) as [|p0 ps0] eqn:E; [by destruct ps|]. rewrite <-E. clear E p0 ps0.
    rewrite existsb_exists. split.
    - intros [(x & Hx & Hg) Hc]. split; [done|]. apply elem_of_list_In, elem_of_list_fmap in Hx as (p & -> & Hp).
      by exists p.
    - intros [Hc (p & Hp & Hg)]. split; [|done]. exists (norm_pattern all cwd p). split; [|done].
      apply elem_of_list_In. by apply elem_of_list_fmap_1. }
  split; [|split].
  - apply filter_sub.
  - intros c Hne. by apply H.
  - intros more c Hne Hc Hsub. apply H in Hc as [Hc (p & Hp & Hg)]; [|done]. apply H.
    + intros ->. apply Hsub in Hp. by apply elem_of_nil in Hp.
    + split; [done|]. exists p. split; [by apply Hsub|done].
Qed.
Print Assumptions C18_selection_by_pattern.
Example C18_nonvacuous : ∃ all, changes demo_env demo_fs demo_ub true = Ok all ∧
  length (matching (e_glob demo_env) ["home"] ["../etc/conf"; "d"] all) = 1 ∧ length all = 14.
Proof. exists (match changes demo_env demo_fs demo_ub true with Ok l => l | Err _ => [] end). split; first [vm_compute; reflexivity | split; vm_compute; reflexivity]. Qed.

(** ** C19: no pattern means the current directory *)
Definition C19_full : Prop := ∀ glob cwd all, Forall comp_ok cwd → (∀ c, c ∈ all → Forall comp_ok (c_dest c)) →
  ∀ c, c ∈ matching glob cwd [] all ↔ c ∈ all ∧ ∃ r, r ≠ [] ∧ c_dest c = cwd ++ r.

(** False in the root directory, where the prefix is "//" and nothing is selected. *)
Theorem C19_refuted : ¬ C19_full.
Proof.
  intros H. set (c := Change ["etc"] ORemove None None None).
  destruct (H (λ _ _, true) [] [c] ltac:(done)) with (c := c) as [_ H1].
  { intros c' Hc'. apply elem_of_list_singleton in Hc' as ->. apply Forall_singleton. apply comp_okb_spec. reflexivity. }
  assert (matching (λ _ _, true) [] [] [c] = []) as E by (vm_compute; reflexivity). rewrite E in H1.
  apply (elem_of_nil c), H1. split; [left|]. by exists ["etc"].
Qed.
Print Assumptions C19_refuted.

(** Nor is it true if names are not valid UTF-8: in a directory called "c\xE9" the prefix is another one. *)
Theorem C19_names_refuted : ¬ (∀ glob cwd all, cwd ≠ [] → Forall comp_ok cwd → (∀ c, c ∈ all → Forall comp_ok (c_dest c)) →
  ∀ c, c ∈ matching glob cwd [] all ↔ c ∈ all ∧ ∃ r, r ≠ [] ∧ c_dest c = cwd ++ r).
Proof.
  intros H. set (c := Change ["c" +:+ of_bytes replacement; "x"] ORemove None None None).
  assert (c ∈ matching (λ _ _, true) [latin1] [] [c]) as Hc.
  { assert (matching (λ _ _, true) [latin1] [] [c] = [c]) as -> by (vm_compute; reflexivity). left. }
  apply H in Hc as [_ (r & _ & E)].
  - vm_compute in E. discriminate E.
  - discriminate.
  - apply Forall_singleton. apply comp_okb_spec. reflexivity.
  - intros c' Hc'. apply elem_of_list_singleton in Hc' as ->.
    apply Forall_cons. split; [apply comp_okb_spec; reflexivity|]. apply Forall_singleton. apply comp_okb_spec. reflexivity.
Qed.
Print Assumptions C19_names_refuted.

Lemma shown_utf8 (p : path) : utf8_path p → shown_path p = path_str p.
Proof. intros H. unfold shown_path. by apply lossy_valid, utf8_path_str. Qed.
Theorem C19_no_pattern_means_cwd_partial : ∀ glob cwd all,
  cwd ≠ [] → Forall comp_ok cwd → (∀ c, c ∈ all → Forall comp_ok (c_dest c)) →
  Forall (λ x, utf8_valid x = true) cwd → (∀ c, c ∈ all → Forall (λ x, utf8_valid x = true) (c_dest c)) →
  ∀ c, c ∈ matching glob cwd [] all ↔ c ∈ all ∧ ∃ r, r ≠ [] ∧ c_dest c = cwd ++ r.
Proof.
  intros glob cwd all Hne Hcwd Hall Hu Hus c. unfold matching, cwd_str. rewrite elem_of_list_filter.
  rewrite (shown_utf8 cwd) by done. cbn [fmap list_fmap]. split.
  - intros [H Hc]. split; [done|]. rewrite shown_utf8 in H by (by apply Hus). apply starts_with_dir in H; [done|done|done|by apply Hall].
  - intros [Hc H]. split; [|done]. rewrite shown_utf8 by (by apply Hus). apply starts_with_dir; [done|done|by apply Hall|done].
Qed.
Print Assumptions C19_no_pattern_means_cwd_partial.
Example C19_nonvacuous : ∃ all, changes demo_env demo_fs demo_ub true = Ok all ∧
  c_dest <$> matching (e_glob demo_env) ["etc"] [] all = [["etc"; "gone"]; ["etc"; "conf"]] ∨ 
  changes demo_env demo_fs demo_ub true = Ok all ∧
  c_dest <$> matching (e_glob demo_env) ["etc"] [] all = [["etc"; "conf"]; ["etc"; "gone"]].
Proof. exists (match changes demo_env demo_fs demo_ub true with Ok l => l | Err _ => [] end). first [left; split; vm_compute; reflexivity | right; split; vm_compute; reflexivity]. Qed.

(** ** C20: pattern path normalisation *)
Lemma split_on_parts (c : ascii) (s x : string) : x ∈ split_on c s → ∀ a b, x ≠ a +:+ String c b.
Proof.
  revert x. induction s as [|d s IH]; intros x Hx a b; simpl in Hx.
  - apply elem_of_list_singleton in Hx as ->. by destruct a.
  - destruct (Ascii.eqb_spec d c) as [->|Hne].
    + apply elem_of_cons in Hx as [->|Hx]; [by destruct a|by apply IH].
    + destruct (split_on c s) as [|w ws] eqn:E.
      * apply elem_of_list_singleton in Hx as ->. destruct a as [|? [|]]; simpl; [|done|done].
        intros [= ? _]. done.
      * apply elem_of_cons in Hx as [->|Hx]; [|apply IH; by right].
        destruct a as [|y a]; simpl; [intros [= ? _]; done|]. intros [= -> E']. eapply (IH w); [left|exact E'].
Qed.
Lemma comps_ok (s : string) : Forall (λ c, comp_ok c ∨ c = "..") (comps s).
Proof.
  apply Forall_forall. intros c Hc. unfold comps in Hc. apply elem_of_list_filter in Hc as [[H1 H2] Hc].
  destruct (decide (c = "..")); [by right|]. left. split; [done|]. split; [done|]. split; [done|].
  destruct (contains "/" c) eqn:E; [|done]. apply contains_spec in E as (a & b & E).
  by destruct (split_on_parts _ _ _ Hc a b).
Qed.
Lemma norm_steps_ok cs acc : Forall comp_ok acc → Forall (λ c, comp_ok c ∨ c = "..") cs →
  Forall comp_ok (foldl norm_step acc cs).
Proof.
  revert acc. induction cs as [|c cs IH]; intros acc Ha Hc; simpl; [done|].
  apply Forall_cons in Hc as [Hc Hcs]. apply IH; [|done]. unfold norm_step.
  destruct (String.eqb_spec c "..") as [->|Hne].
  - destruct (path_snoc_case acc) as [->|(q & x & ->)]; [done|]. rewrite removelast_snoc.
    by apply Forall_app in Ha as [? _].
  - apply Forall_app. split; [done|]. apply Forall_singleton. by destruct Hc.
Qed.
Lemma norm_steps_id cs acc : Forall comp_ok cs → foldl norm_step acc cs = acc ++ cs.
Proof.
  revert acc. induction cs as [|c cs IH]; intros acc Hc; simpl; [by rewrite app_nil_r|].
  apply Forall_cons in Hc as [Hc Hcs]. rewrite IH by done. unfold norm_step.
  destruct (String.eqb_spec c "..") as [->|_]; [by destruct Hc as (_ & _ & ? & _)|]. by rewrite <-app_assoc.
Qed.

(** Without symlinks the kernel resolves a path lexically. *)
Definition no_links (f : fs) : Prop := ∀ p n t, f !! p = Some n → n_kind n ≠ KLink t.
Lemma walk_lexical n f b cur todo q : no_links f → walk n f b cur todo = Ok q →
  q = foldl norm_step cur (filter (λ c, c ≠ "" ∧ c ≠ ".") todo).
Proof.
  intros Hnl. revert cur. induction todo as [|c todo IH]; intros cur H.
  - rewrite walk_nil in H. by injection H as <-.
  - assert (walk n f b cur (c :: todo) =
      if (String.eqb c "" || String.eqb c ".") then walk n f b cur todo
      else if String.eqb c ".." then walk n f b (removelast cur) todo
      else match f !! cur with
           | None => Err ENOENT
           | Some d => if is_kdir (n_kind d) then
               match f !! (cur ++ [c]) with
               | None => match todo with [] => Ok (cur ++ [c]) | _ :: _ => Err ENOENT end
               | Some nd => walk n f b (cur ++ [c]) todo
               end else Err ENOTDIR end) as E.
    { rewrite walk_cons. destruct (String.eqb c "" || String.eqb c "."); [done|].
      destruct (String.eqb c ".."); [done|]. destruct (f !! cur) as [d|]; [|done].
      destruct (is_kdir (n_kind d)); [|done]. destruct (f !! (cur ++ [c])) as [nd|] eqn:En; [|done].
      destruct (n_kind nd) eqn:Ek; try done. by destruct (Hnl _ _ target En). }
    rewrite E in H. clear E.
    destruct (String.eqb_spec c "") as [->|H1]; simpl in H; [by apply IH in H; rewrite filter_cons_False by tauto|].
    destruct (String.eqb_spec c ".") as [->|H2]; [by apply IH in H; rewrite filter_cons_False by tauto|].
    rewrite filter_cons_True by done. simpl. unfold norm_step at 2.
    destruct (String.eqb_spec c "..") as [->|H3]; [by apply IH|].
    destruct (f !! cur) as [d|]; [|done]. destruct (is_kdir (n_kind d)); [|done].
    destruct (f !! (cur ++ [c])); [by apply IH|]. destruct todo; [|done]. by injection H as <-.
Qed.

Definition C20_full : Prop := ∀ all cwd pat,
  Forall comp_ok cwd → (∀ c, c ∈ all → Forall comp_ok (c_dest c)) → starts_with "!" pat = false →
  ∃ q,
    Forall comp_ok q ∧
    (∀ f p, no_links f → walk max_links f true (if starts_with "/" pat then [] else cwd) (split_on "/" pat) = Ok p → p = q) ∧
    (q = [] → norm_pattern all cwd pat = "/**") ∧
    (q ≠ [] → (∃ c r, c ∈ all ∧ r ≠ [] ∧ c_dest c = q ++ r) → norm_pattern all cwd pat = path_str q +:+ "/**") ∧
    (q ≠ [] → (∀ c r, c ∈ all → r ≠ [] → c_dest c ≠ q ++ r) → norm_pattern all cwd pat = path_str q) ∧
    norm_pattern all cwd ("!" +:+ pat) = "!" +:+ norm_pattern all cwd pat.
(** False in a directory whose name is not valid UTF-8: a relative pattern means another directory. *)
Definition cwd_fs : fs := list_to_map [ ([], dir0); ([latin1], dir0); ([latin1; "x"], file_ "1") ].
Theorem C20_refuted : ¬ C20_full.
Proof.
  intros H. destruct (H [] [latin1] "x") as (q & _ & Hw & _ & _ & Hn & _).
  - apply Forall_singleton. apply comp_okb_spec. reflexivity.
  - intros c Hc. by apply elem_of_nil in Hc.
  - reflexivity.
  - assert ([latin1; "x"] = q) as <-.
    { apply (Hw cwd_fs [latin1; "x"]); [|vm_compute; reflexivity].
      intros p n t Hp. unfold cwd_fs in Hp. apply elem_of_list_to_map_2 in Hp.
      rewrite !elem_of_cons in Hp. destruct Hp as [[= -> ->]|[[= -> ->]|[[= -> ->]|Hp]]]; [discriminate..|by apply elem_of_nil in Hp]. }
    assert (norm_pattern [] [latin1] "x" = path_str [latin1; "x"]) as E.
    { apply Hn; [discriminate|]. intros c r Hc. by apply elem_of_nil in Hc. }
    vm_compute in E. discriminate E.
Qed.
Print Assumptions C20_refuted.

(** The path a pattern stands for: kernel resolution from the working directory in a tree without
    symlinks ([max_links] plays no role then). *)
Theorem C20_pattern_normalisation_partial : ∀ all cwd pat,
  Forall comp_ok cwd → (∀ c, c ∈ all → Forall comp_ok (c_dest c)) → starts_with "!" pat = false →
  Forall (λ x, utf8_valid x = true) cwd → (∀ c, c ∈ all → Forall (λ x, utf8_valid x = true) (c_dest c)) →
  ∃ q, 
    (* an absolute path without empty, "." or ".." components, nor any slash inside them *)
    Forall comp_ok q ∧
    (* it is what the kernel resolves the pattern to *)
    (∀ f p, no_links f → walk max_links f true (if starts_with "/" pat then [] else cwd) (split_on "/" pat) = Ok p → p = q) ∧
    (* the pattern handed to the matcher; a directory with changes below means everything below it *)
    (q = [] → norm_pattern all cwd pat = "/**") ∧
    (q ≠ [] → (∃ c r, c ∈ all ∧ r ≠ [] ∧ c_dest c = q ++ r) → norm_pattern all cwd pat = path_str q +:+ "/**") ∧
    (q ≠ [] → (∀ c r, c ∈ all → r ≠ [] → c_dest c ≠ q ++ r) → norm_pattern all cwd pat = path_str q) ∧
    (* negation is kept in front *)
    norm_pattern all cwd ("!" +:+ pat) = "!" +:+ norm_pattern all cwd pat.
Proof.
  intros all cwd pat Hcwd Hall Hneg Hu Hus.
  set (q := foldl norm_step (if starts_with "/" pat then [] else cwd) (comps pat)).
  assert (normalize (comps (if starts_with "/" pat then pat else cwd_str cwd +:+ "/" +:+ pat)) = q) as Eq.
  { unfold q, normalize. destruct (starts_with "/" pat); [done|].
    assert (comps (cwd_str cwd +:+ "/" +:+ pat) = cwd ++ comps pat) as ->.
    { unfold cwd_str. rewrite shown_utf8 by done. unfold comps at 1. change (path_str cwd +:+ "/" +:+ pat) with (path_str cwd +:+ String "/" pat).
      rewrite split_on_app, filter_app. by rewrite <-(comps_path_str cwd) at 2. }
    rewrite foldl_app, (norm_steps_id cwd) by done. done. }
  assert (norm_pattern all cwd pat =
    if ends_with "/" (path_str q) then path_str q +:+ "**"
    else if existsb (λ c, starts_with (path_str q +:+ "/") (shown_path (c_dest c))) all
    then path_str q +:+ "/**" else path_str q) as En.
  { unfold norm_pattern. rewrite Hneg. by rewrite Eq. }
  assert (Forall comp_ok q) as Hq.
  { unfold q. apply norm_steps_ok; [by destruct (starts_with "/" pat)|apply comps_ok]. }
  exists q. split; [done|]. split.
  { intros f p Hnl H. by apply walk_lexical in H. }
  clearbody q. clear Eq.
  assert (q ≠ [] → ends_with "/" (path_str q) = false) as Hends.
  { intros Hne. destruct (ends_with "/" (path_str q)) eqn:E; [|done]. exfalso.
    apply ends_with_spec in E as [t E]. 
    assert (split_on "/" (path_str q) = "" :: q) as Es.
    { change (path_str q) with (String "/" (join_comps q)). cbn [split_on]. rewrite Ascii.eqb_refl.
      by rewrite split_on_join. }
    rewrite E in Es. change (t +:+ "/") with (t +:+ String "/" "") in Es. rewrite split_on_app in Es.
    apply (f_equal last) in Es. change (split_on "/" "") with [""] in Es. rewrite last_snoc in Es.
    destruct (path_snoc_case q) as [->|(a & x & ->)]; [done|].
    rewrite app_comm_cons, last_snoc in Es. injection Es as E1. subst x.
    apply Forall_app in Hq as [_ Hx]. rewrite Forall_singleton in Hx. destruct Hx as [Hx _]. by apply Hx. }
  split; [|split; [|split]].
  - intros E. rewrite En, E. reflexivity.
  - intros Hne (c & r & Hc & Hr & Hd). rewrite En, (Hends Hne).
    assert (existsb (λ c, starts_with (path_str q +:+ "/") (shown_path (c_dest c))) all = true) as ->; [|done].
    apply existsb_exists. exists c. split; [by apply elem_of_list_In|].
    rewrite shown_utf8 by (by apply Hus). apply starts_with_dir; [done|done|by apply Hall|by exists r].
  - intros Hne Hno. rewrite En, (Hends Hne).
    destruct (existsb (λ c, starts_with (path_str q +:+ "/") (shown_path (c_dest c))) all) eqn:Ex; [|done]. exfalso.
    apply existsb_exists in Ex as (c & Hc & Hx). apply elem_of_list_In in Hc. rewrite shown_utf8 in Hx by (by apply Hus).
    apply starts_with_dir in Hx as (r & Hr & Hd); [|done|done|by apply Hall]. by apply (Hno c r).
  - unfold norm_pattern. rewrite Hneg. reflexivity.
Qed.
Print Assumptions C20_pattern_normalisation_partial.
Example C20_nonvacuous : norm_pattern [Change ["etc"; "conf"] ORemove None None None] ["home"; "me"] "..//../etc/./x/.." = "/etc/**"
  ∧ norm_pattern [] ["home"; "me"] "../../../../a" = "/a".
Proof. vm_compute. done. Qed.

(** ** C21: sorting changes cannot fail and is order-safe *)
Lemma under_strict_cmp a b : under a b = true → a ≠ b → path_cmp b a = Gt.
Proof.
  intros Hu Hne. apply under_spec in Hu as [[|c r] ->]; [by rewrite app_nil_r in Hne|apply path_cmp_above].
Qed.
Lemma sorted_pair {A : Type} (R : A → A → Prop) (l1 l2 l3 : list A) x y :
  StronglySorted R (l1 ++ x :: l2 ++ y :: l3) → R x y.
Proof.
  induction l1 as [|a l1 IH]; simpl; intros H; apply StronglySorted_inv in H as [H1 H2]; [|by apply IH].
  rewrite Forall_forall in H2. apply H2. apply elem_of_app. right. left.
Qed.

(** The three comparators handed to Rust's [sort_by] are total preorders. *)
Theorem C21_comparators_are_orders :
  cmp_preorder by_reverse_source ∧ cmp_preorder by_destination ∧ cmp_preorder by_staged_descending.
Proof.
  split; [apply by_reverse_source_preorder|]. split; [apply by_destination_preorder|apply by_staged_descending_preorder].
Qed.
Print Assumptions C21_comparators_are_orders.

Theorem C21_sorting_is_order_safe : ∀ l : list change,
  (* removals: something below [pa] is never removed after [pa] *)
  (∀ l1 a l2 b l3 da db, sort_by by_reverse_source l = l1 ++ a :: l2 ++ b :: l3 →
     c_source a = Some da → c_source b = Some db → under (d_path da) (d_path db) = true → d_path da = d_path db) ∧
  (* creations: nothing is created before the directory it lies in *)
  (∀ l1 a l2 b l3, sort_by by_destination l = l1 ++ a :: l2 ++ b :: l3 →
     under (c_dest b) (c_dest a) = true → c_dest a = c_dest b) ∧
  (* rejected staged paths: children first *)
  (∀ l1 a l2 b l3 da db, sort_by by_staged_descending l = l1 ++ a :: l2 ++ b :: l3 →
     c_staged a = Some da → c_staged b = Some db → under (d_path da) (d_path db) = true → d_path da = d_path db) ∧
  (* and sorting loses or duplicates nothing *)
  (∀ cmp : change → change → comparison, sort_by cmp l ≡ₚ l).
Proof.
  intros l. split; [|split; [|split]].
  - intros l1 a l2 b l3 da db E Ha Hb Hu.
    pose proof (sort_by_sorted by_reverse_source l by_reverse_source_preorder) as Hs. rewrite E in Hs.
    apply sorted_pair in Hs. unfold cmp_le, by_reverse_source in Hs. rewrite Ha, Hb in Hs.
    destruct (decide (d_path da = d_path db)); [done|]. exfalso. apply Hs. by apply under_strict_cmp.
  - intros l1 a l2 b l3 E Hu.
    pose proof (sort_by_sorted by_destination l by_destination_preorder) as Hs. rewrite E in Hs.
    apply sorted_pair in Hs. unfold cmp_le, by_destination in Hs.
    destruct (decide (c_dest b = c_dest a)); [done|]. exfalso. apply Hs. by apply under_strict_cmp.
  - intros l1 a l2 b l3 da db E Ha Hb Hu.
    pose proof (sort_by_sorted by_staged_descending l by_staged_descending_preorder) as Hs. rewrite E in Hs.
    apply sorted_pair in Hs. unfold cmp_le, by_staged_descending in Hs. rewrite Ha, Hb in Hs.
    destruct (decide (d_path da = d_path db)); [done|]. exfalso. apply Hs. by apply under_strict_cmp.
  - intros cmp. apply sort_by_perm.
Qed.
Print Assumptions C21_sorting_is_order_safe.
Example C21_nonvacuous : ∃ all, changes demo_env demo_fs demo_ub true = Ok all ∧
  match sort_by by_destination all with a :: b :: _ => (c_dest a, c_dest b) | _ => ([], []) end
  = (["etc"], ["etc"; "conf"]).
Proof. eexists. vm_compute. done. Qed.

(** ** C54: diff does not crash *)
Definition C54_full : Prop := ∀ out e f ub ms pats,
  sandbox_ok f ub ms → acceptable f ub ms → env_ok e → is_ok (diff out e f ub true pats) = true.

(** False, for two independent reasons: a subdirectory of a deleted or replaced directory is
    listed without a staged entry and makes diff panic; and diff output that is not UTF-8 (a
    Latin-1 text file) ends it with an error. *)
Theorem C54_refuted : ¬ C54_full.
Proof.
  intros H. pose proof (H (λ _ _, "") demo_env demo_fs demo_ub [[]] ["/"] demo_ok demo_acceptable demo_env_ok) as H1.
  clear H. vm_compute in H1. discriminate.
Qed.
Print Assumptions C54_refuted.
Example C54_panics : diff (λ _ _, "") demo_env demo_fs demo_ub true ["/"] = Err (EPanic "Set operation must include a staged entry").
Proof. vm_compute. reflexivity. Qed.
Theorem C54_refuted_output : ¬ (∀ out e f ub ms pats, sandbox_ok f ub ms → acceptable f ub ms → env_ok e →
  (∀ q, deleted_on_host f ub ms q → is_file f q = true) → is_ok (diff out e f ub true pats) = true).
Proof.
  intros H.
  pose proof (H (λ _ _, of_bytes [ascii_of_nat 45; ascii_of_nat 233]) demo_env cap_fs demo_ub [[]] ["/"] cap_ok cap_acceptable
    demo_env_ok) as H1. clear H.
  assert (∀ q, deleted_on_host cap_fs demo_ub [[]] q → is_file cap_fs q = true) as Hd.
  { intros q (m & s & n & Hm & Hs & Hr & _). exfalso. apply removal_rootb_spec in Hr.
    assert (on_staged cap_fs demo_ub [[]] (λ m s n, negb (removal_rootb cap_fs m s n)) = true) as Hc by (vm_compute; reflexivity).
    pose proof (on_staged_spec _ _ _ _ Hc m s n Hm Hs) as H. cbv beta in H. by rewrite Hr in H. }
  specialize (H1 Hd). clear Hd. vm_compute in H1. discriminate.
Qed.
Print Assumptions C54_refuted_output.

(** It completes when diff(1) prints UTF-8 and everything below a deleted or replaced directory
    is a regular file. *)
Lemma diff_all_ok out f cs : (∀ c, c ∈ cs → is_ok (diff_run out f c) = true) → is_ok (diff_all out f cs) = true.
Proof.
  induction cs as [|c cs IH]; intros H; [done|]. simpl.
  pose proof (H c ltac:(left)) as Hc. destruct (diff_run out f c); [|done]. simpl. apply IH.
  intros c' Hc'. apply H. by right.
Qed.
Theorem C54_diff_completes_partial : ∀ out e f ub ms pats,
  sandbox_ok f ub ms → env_ok e → (∀ l r, utf8_valid (out l r) = true) →
  (∀ m s n q, m ∈ ms → staged_at f ub m s n → removal_root f m s n → under (m ++ s) q = true → q ≠ m ++ s →
     is_Some (f !! q) → is_file f q = true) →
  is_ok (diff out e f ub true pats) = true.
Proof.
  intros out e f ub ms pats Hok He Hout Hfiles.
  destruct (changes_complete f ub ms Hok e He) as (all & Hall & Hin). unfold diff. rewrite Hall. simpl.
  apply diff_all_ok. intros c Hc. apply elem_of_list_filter in Hc as [_ Hc]. apply Hin in Hc.
  assert (∀ a, is_ok (match a with D_diff l r => if utf8_valid (out l r) then Ok tt
     else Err (EApp "Failed to read line from diff output") | _ => Ok tt end) = true) as Ha.
  { intros [| |l r]; [done|done|]. by rewrite Hout. }
  unfold diff_run.
  destruct Hc as (m & s & n & Hm & Hs & [(Hroot & q & k & Hu & Hk & ->)|[(Hw & Hsup & ->)|(Hw & Hsup & ->)]]);
    unfold diff_one; cbn [c_op c_dest c_staged c_source].
  - simpl. destruct (decide (q = m ++ s)) as [->|Hne].
    + destruct (is_file f (m ++ s)); simpl; [apply (Ha (D_diff _ _))|].
      destruct (d_is_file _); simpl; [apply (Ha (D_diff _ _))|done].
    + rewrite (Hfiles m s n q) by (done || by eexists). simpl. apply (Ha (D_diff _ _)).
  - simpl. destruct (is_file f (m ++ s)); simpl; [apply (Ha (D_diff _ _))|].
    destruct (d_is_file _); simpl; [apply (Ha (D_diff _ _))|done].
  - done.
Qed.
Print Assumptions C54_diff_completes_partial.
Example C54_nonvacuous : diff (λ _ _, "") demo_env cap_fs demo_ub true ["/"] = Ok tt.
Proof. vm_compute. reflexivity. Qed.
