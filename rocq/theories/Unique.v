(** * Nothing is listed twice (when deleted or replaced objects are not nested). *)
From Verif Require Export Plan.

Lemma upper_entry_of_upper e f ub inc p c x c' :
  upper_entry_of e f ub inc p c = (Ok (Some x), c') → ue_upper x = p.
Proof.
  unfold upper_entry_of. destruct (path_strip ub p) as [[|enc sub]|] eqn:Es; [done| |done].
  destruct (decode_base enc) as [base|]; [|done]. destruct sub as [|s0 sub]; [done|].
  destruct (if inc then _ else _) as [[[|]|] c0]; try done.
  apply path_strip_spec in Es as ->.
  destruct (get_source _ _ _ _) as [src|]; simpl; [|done].
  destruct (match src with Some sp => _ | None => _ end) as [sd|]; simpl; [|done].
  destruct (from_path _ _) as [[ud|]|]; simpl; try done.
  intros [= <- _]. simpl. by rewrite <-app_assoc.
Qed.

Lemma entries_loop_upper e f ub inc ps c es : upper_entries_loop e f ub inc ps c = Ok es →
  (∀ x, x ∈ es → ue_upper x ∈ ps) ∧ (NoDup ps → NoDup (ue_upper <$> es)).
Proof.
  revert c es. induction ps as [|p ps IH]; intros c es; simpl.
  - intros [= <-]. split; [intros x Hx; by apply elem_of_nil in Hx|]. intros _. constructor.
  - destruct (upper_entry_of e f ub inc p c) as [r c'] eqn:E. destruct r as [oe|]; simpl; [|done].
    destruct (upper_entries_loop e f ub inc ps c') as [es'|] eqn:E'; simpl; [|done].
    destruct (IH c' es' E') as [I1 I2]. intros [= <-]. destruct oe as [x|].
    + apply upper_entry_of_upper in E. split.
      * intros y Hy. apply elem_of_cons in Hy as [->|Hy]; [rewrite E; left|right; by apply I1].
      * intros HN. apply NoDup_cons in HN as [HN1 HN2]. rewrite fmap_cons. apply NoDup_cons.
        split; [|by apply I2]. rewrite E. intros Hin. apply elem_of_list_fmap in Hin as (y & Ey & Hy).
        apply HN1. rewrite Ey. by apply I1.
    + split; [intros y Hy; right; by apply I1|]. intros HN. apply NoDup_cons in HN as [_ H2]. by apply I2.
Qed.

(** Two deleted or replaced host objects are never one inside the other. *)
Definition no_nested (f : fs) (ub : path) (ms : list path) : Prop :=
  ∀ m s n m' s' n', m ∈ ms → m' ∈ ms → staged_at f ub m s n → staged_at f ub m' s' n' →
    removal_root f m s n → removal_root f m' s' n' → under (m ++ s) (m' ++ s') = true →
    m ++ s = m' ++ s'.

Section unique.
  Context (f : fs) (ub : path) (ms : list path) (Hok : sandbox_ok f ub ms) (Hnn : no_nested f ub ms).

  Let Hst : storage_ok f ub ms := sb_storage _ _ _ Hok.
  Let Hwf : wf_tree f := so_wf _ _ _ Hst.

  Definition lists_at (m s : path) (n : node) (c : change) : Prop :=
    lists_remove f ub m s n c ∨ lists_set f ub m s n c ∨ lists_error f ub m s n c.

  Lemma lists_at_unique m s n m' s' n' c : m ∈ ms → m' ∈ ms → staged_at f ub m s n → staged_at f ub m' s' n' →
    lists_at m s n c → lists_at m' s' n' c → m = m' ∧ s = s' ∧ n = n'.
  Proof.
    intros Hm Hm' Hs Hs' Hl Hl'. apply (staged_unique f ub ms Hok m m' s s' n n'); try done.
    destruct Hl as [(Hr & q & k & Hu & Hk & ->)|[(_ & _ & ->)|(_ & _ & ->)]];
      destruct Hl' as [(Hr' & q' & k' & Hu' & Hk' & E)|[(_ & _ & E)|(_ & _ & E)]]; try done.
    - assert (q = q') as <- by (by apply (f_equal c_dest) in E). destruct (under_comparable (m ++ s) (m' ++ s') q) as [H|H]; [done|done| |].
      + by eapply Hnn.
      + symmetry. by eapply Hnn.
    - by apply (f_equal c_dest) in E.
    - by apply (f_equal c_dest) in E.
  Qed.

  Lemma changes_nodup_entries e es css : env_ok e →
    (∀ x, x ∈ es → ∃ m s n, m ∈ ms ∧ staged_at f ub m s n ∧ x = entry_for f ub m s n) →
    NoDup (ue_upper <$> es) → rmap (entry_changes e f []) es = Ok css → NoDup (mjoin css).
  Proof.
    intros He. revert css. induction es as [|x es IH]; intros css Hes HN H.
    { injection H as <-. constructor. }
    simpl in H. destruct (Hes x ltac:(left)) as (m & s & n & Hm & Hs & ->).
    destruct (entry_changes_spec f ub ms Hok e m s n He Hm Hs) as (cs & Hcs & HNc & Hc).
    rewrite Hcs in H. simpl in H.
    destruct (changes_of_entries f ub ms Hok e es He ltac:(intros y Hy; apply Hes; by right)) as (css' & Hcss & Hspec).
    rewrite Hcss in H. simpl in H. injection H as <-.
    rewrite fmap_cons in HN. apply NoDup_cons in HN as [HN1 HN2].
    change (mjoin (cs :: css')) with (cs ++ mjoin css'). apply NoDup_app. split; [done|]. split.
    - intros c Hc1 Hc2. apply Hc in Hc1. apply Hspec in Hc2 as (m' & s' & n' & Hm' & Hs' & Hin & Hl').
      destruct (lists_at_unique m s n m' s' n' c Hm Hm' Hs Hs' Hc1 Hl') as (<- & <- & <-).
      apply HN1. apply elem_of_list_fmap. by exists (entry_for f ub m s n).
    - apply IH; [|done|done]. intros y Hy. apply Hes. by right.
  Qed.

  Theorem changes_nodup e inc l : env_ok e → changes e f ub inc = Ok l → NoDup l.
  Proof.
    intros He H. unfold changes in H.
    destruct (upper_entries e f ub inc) as [es|] eqn:Ees; [|done]. simpl in H.
    pose proof (entries_sound f ub ms Hok e inc es He Ees) as Hes.
    rewrite (no_renamed_paths f ub ms Hok) in H by done. simpl in H.
    destruct (rmap (entry_changes e f []) es) as [css|] eqn:Ec; [|done]. simpl in H. injection H as <-.
    eapply changes_nodup_entries; try done. unfold upper_entries in Ees.
    eapply entries_loop_upper; [exact Ees|]. rewrite (He _). apply NoDup_walkdir; [done|apply (so_ub _ _ _ Hst)].
  Qed.

  (** A host path is listed as removed at most once. *)
  Lemma removes_unique c c' q : lists f ub ms c → lists f ub ms c' → removes c q → removes c' q → c = c'.
  Proof.
    intros Hl Hl' Hr Hr'.
    destruct (remove_of f ub ms c q Hl Hr) as (m & s & n & k & Hm & Hs & Hroot & Hu & Hk & _ & ->).
    destruct (remove_of f ub ms c' q Hl' Hr') as (m' & s' & n' & k' & Hm' & Hs' & Hroot' & Hu' & Hk' & _ & ->).
    assert (k' = k) as -> by congruence.
    assert (m ++ s = m' ++ s') as E.
    { destruct (under_comparable (m ++ s) (m' ++ s') q) as [H|H]; [done|done| |].
      + by eapply Hnn.
      + symmetry. by eapply Hnn. }
    by destruct (staged_unique f ub ms Hok m m' s s' n n' Hm Hm' Hs Hs' E) as (<- & <- & <-).
  Qed.
End unique.
