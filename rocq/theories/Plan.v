(** * Every selection of listed changes is a plan the real pass can be run on. *)
From Verif Require Export AcceptMain ChangesSpec.

(** Fresh temporary names: the UUIDs drawn are proper name fragments, and no existing name ends
    in one of them (a random 122-bit number never drawn before). *)
Record fresh_uuids (e : env) (f : fs) : Prop := {
  fu_nonempty : ∀ i, e_uuid e 3 i ≠ "";
  fu_slash : ∀ i, contains "/" (e_uuid e 3 i) = false;
  fu_new : ∀ i p c, is_Some (f !! (p ++ [c])) → ends_with ("." +:+ e_uuid e 3 i) c = false;
}.

Lemma contains_app_slash a b :
  contains "/" a = false → contains "/" b = false → contains "/" (a +:+ b) = false.
Proof.
  intros Ha Hb. induction a as [|x a IH]; simpl in *; [done|].
  rewrite !orb_false_iff in *. destruct Ha as [Ha1 Ha2]. split; [|by apply IH].
  destruct a; simpl in *; done.
Qed.
Lemma contains_app_slash_inv a b :
  contains "/" (a +:+ b) = false → contains "/" a = false ∧ contains "/" b = false.
Proof.
  induction a as [|x a IH]; simpl.
  - intros H. split; [|done]. done.
  - rewrite !orb_false_iff. intros [H1 H2]. apply IH in H2 as [H2 H3]. split; [|done].
    split; [|done]. done.
Qed.

Lemma find_dot_split s r : find_dot s = Some r → ∃ ext, s = ext +:+ String "." r.
Proof.
  revert r. induction s as [|c s IH]; intros r; simpl; [done|].
  destruct (Ascii.eqb c ".") eqn:E.
  - intros [= ->]. apply Ascii.eqb_eq in E as ->. by exists "".
  - intros H. apply IH in H as [ext ->]. by exists (String c ext).
Qed.

Lemma file_stem_prefix name : ∃ ext, name = file_stem name +:+ ext.
Proof.
  unfold file_stem. destruct (find_dot (str_rev name)) as [[|c r]|] eqn:E.
  - exists "". by rewrite str_app_nil_r.
  - apply find_dot_split in E as [ext E]. exists (String "." (str_rev ext)).
    rewrite <-(str_rev_involutive name), E. rewrite str_rev_app.
    change (String "." (String c r)) with ("." +:+ String c r). rewrite str_rev_app.
    by rewrite <-str_app_assoc.
  - exists "". by rewrite str_app_nil_r.
Qed.
Lemma file_stem_nonempty name : name ≠ "" → file_stem name ≠ "".
Proof.
  intros Hn. unfold file_stem. destruct (find_dot (str_rev name)) as [[|c r]|] eqn:E; [done| |done].
  intros H. apply (f_equal str_rev) in H. rewrite str_rev_involutive in H. done.
Qed.

Lemma tmp_comp_ok name u : comp_ok name → u ≠ "" → contains "/" u = false →
  comp_ok (file_stem name +:+ "." +:+ u).
Proof.
  intros (H1 & _ & _ & H4) Hu Hus.
  pose proof (file_stem_nonempty name H1) as Hs.
  destruct (file_stem_prefix name) as [ext E]. rewrite E in H4.
  apply contains_app_slash_inv in H4 as [H4 _].
  destruct (file_stem name) as [|a b] eqn:Es; [done|]. clear E Es.
  destruct u as [|x u]; [done|].
  split; [done|]. split; [|split].
  - destruct b; simpl; congruence.
  - destruct b as [|b1 b2]; simpl; [congruence|]. destruct b2; simpl; congruence.
  - apply contains_app_slash; [done|]. by apply (contains_app_slash ".").
Qed.

Lemma with_extension_snoc q c u : with_extension (q ++ [c]) u = q ++ [file_stem c +:+ "." +:+ u].
Proof. unfold with_extension. by rewrite last_snoc, removelast_snoc. Qed.

Section plan.
  Context (f : fs) (ub : path) (ms : list path) (Hok : sandbox_ok f ub ms).
  Context (e : env) (Hfu : fresh_uuids e f).

  Let Hst : storage_ok f ub ms := sb_storage _ _ _ Hok.
  Let Hwf : wf_tree f := so_wf _ _ _ Hst.

  (** Two staged entries at the same host path are the same entry. *)
  Lemma owner_unique m m' p : owns ms m p → owns ms m' p → m = m'.
  Proof.
    intros (H1 & H2 & H3) (H1' & H2' & H3'). apply under_antisym; [by apply H3'|by apply H3].
  Qed.
  Lemma staged_unique m m' s s' n n' : m ∈ ms → m' ∈ ms → staged_at f ub m s n →
    staged_at f ub m' s' n' → m ++ s = m' ++ s' → m = m' ∧ s = s' ∧ n = n'.
  Proof.
    intros Hm Hm' Hs Hs' E.
    assert (m = m') as <-.
    { eapply (owner_unique m m' (m ++ s)).
      - apply (ho_owner _ _ _ _ _ _ (sb_host _ _ _ Hok m s n Hm Hs)).
      - rewrite E. apply (ho_owner _ _ _ _ _ _ (sb_host _ _ _ Hok m' s' n' Hm' Hs')). }
    apply app_inv_head in E as <-. destruct Hs as [_ Hs], Hs' as [_ Hs']. split; [done|]. split; congruence.
  Qed.

  (** A hiding entry strictly above another staged entry's host path is impossible unless it is
      an entry of the same mount, at a prefix of the same sub-path. *)
  Lemma hiding_above m m' s s' n n' : m ∈ ms → m' ∈ ms → staged_at f ub m s n →
    staged_at f ub m' s' n' → hides n' = true → under (m' ++ s') (m ++ s) = true →
    m = m' ∧ ∃ r, s = s' ++ r.
  Proof.
    intros Hm Hm' Hs Hs' Hh Hu.
    destruct (ho_owner _ _ _ _ _ _ (sb_host _ _ _ Hok m s n Hm Hs)) as (_ & O2 & O3).
    pose proof (sb_host _ _ _ Hok m' s' n' Hm' Hs') as Hho'.
    destruct (ho_owner _ _ _ _ _ _ Hho') as (_ & O2' & O3').
    assert (under m (m' ++ s') = true) as Hum.
    { destruct (under_comparable m (m' ++ s') (m ++ s)) as [H|H]; [done|done|done|].
      pose proof (ho_above_mount _ _ _ _ _ _ Hho' m Hm H). congruence. }
    assert (m = m') as <-.
    { apply under_antisym; [by apply O3'|]. apply O3; [done|]. by eapply under_trans. }
    split; [done|]. apply under_spec in Hu as [r Hr]. exists r.
    rewrite <-app_assoc in Hr. by apply app_inv_head in Hr.
  Qed.

  Lemma set_of c : lists f ub ms c → is_set c →
    ∃ m s n, m ∈ ms ∧ staged_at f ub m s n ∧ whiteout n = false ∧ supported n = true ∧ c_dest c = m ++ s ∧
      c = Change (m ++ s) (OSet (set_type_of f ub m s)) (source_details f (m ++ s))
            (Some (details_of (upper_dir ub m ++ s) n)) None.
  Proof.
    intros (m & s & n & Hm & Hs & [H|[H|H]]) [t Ht].
    - destruct H as (_ & q & k & _ & _ & ->). done.
    - destruct H as (Hw & Hsu & ->). exists m, s, n. done.
    - destruct H as (_ & _ & ->). done.
  Qed.

  Lemma remove_of c q : lists f ub ms c → removes c q →
    ∃ m s n k, m ∈ ms ∧ staged_at f ub m s n ∧ removal_root f m s n ∧ under (m ++ s) q = true ∧
      f !! q = Some k ∧ c_dest c = q ∧
      c = Change q ORemove (Some (details_of q k))
          (if decide (q = m ++ s) then Some (details_of (upper_dir ub m ++ s) n) else None) None.
  Proof.
    intros (m & s & n & Hm & Hs & [H|[H|H]]) (Hop & d & Hd & ->).
    - destruct H as (Hr & q & k & Hu & Hk & ->). cbn in Hd. injection Hd as <-.
      exists m, s, n, k. done.
    - destruct H as (_ & _ & ->). done.
    - destruct H as (_ & _ & ->). done.
  Qed.

  Lemma staged_of c st : lists f ub ms c → c_staged c = Some st →
    ∃ m s n, m ∈ ms ∧ staged_at f ub m s n ∧ st = details_of (upper_dir ub m ++ s) n ∧
      (c_op c = ORemove ∧ c_dest c = m ++ s ∧ removal_root f m s n ∨ 
       is_set c ∧ lists_set f ub m s n c ∨ lists_error f ub m s n c).
  Proof.
    intros (m & s & n & Hm & Hs & [H|[H|H]]) Hst'; exists m, s, n.
    - destruct H as (Hr & q & k & Hu & Hk & ->). simpl in Hst'. case_decide; [|done]. injection Hst' as <-.
      subst q. auto 10.
    - pose proof H as (_ & _ & ->). injection Hst' as <-. repeat (split; [done|]). right. left. split; [|done].
      by eexists.
    - pose proof H as (_ & _ & ->). injection Hst' as <-. auto 10.
  Qed.

  Lemma removal_hides m s n : m ∈ ms → staged_at f ub m s n → removal_root f m s n → hides n = true.
  Proof.
    intros Hm Hs (k & Hk & H). unfold hides. destruct H as [->|[->|[-> _]]]; by rewrite ?orb_true_r.
  Qed.

  Lemma dest_comps m s n : m ∈ ms → staged_at f ub m s n → Forall comp_ok (m ++ s).
  Proof.
    intros Hm [_ Hn]. apply Forall_app. split; [by eapply mount_comps|].
    apply (wf_comps f _ _ Hwf) in Hn. by apply Forall_app in Hn as [_ Hn].
  Qed.

  (** The last component of an installed path exists somewhere. *)
  Lemma dest_last m s n : staged_at f ub m s n → ∃ q c, m ++ s = q ++ [c] ∧ ∃ p, is_Some (f !! (p ++ [c])).
  Proof.
    intros [Hne Hn]. destruct (path_snoc_case s) as [->|(s' & c & ->)]; [done|].
    exists (m ++ s'), c. split; [by rewrite app_assoc|]. exists (upper_dir ub m ++ s').
    rewrite <-app_assoc. by eexists.
  Qed.

  Lemma tmp_not_existing i p c q : is_Some (f !! (p ++ [c])) → q ++ [file_stem c +:+ "." +:+ e_uuid e 3 i] ≠ p ++ [c].
  Proof.
    intros Hs E. apply app_inj_tail in E as [_ E].
    pose proof (fu_new e f Hfu i p c Hs) as Hf.
    assert (ends_with ("." +:+ e_uuid e 3 i) c = true); [|congruence].
    apply ends_with_spec. by exists (file_stem c).
  Qed.
  Lemma fresh_last i p c a x : is_Some (f !! (p ++ [c])) → x ++ [a +:+ "." +:+ e_uuid e 3 i] ≠ p ++ [c].
  Proof.
    intros Hs E. apply app_inj_tail in E as [_ E].
    pose proof (fu_new e f Hfu i p c Hs) as Hf.
    assert (ends_with ("." +:+ e_uuid e 3 i) c = true); [|congruence].
    apply ends_with_spec. by exists a.
  Qed.

  Theorem listed_plan sel : (∀ c, c ∈ sel → lists f ub ms c) → plan e ub f sel.
  Proof.
    intros Hl.
    (* shape of the temporary name of a set *)
    assert (∀ c p, c ∈ sel → is_tmp e c p → ∃ m s n q x i, m ∈ ms ∧ staged_at f ub m s n ∧
              c_dest c = m ++ s ∧ m ++ s = q ++ [x] ∧ p = q ++ [file_stem x +:+ "." +:+ e_uuid e 3 i] ∧
              comp_ok x) as Htmp.
    { intros c p Hc (Hs & _ & i & ->). apply set_of in Hs as (m & s & n & Hm & Hsa & _ & _ & Hd & _); [|by apply Hl].
      destruct (dest_last m s n Hsa) as (q & x & E & _).
      exists m, s, n, q, x, i. rewrite Hd, E, with_extension_snoc. repeat (split; [done|]).
      pose proof (dest_comps m s n Hm Hsa) as Hco. rewrite E in Hco.
      apply Forall_app in Hco as [_ Hco]. by inversion Hco. }
    assert (∀ c p a, c ∈ sel → is_tmp e c p → strictly_above a p → strictly_above a (c_dest c)) as Habove.
    { intros c p a Hc Ht (y & r & Ea). destruct (Htmp c p Hc Ht) as (m & s & n & q & x & i & _ & _ & -> & -> & -> & _).
      destruct (path_snoc_case r) as [->|(r' & z & ->)].
      - apply app_inj_tail in Ea as [-> _]. exists x, []. done.
      - rewrite app_comm_cons, app_assoc in Ea. apply app_inj_tail in Ea as [-> _].
        exists y, (r' ++ [x]). by rewrite <-app_assoc. }
    split.
    - done.
    - intros c Hc. destruct (Hl c Hc) as (m & s & n & Hm & Hs & [H|[H|H]]).
      + by destruct H as (_ & q & k & _ & _ & ->).
      + by destruct H as (_ & _ & ->).
      + by destruct H as (_ & _ & ->).
    - intros c st Hc Hst'. destruct (staged_of c st (Hl c Hc) Hst') as (m & s & n & Hm & Hs & -> & _).
      exists n. cbn. split; [apply Hs|]. split; [done|]. unfold upper_dir. rewrite <-app_assoc. apply under_app.
    - (* outside the storage *)
      assert (∀ c, c ∈ sel → is_set c → under ub (c_dest c) = false) as Hd.
      { intros c Hc Hs. apply set_of in Hs as (m & s & n & Hm & Hsa & _ & _ & -> & _); [|by apply Hl].
        apply (ho_storage _ _ _ _ _ _ (sb_host _ _ _ Hok m s n Hm Hsa)). }
      intros c p Hc [[Hr|[Hs ->]]|Ht].
      + destruct (remove_of c p (Hl c Hc) Hr) as (m & s & n & k & Hm & Hsa & Hroot & Hu & Hk & _).
        pose proof (sb_host _ _ _ Hok m s n Hm Hsa) as Hho.
        destruct (under ub p) eqn:Eu; [|done]. exfalso.
        destruct (under_comparable ub (m ++ s) p) as [H|H]; [done|done| |].
        * rewrite (ho_storage _ _ _ _ _ _ Hho) in H. done.
        * rewrite (ho_above_storage _ _ _ _ _ _ Hho) in H; [done|]. by eapply removal_hides.
      + by apply Hd.
      + destruct (Htmp c p Hc Ht) as (m & s & n & q & x & i & Hm & Hsa & Ed & E & -> & Hx).
        specialize (Hd c Hc (proj1 Ht)). rewrite Ed, E in Hd.
        destruct (under ub (q ++ [file_stem x +:+ "." +:+ e_uuid e 3 i])) eqn:Eu; [|done]. exfalso.
        apply under_snoc in Eu as [Eu|Eu].
        * destruct (so_ub _ _ _ Hst) as (d & Hub & _).
          eapply (fresh_last i q _ (file_stem x) q); [|reflexivity]. rewrite <-Eu. by eexists.
        * assert (under ub (q ++ [x]) = true); [|congruence]. eapply under_trans; [exact Eu|apply under_app].
    - intros c p Hc [[Hr|[Hs ->]]|Ht].
      + destruct (remove_of c p (Hl c Hc) Hr) as (m & s & n & k & Hm & Hsa & Hroot & Hu & Hk & _).
        by eapply wf_comps.
      + apply set_of in Hs as (m & s & n & Hm & Hsa & _ & _ & -> & _); [|by apply Hl]. by eapply dest_comps.
      + destruct (Htmp c p Hc Ht) as (m & s & n & q & x & i & Hm & Hsa & Ed & E & -> & Hx).
        pose proof (dest_comps m s n Hm Hsa) as Hco. rewrite E in Hco. apply Forall_app in Hco as [Hco _].
        apply Forall_app. split; [done|]. constructor; [|constructor].
        apply tmp_comp_ok; [done| |]; apply Hfu.
    - assert (∀ c a, c ∈ sel → is_set c → strictly_above a (c_dest c) → not_link f a) as Hd.
      { intros c a Hc Hs (y & r & E). apply set_of in Hs as (m & s & n & Hm & Hsa & _ & _ & Hd & _); [|by apply Hl].
        rewrite Hd in E. by destruct (host_nolink f ub ms Hok m s n Hm Hsa a y r E) as [_ ?]. }
      intros c p a Hc [[Hr|[Hs ->]]|Ht] Ha.
      + destruct (remove_of c p (Hl c Hc) Hr) as (m & s & n & k & Hm & Hsa & Hroot & Hu & Hk & _).
        destruct Ha as (y & r & ->). apply wf_prefix in Hk as (d & Hd' & Hk'); [|done|done].
        intros n' Hn'. assert (n' = d) as -> by congruence. by rewrite Hk'.
      + by eapply Hd.
      + eapply Hd; [exact Hc|apply Ht|]. by eapply Habove.
    - intros c p a Hc Ht Ha (c' & Hc' & (Hs' & st' & Hst' & Hl') & Ed').
      assert (is_set c ∧ strictly_above a (c_dest c)) as [Hs Ha'].
      { destruct Ht as [[Hs ->]|Ht]; [done|]. split; [apply Ht|by eapply Habove]. }
      apply set_of in Hs as (m & s & n & Hm & Hsa & _ & _ & Hd & _); [|by apply Hl].
      apply set_of in Hs' as (m' & s' & n' & Hm' & Hsa' & _ & _ & Hd' & Ec'); [|by apply Hl].
      rewrite Ec' in Hst'. cbn in Hst'. injection Hst' as <-. rewrite d_is_symlink_of in Hl'.
      rewrite Hd in Ha'. rewrite Hd' in Ed'. subst a. destruct Ha' as (y & r & E).
      assert (m = m' ∧ ∃ r, s = s' ++ r) as [<- [r' ->]].
      { eapply (hiding_above m m' s s' n n'); try done.
        - unfold hides. destruct (n_kind n'); try done. by rewrite orb_true_r.
        - rewrite E. apply under_app. }
      rewrite <-app_assoc in E. apply app_inv_head, app_inv_head in E as ->.
      destruct (staged_prefix f ub ms Hok m s' y r n Hsa) as (d & Hd1 & Hd2).
      destruct Hsa' as [_ Hsa']. assert (n' = d) as -> by congruence. by rewrite Hd2 in Hl'.
    - intros c p Hc Ht.
      destruct (Htmp c p Hc Ht) as (m & s & n & q & x & i & Hm & Hsa & Ed & E & -> & Hx). split.
      + destruct (f !! _) as [k|] eqn:Ek; [|done]. exfalso.
        eapply (fresh_last i q _ (file_stem x) q); [|reflexivity]. by eexists.
      + intros c' Hc' [Hr|[Hs Ep]].
        * destruct (remove_of c' _ (Hl c' Hc') Hr) as (m' & s' & n' & k & _ & _ & _ & _ & Hk & _).
          eapply (fresh_last i q _ (file_stem x) q); [|reflexivity]. by eexists.
        * apply set_of in Hs as (m' & s' & n' & Hm' & Hsa' & _ & _ & Hd' & _); [|by apply Hl].
          destruct (dest_last m' s' n' Hsa') as (q' & x' & E' & p' & Hp'). rewrite Hd', E' in Ep.
          apply app_inj_tail in Ep as [_ Ep]. rewrite <-Ep in Hp'.
          eapply (fresh_last i p' _ (file_stem x) p'); [exact Hp'|reflexivity].
    - intros c c' Hc Hc' Hs Hs' Ed.
      apply set_of in Hs as (m & s & n & Hm & Hsa & _ & _ & Hd & ->); [|by apply Hl].
      apply set_of in Hs' as (m' & s' & n' & Hm' & Hsa' & _ & _ & Hd' & ->); [|by apply Hl].
      rewrite Hd, Hd' in Ed.
      by destruct (staged_unique m m' s s' n n' Hm Hm' Hsa Hsa' Ed) as (<- & <- & <-).
  Qed.

  (** In particular what any command selects. *)
  Theorem selected_plan inc pats sel : env_ok e → selected e f ub inc pats = Ok sel →
    plan e ub f sel ∧ ∀ c, c ∈ sel → lists f ub ms c.
  Proof.
    intros He H. unfold selected in H. destruct (changes e f ub inc) as [l|] eqn:El; [|done].
    simpl in H. injection H as <-.
    assert (∀ c, c ∈ matching (e_glob e) (e_cwd e) pats l → lists f ub ms c) as Hl.
    { intros c Hc. apply elem_of_list_filter in Hc as [_ Hc]. by eapply changes_sound. }
    split; [|done]. by apply listed_plan.
  Qed.
End plan.
