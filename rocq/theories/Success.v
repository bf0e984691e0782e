(** * Accept succeeds. *)
From Verif Require Export MergedView Unique Order.

Lemma accum_progress {A : Type} (P : list A → fs → Prop) (g : A → M (nat * list path)) (l : list A) (s : fs) :
  (∀ pre x post t, l = pre ++ x :: post → P pre t →
     ∃ r, o_res (g x t) = Ok r ∧ P (pre ++ [x]) (o_fs (g x t))) →
  P [] s → ∃ r, o_res (accum l g s) = Ok r ∧ P l (o_fs (accum l g s)).
Proof.
  intros Hstep.
  enough (∀ post pre t, l = pre ++ post → P pre t →
            ∃ r, o_res (accum post g t) = Ok r ∧ P l (o_fs (accum post g t))) as H.
  { intros Hs. by apply (H l []). }
  induction post as [|x post IH]; intros pre t E Ht.
  - rewrite app_nil_r in E. subst pre. by exists (0, []).
  - destruct (Hstep pre x post t E Ht) as (r & Hr & Ht').
    destruct (IH (pre ++ [x]) _ ltac:(by rewrite <-app_assoc) Ht') as (r' & Hr' & Hl).
    cbn [accum]. rewrite (bind_ok _ _ _ r) by done. rewrite (bind_ok _ _ _ r') by done.
    cbn [o_res o_fs ret_]. eauto.
Qed.
Lemma for_progress {A : Type} (P : list A → fs → Prop) (g : A → M unit) (l : list A) (s : fs) :
  (∀ pre x post t, l = pre ++ x :: post → P pre t →
     o_res (g x t) = Ok tt ∧ P (pre ++ [x]) (o_fs (g x t))) →
  P [] s → o_res (for_ l g s) = Ok tt ∧ P l (o_fs (for_ l g s)).
Proof.
  intros Hstep.
  enough (∀ post pre t, l = pre ++ post → P pre t →
            o_res (for_ post g t) = Ok tt ∧ P l (o_fs (for_ post g t))) as H.
  { intros Hs. by apply (H l []). }
  induction post as [|x post IH]; intros pre t E Ht.
  - rewrite app_nil_r in E. by subst pre.
  - destruct (Hstep pre x post t E Ht) as (Hr & Ht').
    destruct (IH (pre ++ [x]) _ ltac:(by rewrite <-app_assoc) Ht') as (Hr' & Hl).
    cbn [for_]. rewrite (bind_ok _ _ _ tt) by done. cbn [o_res o_fs]. done.
Qed.

Lemma siblings (a : path) x y : x ≠ y → under (a ++ [x]) (a ++ [y]) = false.
Proof.
  intros Hne. destruct (under (a ++ [x]) (a ++ [y])) eqn:E; [|done]. exfalso.
  apply under_spec in E as [r E]. rewrite <-app_assoc in E. apply app_inv_head in E.
  simpl in E. congruence.
Qed.

(** Conditions under which a selection can be carried out. *)
Record ready (f : fs) (ub : path) (ms : list path) (sel : list change) : Prop := {
  rd_listed : ∀ c, c ∈ sel → lists f ub ms c;
  rd_nodup : NoDup sel;
  rd_removes : ∀ c c' q q', c ∈ sel → removes c q → lists f ub ms c' → removes c' q' →
    under q q' = true → c' ∈ sel;
  rd_same : ∀ c c', c ∈ sel → lists f ub ms c' → c_dest c' = c_dest c → c' ∈ sel;
  rd_parent : ∀ c c', c ∈ sel → is_set c → lists f ub ms c' → is_set c' →
    strictly_above (c_dest c') (c_dest c) → c' ∈ sel ∨ is_dir_at f (c_dest c');
  rd_noerror : ∀ c er, c ∈ sel → c_op c ≠ OError er;
  rd_special : ∀ c q k, c ∈ sel → removes c q → f !! q = Some k → supported k = true;
  rd_dev : ∀ c a x k d, c ∈ sel → removes c (a ++ [x]) → f !! (a ++ [x]) = Some k →
    f !! a = Some d → n_dev d = n_dev k;
}.

Section success.
  Context (f : fs) (ub : path) (ms : list path) (Hok : sandbox_ok f ub ms).
  Context (e : env) (He : env_ok e) (Hfu : fresh_uuids e f).
  Context (Hnn : no_nested f ub ms).
  Context (dev : N) (Hdev : one_device f ub dev).
  Context (sel : list change) (Hrd : ready f ub ms sel).

  Let Hst : storage_ok f ub ms := sb_storage _ _ _ Hok.
  Let Hwf : wf_tree f := so_wf _ _ _ Hst.
  Let Hl := rd_listed _ _ _ _ Hrd.
  Let Hplan : plan e ub f sel := listed_plan f ub ms Hok e Hfu sel Hl.

  (** ** Phase 1 *)
  Lemma remove_progress l pre c post s : l ≡ₚ sel → StronglySorted (cmp_le by_reverse_source) l →
    l = pre ++ c :: post → after_removes e f sel pre s →
    ∃ r, o_res (accept_remove false c s) = Ok r.
  Proof.
    intros HP Hsort El [Hi Hs].
    assert (c ∈ sel) as Hc by (rewrite <-HP, El; set_solver).
    assert (NoDup l) as HND by (rewrite HP; apply Hrd).
    assert (c ∉ pre) as Hnc.
    { rewrite El in HND. apply NoDup_app in HND as (_ & H & _). intros Hin. apply (H c Hin). left. }
    assert (∀ c', c' ∈ pre → c' ∈ sel) as Hpre by (intros c' Hc'; rewrite <-HP, El; set_solver).
    unfold accept_remove. destruct (c_op c) eqn:Eop; try by eexists.
    destruct (c_source c) as [d|] eqn:Ed.
    2: { destruct (Hl c Hc) as (m & s0 & n & _ & _ & [(_ & q & k & _ & _ & ->)|[(_ & _ & ->)|(_ & _ & ->)]]); done. }
    assert (removes c (d_path d)) as Hr by (split; [done|]; by exists d).
    destruct (remove_of f ub ms c (d_path d) (Hl c Hc) Hr)
      as (m & s0 & n & k & Hm & Hsa & Hroot & Hu & Hk & Edst & Ec).
    assert (d = details_of (d_path d) k) as Edd.
    { rewrite Ec in Ed. cbn [c_source] in Ed. congruence. }
    set (q := d_path d) in *.
    assert (s !! q = Some k) as Hsq.
    { destruct (Hs q) as [[-> _]|[_ (c' & Hc' & Hr')]]; [done|]. exfalso. apply Hnc.
      assert (c = c') as ->; [|done]. eapply (removes_unique f ub ms Hok Hnn c c' q); [by apply Hl|by apply Hl, Hpre|done|done]. }
    assert (dirpath s q) as Hdp by (eapply wf_dirpath; [apply Hi|done]).
    assert (q ≠ []) as Hq0.
    { intros E. rewrite E in Hu. apply under_spec in Hu as [r Hr']. symmetry in Hr'.
      apply app_eq_nil in Hr' as [Hr' _]. apply app_eq_nil in Hr' as [_ Hr']. by destruct Hsa. }
    pose proof (rd_special _ _ _ _ Hrd c q k Hc Hr Hk) as Hsup.
    assert (∃ s', (if d_is_file d || d_is_symlink d then sys_unlink q
                   else if d_is_dir d then sys_rmdir q
                   else throw (EApp "cowardly refusing to remove special file")) s = emit s') as [s' Hs'].
    { rewrite Edd, d_is_file_of, d_is_symlink_of, d_is_dir_of.
      destruct (is_kdir (n_kind k)) eqn:Ekd.
      - apply is_kdir_true in Ekd. rewrite Ekd. simpl. eexists. eapply rmdir_ok; try done.
        + destruct (path_snoc_case q) as [E|(a & x & E)]; [done|]. rewrite E, removelast_snoc in *.
          destruct (wf_parent f Hwf a x k Hk) as (da & Hda & Hdk).
          unfold dev_of. destruct (Hs a) as [[-> _]|[_ (c' & Hc' & Hr')]].
          * rewrite Hda. simpl. f_equal. by eapply (rd_dev _ _ _ _ Hrd).
          * exfalso. apply (sorted_pre _ _ _ _ _ _ Hsort El) in Hc'. apply Hc'. unfold by_reverse_source.
            destruct Hr' as (_ & d' & Hd' & Ea). rewrite Hd', Ed, <-Ea. fold q. rewrite E.
            apply path_cmp_above.
        + apply below_nil. intros r Hr0. destruct (s !! (q ++ r)) as [k'|] eqn:Ek'; [|done]. exfalso.
          destruct (Hs (q ++ r)) as [[E1 E2]|[E1 _]]; [|congruence].
          assert (f !! (q ++ r) = Some k') as Hk' by congruence.
          set (c' := Change (q ++ r) ORemove (Some (details_of (q ++ r) k'))
            (if decide (q ++ r = m ++ s0) then Some (details_of (upper_dir ub m ++ s0) n) else None) None).
          assert (lists f ub ms c') as Hl'.
          { exists m, s0, n. split; [done|]. split; [done|]. left. split; [done|].
            exists (q ++ r), k'. split; [|done]. eapply under_trans; [exact Hu|apply under_app]. }
          assert (removes c' (q ++ r)) as Hr' by (split; [done|]; by eexists).
          assert (c' ∈ sel) as Hin by (eapply (rd_removes _ _ _ _ Hrd c c' q (q ++ r)); try done; apply under_app).
          apply (E2 c'); [|done].
          eapply (sorted_before by_reverse_source l pre post c c'); try done.
          * by rewrite HP.
          * intros E. apply (f_equal c_dest) in E. rewrite Edst in E. cbn in E.
            by apply snoc_ne_self in E.
          * unfold by_reverse_source. rewrite Ed. cbn. fold q. destruct r as [|x r]; [done|]. apply path_cmp_above.
      - eexists. assert (is_kfile (n_kind k) || is_klink (n_kind k) = true) as ->.
        { unfold supported in Hsup. by destruct (n_kind k). }
        eapply unlink_ok; try done. intros E. by rewrite E in Ekd. }
    eexists. rewrite (bind_ok _ _ _ tt) by (cbv beta iota; by rewrite Hs'). done.
  Qed.

  Lemma removes_succeed l : l ≡ₚ sel → StronglySorted (cmp_le by_reverse_source) l →
    ∃ r, o_res (accum l (accept_remove false) f) = Ok r.
  Proof.
    intros HP Hsort.
    destruct (accum_progress (after_removes e f sel) (accept_remove false) l f) as (r & Hr & _); [| |by exists r].
    - intros pre c post s El Hs. destruct (remove_progress l pre c post s HP Hsort El Hs) as [r Hr].
      exists r. split; [done|].
      assert (c ∈ sel) as Hc by (rewrite <-HP, El; set_solver).
      destruct (remove_step e ub f sel Hplan pre c Hc s Hs) as (_ & _ & H). by apply (H r).
    - split; [by eapply inv_init|]. intros q. left. split; [done|]. intros c Hc. set_solver.
  Qed.

  (** ** Phase 3 *)
  Lemma set_eq_dec (pre : list change) p : (∃ c, c ∈ pre ∧ is_set c ∧ c_dest c = p) ∨
    (∀ c, c ∈ pre → is_set c → p ≠ c_dest c).
  Proof.
    induction pre as [|c pre IH].
    - right. intros c Hc. by apply elem_of_nil in Hc.
    - destruct IH as [(c' & H1 & H2)|IH]; [left; exists c'; split; [by right|done]|].
      destruct (decide (p = c_dest c)) as [E|Hne].
      + destruct (c_op c) as [t| | |er] eqn:Eo.
        1: { left. exists c. split; [left|]. split; [by exists t|done]. }
        all: right; intros c' Hc' [t Ht]; apply elem_of_cons in Hc' as [->|Hc'];
             [congruence|apply IH; [done|by exists t]].
      + right. intros c' Hc' Hs. apply elem_of_cons in Hc' as [->|Hc']; [done|by apply IH].
  Qed.

  Section set.
    Context (s1 : fs) (Hi1 : inv e f sel s1).
    Context (Hs1 : ∀ q, (s1 !! q = f !! q ∧ ¬ removed sel q) ∨ (s1 !! q = None ∧ removed sel q)).
    Context (l : list change) (HP : l ≡ₚ sel) (Hsort : StronglySorted (cmp_le by_destination) l).

    Lemma parent_dir pre c post s m s0 x n : l = pre ++ c :: post → after_sets e f sel s1 pre s → is_set c →
      m ∈ ms → staged_at f ub m (s0 ++ [x]) n → c_dest c = m ++ s0 ++ [x] → is_dir_at s (m ++ s0).
    Proof.
      intros El (Hi & Hset & Hrest) Hsc Hm Hsa Ed.
      assert (c ∈ sel) as Hc by (rewrite <-HP, El; set_solver).
      assert (∀ c', c' ∈ pre → c' ∈ sel) as Hpre by (intros c' Hc'; rewrite <-HP, El; set_solver).
      destruct (set_eq_dec pre (m ++ s0)) as [(c' & Hc' & Hsc' & Ed')|Hno].
      - destruct (Hset c' Hc' Hsc') as (st & nst & n' & E1 & E2 & E3 & Esame & _).
        rewrite Ed' in E3. exists n'. split; [done|].
        destruct (set_of f ub ms c' (Hl c' (Hpre c' Hc')) Hsc')
          as (m' & s' & n2 & Hm' & Hsa' & _ & _ & Ed2 & Ec').
        rewrite Ec' in E1. cbn in E1. injection E1 as <-. cbn in E2.
        assert (n2 = nst) as <-.
        { destruct Hsa' as [_ H]. congruence. }
        destruct Esame as (<- & _). rewrite Ed' in Ed2.
        destruct s0 as [|y s0].
        + rewrite app_nil_r in Ed2.
          pose proof (ho_above_mount _ _ _ _ _ _ (sb_host _ _ _ Hok m' s' n2 Hm' Hsa') m Hm) as Hh.
          rewrite <-Ed2 in Hh. specialize (Hh (under_refl m)). unfold hides in Hh.
          rewrite !orb_false_iff, negb_false_iff in Hh. apply is_kdir_true, Hh.
        + destruct (staged_prefix_at f ub ms Hok m (y :: s0) x [] n Hsa ltac:(done)) as (d & Hd & Hdk).
          by destruct (staged_unique f ub ms Hok m m' (y :: s0) s' d n2 Hm Hm' Hd Hsa' Ed2) as (_ & _ & <-).
      - unfold is_dir_at. rewrite (Hrest _ Hno).
        assert (is_dir_at f (m ++ s0) ∧ ¬ removed sel (m ++ s0)) as [(d & Hd & Hdk) Hnr].
        { destruct s0 as [|y s0].
          - rewrite app_nil_r. split; [apply (so_mount _ _ _ Hst m Hm)|].
            intros (c' & Hc' & Hr'). apply Hl in Hc'.
            destruct (remove_of f ub ms c' m Hc' Hr') as (m' & s' & n' & k & Hm' & Hsa' & Hroot & Hu & _).
            pose proof (ho_above_mount _ _ _ _ _ _ (sb_host _ _ _ Hok m' s' n' Hm' Hsa') m Hm Hu) as Hh.
            rewrite (removal_hides f ub ms m' s' n' Hm' Hsa' Hroot) in Hh. done.
          - destruct (staged_prefix_at f ub ms Hok m (y :: s0) x [] n Hsa ltac:(done)) as (d & Hd & Hdk).
            set (c' := Change (m ++ y :: s0) (OSet (set_type_of f ub m (y :: s0))) (source_details f (m ++ y :: s0))
                         (Some (details_of (upper_dir ub m ++ y :: s0) d)) None).
            assert (lists f ub ms c') as Hl'.
            { exists m, (y :: s0), d. split; [done|]. split; [done|]. right. left.
              split; [by apply whiteout_dir|]. split; [|done]. unfold supported. by rewrite Hdk. }
            assert (is_set c') as Hsc' by (by eexists).
            assert (c' ∈ sel → False) as Hnin.
            { intros Hin. apply (Hno c'); [|done|done].
              eapply (sorted_before by_destination l pre post c c'); try done.
              - by rewrite HP.
              - intros E. apply (f_equal c_dest) in E. rewrite Ed in E. unfold c' in E. cbn [c_dest] in E. rewrite app_assoc in E.
                symmetry in E. by apply snoc_ne_self in E.
              - unfold by_destination. rewrite Ed. cbn [c_dest c']. rewrite app_assoc. apply path_cmp_above. }
            split.
            + destruct (rd_parent _ _ _ _ Hrd c c' Hc Hsc Hl' Hsc') as [H|H]; [|done|done].
              exists x, []. rewrite Ed. cbn. by rewrite <-app_assoc.
            + intros (c2 & Hc2 & Hr2). apply Hnin. eapply (rd_same _ _ _ _ Hrd c2 c' Hc2 Hl').
              destruct (remove_of f ub ms c2 _ (Hl c2 Hc2) Hr2) as (m2 & s2 & n2 & k2 & _ & _ & _ & _ & _ & E & _).
              by rewrite E. }
        exists d. split; [|done]. destruct (Hs1 (m ++ s0)) as [[-> _]|[_ H]]; [done|]. done.
    Qed.

    Lemma set_progress pre i c post s : l = pre ++ c :: post → after_sets e f sel s1 pre s →
      ∃ r, o_res (accept_set e 2 false (i, c) s) = Ok r.
    Proof.
      intros El Ha. pose proof Ha as (Hi & Hset & Hrest).
      assert (c ∈ sel) as Hc by (rewrite <-HP, El; set_solver).
      assert (∀ c', c' ∈ pre → c' ∈ sel) as Hpre by (intros c' Hc'; rewrite <-HP, El; set_solver).
      assert (NoDup l) as HND by (rewrite HP; apply Hrd).
      assert (c ∉ pre) as Hnc.
      { rewrite El in HND. apply NoDup_app in HND as (_ & H & _). intros Hin. apply (H c Hin). left. }
      unfold accept_set. destruct (c_op c) as [ty| | |er] eqn:Eop.
      2: by eexists.
      2: by apply (pl_norename _ _ _ _ Hplan) in Eop.
      2: by apply (rd_noerror _ _ _ _ Hrd) in Eop.
      assert (is_set c) as Hsc by (by exists ty).
      destruct (set_of f ub ms c (Hl c Hc) Hsc) as (m & s' & n & Hm & Hsa & Hw & Hsup & Ed & Ec).
      assert (c_staged c = Some (details_of (upper_dir ub m ++ s') n)) as Est by (by rewrite Ec).
      rewrite Est. rewrite d_is_file_of, d_is_symlink_of, d_is_dir_of.
      set (st := details_of (upper_dir ub m ++ s') n) in *.
      (* the state around the destination *)
      destruct (path_snoc_case s') as [->|(s0 & x & Es)]; [by destruct Hsa|].
      assert (is_dir_at s (m ++ s0)) as Hpar.
      { subst s'. eapply parent_dir; try done. }
      assert (comp_ok x) as Hx.
      { pose proof (dest_comps f ub ms Hok m s' n Hm Hsa) as H. subst s'. rewrite app_assoc in H.
        apply Forall_app in H as [_ H]. by inversion H. }
      assert (c_dest c = (m ++ s0) ++ [x]) as Ed2 by (rewrite Ed; subst s'; by rewrite app_assoc).
      assert (dirpath s (c_dest c)) as Hdp.
      { rewrite Ed2. apply dirpath_snoc; [apply Hi|done|done]. }
      assert (∀ c', c' ∈ pre → is_set c' → c_dest c ≠ c_dest c') as Hno.
      { intros c' Hc' Hsc' E. apply Hnc. rewrite (pl_unique _ _ _ _ Hplan c c'); try done. by apply Hpre. }
      assert (∀ k, s !! c_dest c = Some k → f !! (m ++ s') = Some k ∧ ¬ removed sel (m ++ s')) as Hold.
      { intros k Hk. rewrite (Hrest _ Hno) in Hk. rewrite Ed in Hk.
        destruct (Hs1 (m ++ s')) as [[E ?]|[E _]]; [|congruence]. rewrite <-E. done. }
      assert (∀ k, s !! c_dest c = Some k → ¬ removal_root f m s' n) as Hnroot.
      { intros k Hk Hroot. destruct (Hold k Hk) as [Hfk Hnr]. apply Hnr.
        set (c' := Change (m ++ s') ORemove (Some (details_of (m ++ s') k))
            (if decide (m ++ s' = m ++ s') then Some (details_of (upper_dir ub m ++ s') n) else None) None).
        exists c'. split.
        - eapply (rd_same _ _ _ _ Hrd c c' Hc); [|by rewrite Ed].
          exists m, s', n. split; [done|]. split; [done|]. left. split; [done|].
          exists (m ++ s'), k. split; [apply under_refl|]. done.
        - split; [done|]. by eexists. }
      destruct (staged_kept e ub f sel Hplan s c st Hi Hc Est) as (nst & Hns & Hns0 & _ & _).
      assert (nst = n) as -> by (destruct Hsa as [_ H]; cbn in Hns0; congruence).
      (* last step *)
      assert (∀ t k (v : nat), dirpath t (c_dest c) → t !! c_dest c = Some k →
                (is_klink (n_kind k) = true → is_klink (n_kind n) = true) →
                ∃ r, o_res ((set_permissions (c_dest c) st ;;; ret_ (v, [d_path st])) t) = Ok r) as Hperm.
      { intros t k v Hd Hk Hlk. unfold set_permissions.
        assert (∃ t', (sys_lchown (c_dest c) (d_uid st) (d_gid st);;;
             (if (N.land (d_mode st) S_IFMT =? S_IFLNK)%N then ret_ tt else sys_lchmod (c_dest c) (d_mode st))) t
             = t' ∧ o_res t' = Ok tt) as (t' & Et & Hr).
        { eexists. split; [reflexivity|].
          rewrite (bind_ok _ _ _ tt) by (by rewrite (lchown_ok t _ k)). cbn [o_res].
          destruct (N.land (d_mode st) S_IFMT =? S_IFLNK)%N eqn:Elk; [done|].
          rewrite (lchown_ok t _ k) by done. cbn [o_fs emit].
          erewrite lchmod_ok; [done| |by rewrite lookup_insert|].
          - intros q y r E. destruct (Hd q y r E) as [(d & Hdq & Hdk) Hy]. split; [|done].
            exists d. split; [|done]. rewrite lookup_insert_ne; [done|]. rewrite E. by apply snoc_ne_self.
          - cbn. destruct (is_klink (n_kind k)) eqn:E; [|done]. exfalso.
            unfold st in Elk. cbn in Elk. rewrite mode_type in Elk. specialize (Hlk eq_refl).
            by destruct (n_kind n). }
        eexists. rewrite (bind_ok _ _ _ tt) by (by rewrite Et). done. }
      assert (∀ k, dirpath (<[c_dest c := k]> s) (c_dest c)) as Hdp_ins.
      { intros k q y r E. destruct (Hdp q y r E) as [(d & Hdq & Hdk) Hy]. split; [|done].
        exists d. split; [|done]. rewrite lookup_insert_ne; [done|]. rewrite E. by apply snoc_ne_self. }
      destruct (n_kind n) as [content| |tg| | | |] eqn:Ekn; cbn [is_kfile is_kdir is_klink]; try by (unfold supported in Hsup; rewrite Ekn in Hsup).
      - (* regular file *)
        set (tmp := with_extension (c_dest c) (e_uuid e 3 i)).
        assert (is_tmp e c tmp) as Htmp.
        { split; [done|]. split; [|by exists i]. exists st. split; [done|]. unfold st.
          by rewrite d_is_file_of, Ekn. }
        destruct (pl_tmp _ _ _ _ Hplan c tmp Hc Htmp) as [Htn Hnot].
        assert (tmp = (m ++ s0) ++ [file_stem x +:+ "." +:+ e_uuid e 3 i]) as Etmp.
        { unfold tmp. by rewrite Ed2, with_extension_snoc. }
        assert (dirpath s tmp) as Hdt.
        { rewrite Etmp. apply dirpath_snoc; [apply Hi|done|]. apply tmp_comp_ok; [done| |]; apply Hfu. }
        assert (s !! tmp = None) as Hstn.
        { rewrite Hrest.
          - destruct (Hs1 tmp) as [[-> _]|[-> _]]; done.
          - intros c' Hc' Hs' E. apply (Hnot c' (Hpre c' Hc')). by right. }
        assert (tmp ≠ c_dest c) as Hne by (intros E; apply (Hnot c Hc); rewrite E; by right).
        assert (stat s (d_path st) = Ok n) as Hstat.
        { apply stat_dom; [apply Hi|done|]. by rewrite Ekn. }
        pose proof (copy_ok (e_umask e) s (d_path st) tmp n content Hdt Hstn Hstat Ekn) as Hcopy.
        rewrite (bind_ok _ _ _ tt) by (by rewrite Hcopy). rewrite Hcopy. cbn [o_res o_fs o_trace].
        set (nf := copy_final (e_umask e) s n content tmp).
        assert (nf = Node (KFile content) (n_perm n) 0 0 (parent_dev s tmp) ∅) as Enf.
        { unfold nf, copy_final, copy_base. by rewrite Hstn. }
        assert (n_kind nf = KFile content) as Hnfk by (by rewrite Enf).
        assert (n_dev nf = parent_dev s tmp) as Hnfd by (by rewrite Enf).
        assert (below (<[tmp := nf]> s) tmp = []) as Hbt.
        { apply below_nil. intros r Hr. rewrite lookup_insert_ne by (intros E; symmetry in E; by apply snoc_ne_self in E).
          pose proof (wf_none_below s tmp (inv_wf _ _ _ _ Hi) Hstn) as Hb. rewrite below_nil in Hb. by apply Hb. }
        assert (∀ p, dirpath s p → (∀ q y r, p = q ++ y :: r → q ≠ tmp) → dirpath (<[tmp := nf]> s) p) as Hdpt.
        { intros p Hd Hp q y r E. destruct (Hd q y r E) as [(d & Hdq & Hdk) Hy]. split; [|done].
          exists d. split; [|done]. rewrite lookup_insert_ne; [done|]. intros E'. by apply (Hp q y r E). }
        assert (under tmp (c_dest c) = false ∧ under (c_dest c) tmp = false) as [U1 U2].
        { rewrite Ed2, Etmp in *. split; apply siblings; congruence. }
        assert (removelast tmp = m ++ s0) as Ert by (rewrite Etmp; by rewrite removelast_snoc).
        assert (removelast (c_dest c) = m ++ s0) as Erd by (rewrite Ed2; by rewrite removelast_snoc).
        assert (m ++ s0 ≠ tmp) as Hpt.
        { rewrite Etmp. intros E. symmetry in E. by apply snoc_ne_self in E. }
        assert (∀ p, removelast p = m ++ s0 → parent_dev (<[tmp := nf]> s) p = parent_dev s p) as Hpd.
        { intros p Hp. unfold parent_dev. by rewrite Hp, lookup_insert_ne. }
        assert (sys_rename tmp (c_dest c) (<[tmp := nf]> s) = emit (moved (<[tmp := nf]> s) tmp (c_dest c))) as Hren.
        { apply (rename_ok _ _ _ nf); try done.
          - apply Hdpt; [done|]. intros q y r E E'. rewrite E' in E. symmetry in E. by apply snoc_ne_self in E.
          - apply Hdpt; [done|]. intros q y r E E'. rewrite E' in E.
            assert (under tmp (c_dest c) = true); [rewrite E; apply under_app|congruence].
          - by rewrite lookup_insert.
          - rewrite !Hpd by done. unfold parent_dev. by rewrite Ert, Erd.
          - by rewrite Hpd, Hnfd.
          - rewrite lookup_insert_ne by done. destruct (s !! c_dest c) as [k|] eqn:Ek; [|done].
            rewrite Hnfk. split; [done|]. destruct (is_kdir (n_kind k)) eqn:Ekd; [|done]. exfalso.
            apply (Hnroot k eq_refl). destruct (Hold k eq_refl) as [Hfk _]. exists k. split; [done|].
            right. right. rewrite Ekn. split; [done|]. by apply is_kdir_true. }
        rewrite (bind_ok _ _ _ tt) by (by rewrite Hren). rewrite Hren. cbn [o_res o_fs o_trace emit].
        apply (Hperm _ nf).
        + assert (∀ q, under tmp q = false → under (c_dest c) q = false →
             moved (<[tmp := nf]> s) tmp (c_dest c) !! q = s !! q) as Hmv.
          { intros q H1 H2. rewrite lookup_moved by done. apply path_strip_None in H2. rewrite H2, H1.
            rewrite lookup_insert_ne; [done|]. intros ->. by rewrite under_refl in H1. }
          intros q y r E. destruct (Hdp q y r E) as [(d & Hdq & Hdk) Hy]. split; [|done].
          exists d. split; [|done]. rewrite Hmv; [done| |].
          * destruct (under tmp q) eqn:E'; [|done].
            assert (under tmp (c_dest c) = true); [|congruence]. eapply under_trans; [exact E'|]. rewrite E. apply under_app.
          * destruct (under (c_dest c) q) eqn:E'; [|done]. apply under_spec in E' as [r' ->].
            rewrite <-app_assoc in E. symmetry in E. apply snoc_ne_self in E; [done|]. by destruct r'.
        + rewrite lookup_moved by done. rewrite <-(app_nil_r (c_dest c)) at 2. rewrite path_strip_app.
          by rewrite app_nil_r, lookup_insert.
        + by rewrite Hnfk.
      - (* directory *)
        rewrite (bind_get_ok _ _ s (exists_ s (c_dest c) && is_dir s (c_dest c))) by done.
        destruct (s !! c_dest c) as [k|] eqn:Ek.
        + assert (n_kind k = KDir) as Hkd.
          { destruct (Hold k eq_refl) as [Hfk Hnr].
            destruct (ho_merged _ _ _ _ _ _ (sb_host _ _ _ Hok m s' n Hm Hsa) k) as [?|(sa & ra & na & Ea & Hra & Hsaa & Hoa)]; [done| |done|done|].
            { destruct (opaque n) eqn:Eo; [|done]. exfalso. apply (Hnroot k eq_refl). exists k. auto. }
            exfalso. apply Hnr.
            set (c' := Change (m ++ s') ORemove (Some (details_of (m ++ s') k))
              (if decide (m ++ s' = m ++ sa) then Some (details_of (upper_dir ub m ++ sa) na) else None) None).
            exists c'. split; [|split; [done|]; by eexists].
            eapply (rd_same _ _ _ _ Hrd c c' Hc); [|by rewrite Ed].
            exists m, sa, na. split; [done|]. split; [done|]. left. split.
            - assert (is_dir_at f (m ++ sa)) as (ka & Hka & _); [|exists ka; auto].
              rewrite Ea, app_assoc in Hfk. destruct ra as [|ya ra]; [done|]. by apply wf_prefix in Hfk.
            - exists (m ++ s'), k. split; [|done]. rewrite Ea, app_assoc. apply under_app. }
          assert (exists_ s (c_dest c) && is_dir s (c_dest c) = true) as ->.
          { unfold exists_, is_dir. rewrite (stat_dom s _ k); [|apply Hi|done|by rewrite Hkd]. simpl. by rewrite Hkd. }
          rewrite (bind_ok _ _ _ tt) by done. cbn [o_res o_fs ret_].
          apply (Hperm s k); [done|done|]. by rewrite Hkd.
        + assert (exists_ s (c_dest c) && is_dir s (c_dest c) = false) as ->.
          { unfold exists_. rewrite stat_dirpath; [by rewrite Ek|done|intros k Hk; congruence]. }
          rewrite (bind_ok _ _ _ tt) by (by rewrite mkdir_ok). rewrite mkdir_ok by done. cbn [o_res o_fs emit].
          apply (Hperm _ (new_dir (e_umask e) s (c_dest c))); [apply Hdp_ins|by rewrite lookup_insert|done].
      - (* symlink *)
        rewrite (bind_get_ok _ _ s tg).
        2: { unfold read_link. rewrite (lstat_dom s _ n) by (done || apply Hi). simpl. by rewrite Ekn. }
        assert (∃ t, dirpath t (c_dest c) ∧ t !! c_dest c = None ∧
                 ∀ h : M (nat * list path),
                 o_res ((old <-- get_ (λ f, from_path f (c_dest c)) ;;
                   (match old with Some _ => sys_unlink (c_dest c) | None => ret_ tt end ;;; h)) s) = o_res (h t))
          as (t & Ht1 & Ht2 & Ht3).
        { destruct (s !! c_dest c) as [k|] eqn:Ek.
          - exists (delete (c_dest c) s). split; [|split].
            + intros q y r E. destruct (Hdp q y r E) as [(d & Hdq & Hdk) Hy]. split; [|done].
              exists d. split; [|done]. rewrite lookup_delete_ne; [done|]. rewrite E. by apply snoc_ne_self.
            + apply lookup_delete.
            + intros h. rewrite (bind_get_ok _ _ s (Some (details_of (c_dest c) k))).
              2: { by apply from_path_dom; [apply Hi|]. }
              assert (sys_unlink (c_dest c) s = emit (delete (c_dest c) s)) as Hun.
              { eapply unlink_ok; try done. intros Hkd. apply (Hnroot k eq_refl).
                destruct (Hold k eq_refl) as [Hfk _]. exists k. split; [done|]. right. right. by rewrite Ekn. }
              rewrite (bind_ok _ _ _ tt) by (by rewrite Hun). rewrite Hun. done.
          - exists s. split; [done|]. split; [done|]. intros h. rewrite (bind_get_ok _ _ s None).
            + rewrite (bind_ok _ _ _ tt) by done. done.
            + unfold from_path. rewrite lstat_dirpath, Ek by done. done. }
        rewrite Ht3.
        rewrite (bind_ok _ _ _ tt) by (by rewrite symlink_ok). rewrite symlink_ok by done. cbn [o_res o_fs emit].
        apply (Hperm _ (new_link tg t (c_dest c))).
        + intros q y r E. destruct (Ht1 q y r E) as [(d & Hdq & Hdk) Hy]. split; [|done].
          exists d. split; [|done]. rewrite lookup_insert_ne; [done|]. rewrite E. by apply snoc_ne_self.
        + by rewrite lookup_insert.
        + done.
    Qed.

    Lemma sets_succeed : ∃ r, o_res (accum (imap (λ i c, (i, c)) l) (accept_set e 2 false) s1) = Ok r.
    Proof.
      destruct (accum_progress (λ pre, after_sets e f sel s1 pre.*2) (accept_set e 2 false)
                  (imap (λ i c, (i, c)) l) s1) as (r & Hr & _); [| |by exists r].
      - intros pre [i c] post s El Hs. apply imap_snd_elem in El. simpl in El.
        destruct (set_progress pre.*2 i c post.*2 s El Hs) as [r Hr]. exists r. split; [done|].
        destruct (set_step e ub f sel Hplan s1 pre.*2 i c) with (f := s) as (_ & _ & H); [| | |exact Hs|].
        + rewrite <-HP, El. set_solver.
        + intros c' Hc'. rewrite <-HP, El. set_solver.
        + intros q. destruct (Hs1 q) as [[-> _]|[-> _]]; auto.
        + rewrite fmap_app. by apply (H r).
      - split; [done|]. split; [|done]. intros c Hc. simpl in Hc. set_solver.
    Qed.
  End set.

  (** ** Phase 4 *)
  Lemma clean_succeeds f1 ps : wf_tree f1 → one_device f1 ub dev →
    (∀ p, p ∈ ps → is_Some (f1 !! p) ∧ ∃ r, r ≠ [] ∧ p = ub ++ r) → o_res (clean_up e ps f1) = Ok tt.
  Proof.
    intros Hw1 Hd1 Hps. unfold clean_up.
    assert (StronglySorted (cmp_le desc) (sort_by desc ps)) as Hsort by (apply sort_by_sorted, desc_preorder).
    destruct (dedup_sorted_NoDup (cmp_le desc) (sort_by desc ps)) as [Hsd HND]; [|done|].
    { intros a b. unfold cmp_le, desc. intros H1 H2. destruct path_cmp_total as [E S _].
      destruct (path_cmp a b) eqn:Eab; [by apply E| |done]. rewrite S, Eab in H1. done. }
    assert (∀ p, p ∈ dedup (sort_by desc ps) ↔ p ∈ ps) as Hin.
    { intros p. by rewrite elem_of_dedup, elem_of_sort_by. }
    set (l := dedup (sort_by desc ps)) in *.
    destruct (for_progress (λ pre, cleaned f1 pre pre) (clean_one e) l f1) as [H _]; [| |done].
    - intros pre p post s El Hs. assert (p ∈ ps) as Hp by (rewrite <-Hin, El; set_solver).
      destruct (Hps p Hp) as [[n Hn] (r & Hr & Ep)].
      pose proof Hs as [[Hws Hcl] _].
      assert (s !! p = Some n) as Hsn.
      { destruct (Hcl p) as [->|[_ (p' & Hp' & Hu)]]; [done|]. exfalso.
        pose proof (sorted_pre _ _ _ _ _ _ Hsd El Hp') as Hle. unfold desc in Hle.
        apply under_spec in Hu as [[|y r'] Eq].
        - rewrite app_nil_r in Eq. subst p'. rewrite El in HND. apply NoDup_app in HND as (_ & H & _).
          apply (H p Hp'). left.
        - rewrite Eq in Hle. by rewrite path_cmp_above in Hle. }
      assert (o_res (clean_one e p s) = Ok tt) as Hone.
      { unfold clean_one. rewrite (bind_get_ok _ _ s (negb (is_symlink s p) && is_dir s p)) by done.
        unfold is_symlink. rewrite (lstat_dom s p n) by done.
        destruct (is_kdir (n_kind n)) eqn:Ek.
        - apply is_kdir_true in Ek. unfold is_dir. rewrite (stat_dom s p n) by (done || by rewrite Ek).
          rewrite Ek. cbn [is_klink is_kdir negb andb].
          apply (rmdir_rec_complete _ p s dev n); try done.
          + intros E. rewrite E in Ep. symmetry in Ep. by apply app_eq_nil in Ep as [_ ?].
          + intros q k Hu Hk. destruct (Hcl q) as [E|[E _]]; [|congruence].
            apply (Hd1 q k); [|congruence]. eapply under_trans; [|exact Hu]. rewrite Ep. apply under_app.
          + destruct (path_snoc_case r) as [->|(r' & x & ->)]; [done|]. rewrite app_assoc in Ep.
            unfold parent_dev. rewrite Ep, removelast_snoc. rewrite Ep in Hsn.
            destruct (wf_parent s Hws _ _ _ Hsn) as (d & Hd & _). rewrite Hd.
            destruct (Hcl (ub ++ r')) as [E|[E _]]; [|congruence].
            apply (Hd1 (ub ++ r') d); [apply under_app|congruence].
        - assert (negb (is_klink (n_kind n)) && is_dir s p = false) as ->.
          { destruct (is_klink (n_kind n)) eqn:El'; [done|]. simpl. unfold is_dir.
            by rewrite (stat_dom s p n). }
          erewrite unlink_ok; [done| |exact Hsn|].
          + by eapply wf_dirpath.
          + intros E. by rewrite E in Ek. }
      split; [done|].
      destruct (clean_step e f1 (pre ++ [p]) p pre He) with (f := s) as (_ & _ & H).
      + set_solver.
      + by exists n.
      + done.
      + destruct Hs as [[H1 H2] H3]. split; [|done]. split; [done|]. intros q.
        destruct (H2 q) as [?|[? (p' & ? & ?)]]; [by left|]. right. split; [done|]. exists p'. set_solver.
      + by apply (H tt).
    - split; [|intros p Hp; set_solver]. split; [done|]. by left.
  Qed.

  (** ** The passes *)
  Lemma pretend_succeeds ph : ∃ r, o_res (accept_pass e ph true sel f) = Ok r.
  Proof.
    unfold accept_pass.
    set (l1 := sort_by by_reverse_source sel).
    assert (∀ c, c ∈ sort_by by_reverse_source l1 → c ∈ sel) as Hin2.
    { intros c Hc. unfold l1 in Hc. by rewrite !elem_of_sort_by in Hc. }
    assert (∀ c, c ∈ sort_by by_reverse_source l1 → c_op c ≠ ORename) as Hnr.
    { intros c Hc. by apply (pl_norename _ _ _ _ Hplan), Hin2. }
    rewrite assign_tmp_id by done. set (l2 := sort_by by_reverse_source l1) in *.
    set (l3 := sort_by by_destination l2).
    assert (∀ c s, c ∈ sel → ∃ r, o_res (accept_remove true c s) = Ok r) as H1.
    { intros c s Hc. unfold accept_remove. destruct (c_op c) eqn:Eop; try by eexists.
      destruct (c_source c) as [d|] eqn:Ed.
      2: { destruct (Hl c Hc) as (m & s0 & n & _ & _ & [(_ & q & k & _ & _ & ->)|[(_ & _ & ->)|(_ & _ & ->)]]); done. }
      assert (removes c (d_path d)) as Hr by (split; [done|]; by exists d).
      destruct (remove_of f ub ms c (d_path d) (Hl c Hc) Hr)
        as (m & s0 & n & k & Hm & Hsa & Hroot & Hu & Hk & Edst & Ec).
      assert (d = details_of (d_path d) k) as Edd.
      { rewrite Ec in Ed. cbn [c_source] in Ed. congruence. }
      pose proof (rd_special _ _ _ _ Hrd c _ k Hc Hr Hk) as Hsup.
      rewrite Edd, d_is_file_of, d_is_symlink_of, d_is_dir_of. unfold supported in Hsup.
      destruct (n_kind k); try done; by eexists. }
    assert (∀ i c s, c ∈ sel → ∃ r, o_res (accept_set e ph true (i, c) s) = Ok r) as H3.
    { intros i c s Hc. unfold accept_set. destruct (c_op c) as [ty| | |er] eqn:Eop; try by eexists.
      2: by apply (rd_noerror _ _ _ _ Hrd) in Eop.
      destruct (set_of f ub ms c (Hl c Hc) ltac:(by exists ty)) as (m & s' & n & Hm & Hsa & Hw & Hsup & Ed & Ec).
      rewrite Ec. cbn [c_staged]. rewrite d_is_file_of, d_is_symlink_of, d_is_dir_of. unfold supported in Hsup.
      destruct (n_kind n); try done; by eexists. }
    destruct (accum_progress (λ _ _, True) (accept_remove true) l1 f) as (r1 & Hr1 & _); [|done|].
    { intros pre c post t E _. destruct (H1 c t) as [r Hr]; [|by exists r].
      rewrite <-(elem_of_sort_by by_reverse_source). fold l1. rewrite E. set_solver. }
    rewrite (bind_ok _ _ _ r1) by done. cbn [o_res].
    set (t1 := o_fs (accum l1 (accept_remove true) f)).
    rewrite (bind_ok _ _ _ tt) by (by rewrite premove_skip). rewrite premove_skip by done. cbn [o_res o_fs].
    destruct (accum_progress (λ _ _, True) (accept_set e ph true) (imap (λ i c, (i, c)) l3) t1) as (r3 & Hr3 & _); [|done|].
    { intros pre [i c] post t E _. apply imap_snd_elem in E. destruct (H3 i c t) as [r Hr]; [|by exists r].
      apply Hin2. fold l2. rewrite <-(elem_of_sort_by by_destination). fold l3. rewrite E. simpl. set_solver. }
    rewrite (bind_ok _ _ _ r3) by done. cbn [o_res]. eexists. done.
  Qed.

  Lemma real_succeeds cs' : cs' ≡ₚ sel → ∃ r, o_res (accept_pass e 2 false cs' f) = Ok r.
  Proof.
    intros HP. unfold accept_pass.
    assert (∀ c, c ∈ sort_by by_reverse_source (sort_by by_reverse_source cs') → c_op c ≠ ORename) as Hnr.
    { intros c Hc. apply (pl_norename _ _ _ _ Hplan). rewrite <-HP. by rewrite !elem_of_sort_by in Hc. }
    rewrite assign_tmp_id by done.
    set (l1 := sort_by by_reverse_source cs') in *.
    assert (l1 ≡ₚ sel) as HP1 by (unfold l1; by rewrite sort_by_perm).
    set (l2 := sort_by by_reverse_source l1) in *.
    assert (l2 ≡ₚ sel) as HP2 by (unfold l2; by rewrite sort_by_perm).
    set (l3 := sort_by by_destination l2) in *.
    assert (l3 ≡ₚ sel) as HP3 by (unfold l3; by rewrite sort_by_perm).
    destruct (removes_succeed l1 HP1 ltac:(apply sort_by_sorted, by_reverse_source_preorder)) as [r1 Hr1].
    destruct (removes_pass e ub f sel Hplan l1 HP1 f eq_refl) as (_ & _ & Hq).
    destruct (Hq r1 Hr1) as [Ha1 Er1]. clear Hq.
    rewrite (bind_ok _ _ _ r1) by done. cbn [o_res]. set (s1 := o_fs (accum l1 (accept_remove false) f)) in *.
    rewrite (bind_ok _ _ _ tt) by (by rewrite premove_skip). rewrite premove_skip by done. cbn [o_res o_fs].
    assert (∀ q, (s1 !! q = f !! q ∧ ¬ removed sel q) ∨ (s1 !! q = None ∧ removed sel q)) as Hs1.
    { intros q. destruct Ha1 as [_ H]. destruct (H q) as [[H1 H2]|[H1 (c & H2 & H3)]].
      - left. split; [done|]. intros (c & Hc & Hr). apply (H2 c); [by rewrite HP1|done].
      - right. split; [done|]. exists c. split; [by rewrite <-HP1|done]. }
    destruct (sets_succeed s1 (proj1 Ha1) Hs1 l3 HP3 ltac:(apply sort_by_sorted, by_destination_preorder)) as [r3 Hr3].
    destruct (sets_pass e ub f sel Hplan s1 l3 HP3 (proj1 Ha1)) with (f := s1) as (_ & _ & Hq); [|done|].
    { intros q. destruct (Hs1 q) as [[-> _]|[-> _]]; auto. }
    destruct (Hq r3 Hr3) as [Ha3 Er3]. clear Hq.
    rewrite (bind_ok _ _ _ r3) by done. cbn [o_res].
    set (s2 := o_fs (accum (imap (λ i c, (i, c)) l3) (accept_set e 2 false) s1)) in *.
    pose proof (proj1 Ha3) as Hi2.
    assert (∀ q, under ub q = true → s2 !! q = f !! q) as Hub.
    { intros q Hu. apply (inv_frame _ _ _ _ Hi2). intros (c & Hc & Ht).
      apply (pl_outside _ _ _ _ Hplan c q Hc) in Ht. congruence. }
    assert (o_res (clean_up e (r1.2 ++ r3.2) s2) = Ok tt) as Hcl.
    { apply clean_succeeds.
      - apply Hi2.
      - intros q n Hu Hn. rewrite Hub in Hn by done. by apply (Hdev q n).
      - intros p Hp. rewrite Er1, Er3 in Hp. cbn [snd] in Hp.
        apply (staged_paths_perm sel l1 l3 HP1 HP3) in Hp.
        apply elem_of_staged_paths in Hp as (c & st & Hc & _ & Hst' & ->).
        destruct (staged_kept e ub f sel Hplan s2 c st Hi2 Hc Hst') as (n & Hn & _).
        split; [by exists n|].
        destruct (staged_of f ub ms c st (Hl c Hc) Hst') as (m & s' & n' & _ & _ & -> & _).
        cbn [d_path details_of]. unfold upper_dir. rewrite <-app_assoc.
        eexists. split; [|done]. done. }
    rewrite (bind_ok _ _ _ tt) by done. cbn [o_res]. by eexists.
  Qed.

  Theorem accept_succeeds inc pats : selected e f ub inc pats = Ok sel →
    is_ok (o_res (accept e ub inc pats f)) = true.
  Proof.
    intros Hsel. unfold selected in Hsel.
    destruct (changes e f ub inc) as [all|] eqn:Eall; [|done]. simpl in Hsel.
    assert (matching (e_glob e) (e_cwd e) pats all = sel) as Em by (by injection Hsel).
    unfold accept. rewrite (bind_get_ok _ _ f all) by done. rewrite Em.
    destruct (pretend_succeeds 0) as [r Hr].
    destruct (pure_pretend e 0 sel f) as [_ P2].
    pose proof (pretend_result e 0 sel f r (pl_norename _ _ _ _ Hplan) Hr) as HPr.
    destruct (real_succeeds r.2 HPr) as [r2 Hr2].
    destruct sel as [|c0 sel0] eqn:Esel; [done|]. cbv iota. rewrite <-Esel in *.
    rewrite (bind_ok _ _ _ r) by done. rewrite P2. cbn [o_res].
    by rewrite (bind_ok _ _ _ r2).
  Qed.
End success.
