(** * rmdir_recursive removes only what is at or below its argument, and all of it when it
    succeeds. *)
From Verif Require Export SysFacts Accept.

(** [s] is [f] with some paths at or below [p] removed. *)
Definition shrinks (p : path) (f s : fs) : Prop :=
  wf_tree s ∧ ∀ q, s !! q = f !! q ∨ (s !! q = None ∧ under p q = true).

Lemma shrinks_refl p f : wf_tree f → shrinks p f f.
Proof. split; [done|]. auto. Qed.

Lemma shrinks_trans p q f s t : under p q = true → shrinks p f s → shrinks q s t → shrinks p f t.
Proof.
  intros Hu [_ H1] [Hwf H2]. split; [done|]. intros k.
  destruct (H2 k) as [->|[-> Hk]]; [by apply H1|]. right. split; [done|].
  by eapply under_trans.
Qed.

Lemma shrinks_nolink p f s q : shrinks p f s → nolink f q → nolink s q.
Proof.
  intros [_ H] Hnl a c r E. destruct (Hnl a c r E) as [Hc Hl]. split; [done|].
  intros n Hn. destruct (H a) as [Ha|[Ha _]]; [|congruence]. apply Hl. congruence.
Qed.

Lemma shrinks_delete p f s q : shrinks p f s → under p q = true → wf_tree (delete q s) →
  shrinks p f (delete q s).
Proof.
  intros [Hwf H] Hu Hwf'. split; [done|]. intros k. destruct (decide (k = q)) as [->|Hne].
  - right. by rewrite lookup_delete.
  - by rewrite lookup_delete_ne.
Qed.

Lemma shrinks_some p f s q n : shrinks p f s → s !! q = Some n → f !! q = Some n.
Proof. intros [_ H] Hq. destruct (H q) as [E|[E _]]; congruence. Qed.

Lemma nolink_snoc s p x : nolink s p → (∀ n, s !! p = Some n → is_klink (n_kind n) = false) →
  comp_ok x → nolink s (p ++ [x]).
Proof.
  intros Hnl Hl Hx a c r E. destruct (path_snoc_case r) as [->|(r' & y & ->)].
  - apply app_inj_tail in E as [-> ->]. done.
  - change (a ++ c :: r' ++ [y]) with (a ++ (c :: r') ++ [y]) in E.
    rewrite app_assoc in E. apply app_inj_tail in E as [-> ->]. by apply (Hnl a c r').
Qed.

Lemma readdir_elem f p names x :
  wf_tree f → nolink f p → (∀ n, f !! p = Some n → is_klink (n_kind n) = false) →
  readdir f p = Ok names → (x ∈ names ↔ is_Some (f !! (p ++ [x]))).
Proof.
  intros Hwf Hnl Hl. unfold readdir.
  destruct (lookup_f_cases f p Hwf Hnl Hl) as [[e ->]|[-> Hd]]; [done|]. simpl.
  destruct (f !! p) as [n|] eqn:En; [|done].
  destruct (is_kdir (n_kind n)); [|done]. intros [= <-].
  rewrite elem_of_list_omap. split.
  - intros (k & Hk & E). apply elem_of_keys in Hk.
    destruct (path_strip p k) as [s|] eqn:Es; [|done]. destruct s as [|y [|? ?]]; try done.
    injection E as ->. by apply path_strip_spec in Es as ->.
  - intros Hs. exists (p ++ [x]). split; [by apply elem_of_keys|]. by rewrite path_strip_app.
Qed.

Lemma bind_get_ok {A B : Type} (r : fs → res A) (k : A → M B) f a :
  r f = Ok a → bind_ (get_ r) k f = k a f.
Proof. intros E. unfold bind_, get_. cbn [o_res o_fs o_trace]. rewrite E. simpl. by destruct (k a f). Qed.

Definition gone_below (p : path) (f : fs) : Prop := ∀ q, under p q = true → f !! q = None.

Lemma rmdir_frame fuel ord p f :
  (∀ l, ord l ≡ₚ l) → wf_tree f → nolink f p → (∀ n, f !! p = Some n → is_klink (n_kind n) = false) →
  let o := rmdir_recursive fuel ord p f in
  Forall (shrinks p f) (o_trace o) ∧ shrinks p f (o_fs o) ∧
  (o_res o = Ok tt → gone_below p (o_fs o)).
Proof.
  intros Hord. revert p f.
  induction fuel as [|fuel IH]; intros p f Hwf Hnl Hl.
  { simpl. split; [constructor|]. split; [by apply shrinks_refl|]. done. }
  cbv zeta.
  enough (triple (shrinks p f) (λ s, s = f) (rmdir_recursive (S fuel) ord p)
            (λ _ s, gone_below p s)) as H.
  { destruct (H f eq_refl) as (H1 & H2 & H3). split; [done|]. split; [done|]. apply H3. }
  cbn [rmdir_recursive].
  eapply triple_bind with (Q := λ _ s, s = f).
  { apply triple_get; [intros s ->; by apply shrinks_refl|done]. }
  intros root. eapply triple_bind with (Q := λ names s, s = f ∧ readdir f p = Ok names).
  { apply triple_get; [intros s ->; by apply shrinks_refl|]. intros s a -> E. done. }
  intros names. eapply triple_bind with (Q := λ _ s, shrinks p f s).
  - intros s0 [-> Hrd].
    assert (∀ x, x ∈ names → comp_ok x) as Hnames.
    { intros x Hx. apply (readdir_elem f p names x Hwf Hnl Hl Hrd) in Hx as [m Hm].
      by eapply wf_comp. }
    enough (triple (shrinks p f) (shrinks p f)
      (for_ (ord ((λ x, p ++ [x]) <$> names)) (λ ep,
        st <-- get_ (λ f, lstat f ep) ;;
        if negb (N.eqb (n_dev st) (n_dev root)) then
          throw (EApp "entry is on a different device")
        else if is_kdir (n_kind st) then rmdir_recursive fuel ord ep
        else sys_unlink ep)) (λ _, shrinks p f)) as H.
    { apply H. by apply shrinks_refl. }
    apply triple_for. intros ep Hep. rewrite Hord in Hep.
    apply elem_of_list_fmap in Hep as (x & -> & Hx). specialize (Hnames x Hx).
    assert (under p (p ++ [x]) = true) as Hu by apply under_app.
    eapply triple_bind with (Q := λ st s, shrinks p f s ∧ lstat s (p ++ [x]) = Ok st).
    { apply triple_get; [done|]. intros s a Hs E. done. }
    intros st. destruct (negb (N.eqb (n_dev st) (n_dev root))).
    { apply triple_throw. by intros s [Hs _]. }
    assert (∀ s, shrinks p f s → nolink s (p ++ [x])) as Hnl'.
    { intros s Hs. apply nolink_snoc; [by eapply shrinks_nolink| |done].
      intros n Hn. eapply Hl. by eapply shrinks_some. }
    destruct (is_kdir (n_kind st)) eqn:Ek.
    + intros s [Hs Est].
      destruct (IH (p ++ [x]) s) as (H1 & H2 & H3).
      * apply Hs.
      * by apply Hnl'.
      * intros n Hn. rewrite (lstat_dom s _ _ (proj1 Hs) Hn) in Est. injection Est as ->.
        apply is_kdir_true in Ek. by rewrite Ek.
      * split; [|split].
        -- eapply Forall_impl; [exact H1|]. intros t Ht. by eapply shrinks_trans.
        -- by eapply shrinks_trans.
        -- intros a _. by eapply shrinks_trans.
    + intros s [Hs Est].
      destruct (unlink_cases s (p ++ [x]) (proj1 Hs) (Hnl' s Hs))
        as [[e ->]|(n & Hd & Hn & Hk & Hne & -> & Hwf')]; simpl.
      * split; [constructor|]. done.
      * assert (shrinks p f (delete (p ++ [x]) s)) by (by apply shrinks_delete).
        split; [by constructor|]. done.
  - intros []. intros s Hs.
    destruct (rmdir_cases s p (proj1 Hs) (shrinks_nolink _ _ _ _ Hs Hnl))
      as [[e ->]|(n & Hd & Hn & Hk & Hne & Hb & -> & Hwf')]; simpl.
    + split; [constructor|]. done.
    + assert (shrinks p f (delete p s)) by (apply shrinks_delete; [done|apply under_refl|done]).
      split; [by constructor|]. split; [done|]. intros _ _ q Hq.
      apply under_spec in Hq as [r ->]. destruct r as [|c r].
      * rewrite app_nil_r. apply lookup_delete.
      * rewrite lookup_delete_ne by (intros Hx; symmetry in Hx; by apply snoc_ne_self in Hx).
        rewrite below_nil in Hb. by apply Hb.
Qed.

(** ** It succeeds on a tree that is on one device. *)
Definition one_device (f : fs) (p : path) (dev : N) : Prop :=
  ∀ q n, under p q = true → f !! q = Some n → n_dev n = dev.

Lemma rmdir_complete fuel ord p f dev n :
  (∀ l, ord l ≡ₚ l) → wf_tree f → p ≠ [] → f !! p = Some n → n_kind n = KDir →
  one_device f p dev → parent_dev f p = dev →
  (∀ q, under p q = true → is_Some (f !! q) → length q < length p + fuel) →
  o_res (rmdir_recursive fuel ord p f) = Ok tt.
Proof.
  intros Hord. revert p f n.
  induction fuel as [|fuel IH]; intros p f n Hwf Hp Hn Hk Hdev Hpd Hfuel.
  { specialize (Hfuel p (under_refl p) ltac:(by eexists)). lia. }
  assert (nolink f p) as Hnl by (eapply dirpath_nolink, wf_dirpath; eauto).
  assert (∀ m, f !! p = Some m → is_klink (n_kind m) = false) as Hl.
  { intros m Hm. rewrite Hn in Hm. injection Hm as <-. by rewrite Hk. }
  cbn [rmdir_recursive].
  assert (n_dev n = dev) as Hnd by (apply (Hdev p); [apply under_refl|done]).
  rewrite (bind_get_ok _ _ f n) by (by apply lstat_dom).
  destruct (readdir f p) as [names|er] eqn:Erd.
  2: { exfalso. unfold readdir in Erd. rewrite lookup_f_dirpath in Erd; [|by eapply wf_dirpath|done].
       simpl in Erd. rewrite Hn, Hk in Erd. done. }
  rewrite (bind_get_ok _ _ f names) by done.
  assert (∀ x, x ∈ names ↔ is_Some (f !! (p ++ [x]))) as Hnames
    by (intros x; by apply readdir_elem).
  set (body := λ ep, (st <-- get_ (λ f, lstat f ep) ;;
        if negb (N.eqb (n_dev st) (n_dev n)) then
          throw (EApp "entry is on a different device")
        else if is_kdir (n_kind st) then rmdir_recursive fuel ord ep
        else sys_unlink ep) : M unit).
  assert (NoDup (ord ((λ x, p ++ [x]) <$> names))) as HNDo.
  { rewrite Hord. apply NoDup_fmap_2; [intros a b E; by apply app_inj_tail in E as [_ ->]|].
    unfold readdir in Erd. rewrite lookup_f_dirpath in Erd; [|by eapply wf_dirpath|done].
    simpl in Erd. rewrite Hn, Hk in Erd. injection Erd as <-.
    clear. generalize (NoDup_keys f). generalize (keys f) as l.
    induction l as [|k l IHl]; simpl; [constructor|].
    intros HN. apply NoDup_cons in HN as [HN1 HN2].
    destruct (path_strip p k) as [[|y [|? ?]]|] eqn:Es; auto.
    apply path_strip_spec in Es as ->. apply NoDup_cons. split; [|auto].
    rewrite elem_of_list_omap. intros (k' & Hk' & E).
    destruct (path_strip p k') as [[|y' [|? ?]]|] eqn:Es'; try done. injection E as ->.
    apply path_strip_spec in Es' as ->. done. }
  (* the loop *)
  assert (∀ l s, NoDup l →
     (∀ ep, ep ∈ l → ∃ x, ep = p ++ [x] ∧ is_Some (s !! ep)) →
     wf_tree s → s !! p = Some n → (∀ q m, s !! q = Some m → f !! q = Some m) →
     (∀ c m, s !! (p ++ [c]) = Some m → (p ++ [c]) ∈ l) →
     o_res (for_ l body s) = Ok tt ∧ wf_tree (o_fs (for_ l body s)) ∧
     (∀ q m, o_fs (for_ l body s) !! q = Some m → s !! q = Some m) ∧
     (∀ q, under p q = false ∨ q = p → o_fs (for_ l body s) !! q = s !! q) ∧
     (∀ c, o_fs (for_ l body s) !! (p ++ [c]) = None)) as Hloop.
  { induction l as [|ep l IHl]; intros s HNl Hex Hws Hsp Hsub Hcov.
    - simpl. split; [done|]. split; [done|]. split; [done|]. split; [done|].
      intros c. destruct (s !! (p ++ [c])) eqn:E; [|done]. apply Hcov in E. set_solver.
    - apply NoDup_cons in HNl as [HN1 HN2].
      destruct (Hex ep ltac:(left)) as (x & -> & [m Hm]).
      pose proof (Hsub _ _ Hm) as Hfm.
      assert (n_dev m = dev) as Hmd by (apply (Hdev (p ++ [x])); [apply under_app|done]).
      assert (∃ s', o_res (body (p ++ [x]) s) = Ok tt ∧ o_fs (body (p ++ [x]) s) = s' ∧ wf_tree s' ∧
                (∀ q m, s' !! q = Some m → s !! q = Some m) ∧
                (∀ q, under (p ++ [x]) q = false → s' !! q = s !! q) ∧
                s' !! (p ++ [x]) = None) as (s' & Hb & Hbs & Hws' & Hsub' & Hfr' & Hgone').
      { unfold body. rewrite (bind_get_ok _ _ s m) by (by apply lstat_dom).
        rewrite Hmd, Hnd, N.eqb_refl. simpl.
        destruct (is_kdir (n_kind m)) eqn:Ekm.
        - pose proof (rmdir_frame fuel ord (p ++ [x]) s Hord Hws) as Hframe.
          assert (nolink s (p ++ [x])) as Hnls by (eapply dirpath_nolink, wf_dirpath; eauto).
          specialize (Hframe Hnls).
          assert (∀ n0 : node, s !! (p ++ [x]) = Some n0 → is_klink (n_kind n0) = false) as Hls.
          { intros n0 Hn0. rewrite Hm in Hn0. injection Hn0 as <-. apply is_kdir_true in Ekm.
            by rewrite Ekm. }
          destruct (Hframe Hls) as (F1 & F2 & F3).
          assert (o_res (rmdir_recursive fuel ord (p ++ [x]) s) = Ok tt) as Hres.
          { apply (IH (p ++ [x]) s m); try done.
            - by destruct p.
            - by apply is_kdir_true.
            - intros q m' Hq Hm'. apply (Hdev q); [|by apply Hsub].
              eapply under_trans; [apply under_app|done].
            - unfold parent_dev. rewrite removelast_snoc, Hsp. done.
            - intros q Hq [m' Hm']. rewrite app_length. simpl.
              assert (length q < length p + S fuel); [|lia]. apply Hfuel.
              + eapply under_trans; [apply under_app|done].
              + eexists. by apply Hsub. }
          rewrite Hres. exists (o_fs (rmdir_recursive fuel ord (p ++ [x]) s)).
          split; [done|]. split; [done|]. destruct F2 as [F2a F2b]. split; [done|]. split; [|split].
          + intros q m' Hm'. destruct (F2b q) as [E|[E _]]; congruence.
          + intros q Hq. destruct (F2b q) as [E|[_ E]]; congruence.
          + apply F3; [done|apply under_refl].
        - rewrite (unlink_ok s (p ++ [x]) m) by
            (try (by eapply wf_dirpath); try done; intros E; by rewrite E in Ekm).
          cbn [emit o_res o_fs o_trace]. exists (delete (p ++ [x]) s). split; [done|]. split; [done|]. split.
          { apply wf_delete; [done|by destruct p|]. eapply wf_nondir_below; [done|exact Hm|].
            intros E. by rewrite E in Ekm. }
          split; [|split].
          + intros q m' Hm'. apply lookup_delete_Some in Hm' as [_ Hm']. done.
          + intros q Hq. rewrite lookup_delete_ne; [done|]. intros <-.
            by rewrite under_refl in Hq.
          + apply lookup_delete. }
      cbn [for_]. rewrite (bind_ok _ _ _ tt) by done.
      rewrite Hbs. cbn [o_fs o_res o_trace].
      assert (under (p ++ [x]) p = false) as Hux.
      { apply under_false. intros [r E]. apply (f_equal length) in E.
        rewrite !app_length in E. simpl in E. lia. }
      destruct (IHl s' HN2) as (L1 & L2 & L3 & L4 & L5).
      + intros ep Hep. destruct (Hex ep ltac:(by right)) as (y & -> & Hy). exists y.
        split; [done|]. rewrite Hfr'; [done|]. apply under_false. intros [r E].
        destruct r as [|z r].
        * rewrite app_nil_r in E. apply app_inj_tail in E as [_ ->]. done.
        * apply (f_equal length) in E. rewrite !app_length in E. simpl in E. lia.
      + done.
      + rewrite Hfr' by done. done.
      + intros q m' Hm'. by apply Hsub, Hsub'.
      + intros c m' Hm'. assert (p ++ [c] ∈ (p ++ [x]) :: l) as Hin by (eapply Hcov, Hsub', Hm').
        apply elem_of_cons in Hin as [E|Hin]; [|done].
        apply app_inj_tail in E as [_ ->]. congruence.
      + split; [done|]. split; [done|]. split; [intros q m' Hm'; by apply Hsub', L3|].
        split; [|done]. intros q Hq. rewrite L4 by done. apply Hfr'.
        destruct Hq as [Hq| ->]; [|done]. destruct (under (p ++ [x]) q) eqn:E; [|done].
        assert (under p q = true) by (eapply under_trans; [apply under_app|exact E]). congruence. }
  destruct (Hloop (ord ((λ x, p ++ [x]) <$> names)) f) as (L1 & L2 & L3 & L4 & L5); try done.
  { intros ep Hep. rewrite Hord in Hep. apply elem_of_list_fmap in Hep as (x & -> & Hx).
    exists x. split; [done|]. by apply Hnames. }
  { intros c m Hm. rewrite Hord. apply elem_of_list_fmap. exists c. split; [done|].
    apply Hnames. by eexists. }
  rewrite (bind_ok _ _ _ tt) by exact L1. cbn [o_res o_fs o_trace].
  set (s1 := o_fs (for_ (ord ((λ x, p ++ [x]) <$> names)) body f)) in *.
  assert (s1 !! p = Some n) as Hs1 by (rewrite L4; auto).
  rewrite (rmdir_ok s1 p n); try done.
  - by eapply wf_dirpath.
  - unfold dev_of. destruct (path_snoc_case p) as [->|(p' & c & ->)]; [done|].
    rewrite removelast_snoc. rewrite L4.
    2: { left. apply under_false. intros [r E]. apply (f_equal length) in E.
         rewrite !app_length in E. simpl in E. lia. }
    unfold parent_dev in Hpd. rewrite removelast_snoc in Hpd.
    destruct (wf_parent f Hwf _ _ _ Hn) as (d & Hd & _). rewrite Hd in Hpd |- *. simpl. congruence.
  - by apply below_nil_wf.
Qed.

(** The depth bound computed by [rmdir_rec] suffices. *)
Lemma tree_depth_spec f q : is_Some (f !! q) → length q < tree_depth f.
Proof.
  intros H. apply elem_of_keys in H. unfold tree_depth. revert H. generalize (keys f) as l.
  induction l as [|k l IH]; intros H; [by apply elem_of_nil in H|].
  simpl. apply elem_of_cons in H as [->|H]; [lia|]. specialize (IH H). lia.
Qed.

Lemma rmdir_rec_frame ord p f :
  (∀ l, ord l ≡ₚ l) → wf_tree f → nolink f p → (∀ n, f !! p = Some n → is_klink (n_kind n) = false) →
  let o := rmdir_rec ord p f in
  Forall (shrinks p f) (o_trace o) ∧ shrinks p f (o_fs o) ∧
  (o_res o = Ok tt → gone_below p (o_fs o)).
Proof. intros. by apply rmdir_frame. Qed.

Lemma rmdir_rec_complete ord p f dev n :
  (∀ l, ord l ≡ₚ l) → wf_tree f → p ≠ [] → f !! p = Some n → n_kind n = KDir →
  one_device f p dev → parent_dev f p = dev →
  o_res (rmdir_rec ord p f) = Ok tt.
Proof.
  intros. eapply rmdir_complete; try done. intros q Hq Hs.
  pose proof (tree_depth_spec f q Hs). lia.
Qed.
