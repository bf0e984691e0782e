(** * After accepting everything the host is what the sandbox showed (redirect-free sandboxes). *)
From Verif Require Export Plan.

(** ** Closed form of the overlay lookup *)
Lemma whiteout_dir n : n_kind n = KDir → whiteout n = false.
Proof. intros H. unfold whiteout. by rewrite H. Qed.

Lemma cons_app {A : Type} (p : list A) c s : p ++ c :: s = (p ++ [c]) ++ s.
Proof. by rewrite <-app_assoc. Qed.

Lemma overlay_lower f L s : wf_tree f → overlay_lookup f None (Some L) s = f !! (L ++ s).
Proof.
  intros Hwf. revert L. induction s as [|c s IH]; intros L; simpl; [by rewrite app_nil_r|].
  rewrite (cons_app L c s). destruct (f !! (L ++ [c])) as [k|] eqn:Ek.
  - destruct (is_kdir (n_kind k)) eqn:Ed; [apply IH|].
    destruct s as [|c' s]; [by rewrite app_nil_r, Ek|].
    assert (below f (L ++ [c]) = []) as Hb.
    { eapply wf_nondir_below; [done|exact Ek|]. intros E. by rewrite E in Ed. }
    rewrite below_nil in Hb. by rewrite Hb.
  - pose proof (wf_none_below f (L ++ [c]) Hwf Ek) as Hb. rewrite below_nil in Hb.
    destruct s; [by rewrite app_nil_r|by rewrite Hb].
Qed.

Lemma overlay_empty f s : s ≠ [] → overlay_lookup f None None s = None.
Proof. by destruct s. Qed.

Lemma overlay_upper f U s : wf_tree f → s ≠ [] →
  overlay_lookup f (Some U) None s =
    match f !! (U ++ s) with Some n => if whiteout n then None else Some n | None => None end.
Proof.
  intros Hwf. revert U. induction s as [|c s IH]; intros U Hs; [done|]. simpl.
  rewrite (cons_app U c s). destruct (f !! (U ++ [c])) as [k|] eqn:Ek.
  - destruct s as [|c' s].
    + rewrite app_nil_r, Ek. destruct (whiteout k) eqn:Ew; [done|].
      simpl. rewrite Ek. destruct (is_kdir (n_kind k)); done.
    + destruct (is_kdir (n_kind k)) eqn:Ed.
      * rewrite whiteout_dir by (by apply is_kdir_true). destruct (opaque k); by rewrite IH.
      * assert (below f (U ++ [c]) = []) as Hb.
        { eapply wf_nondir_below; [done|exact Ek|]. intros E. by rewrite E in Ed. }
        rewrite below_nil in Hb. rewrite Hb by done. by destruct (whiteout k).
  - pose proof (wf_none_below f (U ++ [c]) Hwf Ek) as Hb. rewrite below_nil in Hb.
    destruct s; [by rewrite app_nil_r, Ek|by rewrite Hb].
Qed.

Lemma overlay_both f U L s : wf_tree f → s ≠ [] →
  (∀ n, f !! (U ++ s) = Some n →
     overlay_lookup f (Some U) (Some L) s = if whiteout n then None else Some n) ∧
  (f !! (U ++ s) = None →
     (∃ s1 c r n, s = s1 ++ c :: r ∧ s1 ≠ [] ∧ f !! (U ++ s1) = Some n ∧ hides n = true) →
     overlay_lookup f (Some U) (Some L) s = None) ∧
  (f !! (U ++ s) = None →
     (∀ s1 c r n, s = s1 ++ c :: r → s1 ≠ [] → f !! (U ++ s1) = Some n → hides n = false) →
     overlay_lookup f (Some U) (Some L) s = f !! (L ++ s)).
Proof.
  intros Hwf. revert U L. induction s as [|c s IH]; intros U L Hs; [done|].
  cbn [overlay_lookup].
  rewrite (cons_app U c s), (cons_app L c s). destruct (f !! (U ++ [c])) as [k|] eqn:Ek.
  2: { (* nothing in the upper layer from here on *)
    assert (match f !! (L ++ [c]) with
            | Some m => if is_kdir (n_kind m) then
                overlay_lookup f None
                  match f !! (L ++ [c]) with
                  | Some m => if is_kdir (n_kind m) then Some (L ++ [c]) else None
                  | None => None end s
                else match s with [] => Some m | _ :: _ => None end
            | None => None
            end = f !! ((L ++ [c]) ++ s)) as ->.
    { destruct (f !! (L ++ [c])) as [k|] eqn:El.
      - destruct (is_kdir (n_kind k)) eqn:Ed; [by apply overlay_lower|].
        destruct s as [|c' s]; [by rewrite app_nil_r, El|].
        assert (below f (L ++ [c]) = []) as Hb.
        { eapply wf_nondir_below; [done|exact El|]. intros E. by rewrite E in Ed. }
        rewrite below_nil in Hb. by rewrite Hb.
      - pose proof (wf_none_below f (L ++ [c]) Hwf El) as Hb. rewrite below_nil in Hb.
        destruct s; [by rewrite app_nil_r|by rewrite Hb]. }
    pose proof (wf_none_below f (U ++ [c]) Hwf Ek) as Hb. rewrite below_nil in Hb.
    assert (∀ s1, s1 ≠ [] → ∀ d r, c :: s = s1 ++ d :: r → f !! (U ++ s1) = None) as Hno.
    { intros [|x s1] H1 d r E; [done|]. simpl in E. injection E as <- _. rewrite (cons_app U c s1).
      destruct s1; [by rewrite app_nil_r|by apply Hb]. }
    split; [|split].
    - intros n Hn. destruct s; [rewrite app_nil_r in Hn; congruence|]. by rewrite Hb in Hn.
    - intros _ (s1 & d & r & n & E & H1 & Hn & _). by rewrite (Hno s1 H1 d r E) in Hn.
    - done. }
  destruct s as [|c' s].
  { rewrite app_nil_r, Ek. split; [|split]; [|done|done].
    intros n [= <-]. destruct (whiteout k); [done|]. simpl. rewrite Ek. by destruct (is_kdir (n_kind k)). }
  set (r0 := c' :: s) in *.
  destruct (is_kdir (n_kind k)) eqn:Ed.
  - rewrite whiteout_dir by (by apply is_kdir_true).
    destruct (opaque k) eqn:Eo.
    + rewrite overlay_upper by done. split; [|split].
      * intros n ->. done.
      * intros -> _. done.
      * intros -> H. exfalso.
        assert (hides k = false) as Hh by (by apply (H [c] c' s k)).
        unfold hides in Hh. by rewrite Eo, orb_true_r in Hh.
    + assert (hides k = false) as Hhk.
      { unfold hides. rewrite Eo, Ed, whiteout_dir by (by apply is_kdir_true). done. }
      (* merged directory: lower directory or nothing *)
      assert (∀ l', l' = Some (L ++ [c]) ∨ (l' = None ∧ f !! ((L ++ [c]) ++ r0) = None) →
        (∀ n, f !! ((U ++ [c]) ++ r0) = Some n →
           overlay_lookup f (Some (U ++ [c])) l' r0 = if whiteout n then None else Some n) ∧
        (f !! ((U ++ [c]) ++ r0) = None →
           (∃ s1 d r n, c :: r0 = s1 ++ d :: r ∧ s1 ≠ [] ∧ f !! (U ++ s1) = Some n ∧ hides n = true) →
           overlay_lookup f (Some (U ++ [c])) l' r0 = None) ∧
        (f !! ((U ++ [c]) ++ r0) = None →
           (∀ s1 d r n, c :: r0 = s1 ++ d :: r → s1 ≠ [] → f !! (U ++ s1) = Some n → hides n = false) →
           overlay_lookup f (Some (U ++ [c])) l' r0 = f !! ((L ++ [c]) ++ r0))) as H.
      { intros l' [-> | [-> Hl]].
        - destruct (IH (U ++ [c]) (L ++ [c]) ltac:(done)) as (I1 & I2 & I3). split; [done|]. split.
          + intros Hn (s1 & d & r & n & E & H1 & Hn1 & Hh).
            destruct s1 as [|x s1]; [done|]. simpl in E. injection E as <- E. rewrite (cons_app U c s1) in Hn1.
            destruct s1 as [|y s1].
            * rewrite app_nil_r in Hn1. congruence.
            * apply I2; [done|]. exists (y :: s1), d, r, n. done.
          + intros Hn H. apply I3; [done|]. intros s1 d r n E H1 Hn1.
            apply (H (c :: s1) d r n); [by rewrite E|done|by rewrite (cons_app U c s1)].
        - rewrite overlay_upper by done. split; [by intros n ->|]. split; [by intros ->|].
          intros ->. by rewrite Hl. }
      apply H. destruct (f !! (L ++ [c])) as [kl|] eqn:El.
      * destruct (is_kdir (n_kind kl)) eqn:Edl; [by left|]. right. split; [done|].
        assert (below f (L ++ [c]) = []) as Hb.
        { eapply wf_nondir_below; [done|exact El|]. intros E. by rewrite E in Edl. }
        rewrite below_nil in Hb. by apply Hb.
      * right. split; [done|]. pose proof (wf_none_below f (L ++ [c]) Hwf El) as Hb.
        rewrite below_nil in Hb. by apply Hb.
  - assert (below f (U ++ [c]) = []) as Hb.
    { eapply wf_nondir_below; [done|exact Ek|]. intros E. by rewrite E in Ed. }
    rewrite below_nil in Hb.
    assert (f !! ((U ++ [c]) ++ r0) = None) as -> by (by apply Hb).
    split; [done|]. split; [intros _ _; by destruct (whiteout k)|]. intros _ H. exfalso.
    assert (hides k = false) as Hh by (by apply (H [c] c' s k)).
    unfold hides in Hh. by rewrite Ed, orb_true_r in Hh.
Qed.

Lemma hidden_dec (f : fs) (U s : path) :
  (∃ s1 c r n, s = s1 ++ c :: r ∧ s1 ≠ [] ∧ f !! (U ++ s1) = Some n ∧ hides n = true) ∨
  (∀ s1 c r n, s = s1 ++ c :: r → s1 ≠ [] → f !! (U ++ s1) = Some n → hides n = false).
Proof.
  set (b := existsb (λ i, negb (Nat.eqb i 0) &&
         match f !! (U ++ take i s) with Some n => hides n | None => false end) (seq 0 (length s))).
  destruct b eqn:Eb; subst b.
  - left. apply existsb_exists in Eb as (i & Hi & H). apply elem_of_list_In, elem_of_seq in Hi.
    apply andb_true_iff in H as [Hi0 H]. apply negb_true_iff, Nat.eqb_neq in Hi0.
    destruct (f !! (U ++ take i s)) as [n|] eqn:En1; [|done].
    destruct (drop i s) as [|c r] eqn:Edr.
    { apply (f_equal length) in Edr. rewrite drop_length in Edr. simpl in Edr. lia. }
    exists (take i s), c, r, n. split; [by rewrite <-Edr, take_drop|]. split; [|done].
    intros E. apply (f_equal length) in E. rewrite take_length in E. simpl in E. lia.
  - right. intros s1 c r n E H1 Hn. destruct (hides n) eqn:Eh; [|done]. rewrite <-Eb. symmetry.
    apply existsb_exists. exists (length s1). split.
    + apply elem_of_list_In, elem_of_seq. rewrite E, app_length. simpl. lia.
    + rewrite E, take_app, Hn, Eh, andb_true_r. by destruct s1.
Qed.

Lemma removed_dec sel q : removed sel q ∨ ¬ removed sel q.
Proof.
  set (b := existsb (λ c, match c_op c, c_source c with
                          | ORemove, Some d => bool_decide (q = d_path d) | _, _ => false end) sel).
  destruct b eqn:Eb; subst b.
  - left. apply existsb_exists in Eb as (c & Hc & H). apply elem_of_list_In in Hc.
    destruct (c_op c) eqn:Eo; try done. destruct (c_source c) as [d|] eqn:Ed; [|done].
    apply bool_decide_eq_true in H. exists c. split; [done|]. split; [done|]. by exists d.
  - right. intros (c & Hc & Ho & d & Hd & E). rewrite <-Bool.not_true_iff_false in Eb. apply Eb.
    apply existsb_exists. exists c. split; [by apply elem_of_list_In|]. rewrite Ho, Hd.
    by apply bool_decide_eq_true.
Qed.

(** ** Selections that contain every change *)
Lemma accum_ok {A : Type} (l : list A) (g : A → M (nat * list path)) s :
  is_ok (o_res (accum l g s)) = true → ∀ x, x ∈ l → ∃ s', is_ok (o_res (g x s')) = true.
Proof.
  revert s. induction l as [|y l IH]; intros s H x Hx; [by apply elem_of_nil in Hx|].
  cbn [accum] in H. destruct (o_res (g y s)) as [r|er] eqn:Er.
  2: { by rewrite (bind_err _ _ _ er) in H by done. }
  rewrite (bind_ok _ _ _ r) in H by done. cbn [o_res] in H.
  apply elem_of_cons in Hx as [->|Hx]; [exists s; by rewrite Er|].
  destruct (o_res (accum l g (o_fs (g y s)))) as [r'|er] eqn:Er'.
  2: { by rewrite (bind_err _ _ _ er) in H by done. }
  eapply IH; [by rewrite Er'|done].
Qed.

(** A successful pass met no change that it refuses. *)
Lemma pass_no_error e phase pretend cs s : is_ok (o_res (accept_pass e phase pretend cs s)) = true →
  (∀ c, c ∈ cs → c_op c ≠ ORename) → ∀ c er, c ∈ cs → c_op c ≠ OError er.
Proof.
  intros H Hnr c er Hc Hop. unfold accept_pass in H.
  set (l1 := sort_by by_reverse_source cs) in *.
  rewrite assign_tmp_id in H.
  2: { intros c' Hc'. apply Hnr. unfold l1 in Hc'. by rewrite !elem_of_sort_by in Hc'. }
  set (l2 := sort_by by_reverse_source l1) in *.
  set (l3 := sort_by by_destination l2) in *.
  destruct (o_res (accum l1 (accept_remove pretend) s)) as [r1|e1] eqn:E1.
  2: { by rewrite (bind_err _ _ _ e1) in H by done. }
  rewrite (bind_ok _ _ _ r1) in H by done. cbn [o_res] in H.
  set (s1 := o_fs (accum l1 (accept_remove pretend) s)) in *.
  destruct (o_res (for_ l2 (accept_premove pretend) s1)) as [r2|e2] eqn:E2.
  2: { by rewrite (bind_err _ _ _ e2) in H by done. }
  rewrite (bind_ok _ _ _ r2) in H by done. cbn [o_res] in H.
  set (s2 := o_fs (for_ l2 (accept_premove pretend) s1)) in *.
  destruct (o_res (accum (imap (λ i c, (i, c)) l3) (accept_set e phase pretend) s2)) as [r3|e3] eqn:E3.
  2: { by rewrite (bind_err _ _ _ e3) in H by done. }
  assert (c ∈ l3) as Hc3 by (unfold l3, l2, l1; by rewrite !elem_of_sort_by).
  apply elem_of_list_lookup in Hc3 as [i Hi].
  destruct (accum_ok _ _ s2 ltac:(by rewrite E3) (i, c)) as [s' Hs'].
  { apply elem_of_list_lookup. exists i. by rewrite list_lookup_imap, Hi. }
  unfold accept_set in Hs'. by rewrite Hop in Hs'.
Qed.

Lemma accept_ok_no_error e f ub inc pats sel : selected e f ub inc pats = Ok sel →
  (∀ c, c ∈ sel → c_op c ≠ ORename) → is_ok (o_res (accept e ub inc pats f)) = true →
  ∀ c er, c ∈ sel → c_op c ≠ OError er.
Proof.
  intros Hsel Hnr H. unfold selected in Hsel.
  destruct (changes e f ub inc) as [all|] eqn:Eall; [|done]. simpl in Hsel. injection Hsel as <-.
  unfold accept in H. rewrite (bind_get_ok _ _ f all) in H by done.
  set (sel := matching (e_glob e) (e_cwd e) pats all) in *.
  destruct sel as [|c0 sel0] eqn:Esel.
  { intros c er Hc. by apply elem_of_nil in Hc. }
  cbv iota in H. rewrite <-Esel in *. clear Esel c0 sel0.
  destruct (o_res (accept_pass e 0 true sel f)) as [r|er] eqn:Er.
  2: { by rewrite (bind_err _ _ _ er) in H by done. }
  intros c er Hc. eapply (pass_no_error e 0 true sel f); [by rewrite Er|done|done].
Qed.

(** ** The theorem *)
Definition same_view (a b : option node) : Prop :=
  match a, b with
  | None, None => True
  | Some x, Some y => same_entry x y
  | _, _ => False
  end.
Lemma same_view_refl a : same_view a a.
Proof. by destruct a. Qed.

Section merged.
  Context (f : fs) (ub : path) (ms : list path) (Hok : sandbox_ok f ub ms).
  Context (e : env) (He : env_ok e) (Hfu : fresh_uuids e f).

  Let Hst : storage_ok f ub ms := sb_storage _ _ _ Hok.
  Let Hwf : wf_tree f := so_wf _ _ _ Hst.

  (** A removal root above a path owned by [m] is an entry of [m]. *)
  Lemma root_above m s m' s' n' : owns ms m (m ++ s) → m' ∈ ms → staged_at f ub m' s' n' →
    hides n' = true → under (m' ++ s') (m ++ s) = true → m = m' ∧ ∃ r, s = s' ++ r.
  Proof.
    intros (O1 & O2 & O3) Hm' Hs' Hh Hu.
    pose proof (sb_host _ _ _ Hok m' s' n' Hm' Hs') as Hho'.
    destruct (ho_owner _ _ _ _ _ _ Hho') as (_ & O2' & O3').
    assert (under m (m' ++ s') = true) as Hum.
    { destruct (under_comparable m (m' ++ s') (m ++ s)) as [H|H]; [done|done|done|].
      pose proof (ho_above_mount _ _ _ _ _ _ Hho' m O1 H). congruence. }
    assert (m = m') as <-.
    { apply under_antisym; [by apply O3'|]. apply O3; [done|]. by eapply under_trans. }
    split; [done|]. apply under_spec in Hu as [r Hr]. exists r.
    rewrite <-app_assoc in Hr. by apply app_inv_head in Hr.
  Qed.

  Lemma merged_complete sel s2 : (∀ c, c ∈ sel ↔ lists f ub ms c) →
    (∀ c er, c ∈ sel → c_op c ≠ OError er) → complete f sel s2 →
    (∀ m s, owns ms m (m ++ s) → s ≠ [] → under ub (m ++ s) = false →
       same_view (sandbox_view f ub m s) (s2 !! (m ++ s))) ∧
    (∀ p, (∀ m s, p = m ++ s → owns ms m p → s = []) → s2 !! p = f !! p).
  Proof.
    intros Hall Herr (_ & Hset & Hrest). split.
    - intros m s Hown Hs Hub. pose proof (proj1 Hown) as Hm.
      destruct (overlay_both f (upper_dir ub m) m s Hwf Hs) as (V1 & V2 & V3).
      fold (sandbox_view f ub m s) in V1, V2, V3.
      (* sets at this path are this entry *)
      assert (∀ c, c ∈ sel → is_set c → m ++ s = c_dest c →
               ∃ n, staged_at f ub m s n ∧ whiteout n = false) as Hsets.
      { intros c Hc Hsc E. apply Hall in Hc. apply (set_of f ub ms) in Hsc as (m' & s' & n' & Hm' & Hs' & Hw & _ & Hd & _); [|done].
        rewrite Hd in E.
        assert (m = m') as <-.
        { eapply (owner_unique ms m m' (m ++ s)); [done|].
          rewrite E. apply (ho_owner _ _ _ _ _ _ (sb_host _ _ _ Hok m' s' n' Hm' Hs')). }
        apply app_inv_head in E as ->. by exists n'. }
      assert (f !! (m ++ s) = None → ¬ removed sel (m ++ s)) as Hnone.
      { intros Hn (c & Hc & Hr). apply Hall in Hc.
        destruct (remove_of f ub ms c _ Hc Hr) as (m' & s' & n' & k & _ & _ & _ & _ & Hk & _). congruence. }
      destruct (f !! (upper_dir ub m ++ s)) as [n|] eqn:En.
      + specialize (V1 n eq_refl). rewrite V1.
        assert (staged_at f ub m s n) as Hsa by done.
        destruct (whiteout n) eqn:Ew.
        * destruct (Hrest (m ++ s)) as [R1 R2].
          { intros c Hc Hsc E. destruct (Hsets c Hc Hsc E) as (n' & [_ Hn'] & Hw). congruence. }
          destruct (f !! (m ++ s)) as [k|] eqn:Ek.
          -- rewrite R1; [done|]. 
             exists (Change (m ++ s) ORemove (Some (details_of (m ++ s) k))
               (if decide (m ++ s = m ++ s) then Some (details_of (upper_dir ub m ++ s) n) else None) None).
             split.
             ++ apply Hall. exists m, s, n. split; [done|]. split; [done|]. left.
                split; [exists k; auto|]. exists (m ++ s), k. split; [apply under_refl|]. done.
             ++ split; [done|]. by eexists.
          -- rewrite R2; [done|]. by apply Hnone.
        * destruct (supported n) eqn:Es.
          -- set (c := Change (m ++ s) (OSet (set_type_of f ub m s)) (source_details f (m ++ s))
                         (Some (details_of (upper_dir ub m ++ s) n)) None).
             assert (c ∈ sel) as Hc.
             { apply Hall. exists m, s, n. split; [done|]. split; [done|]. right. left. done. }
             destruct (Hset c Hc ltac:(by eexists)) as (st & nst & n' & E1 & E2 & E3 & E4 & _).
             cbn in E1. injection E1 as <-. cbn in E2, E3. rewrite En in E2. injection E2 as <-.
             by rewrite E3.
          -- exfalso.
             eapply (Herr (Change (m ++ s) (OError UnsupportedFileType) (source_details f (m ++ s))
                       (Some (details_of (upper_dir ub m ++ s) n)) None)); [|done].
             apply Hall. exists m, s, n. split; [done|]. split; [done|]. right. right. done.
      + specialize (V2 eq_refl). specialize (V3 eq_refl).
        destruct (Hrest (m ++ s)) as [R1 R2].
        { intros c Hc Hsc E. destruct (Hsets c Hc Hsc E) as (n' & [_ Hn'] & _). congruence. }
        assert (removed sel (m ++ s) → ∃ s1 c r n, s = s1 ++ c :: r ∧ s1 ≠ [] ∧
                  f !! (upper_dir ub m ++ s1) = Some n ∧ hides n = true) as Hrem.
        { intros (c & Hc & Hr). apply Hall in Hc.
          destruct (remove_of f ub ms c _ Hc Hr) as (m' & s' & n' & k & Hm' & Hs' & Hroot & Hu & _).
          assert (hides n' = true) as Hh by (by eapply (removal_hides f ub ms m' s')).
          destruct (root_above m s m' s' n' Hown Hm' Hs' Hh Hu) as [<- [r ->]].
          destruct Hs' as [Hne Hs']. destruct r as [|c0 r].
          - rewrite app_nil_r in En. congruence.
          - by exists s', c0, r, n'. }
        destruct (f !! (m ++ s)) as [k|] eqn:Ek.
        * (* is it hidden? *)
          assert (removed sel (m ++ s) ∨ ¬ removed sel (m ++ s)) as [Hrm|Hnr].
          { apply removed_dec. }
          -- rewrite R1 by done. rewrite V2; [done|]. by apply Hrem.
          -- rewrite R2 by done. rewrite V3; [apply same_view_refl|].
             intros s1 c r n E H1 Hn. destruct (hides n) eqn:Eh; [|done]. exfalso. apply Hnr.
             assert (is_dir_at f (m ++ s1)) as (k1 & Hk1 & Hk1d).
             { rewrite E in Ek. rewrite app_assoc in Ek. by apply wf_prefix in Ek. }
             exists (Change (m ++ s) ORemove (Some (details_of (m ++ s) k))
               (if decide (m ++ s = m ++ s1) then Some (details_of (upper_dir ub m ++ s1) n) else None) None).
             split.
             ++ apply Hall. exists m, s1, n. split; [done|]. split; [done|]. left. split.
                ** exists k1. split; [done|]. unfold hides in Eh. rewrite !orb_true_iff, negb_true_iff in Eh.
                   destruct Eh as [[Eh|Eh]|Eh]; auto.
                ** exists (m ++ s), k. split; [|done]. rewrite E, app_assoc. apply under_app.
             ++ split; [done|]. by eexists.
        * rewrite R2 by (by apply Hnone).
          destruct (hidden_dec f (upper_dir ub m) s) as [H|H]; [by rewrite V2|by rewrite V3].
    - intros p Hp. destruct (Hrest p) as [_ R2].
      { intros c Hc Hsc ->. apply Hall in Hc.
        apply (set_of f ub ms) in Hsc as (m' & s' & n' & Hm' & Hs' & _ & _ & Hd & _); [|done].
        destruct Hs' as [Hne Hn']. apply Hne. apply (Hp m' s'); [done|]. rewrite Hd.
        apply (ho_owner _ _ _ _ _ _ (sb_host _ _ _ Hok m' s' n' Hm' (conj Hne Hn'))). }
      apply R2. intros (c & Hc & Hr). apply Hall in Hc.
      destruct (remove_of f ub ms c _ Hc Hr) as (m' & s' & n' & k & Hm' & Hs' & Hroot & Hu & _).
      assert (hides n' = true) as Hh by (by eapply (removal_hides f ub ms m' s')).
      pose proof (sb_host _ _ _ Hok m' s' n' Hm' Hs') as Hho.
      destruct (ho_owner _ _ _ _ _ _ Hho) as (_ & _ & O3).
      apply under_spec in Hu as [r ->]. rewrite <-app_assoc in Hp.
      assert (s' ++ r = []) as E.
      { apply (Hp m' (s' ++ r)); [done|]. split; [done|]. split; [apply under_app|].
        intros m2 Hm2 Hu2. rewrite app_assoc in Hu2.
        destruct (under_comparable m2 (m' ++ s') ((m' ++ s') ++ r)) as [H|H]; [done|apply under_app|by apply O3|].
        pose proof (ho_above_mount _ _ _ _ _ _ Hho m2 Hm2 H). congruence. }
      apply app_eq_nil in E as [-> _]. by destruct Hs'.
  Qed.

  Theorem accept_all_merged pats all :
    changes e f ub true = Ok all → matching (e_glob e) (e_cwd e) pats all = all →
    let o := accept e ub true pats f in is_ok (o_res o) = true →
    (∀ m s, owns ms m (m ++ s) → s ≠ [] → under ub (m ++ s) = false →
       same_view (sandbox_view f ub m s) (o_fs o !! (m ++ s))) ∧
    (∀ p, under ub p = false → (∀ m s, p = m ++ s → owns ms m p → s = []) → o_fs o !! p = f !! p).
  Proof.
    intros Hc Hm o Hoks.
    assert (selected e f ub true pats = Ok all) as Hsel by (unfold selected; rewrite Hc; simpl; by rewrite Hm).
    destruct (changes_complete f ub ms Hok e He) as (l & Hl & Hall). rewrite Hc in Hl. injection Hl as <-.
    destruct (selected_plan f ub ms Hok e Hfu true pats all He Hsel) as [Hplan _].
    pose proof (accept_ok_no_error e f ub true pats all Hsel (pl_norename _ _ _ _ Hplan) Hoks) as Herr.
    destruct (accept_run e f ub true pats all He Hsel Hplan) as [_ Hrun].
    destruct (Hrun Hoks) as (s2 & _ & Hcomp & [[_ Hcl] _]). fold o in Hcl.
    destruct (merged_complete all s2 Hall Herr Hcomp) as [M1 M2].
    assert (∀ p, under ub p = false → o_fs o !! p = s2 !! p) as Hout.
    { intros p Hp. destruct (Hcl p) as [->|[_ (q & Hq & Hu)]]; [done|]. exfalso.
      apply elem_of_staged_paths in Hq as (c & st & Hc' & _ & Hst' & ->).
      destruct (pl_staged _ _ _ _ Hplan c st Hc' Hst') as (n & _ & _ & Hu').
      assert (under ub p = true); [by eapply under_trans|congruence]. }
    split.
    - intros m s Ho Hs Hu. rewrite Hout by done. by apply M1.
    - intros p Hu Hp. rewrite Hout by done. by apply M2.
  Qed.
End merged.
