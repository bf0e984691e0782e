(** * Facts about what a sandbox with renamed directories shows *)
From Verif Require Export RenamedOk Props_Redirect.

Section walk.
  Context (f : fs) (root : path).

  Definition asd (p : path) : option path :=
    match f !! p with Some k => if is_kdir (n_kind k) then Some p else None | None => None end.
  Definition below_lower (l : option path) (r : path) : option path := match l with Some lo => asd (lo ++ r) | None => None end.
  Definition step (u l : option path) (c : string) : option (option path * option path) :=
    match match u with Some up => f !! (up ++ [c]) | None => None end with
    | Some n =>
        if whiteout n then None
        else if is_kdir (n_kind n) then
          Some (match u with Some up => Some (up ++ [c]) | None => None end,
                if opaque n then None else
                  match redirect n with
                  | Some r => if is_abs r then asd (root ++ comps r) else below_lower l (comps r)
                  | None => below_lower l [c]
                  end)
        else None
    | None => match below_lower l [c] with Some p => Some (None, Some p) | None => None end
    end.
  Fixpoint ov (u l : option path) (s : path) : option (option path * option path) :=
    match s with
    | [] => Some (u, l)
    | c :: s' => match step u l c with Some (u', l') => ov u' l' s' | None => None end
    end.

  Lemma ov_app (a b : path) : ∀ (u l : option path), ov u l (a ++ b) = match ov u l a with Some (u', l') => ov u' l' b | None => None end.
  Proof. induction a as [|c a IH]; intros u l; [done|]. cbn [ov app]. destruct (step u l c) as [[u' l']|]; [apply IH|done]. Qed.

  Lemma lower_ov (a : path) : ∀ (u l : option path), lower_lookup f root u l a = match ov u l a with Some (_, l') => l' | None => None end.
  Proof.
    induction a as [|c a IH]; intros u l; [done|]. cbn [lower_lookup ov]. unfold step, below_lower, asd.
    destruct (match u with Some up => f !! (up ++ [c]) | None => None end) as [n|].
    - destruct (whiteout n); [done|]. destruct (is_kdir (n_kind n)); [|done]. apply IH.
    - destruct l as [lo|]; [|done]. destruct (f !! (lo ++ [c])) as [k|]; [|done]. destruct (is_kdir (n_kind k)); [|done]. apply IH.
  Qed.
  Lemma view_ov (a b : path) : b ≠ [] → ∀ (u l : option path),
    renamed_lookup f root u l (a ++ b) = match ov u l a with Some (u', l') => renamed_lookup f root u' l' b | None => None end.
  Proof.
    intros Hb. induction a as [|c a IH]; intros u l; [done|]. cbn [renamed_lookup ov app]. unfold step, below_lower, asd.
    assert (a ++ b ≠ []) as Hne by (by destruct a).
    destruct (match u with Some up => f !! (up ++ [c]) | None => None end) as [n|].
    - destruct (whiteout n); [done|]. destruct (is_kdir (n_kind n)); [|by destruct (a ++ b)]. apply IH.
    - destruct l as [lo|]; [|done]. destruct (f !! (lo ++ [c])) as [k|]; [|done].
      destruct (is_kdir (n_kind k)); [apply IH|by destruct (a ++ b)].
  Qed.
End walk.

Lemma origin_snoc (f : fs) (root : path) (c : string) (s : path) : wf_tree f → ∀ (u l : path),
  origin f root u l (s ++ [c]) =
    match f !! (u ++ s ++ [c]) with
    | Some n => match redirect n with
                | Some r => if is_abs r then root ++ comps r else origin f root u l s ++ comps r
                | None => origin f root u l s ++ [c]
                end
    | None => origin f root u l s ++ [c]
    end.
Proof.
  intros Hwf. induction s as [|x s IH]; intros u l; cbn [origin app].
  - destruct (f !! (u ++ [c])) as [n|]; [|done]. destruct (redirect n); done.
  - destruct (f !! (u ++ [x])) as [n|] eqn:En.
    + rewrite IH. rewrite <-!app_assoc. done.
    + assert (f !! (u ++ x :: s ++ [c]) = None) as ->.
      { destruct (f !! (u ++ x :: s ++ [c])) as [k|] eqn:Ek; [|done].
        replace (u ++ x :: s ++ [c]) with ((u ++ [x]) ++ s ++ [c]) in Ek by (by rewrite <-app_assoc).
        apply (wf_is_Some_prefix f _ _ _ Hwf) in Ek as [? ?]. congruence. }
      by rewrite <-app_assoc.
Qed.

Lemma under_app_both (a p q : path) : under (a ++ p) (a ++ q) = under p q.
Proof.
  destruct (under p q) eqn:E.
  - apply under_spec in E as [t ->]. rewrite app_assoc. apply under_app.
  - destruct (under (a ++ p) (a ++ q)) eqn:E'; [|done]. apply under_spec in E' as [t Ht]. rewrite <-app_assoc in Ht.
    apply app_inv_head in Ht as ->. by rewrite under_app in E.
Qed.

Section storage.
  Context (f : fs) (ub m : path) (Hst : storage_ok f ub [m]).
  Let Hwf : wf_tree f := so_wf _ _ _ Hst.
  #[local] Notation U := (upper_dir ub m).
  #[local] Notation src := (kernel_source f ub m).
  #[local] Notation low := (lower_dir f ub m).

  Lemma src_nil : kernel_source f ub m [] = m.
  Proof. done. Qed.
  Lemma src_snoc (s : path) (c : string) : kernel_source f ub m (s ++ [c]) =
    match f !! (U ++ s ++ [c]) with
    | Some n => match redirect n with
                | Some r => if is_abs r then m ++ comps r else src s ++ comps r
                | None => src s ++ [c]
                end
    | None => src s ++ [c]
    end.
  Proof. unfold kernel_source. by rewrite origin_snoc. Qed.
  Lemma src_plain (s : path) (c : string) : (∀ n, ¬ renamed_at f ub m (s ++ [c]) n) → kernel_source f ub m (s ++ [c]) = src s ++ [c].
  Proof.
    intros H. rewrite src_snoc. destruct (f !! (U ++ s ++ [c])) as [n|] eqn:En; [|done].
    destruct (redirect n) eqn:Er; [|done]. destruct (H n). split; [split; [by destruct s|done]|by eexists].
  Qed.

  Lemma staged_parent (a : path) (c : string) (r : path) (n : node) : staged_at f ub m (a ++ c :: r) n →
    ∃ d, f !! (U ++ a) = Some d ∧ n_kind d = KDir ∧ (a ≠ [] → staged_at f ub m a d).
  Proof.
    intros [_ Hn]. rewrite app_assoc in Hn. destruct (wf_prefix f _ _ _ Hwf Hn) as (d & Hd & Hk); [done|].
    exists d. split; [done|]. split; [done|]. intros Ha. by split.
  Qed.
  Lemma dir_not_whiteout (n : node) : n_kind n = KDir → whiteout n = false.
  Proof. intros H. unfold whiteout. by rewrite H. Qed.

  Lemma ov_staged (s : path) : (∃ c n, staged_at f ub m (s ++ [c]) n) → ∃ l, ov f m (Some U) (Some m) s = Some (Some (U ++ s), l).
  Proof.
    induction s as [|x s IH] using rev_ind; intros (c & n & Hs).
    { exists (Some m). cbn [ov]. by rewrite app_nil_r. }
    rewrite <-app_assoc in Hs. cbn [app] in Hs.
    assert (staged_at f ub m ((s ++ [x]) ++ c :: []) n) as Hs2 by (by rewrite <-app_assoc).
    destruct (staged_parent _ _ _ _ Hs2) as (d & Hd & Hk & Hst').
    destruct IH as [l Hl]; [exists x, d; apply Hst'; by destruct s|].
    rewrite ov_app, Hl. cbn [ov]. unfold step. rewrite <-app_assoc, Hd, (dir_not_whiteout d Hk). rewrite Hk. cbn [is_kdir].
    by eexists.
  Qed.
  (** Above a path that is not staged, the walk knows no upper directory holding it. *)
  Lemma ov_upper (s : path) (u l : option path) : ov f m (Some U) (Some m) s = Some (u, l) →
    u = Some (U ++ s) ∨ u = None ∧ f !! (U ++ s) = None ∧ s ≠ [].
  Proof.
    revert u l. induction s as [|x s IH] using rev_ind; intros u l.
    { cbn [ov]. intros [= <- <-]. left. by rewrite app_nil_r. }
    rewrite ov_app. destruct (ov f m (Some U) (Some m) s) as [[u0 l0]|] eqn:E; [|done]. cbn [ov].
    destruct (IH u0 l0 eq_refl) as [-> |(-> & Hn & Hne)]; unfold step.
    - rewrite <-app_assoc. destruct (f !! (U ++ s ++ [x])) as [n|] eqn:En.
      + destruct (whiteout n); [done|]. destruct (is_kdir (n_kind n)); [|done]. intros [= <- _]. by left.
      + destruct (below_lower f l0 [x]); [|done]. intros [= <- _]. right. split; [done|]. split; [done|]. by destruct s.
    - destruct (below_lower f l0 [x]); [|done]. intros [= <- _]. right. split; [done|]. split; [|by destruct s].
      rewrite app_assoc. destruct (f !! ((U ++ s) ++ [x])) as [k|] eqn:Ek; [|done].
      apply (wf_is_Some_prefix f _ _ _ Hwf) in Ek as [? ?]. congruence.
  Qed.

  Lemma low_nil : lower_dir f ub m [] = Some m.
  Proof. done. Qed.
  Lemma low_snoc (s : path) (c : string) : lower_dir f ub m (s ++ [c]) =
    match f !! (U ++ s ++ [c]) with
    | Some n =>
        if whiteout n then None else if is_kdir (n_kind n) then
          if opaque n then None else
            match redirect n with
            | Some r => if is_abs r then asd f (m ++ comps r) else below_lower f (low s) (comps r)
            | None => below_lower f (low s) [c]
            end
        else None
    | None => below_lower f (low s) [c]
    end.
  Proof.
    unfold lower_dir. rewrite !lower_ov, ov_app.
    destruct (ov f m (Some U) (Some m) s) as [[u l]|] eqn:E.
    - cbn [ov]. unfold step. destruct (ov_upper s u l E) as [-> |(-> & Hn & Hne)].
      + rewrite <-app_assoc. destruct (f !! (U ++ s ++ [c])) as [n|].
        * destruct (whiteout n); [done|]. by destruct (is_kdir (n_kind n)).
        * by destruct (below_lower f l [c]).
      + assert (f !! (U ++ s ++ [c]) = None) as ->.
        { rewrite app_assoc. destruct (f !! ((U ++ s) ++ [c])) as [k|] eqn:Ek; [|done].
          apply (wf_is_Some_prefix f _ _ _ Hwf) in Ek as [? ?]. congruence. }
        by destruct (below_lower f l [c]).
    - destruct (f !! (U ++ s ++ [c])) as [n|] eqn:En; [|done].
      destruct (ov_staged s) as [l Hl]; [|congruence]. exists c, n. split; [by destruct s|done].
  Qed.

  Lemma asd_Some (p q : path) : asd f p = Some q ↔ q = p ∧ is_dir_at f p.
  Proof.
    unfold asd, is_dir_at. destruct (f !! p) as [k|]; [|split; [done|intros (_ & ? & ? & _); done]].
    destruct (is_kdir (n_kind k)) eqn:E.
    - apply is_kdir_true in E. split; [intros [= <-]; split; [done|by exists k]|by intros (-> & _)].
    - split; [done|]. intros (_ & k' & [= <-] & Hk). by rewrite Hk in E.
  Qed.
  Lemma asd_None (p : path) : asd f p = None ↔ ¬ is_dir_at f p.
  Proof.
    destruct (asd f p) as [q|] eqn:E.
    - apply asd_Some in E as [_ H]. split; [done|]. intros H'. by destruct H'.
    - split; [|done]. intros _ H. assert (asd f p = Some p) as E' by (by apply asd_Some). congruence.
  Qed.

  Lemma low_src (s p : path) : lower_dir f ub m s = Some p → p = src s ∧ is_dir_at f p.
  Proof.
    revert p. induction s as [|c s IH] using rev_ind; intros p.
    { rewrite low_nil. intros [= <-]. split; [done|]. by destruct (so_mount _ _ _ Hst m ltac:(left)) as [H _]. }
    rewrite low_snoc. rewrite src_snoc.
    assert (∀ r, below_lower f (low s) r = Some p → p = src s ++ r ∧ is_dir_at f p) as H.
    { intros r. unfold below_lower. destruct (low s) as [lo|] eqn:El; [|done]. destruct (IH lo eq_refl) as [-> _].
      intros E. apply asd_Some in E as [-> ?]. done. }
    destruct (f !! (U ++ s ++ [c])) as [n|]; [|apply H].
    destruct (whiteout n); [done|]. destruct (is_kdir (n_kind n)); [|done]. destruct (opaque n); [done|].
    destruct (redirect n) as [r|]; [|apply H]. destruct (is_abs r); [|apply H].
    intros E. apply asd_Some in E as [-> ?]. done.
  Qed.

  (** Going up from a merged directory that was not itself renamed. *)
  Lemma low_up (s : path) (c : string) (p : path) : lower_dir f ub m (s ++ [c]) = Some p → (∀ n, ¬ renamed_at f ub m (s ++ [c]) n) →
    lower_dir f ub m s = Some (src s) ∧ p = src s ++ [c].
  Proof.
    intros E Hn. destruct (low_src _ _ E) as [-> _]. rewrite (src_plain s c Hn). split; [|done].
    rewrite low_snoc in E.
    assert (∀ p, below_lower f (low s) [c] = Some p → low s = Some (src s)) as H.
    { intros p. unfold below_lower. destruct (low s) as [lo|] eqn:El; [|done]. by destruct (low_src s lo El) as [-> _]. }
    destruct (f !! (U ++ s ++ [c])) as [n|] eqn:En; [|by apply H in E].
    destruct (whiteout n); [done|]. destruct (is_kdir (n_kind n)); [|done]. destruct (opaque n); [done|].
    destruct (redirect n) eqn:Er; [|by apply H in E]. destruct (Hn n). split; [split; [by destruct s|done]|by eexists].
  Qed.

  (** [sb] is the innermost renamed directory at or above [sb ++ r], or the mount point. *)
  Definition base (sb r : path) : Prop := (sb = [] ∨ ∃ n, renamed_at f ub m sb n) ∧
    ∀ r1 r2 n, r = r1 ++ r2 → r1 ≠ [] → ¬ renamed_at f ub m (sb ++ r1) n.
  Lemma renamed_dec (s : path) : (∃ n, renamed_at f ub m s n) ∨ ∀ n, ¬ renamed_at f ub m s n.
  Proof.
    destruct s as [|c s]; [right; intros n [[? _] _]; done|].
    destruct (f !! (U ++ c :: s)) as [n|] eqn:En.
    - destruct (redirect n) as [r|] eqn:Er.
      + left. exists n. split; [by split|by exists r].
      + right. intros n' [[_ Hn'] [r Hr]]. fold U in Hn'. congruence.
    - right. intros n' [[_ Hn'] _]. fold U in Hn'. congruence.
  Qed.
  Lemma base_exists (s : path) : ∃ sb r, s = sb ++ r ∧ base sb r.
  Proof.
    induction s as [|c s (sb & r & -> & Hb1 & Hb3)] using rev_ind.
    { exists [], []. split; [done|]. split; [by left|]. intros r1 r2 n E. symmetry in E. by apply app_nil in E as [-> _]. }
    destruct (renamed_dec ((sb ++ r) ++ [c])) as [[n Hn]|Hno].
    - exists ((sb ++ r) ++ [c]), []. split; [by rewrite app_nil_r|]. split; [right; by exists n|].
      intros r1 r2 n' E. symmetry in E. by apply app_nil in E as [-> _].
    - exists sb, (r ++ [c]). split; [by rewrite app_assoc|]. split; [done|].
      intros r1 r2 n E Hr1. destruct r2 as [|x r2 _] using rev_ind.
      + rewrite app_nil_r in E. subst r1. rewrite app_assoc. apply Hno.
      + rewrite app_assoc in E. apply app_inj_tail in E as [E <-]. by apply (Hb3 r1 r2).
  Qed.
  Lemma base_up (sb r r' : path) : base sb (r ++ r') → base sb r.
  Proof. intros [H1 H2]. split; [done|]. intros r1 r2 n -> Hr1. apply (H2 r1 (r2 ++ r')); [by rewrite app_assoc|done]. Qed.
  Lemma base_snoc (sb r : path) (c : string) : base sb r → (∀ n, ¬ renamed_at f ub m (sb ++ r ++ [c]) n) → base sb (r ++ [c]).
  Proof.
    intros [H1 H2] Hn. split; [done|]. intros r1 r2 n E Hr1. destruct r2 as [|x r2 _] using rev_ind.
    - rewrite app_nil_r in E. subst r1. apply Hn.
    - rewrite app_assoc in E. apply app_inj_tail in E as [E <-]. by apply (H2 r1 r2).
  Qed.
  Lemma base_src (sb r : path) : base sb r → kernel_source f ub m (sb ++ r) = src sb ++ r.
  Proof.
    induction r as [|c r IH] using rev_ind; intros Hb; [by rewrite !app_nil_r|].
    rewrite app_assoc, src_plain.
    - rewrite IH by (by apply base_up in Hb). by rewrite app_assoc.
    - intros n. rewrite <-app_assoc. apply (proj2 Hb (r ++ [c]) []); [by rewrite app_nil_r|by destruct r].
  Qed.
  Lemma base_low (sb r r' : path) (p : path) : base sb (r ++ r') → lower_dir f ub m (sb ++ r ++ r') = Some p →
    lower_dir f ub m (sb ++ r) = Some (src sb ++ r).
  Proof.
    revert p. induction r' as [|c r' IH] using rev_ind; intros p Hb E.
    - rewrite app_nil_r in *. destruct (low_src _ _ E) as [-> _]. rewrite E. f_equal. exact (base_src sb r Hb).
    - rewrite !app_assoc in E. apply low_up in E as [E _].
      + rewrite <-app_assoc in E. apply (IH (src (sb ++ r ++ r'))); [|exact E].
        rewrite app_assoc in Hb. by apply base_up in Hb.
      + intros n. rewrite <-!app_assoc. apply (proj2 Hb (r ++ r' ++ [c]) []); [by rewrite app_nil_r|]. by destruct r, r'.
  Qed.
  Lemma base_above (sb r : path) : base sb r → under (src sb) (src (sb ++ r)) = true.
  Proof. intros H. rewrite (base_src sb r H). apply under_app. Qed.
End storage.

Section sandbox.
  Context (f : fs) (ub m : path) (dev : N) (Hok : renamed_ok f ub m dev).
  Let Hst : storage_ok f ub [m] := ro_storage _ _ _ _ Hok.
  Let Hwf : wf_tree f := so_wf _ _ _ Hst.
  #[local] Notation U := (upper_dir ub m).
  #[local] Notation src := (kernel_source f ub m).
  #[local] Notation low := (lower_dir f ub m).

  (** The merged directory of a renamed directory is where it came from. *)
  Lemma renamed_low (s : path) (n : node) : renamed_at f ub m s n → lower_dir f ub m s = Some (src s).
  Proof.
    intros Hr. pose proof Hr as [Hs [r Er]]. destruct (ro_redirect _ _ _ _ Hok s n r Hs Er) as (Hc & _ & Hop & Hrel).
    destruct (ro_source _ _ _ _ Hok s n Hr) as (k & Hk & Hkd & _).
    destruct (ef_redirect _ (ro_format _ _ _ _ Hok s n Hs) r Er) as [Hnd _].
    destruct s as [|c s _] using rev_ind; [by destruct Hs|].
    rewrite (low_snoc f ub m Hst). rewrite (src_snoc f ub m Hst) in Hk |- *. pose proof Hs as [_ Hn]. rewrite Hn in Hk |- *.
    rewrite (dir_not_whiteout n Hnd), Hop, Er in *. rewrite Hnd. cbn [is_kdir].
    destruct (is_abs r) eqn:Ea; [apply asd_Some; split; [done|by exists k]|].
    specialize (Hrel eq_refl).
    assert (∀ a b, s = a ++ b → lower_dir f ub m a = Some (m ++ a) ∧ src a = m ++ a) as Hpre.
    { intros a. induction a as [|x a IHa] using rev_ind; intros b Es.
      { rewrite low_nil, app_nil_r. done. }
      destruct (IHa ([x] ++ b)) as [H1 H2]; [by rewrite Es, <-app_assoc|].
      assert (staged_at f ub m ((a ++ [x]) ++ hd c b :: tl (b ++ [c])) n) as Hs'.
      { replace ((a ++ [x]) ++ hd c b :: tl (b ++ [c])) with (s ++ [c]); [done|]. rewrite Es, <-!app_assoc. by destruct b. }
      destruct ((staged_parent f ub m Hst) _ _ _ _ Hs') as (d & Hd & Hdk & Hds). specialize (Hds ltac:(by destruct a)).
      destruct (Hrel (a ++ [x]) (b ++ [c]) d) as [Hr1 Hr2]; [by rewrite Es, <-!app_assoc|by destruct b|done|].
      rewrite (low_snoc f ub m Hst). rewrite (src_snoc f ub m Hst). rewrite Hd, (dir_not_whiteout d Hdk), Hr2, Hr1, Hdk. cbn [is_kdir].
      rewrite H1. cbn [below_lower]. rewrite H2, <-app_assoc. split; [|done].
      apply asd_Some. split; [done|].
      assert (src s = m ++ s) as Hss.
      { unfold kernel_source. apply origin_plain. intros a1 a2 n1 E1 Ha1 Hn1.
        apply (Hrel a1 (a2 ++ [c]) n1); [by rewrite E1, <-app_assoc|by destruct a2|by split]. }
      rewrite Hss in Hk.
      destruct (wf_prefix f (m ++ a ++ [x]) (b ++ comps r) k Hwf) as (d' & Hd' & Hk').
      { rewrite <-Hk. f_equal. rewrite Es. by rewrite <-!app_assoc. }
      { by destruct b; [destruct (comps r)|]. }
      by exists d'. }
    destruct (Hpre s [] ltac:(by rewrite app_nil_r)) as [H1 H2]. rewrite H1. cbn [below_lower].
    rewrite H2 in Hk |- *. apply asd_Some. split; [done|by exists k].
  Qed.

  Lemma src_below (s : path) (n : node) : staged_at f ub m s n → ∃ x r, kernel_source f ub m s = m ++ x :: r.
  Proof.
    revert n. induction s as [|c s IH] using rev_ind; intros n Hs; [by destruct Hs|].
    assert (∃ r, src s = m ++ r) as [r0 Hr0].
    { destruct s as [|x s]; [exists []; by rewrite app_nil_r|].
      destruct ((staged_parent f ub m Hst) _ _ _ _ Hs) as (d & _ & _ & Hd). destruct (IH d (Hd ltac:(done))) as (y & r & E). by exists (y :: r). }
    rewrite (src_snoc f ub m Hst). pose proof Hs as [_ Hn]. rewrite Hn, Hr0.
    assert (∀ t : path, t ≠ [] → ∃ x r, (m ++ r0) ++ t = m ++ x :: r) as H.
    { intros t Ht. rewrite <-app_assoc. destruct (r0 ++ t) as [|x r] eqn:E; [by destruct r0|]. by exists x, r. }
    destruct (redirect n) as [r|] eqn:Er; [|by apply H]. destruct (ro_redirect _ _ _ _ Hok _ n r Hs Er) as (Hc & _).
    destruct (is_abs r); [|by apply H]. destruct (comps r) as [|x t]; [done|]. by exists x, t.
  Qed.

  (** ** Views *)
  Lemma view_staged (s : path) (n : node) : staged_at f ub m s n → renamed_view f ub m s = if whiteout n then None else Some n.
  Proof.
    intros Hs. destruct s as [|c s _] using rev_ind; [by destruct Hs|]. unfold renamed_view. rewrite view_ov by done.
    destruct ((ov_staged f ub m Hst) s ltac:(by exists c, n)) as [l Hl]. rewrite Hl. cbn [renamed_lookup].
    pose proof Hs as [_ Hn]. rewrite app_assoc in Hn. rewrite Hn. destruct (whiteout n); [done|]. by destruct (is_kdir (n_kind n)).
  Qed.
  Lemma view_unstaged (s : path) (c : string) : f !! (U ++ s ++ [c]) = None →
    renamed_view f ub m (s ++ [c]) = match lower_dir f ub m s with Some lo => f !! (lo ++ [c]) | None => None end.
  Proof.
    intros Hn. unfold renamed_view, lower_dir. rewrite view_ov by done. rewrite lower_ov.
    destruct (ov f m (Some U) (Some m) s) as [[u l]|] eqn:E; [|done]. cbn [renamed_lookup].
    assert (match u with Some up => f !! (up ++ [c]) | None => None end = None) as ->.
    { destruct ((ov_upper f ub m Hst) s u l E) as [-> |(-> & _)]; [by rewrite <-app_assoc|done]. }
    destruct l as [lo|]; [|done]. destruct (f !! (lo ++ [c])) as [k|] eqn:Ek; [|done].
    destruct (is_kdir (n_kind k)); done.
  Qed.
End sandbox.
