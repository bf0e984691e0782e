(** * C04, C05 and C70 for sandboxes in which directories were renamed: every moment of an accept *)
From Verif Require Export Props_RenameView Props_Loss.

Section sandbox.
  Context (f : fs) (ub m : path) (dev : N) (Hok : renamed_ok f ub m dev).
  #[local] Notation U := (upper_dir ub m).
  #[local] Notation src := (kernel_source f ub m).
  (** A file modified in the sandbox: what it was is neither deleted nor renamed on its own. *)
  Lemma modified_kept (sb r : path) (c : string) (n k : node) (old new : string) : base f ub m sb r →
    lower_dir f ub m (sb ++ r) = Some (src (sb ++ r)) → staged_at f ub m (sb ++ r ++ [c]) n → whiteout n = false → n_kind n = KFile new →
    f !! (src (sb ++ r) ++ [c]) = Some k → n_kind k = KFile old → ¬ lost f ub m sb (src (sb ++ r) ++ [c]).
  Proof.
    intros Hb Hl [_ Hn] Hw Hnk Hk Hkk [H|[(s & n' & Hr & Hna & Hu & _)|(y & Hy & Hab & Hu)]]; [congruence| |].
    - apply under_snoc in Hu as [E|Hu]; [|by rewrite (not_deleted f ub m dev Hok s _ n' Hr Hna Hl) in Hu].
      destruct s as [|c' s _] using rev_ind; [by destruct Hr as [[? _] _]|].
      destruct (replaces_parent f ub m dev Hok s c' n' Hr) as (Hp1 & Hp2 & _). rewrite Hp2 in E. apply app_inj_tail in E as [E ->].
      rewrite E in Hp1. pose proof (ro_once _ _ _ _ Hok _ _ _ Hp1 Hl) as ->.
      destruct Hr as [[_ Hn'] (k' & Hk' & Hcase)]. rewrite <-app_assoc in Hn'. assert (n' = n) as -> by congruence.
      rewrite Hp2 in Hk'. assert (k' = k) as -> by congruence.
      destruct Hcase as [H|[H|[_ H]]]; [congruence| |congruence]. unfold opaque in H. by rewrite Hnk in H.
    - apply under_snoc in Hu as [E|Hu]; [|by rewrite (not_moved f ub m dev Hok sb r y Hb Hl Hy Hab) in Hu].
      destruct Hy as (s' & n' & Hr' & <-). destruct (ro_source _ _ _ _ Hok s' n' Hr') as (k' & Hk' & Hd & _).
      rewrite E in Hk'. congruence.
  Qed.
End sandbox.

Section accepting.
  Context (e : env) (f : fs) (ub m : path) (dev udev : N) (pats : list string) (Hok : renamed_ok f ub m dev).
  Context (Hcwd : cwd_ok f ub m (e_cwd e)) (Hid : identifiers_ok (e_uuid e) f) (Hud : one_device f ub udev) (He : env_ok e).
  Context (Hpats : selects_all e f ub pats).

  Lemma crash_or_done (st : fs) : st ∈ states (accept e ub true pats f) →
    (∀ q n, under ub q = true → f !! q = Some n → st !! q = Some n) ∨
    (∀ s, s ≠ [] → under ub (m ++ s) = false → same_view (renamed_view f ub m s) (st !! (m ++ s))) ∧
    (∀ p, under ub p = false → under m p = false ∨ p = m → st !! p = f !! p).
  Proof.
    intros Hst. destruct (all_changes f ub m dev Hok e He) as (l & all & Hc & _ & _).
    destruct (accepting e f ub m dev udev pats Hok Hcwd Hid Hud He Hpats all Hc st Hst) as [[H _]|H]; [by left|right].
    destruct (C01_renamed_directories_partial e f ub m dev udev pats Hok Hcwd Hid Hud He Hpats) as (_ & H1 & H2 & _). split.
    - intros s Hs Hu. rewrite H by done. by apply H1.
    - intros p Hu Hp. rewrite H by done. by apply H2.
  Qed.

  Lemma nothing_lost (st : fs) (s : path) (c : string) : st ∈ states (accept e ub true pats f) →
    s ≠ [] → under ub (m ++ s) = false → shows f ub m s c → held st c.
  Proof.
    intros Hst Hne Hu (n & Hv & Hk).
    destruct (accepted' e f ub m dev udev pats Hok Hcwd Hid Hud He Hpats) as (l & all & Hc & Hl & Hall & _ & Harr & _).
    destruct (C01_renamed_directories_partial e f ub m dev udev pats Hok Hcwd Hid Hud He Hpats) as (_ & H1 & _).
    specialize (H1 s Hne Hu). rewrite Hv in H1.
    destruct (o_fs (accept e ub true pats f) !! (m ++ s)) as [n'|] eqn:En'; [|done].
    assert (n_kind n' = KFile c) as Hk' by (destruct H1 as [<- _]; done).
    destruct (accepting e f ub m dev udev pats Hok Hcwd Hid Hud He Hpats all Hc st Hst) as [[Hsto Hkeep]|H].
    - destruct (f !! (upper_dir ub m ++ s)) as [x|] eqn:Ex.
      + rewrite (view_staged f ub m dev Hok s x) in Hv by done. destruct (whiteout x); [done|]. injection Hv as ->.
        exists (upper_dir ub m ++ s), n. split; [|done]. apply Hsto; [|done]. unfold upper_dir. rewrite <-app_assoc. apply under_app.
      + assert (∀ ch, ch ∈ all → is_set ch → c_dest ch ≠ m ++ s) as Hno.
        { intros ch Hch Hset. destruct (sets_installed f ub m l all Hl Hall ch Hch Hset) as (s' & x' & [_ Hx'] & _ & _ & -> & _).
          intros E. apply app_inv_head in E as ->. congruence. }
        specialize (Harr (m ++ s) Hu Hno). rewrite En' in Harr.
        destruct (Hkeep _ _ Harr) as [(q & Hq & _)|(ch & u & y & Hch & Hset & Hd & _)]; [by exists q, n'|]. by destruct (Hno ch Hch Hset).
    - exists (m ++ s), n'. split; [|done]. by rewrite H.
  Qed.

  Lemma old_or_new (st : fs) (s lo : path) (c old new : string) (n k : node) : st ∈ states (accept e ub true pats f) →
    staged_at f ub m (s ++ [c]) n → whiteout n = false → n_kind n = KFile new →
    lower_dir f ub m s = Some lo → f !! (lo ++ [c]) = Some k → n_kind k = KFile old →
    (∃ k', st !! (m ++ s ++ [c]) = Some k' ∧ n_kind k' = KFile new) ∨
    ∃ q, st !! q = Some k ∧ (q = m ++ s ++ [c] ∨ ∃ s' n', renamed_at f ub m s' n' ∧ under s' s = true).
  Proof.
    intros Hst Hs Hw Hnk Hl Hk Hkk.
    destruct (low_src f ub m (ro_storage _ _ _ _ Hok) _ _ Hl) as [-> _].
    assert (under ub (m ++ s ++ [c]) = false) as Hu by exact (proj1 (proj2 (ro_elsewhere _ _ _ _ Hok) (s ++ [c]) n Hs)).
    destruct (accepted' e f ub m dev udev pats Hok Hcwd Hid Hud He Hpats) as (l & all & Hc & Hll & Hall & _ & _).
    destruct (accepting e f ub m dev udev pats Hok Hcwd Hid Hud He Hpats all Hc st Hst) as [[_ Hkeep]|H].
    - destruct (base_exists f ub m s) as (sb & r & -> & Hb).
      assert (∀ n', ¬ renamed_at f ub m (sb ++ r ++ [c]) n') as Hnr.
      { rewrite <-app_assoc in Hs. intros n' [[_ Hn'] [rd Hrd]]. destruct Hs as [_ Hn]. assert (n' = n) as -> by congruence.
        destruct (ef_redirect n (ro_format _ _ _ _ Hok (sb ++ r ++ [c]) n ltac:(split; [by destruct sb, r|done])) rd Hrd). congruence. }
      pose proof (base_snoc f ub m sb r c Hb Hnr) as Hbc.
      assert (arranged (without f (removals all)) (moves all) (moves all) (m ++ sb ++ r ++ [c]) (Some k)) as Ha.
      { apply (found_place f ub m l all Hll Hall sb (r ++ [c])); [done|].
        rewrite (place_kept f ub m dev Hok l all Hll Hall sb (r ++ [c]) Hbc).
        - rewrite app_assoc, <-(base_src f ub m (ro_storage _ _ _ _ Hok) sb r Hb). done.
        - rewrite app_assoc, <-(base_src f ub m (ro_storage _ _ _ _ Hok) sb r Hb).
          eapply (modified_kept f ub m dev Hok sb r c n k old new); try done. by rewrite app_assoc. }
      rewrite <-!app_assoc in *.
      destruct (Hkeep _ _ Ha) as [(q & Hq & Hor)|(ch & u & y & Hch & Hset & Hd & Hcs & Hy & Hcase)].
      + right. exists q. split; [done|]. destruct Hor as [-> |([y d] & Hm & Hud')]; [by left|right].
        apply (moves_renamed f ub m l all Hll Hall) in Hm as (s' & n' & Hr & -> & ->). cbn [snd] in Hud'.
        exists s', n'. split; [done|]. rewrite under_app_both in Hud'. rewrite app_assoc in Hud'.
        apply under_snoc in Hud' as [-> |?]; [|done]. rewrite <-app_assoc in Hr. by destruct (Hnr n').
      + left. destruct (sets_installed f ub m l all Hll Hall ch Hch Hset) as (s' & x' & [_ Hx'] & _ & _ & Hd' & Hcs').
        rewrite Hd in Hd'. apply app_inv_head in Hd' as <-. destruct Hs as [_ Hn]. assert (x' = n) as -> by congruence.
        rewrite Hcs in Hcs'. injection Hcs' as Eu _. subst u. assert (y = n) as -> by congruence.
        rewrite Hnk in Hcase. destruct Hcase as [(k' & Hk' & ?)|[? _]]; [by exists k'|done].
    - left. destruct (C01_renamed_directories_partial e f ub m dev udev pats Hok Hcwd Hid Hud He Hpats) as (_ & H1 & _).
      specialize (H1 (s ++ [c]) ltac:(by destruct s) Hu). rewrite (view_staged f ub m dev Hok _ n Hs), Hw, <-H in H1 by done.
      destruct (st !! (m ++ s ++ [c])) as [n'|]; [|done]. exists n'. split; [done|]. destruct H1 as [<- _]. done.
  Qed.
End accepting.

(** ** C05 with renamed directories: at every moment of an accept (it may be killed there), either
    every object in the storage is still there, or the host already looks as the sandbox did. *)
Theorem C05_renamed_staged_survives_partial : ∀ e f ub m dev udev pats, renamed_ok f ub m dev → cwd_ok f ub m (e_cwd e) →
  identifiers_ok (e_uuid e) f → one_device f ub udev → env_ok e → selects_all e f ub pats →
  ∀ st, st ∈ states (accept e ub true pats f) →
  (∀ q n, under ub q = true → f !! q = Some n → st !! q = Some n) ∨
  (∀ s, s ≠ [] → under ub (m ++ s) = false → same_view (renamed_view f ub m s) (st !! (m ++ s))) ∧
  (∀ p, under ub p = false → under m p = false ∨ p = m → st !! p = f !! p).
Proof. intros e f ub m dev udev pats Hok Hcwd Hid Hud He Hpats st Hst. by eapply crash_or_done. Qed.
Print Assumptions C05_renamed_staged_survives_partial.

(** ** C70 with renamed directories: the contents of every file the sandbox shows exist somewhere, at
    every moment. *)
Theorem C70_renamed_nothing_lost_partial : ∀ e f ub m dev udev pats, renamed_ok f ub m dev → cwd_ok f ub m (e_cwd e) →
  identifiers_ok (e_uuid e) f → one_device f ub udev → env_ok e → selects_all e f ub pats →
  ∀ st, st ∈ states (accept e ub true pats f) →
  ∀ s c, s ≠ [] → under ub (m ++ s) = false → shows f ub m s c → held st c.
Proof. intros e f ub m dev udev pats Hok Hcwd Hid Hud He Hpats st Hst s c. by eapply nothing_lost. Qed.
Print Assumptions C70_renamed_nothing_lost_partial.

(** ** C04 with renamed directories: a file changed in the sandbox, also in a renamed directory.  At
    every moment the new contents are at its place, or the old file is still whole: at its place, or
    (in a renamed directory only) elsewhere. *)
Theorem C04_renamed_replacement_atomic_partial : ∀ e f ub m dev udev pats, renamed_ok f ub m dev → cwd_ok f ub m (e_cwd e) →
  identifiers_ok (e_uuid e) f → one_device f ub udev → env_ok e → selects_all e f ub pats →
  ∀ st, st ∈ states (accept e ub true pats f) →
  ∀ s lo c old new n k,
    staged_at f ub m (s ++ [c]) n → whiteout n = false → n_kind n = KFile new →                       (* the staged file *)
    lower_dir f ub m s = Some lo → f !! (lo ++ [c]) = Some k → n_kind k = KFile old →                (* the host file it replaces *)
  (∃ k', st !! (m ++ s ++ [c]) = Some k' ∧ n_kind k' = KFile new) ∨
  ∃ q, st !! q = Some k ∧ (q = m ++ s ++ [c] ∨ ∃ s' n', renamed_at f ub m s' n' ∧ under s' s = true).
Proof. intros e f ub m dev udev pats Hok Hcwd Hid Hud He Hpats st Hst s lo c old new n k. by eapply old_or_new. Qed.
Print Assumptions C04_renamed_replacement_atomic_partial.

(** The hypotheses are met by the sandbox of [C01_renamed_nonvacuous], where /a was renamed to /new/b and its
    file f changed: the run has many states, and they are of all kinds. *)
Example C04_C05_C70_renamed_nonvacuous :
  let o := accept view_env demo_ub true ["/"] view_fs in
  let q := demo_ub ++ ["F4"; "new"; "b"; "f"] in
  renamed_ok view_fs demo_ub [] 1 ∧ cwd_ok view_fs demo_ub [] ["home"] ∧ 40 ≤ length (states o) ∧
  staged_at view_fs demo_ub [] ["new"; "b"; "f"] (file_ "2") ∧ lower_dir view_fs demo_ub [] ["new"; "b"] = Some ["a"] ∧
  (** the changed file: before, on its way, after *)
  existsb (λ st, bool_decide (st !! ["a"; "f"] = Some (file_ "1"))) (states o) = true ∧
  existsb (λ st, bool_decide (st !! ["a"; "f"] = None ∧ st !! ["new"; "b"; "f"] = None)) (states o) = true ∧
  existsb (λ st, bool_decide (st !! ["new"; "b"; "f"] = Some (file_ "1"))) (states o) = true ∧
  existsb (λ st, bool_decide (st !! ["new"; "b"; "f"] = Some (file_ "2") ∧ st !! q = Some (file_ "2"))) (states o) = true ∧
  existsb (λ st, bool_decide (st !! q = None)) (states o) = true ∧ shows view_fs demo_ub [] ["new"; "b"; "h"] "h".
Proof.
  split; [exact view_ok|]. split; [exact view_cwd|]. split; [refine (bool_decide_unpack _ _); vm_compute; exact I|].
  split; [split; [discriminate|vm_compute; reflexivity]|]. split; [vm_compute; reflexivity|].
  split; [vm_compute; reflexivity|]. split; [vm_compute; reflexivity|]. split; [vm_compute; reflexivity|].
  split; [vm_compute; reflexivity|]. split; [vm_compute; reflexivity|]. exists (file_ "h"). split; [vm_compute; reflexivity|reflexivity].
Qed.
