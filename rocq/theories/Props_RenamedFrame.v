(** * C02 with renamed directories: at every moment of an accept, what the sandbox did not change is where it was. *)
From Verif Require Export Props_RenamedCrash.
From Verif Require Import Checkers.

Section accepting.
  Context (e : env) (f : fs) (ub m : path) (dev udev : N) (pats : list string) (Hok : renamed_ok f ub m dev).
  Context (Hcwd : cwd_ok f ub m (e_cwd e)) (Hid : identifiers_ok (e_uuid e) f) (Hud : one_device f ub udev) (He : env_ok e).
  Context (Hpats : selects_all e f ub pats).

  Lemma untouched_below (st : fs) (s : path) (c : string) (k : node) : st ∈ states (accept e ub true pats f) →
    under ub (m ++ s ++ [c]) = false → lower_dir f ub m s = Some (m ++ s) → f !! (upper_dir ub m ++ s ++ [c]) = None →
    (∀ s' n', renamed_at f ub m s' n' → under s' s = false) → f !! (m ++ s ++ [c]) = Some k → st !! (m ++ s ++ [c]) = Some k.
  Proof.
    intros Hst Hu Hl Hno Hre Hk.
    destruct (accepted' e f ub m dev udev pats Hok Hcwd Hid Hud He Hpats) as (l & all & Hc & Hll & Hall & _ & Harr & _).
    destruct (low_src f ub m (ro_storage _ _ _ _ Hok) _ _ Hl) as [Es _].
    assert (∀ ch, ch ∈ all → is_set ch → c_dest ch ≠ m ++ s ++ [c]) as Hnoset.
    { intros ch Hch Hset. destruct (sets_installed f ub m l all Hll Hall ch Hch Hset) as (s' & x' & [_ Hx'] & _ & _ & -> & _).
      intros E. apply app_inv_head in E as ->. congruence. }
    assert (∀ n', ¬ renamed_at f ub m (s ++ [c]) n') as Hnr by (intros n' [[_ Hn'] _]; congruence).
    assert (base f ub m [] (s ++ [c])) as Hb.
    { split; [by left|]. intros r1 r2 n E Hr1 Hr. cbn [app] in Hr. destruct (path_snoc_case r2) as [-> |(r2' & y & ->)].
      - rewrite app_nil_r in E. rewrite <-E in Hr. by apply Hnr in Hr.
      - rewrite app_assoc in E. apply app_inj_tail in E as [-> _]. pose proof (Hre _ _ Hr) as Hx. by rewrite under_app in Hx. }
    assert (base f ub m [] s) as Hb0 by exact (base_up f ub m [] s [c] Hb).
    assert (place f ub m all [] (s ++ [c]) = Some k) as Hplace.
    { pose proof (place_kept f ub m dev Hok l all Hll Hall [] (s ++ [c]) Hb) as Hp. rewrite Hp; [by rewrite <-Hk|].
      change (kernel_source f ub m []) with m. rewrite app_assoc.
      pose proof (shown_kept f ub m dev Hok [] s c k Hb0) as Hx. cbn [app] in Hx. rewrite <-Es in Hx. apply Hx; [done|done|].
      by rewrite <-app_assoc. }
    assert (arranged (without f (removals all)) (moves all) (moves all) (m ++ s ++ [c]) (Some k)) as Ha.
    { rewrite <-Hplace. by apply (found_place f ub m l all Hll Hall [] (s ++ [c])). }
    destruct (accepting e f ub m dev udev pats Hok Hcwd Hid Hud He Hpats all Hc st Hst) as [[_ Hkeep]|H].
    - destruct (Hkeep _ _ Ha) as [(q & Hq & Hor)|(ch & u & y & Hch & Hset & Hd & _)]; [|by destruct (Hnoset ch Hch Hset)].
      destruct Hor as [-> |([y d] & Hm & Hud')]; [done|].
      apply (moves_renamed f ub m l all Hll Hall) in Hm as (s' & n' & Hr & -> & ->). cbn [snd] in Hud'.
      rewrite under_app_both in Hud'. apply under_snoc in Hud' as [-> |Hx]; [by destruct (Hnr n')|]. by rewrite (Hre _ _ Hr) in Hx.
    - rewrite H by done. specialize (Harr _ Hu Hnoset). apply (found_place f ub m l all Hll Hall [] (s ++ [c]) _ Hb) in Harr.
      by rewrite Harr.
  Qed.
  Lemma untouched_outside (st : fs) (p : path) (k : node) : st ∈ states (accept e ub true pats f) →
    under ub p = false → under m p = false ∨ p = m → f !! p = Some k → st !! p = Some k.
  Proof.
    intros Hst Hu Hp Hk.
    destruct (accepted' e f ub m dev udev pats Hok Hcwd Hid Hud He Hpats) as (l & all & Hc & Hll & Hall & _ & Harr & _).
    destruct (C01_renamed_directories_partial e f ub m dev udev pats Hok Hcwd Hid Hud He Hpats) as (_ & _ & H2 & _).
    assert (∀ s : path, s ≠ [] → m ++ s ≠ p) as Hne.
    { intros s Hs <-. destruct Hp as [Hp|Hp]; [by rewrite under_app in Hp|]. rewrite <-(app_nil_r m) in Hp at 2. by apply app_inv_head in Hp. }
    assert (∀ ch, ch ∈ all → is_set ch → c_dest ch ≠ p) as Hnoset.
    { intros ch Hch Hset. destruct (sets_installed f ub m l all Hll Hall ch Hch Hset) as (s' & x' & [Hs' _] & _ & _ & -> & _). by apply Hne. }
    destruct (accepting e f ub m dev udev pats Hok Hcwd Hid Hud He Hpats all Hc st Hst) as [[_ Hkeep]|H].
    - specialize (Harr p Hu Hnoset). rewrite (H2 p Hu Hp), Hk in Harr.
      destruct (Hkeep _ _ Harr) as [(q & Hq & Hor)|(ch & u & y & Hch & Hset & Hd & _)]; [|by destruct (Hnoset ch Hch Hset)].
      destruct Hor as [-> |([y d] & Hm & Hud')]; [done|]. exfalso.
      apply (moves_renamed f ub m l all Hll Hall) in Hm as (s' & n' & Hr & -> & ->). cbn [snd] in Hud'.
      apply under_spec in Hud' as [t ->]. rewrite <-app_assoc in Hne. apply (Hne (s' ++ t)); [|done]. destruct Hr as [[? _] _]. by destruct s'.
    - rewrite H by done. by rewrite H2.
  Qed.
End accepting.

(** Every object of the host stays where it is, as it is, at every moment,
    - below the mount point, if the sandbox shows the host's directory it is in at the same place, neither that directory
      nor one above it was renamed, and nothing was staged under its own name;
    - elsewhere outside the storage, always. *)
Theorem C02_renamed_frame_partial (e : env) (f : fs) (ub m : path) (dev udev : N) (pats : list string) :
  renamed_ok f ub m dev → cwd_ok f ub m (e_cwd e) → identifiers_ok (e_uuid e) f → one_device f ub udev → env_ok e → selects_all e f ub pats →
  ∀ st, st ∈ states (accept e ub true pats f) →
  (∀ s c k, under ub (m ++ s ++ [c]) = false → lower_dir f ub m s = Some (m ++ s) → (∀ s' n', renamed_at f ub m s' n' → under s' s = false) →
     f !! (upper_dir ub m ++ s ++ [c]) = None → f !! (m ++ s ++ [c]) = Some k → st !! (m ++ s ++ [c]) = Some k) ∧
  (∀ p k, under ub p = false → under m p = false ∨ p = m → f !! p = Some k → st !! p = Some k).
Proof.
  intros Hok Hcwd Hid Hud He Hpats st Hst. split.
  - intros s c k Hu Hl Hre Hno Hk. by apply (untouched_below e f ub m dev udev pats Hok Hcwd Hid Hud He Hpats).
  - intros p k Hu Hp Hk. by apply (untouched_outside e f ub m dev udev pats Hok Hcwd Hid Hud He Hpats).
Qed.
Print Assumptions C02_renamed_frame_partial.
(** The hypotheses are met by the sandbox of [C01_renamed_nonvacuous]: /home stays where it is while /a, /x and /y move. *)
Example C02_renamed_nonvacuous : renamed_ok view_fs demo_ub [] 1 ∧ cwd_ok view_fs demo_ub [] ["home"] ∧
  lower_dir view_fs demo_ub [] [] = Some [] ∧ (∀ s' n', renamed_at view_fs demo_ub [] s' n' → under s' [] = false) ∧
  view_fs !! (upper_dir demo_ub [] ++ ["home"]) = None ∧ view_fs !! ["home"] = Some dir0 ∧
  existsb (λ st, bool_decide (st !! ["x"] = None)) (states (accept view_env demo_ub true ["/"] view_fs)) = true.
Proof.
  split; [exact view_ok|]. split; [exact view_cwd|]. split; [vm_compute; reflexivity|].
  split; [intros [|x s'] n' [[Hne _] _]; [by destruct Hne|reflexivity]|]. split; [vm_compute; reflexivity|]. split; vm_compute; reflexivity.
Qed.
