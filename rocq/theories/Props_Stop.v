(** * C87: a stop that reports success has stopped the sandbox. *)
From Verif Require Export Props_List.
From Verif Require Import FSFacts Checkers.

(** No mount is left at or below [b]. *)
Definition nothing_mounted (s : sys) (b : path) : Prop := ∀ m, m ∈ s_mounts s → under b (mt_at m) = false.
(** The sandbox has no pid file and nothing is mounted in its directory. *)
Definition is_stopped (s : sys) (storage : path) (name : string) : Prop :=
  s_fs s !! pid_of storage name = None ∧ nothing_mounted s (base_of storage name).

(** ** Unmounting *)
Definition count_at (p : path) (l : list mount) : nat := length (filter (λ m, mt_at m = p) l).
Lemma count_none (p : path) (l : list mount) : count_at p l = 0 → ∀ m, m ∈ l → mt_at m ≠ p.
Proof.
  intros H m Hm E. apply nil_length_inv in H.
  assert (m ∈ filter (λ m, mt_at m = p) l) as Hx by (by apply elem_of_list_filter). rewrite H in Hx. by apply elem_of_nil in Hx.
Qed.
Lemma count_filter (p : path) (P : mount → Prop) `{∀ m, Decision (P m)} (l : list mount) : count_at p (filter P l) ≤ count_at p l.
Proof.
  unfold count_at. induction l as [|m l IH]; [done|]. rewrite (filter_cons P).
  destruct (decide (P m)); rewrite !(filter_cons (λ m, mt_at m = p)); destruct (decide (mt_at m = p)); cbn [length]; lia.
Qed.
Lemma pop_count (p q : path) : ∀ l m l', pop_mount p l = Some (m, l') → count_at q l = count_at q l' + (if decide (p = q) then 1 else 0).
Proof.
  induction l as [|m0 l IH]; intros m l' H; [done|]. cbn [pop_mount] in H. unfold count_at in *. rewrite !filter_cons.
  destruct (decide (mt_at m0 = p)) as [E|E].
  - injection H as -> ->. rewrite E. destruct (decide (p = q)); cbn [length]; lia.
  - destruct (pop_mount p l) as [[m' l'']|] eqn:Ep; [|done]. injection H as <- <-. specialize (IH _ _ eq_refl).
    rewrite filter_cons. destruct (decide (mt_at m0 = q)); cbn [length]; lia.
Qed.
Lemma pop_none (p : path) : ∀ l, pop_mount p l = None → count_at p l = 0.
Proof.
  induction l as [|m l IH]; [done|]. cbn [pop_mount]. unfold count_at in *. rewrite filter_cons. destruct (decide (mt_at m = p)); [done|].
  destruct (pop_mount p l) as [[? ?]|]; [done|]. auto.
Qed.
Definition occurs (q : path) (l : list path) : nat := length (filter (λ p, p = q) l).
Lemma umount_count (p q : path) (s : sys) :
  count_at q (s_mounts (so_sys (ignore_err (sys_umount (λ _, false) p) s))) ≤ count_at q (s_mounts s) - (if decide (p = q) then 1 else 0).
Proof.
  unfold ignore_err, sys_umount. cbn [so_sys]. destruct (pop_mount p (s_mounts s)) as [[m l]|] eqn:Ep; cbn [so_sys s_mounts].
  - rewrite (pop_count _ q _ _ _ Ep). etrans; [apply count_filter|]. lia.
  - unfold sthrow. cbn [so_sys]. destruct (decide (p = q)) as [<-|]; [|lia]. by rewrite (pop_none _ _ Ep).
Qed.
Lemma unmount_loop (q : path) : ∀ l s, count_at q (s_mounts s) ≤ occurs q l →
  count_at q (s_mounts (so_sys (sfor l (λ p, ignore_err (sys_umount (λ _, false) p)) s))) = 0.
Proof.
  induction l as [|p l IH]; intros s H; [cbn [sfor sret so_sys]; unfold occurs in H; cbn in H; lia|].
  cbn [sfor]. rewrite (sbind_ok_sys _ _ _ tt) by done. apply IH. pose proof (umount_count p q s) as Hc.
  unfold occurs in *. rewrite filter_cons in H. destruct (decide (p = q)); cbn [length] in H; lia.
Qed.
Lemma sort_occurs (q : path) (l : list path) : occurs q (sort_by path_desc l) = occurs q l.
Proof. unfold occurs. by rewrite (sort_by_perm path_desc l). Qed.
Lemma below_occurs (q b : path) (l : list mount) : under b q = true → occurs q (filter (λ p, under b p = true) (mt_at <$> l)) = count_at q l.
Proof.
  intros Hu. unfold occurs, count_at. induction l as [|m l IH]; [done|]. rewrite fmap_cons, (filter_cons (λ m, mt_at m = q)), filter_cons.
  destruct (decide (mt_at m = q)) as [->|E].
  - rewrite decide_True by done. rewrite filter_cons, decide_True by done. cbn [length]. by rewrite IH.
  - case_decide; [|done]. rewrite filter_cons, decide_False by done. done.
Qed.
Lemma unmount_all (b : path) (s : sys) : nothing_mounted (so_sys (unmount (λ _, false) b s)) b.
Proof.
  intros m Hm. destruct (under b (mt_at m)) eqn:Hu; [|done]. exfalso.
  refine (count_none (mt_at m) _ _ m Hm eq_refl). apply unmount_loop. unfold mounts_below. rewrite sort_occurs, below_occurs by done. done.
Qed.
Lemma unmount_ext (busy : path → bool) (b : path) (s : sys) : (∀ p, busy p = false) → unmount busy b s = unmount (λ _, false) b s.
Proof.
  intros H. unfold unmount. generalize (mounts_below s b) as l. intros l. revert s. induction l as [|p l IH]; intros s; [done|].
  cbn [sfor]. unfold sbind. assert (ignore_err (sys_umount busy p) s = ignore_err (sys_umount (λ _, false) p) s) as ->.
  { unfold ignore_err, sys_umount. by rewrite H. }
  cbv zeta. destruct (so_res _); [|done]. by rewrite IH.
Qed.

(** ** `sandbox stop` *)
Theorem C87_stop_partial (umask : N) (ord : list N → list N) (busy : path → bool) (storage : path) (name : string) (s : sys) :
  tidy storage name s → (∀ p, busy p = false) →
  so_res (stop_action umask ord busy storage name s) = Ok tt →
  is_stopped (so_sys (stop_action umask ord busy storage name s)) storage name.
Proof.
  intros Hs Hb Hok. pose proof (tidy_inv _ _ _ Hs) as HI.
  pose proof (td_storage _ _ _ Hs) as Hst. pose proof (td_name _ _ _ Hs) as Hnm. revert Hok.
  destruct (get_cases storage name (s_fs s) Hst Hnm umask s HI) as [(e & E & _)|(tr & s1 & E & HI1 & _)];
    unfold stop_action; [by rewrite (sbind_err _ _ _ _ _ _ E)|].
  rewrite (sbind_ok _ _ _ _ _ _ E). cbn [so_sys so_res].
  destruct (so_res (sandbox_stop ord (the_sandbox storage name s) s1)) as [[]|er] eqn:E2; cycle 1.
  { unfold sbind. rewrite E2. done. }
  rewrite (sbind_ok_sys _ _ _ _ E2). intros _.
  destruct (op_stop storage name (s_fs s) Hst Hnm ord (the_sandbox storage name s) eq_refl eq_refl s1 HI1) as (_ & _ & Q).
  destruct (Q tt E2) as [Q1 Q2]. clear Q.
  revert Q1 Q2. generalize (so_sys (sandbox_stop ord (the_sandbox storage name s) s1)) as u. intros u Q1 Q2.
  destruct (unmount_procs busy (base_of storage name) u) as (_ & _ & U).
  destruct (op_unmount storage name (s_fs s) Hst busy None u (conj Q1 Q2)) as (_ & _ & V). split.
  - by destruct (V tt U).
  - rewrite unmount_ext by done. apply unmount_all.
Qed.
Print Assumptions C87_stop_partial.
Example C87_nonvacuous : tidy home_storage "a" two_mounted ∧
  so_res (stop_action 18 same_order (λ _, false) home_storage "a" two_mounted) = Ok tt ∧
  ¬ nothing_mounted two_mounted (base_of home_storage "a") ∧ s_fs two_mounted !! pid_of home_storage "a" ≠ None.
Proof.
  split; [apply tidyb_spec; vm_compute; reflexivity|]. split; [vm_compute; reflexivity|]. split; [|vm_compute; discriminate].
  intros H. pose proof (H _ (elem_of_list_here _ [])) as Hx. discriminate Hx.
Qed.

(** ** In full: however the command was given *)
Inductive stop_form := StopOne (name : string) | StopAll (patterns : list string).
Definition stop_run (umask : N) (ord : list N → list N) (busy : path → bool) (glob : string → string → bool) (storage : path) (k : stop_form) : S_ unit :=
  match k with StopOne name => stop_action umask ord busy storage name | StopAll patterns => stop_all umask ord busy glob storage patterns end.
Definition meant (glob : string → string → bool) (storage : path) (k : stop_form) (f : fs) (name : string) : Prop :=
  match k with
  | StopOne n => name = n
  | StopAll patterns => stop_listed glob patterns f storage name ∧ is_Some (f !! pid_of storage name) ∧ is_Some (f !! base_of storage name)
  end.
Definition C87_full : Prop := ∀ umask ord busy glob storage k s,
  (∀ l, ord l ≡ₚ l) → (∀ name, meant glob storage k (s_fs s) name → tidy storage name s) → (∀ p, busy p = false) →
  so_res (stop_run umask ord busy glob storage k s) = Ok tt →
  ∀ name, meant glob storage k (s_fs s) name → is_stopped (so_sys (stop_run umask ord busy glob storage k s)) storage name.
(** `sandbox stop --all` reports success although a sandbox could not be stopped: here because one of its processes has a
    command line that is not UTF-8. *)
Theorem C87_refuted : ¬ C87_full.
Proof.
  intros H. set (s := run_sys (String "255" "")).
  assert (∀ name, meant (λ _ _, true) home_storage (StopAll []) (s_fs s) name → name = "a") as Hone.
  { intros name [[Hl _] _]. assert (name ∈ ["a"]) as Hi by (apply (locks_only (s_fs s) home_storage); [vm_compute; reflexivity|exact Hl]).
    by apply elem_of_list_singleton in Hi. }
  assert (∀ name, meant (λ _ _, true) home_storage (StopAll []) (s_fs s) name → tidy home_storage name s) as Ht.
  { intros name Hn. rewrite (Hone name Hn). apply tidyb_spec. vm_compute. reflexivity. }
  assert (so_res (stop_run 18 (λ l, reverse l) (λ _, false) (λ _ _, true) home_storage (StopAll []) s) = Ok tt) as Er by (vm_compute; reflexivity).
  assert (meant (λ _ _, true) home_storage (StopAll []) (s_fs s) "a") as Ha.
  { split; [split; [vm_compute; eexists; reflexivity|by left]|]. split; vm_compute; eexists; reflexivity. }
  destruct (H 18%N (λ l, reverse l) (λ _, false) (λ _ _, true) home_storage (StopAll []) s (reverse_Permutation (A := N)) Ht (λ _, eq_refl) Er "a" Ha) as [K _].
  assert (is_Some (s_fs (so_sys (stop_run 18 (λ l, reverse l) (λ _, false) (λ _ _, true) home_storage (StopAll []) s)) !! pid_of home_storage "a")) as [n En]
    by (vm_compute; eexists; reflexivity).
  rewrite K in En. discriminate En.
Qed.
Print Assumptions C87_refuted.
(** And a mount that could not be removed is logged only. *)
Definition C87_mounts_full : Prop := ∀ umask ord busy storage name s,
  tidy storage name s → so_res (stop_action umask ord busy storage name s) = Ok tt →
  is_stopped (so_sys (stop_action umask ord busy storage name s)) storage name.
Theorem C87_mounts_refuted : ¬ C87_mounts_full.
Proof.
  intros H. assert (tidy home_storage "a" two_mounted) as Ht by (apply tidyb_spec; vm_compute; reflexivity).
  assert (so_res (stop_action 18 same_order (λ _, true) home_storage "a" two_mounted) = Ok tt) as Er by (vm_compute; reflexivity).
  destruct (H 18%N same_order (λ _, true) home_storage "a" two_mounted Ht Er) as [_ K].
  assert (s_mounts (so_sys (stop_action 18 same_order (λ _, true) home_storage "a" two_mounted)) = s_mounts two_mounted) as Em by (vm_compute; reflexivity).
  unfold nothing_mounted in K. rewrite Em in K. pose proof (K _ (elem_of_list_here _ [])) as Hx. discriminate Hx.
Qed.
Print Assumptions C87_mounts_refuted.
