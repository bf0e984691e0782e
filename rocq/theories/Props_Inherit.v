(** * C94 - C97: what a command and the sandbox's first process inherit. *)
From Verif Require Export Inherit.
From stdpp Require Export relations.

(** ** C94: a command starts with its caller's signal dispositions *)
(** What it would have had, had the caller executed it directly. *)
Definition direct (p : pstate) : pstate := sys_execve p.
Definition C94_full : Prop := ∀ starts p k, ps_sig (run_command starts p) k = ps_sig (direct p) k.
Lemma open_sig (f : ofile) (b : bool) (p : pstate) : ps_sig (open_fd f b p).2 = ps_sig p.
Proof. done. Qed.
Lemma std_sig (p : pstate) (k : N) : ps_sig (std_fd p k) = ps_sig p.
Proof. unfold std_fd. by destruct (ps_fds p !! k). Qed.
Lemma got_sig (starts : bool) (p : pstate) : ps_sig (got_sandbox starts p).1 = ps_sig p.
Proof. by destruct starts. Qed.
Lemma guard_cases (p : pstate) (k n : N) : ps_sig (guard_sig p k) n = if decide (n = k ∧ ps_sig p k = ActDefault) then ActHandler else ps_sig p n.
Proof.
  unfold guard_sig. destruct (ps_sig p k) eqn:E; (case_decide as H; [|]); cbn [set_sig ps_sig]; destruct (N.eqb_spec n k) as [-> |]; naive_solver.
Qed.
Theorem C94_dispositions_partial (starts : bool) (p : pstate) (k : N) : k ≠ SIGPIPE ∨ ps_sig p SIGPIPE = ActIgnore →
  ps_sig (run_command starts p) k = ps_sig (direct p) k.
Proof.
  intros Hk. unfold run_command, direct, sys_execve. cbn [ps_sig]. rewrite open_sig, got_sig. unfold rust_start.
  rewrite !guard_cases. cbn [set_sig ps_sig]. rewrite !std_sig.
  destruct (N.eqb_spec SIGSEGV SIGPIPE) as [E|_]; [done|]. destruct (N.eqb_spec SIGBUS SIGPIPE) as [E|_]; [done|].
  destruct (N.eqb_spec k SIGPIPE) as [-> |Hne].
  - destruct Hk as [?|Hk]; [done|]. rewrite Hk. rewrite !decide_False by (intros [? _]; done). done.
  - destruct (decide (k = SIGSEGV)) as [-> |H1]; [|destruct (decide (k = SIGBUS)) as [-> |H2]].
    + rewrite (decide_False (P := SIGSEGV = SIGBUS ∧ _)) by (intros [? _]; done). case_decide as Hd; [|done]. destruct Hd as [_ ->]. done.
    + rewrite (decide_False (P := SIGBUS = SIGSEGV ∧ _)) by (intros [? _]; done). case_decide as Hd; [|done]. destruct Hd as [_ ->]. done.
    + rewrite !decide_False by tauto. done.
Qed.
Print Assumptions C94_dispositions_partial.
Definition plain_caller : pstate :=
  PState (λ k, if N.eqb k 1 then ActIgnore else ActDefault) (list_to_map [(0%N, Fd (Theirs 0) false); (1%N, Fd (Theirs 1) false); (2%N, Fd (Theirs 1) false); (3%N, Fd (Theirs 2) false)]).
(** SIGPIPE is ignored in every command: `sandbox yes | head` does not end by SIGPIPE. *)
Theorem C94_refuted : ¬ C94_full.
Proof. intros H. specialize (H true plain_caller SIGPIPE). vm_compute in H. discriminate H. Qed.
Print Assumptions C94_refuted.
Example C94_nonvacuous : ps_sig (run_command true plain_caller) 1 = ActIgnore ∧ ps_sig (run_command true plain_caller) SIGSEGV = ActDefault.
Proof. vm_compute. done. Qed.

(** ** C96: a command gets exactly the open files of its caller *)
Lemma fresh_none (m : gmap N fdent) : m !! fresh (dom m) = None.
Proof. apply not_elem_of_dom. apply is_fresh. Qed.
Lemma open_close (f : ofile) (b : bool) (p : pstate) : close_fd (open_fd f b p).1 (open_fd f b p).2 = p.
Proof. destruct p as [s m]. unfold open_fd, close_fd, set_fd. cbn [fst snd ps_sig ps_fds]. f_equal. apply delete_insert, fresh_none. Qed.
Lemma open_ne (f : ofile) (b : bool) (p : pstate) (k : N) : is_Some (ps_fds p !! k) → (open_fd f b p).1 ≠ k.
Proof. intros [x Hx] E. cbn [open_fd fst] in E. pose proof (fresh_none (ps_fds p)) as H. rewrite E in H. congruence. Qed.
Lemma got_same (starts : bool) (p : pstate) : (got_sandbox starts p).1 = p.
Proof.
  unfold got_sandbox. destruct (open_fd LockFile true p) as [l p1] eqn:E1. pose proof (open_close LockFile true p) as H1. rewrite E1 in H1. cbn [fst snd] in H1.
  destruct starts; [|exact H1].
  destruct (open_fd PipeRead false p1) as [r p2] eqn:E2. pose proof (open_close PipeRead false p1) as H2. rewrite E2 in H2. cbn [fst snd] in H2.
  destruct (open_fd PipeWrite false p2) as [w p3] eqn:E3. pose proof (open_close PipeWrite false p2) as H3. rewrite E3 in H3. cbn [fst snd] in H3.
  cbn [fst]. by rewrite H3, H2, H1.
Qed.
(** The files of the caller that are meant for its children, and /dev/null where a standard descriptor is missing. *)
Definition expected_fd (p : pstate) (k : N) : option fdent :=
  match ps_fds p !! k with
  | Some e => if fd_cloexec e then None else Some e
  | None => if N.ltb k 3 then Some (Fd DevNull false) else None
  end.
Lemma std_lookup (p : pstate) (j k : N) : ps_fds (std_fd p j) !! k =
  match ps_fds p !! k with Some e => Some e | None => if N.eqb k j then Some (Fd DevNull false) else None end.
Proof.
  unfold std_fd. destruct (ps_fds p !! j) as [e|] eqn:E; cbn [set_fd ps_fds].
  - destruct (ps_fds p !! k) as [e'|] eqn:E'; [done|]. destruct (N.eqb_spec k j) as [-> |]; [congruence|done].
  - destruct (N.eqb_spec k j) as [-> |Hne]; [by rewrite lookup_insert, E|]. rewrite lookup_insert_ne by done. by destruct (ps_fds p !! k).
Qed.
Lemma guard_fds (p : pstate) (k : N) : ps_fds (guard_sig p k) = ps_fds p.
Proof. unfold guard_sig. by destruct (ps_sig p k). Qed.
Theorem C96_files (starts : bool) (p : pstate) (k : N) : ps_fds (run_command starts p) !! k = expected_fd p k.
Proof.
  unfold run_command. cbv zeta. rewrite got_same. unfold sys_execve, open_fd, set_fd. cbn [ps_fds snd]. set (q := rust_start p).
  assert (ps_fds q !! k = match ps_fds p !! k with Some e => Some e | None => if N.ltb k 3 then Some (Fd DevNull false) else None end) as Hq.
  { unfold q, rust_start. rewrite !guard_fds. cbn [set_sig ps_fds]. rewrite !std_lookup. destruct (ps_fds p !! k); [done|].
    destruct (N.eqb_spec k 0), (N.eqb_spec k 1), (N.eqb_spec k 2), (N.ltb_spec k 3); subst; try done; try lia. }
  clearbody q. destruct (decide (k = fresh (dom (ps_fds q)))) as [-> |Hne].
  - rewrite fresh_none in Hq. rewrite map_filter_lookup, lookup_insert. cbn. unfold expected_fd. destruct (ps_fds p !! _) as [e|]; [discriminate Hq|].
    destruct (N.ltb _ 3); [discriminate Hq|done].
  - rewrite map_filter_lookup, lookup_insert_ne by done. rewrite Hq. unfold expected_fd. destruct (ps_fds p !! k) as [[f b]|]; [by destruct b|].
    by destruct (N.ltb k 3).
Qed.
Print Assumptions C96_files.
Example C96_nonvacuous : ps_fds (run_command true plain_caller) !! 3%N = Some (Fd (Theirs 2) false) ∧
  size (ps_fds (run_command true plain_caller)) = 4 ∧ size (ps_fds (got_sandbox true (rust_start plain_caller)).1) = 4.
Proof. vm_compute. done. Qed.

(** ** C97: a sandbox that keeps running keeps none of its caller's files open *)
Definition has_open (p : pstate) (n : N) : Prop := ∃ k b, ps_fds p !! k = Some (Fd (Theirs n) b).
Definition C97_full : Prop := ∀ p c n, first_process p = Some c → ¬ has_open c n.
(** Descriptors other than 0, 1 and 2 are not closed: a pipe on descriptor 3 stays open until the sandbox is stopped. *)
Theorem C97_refuted : ¬ C97_full.
Proof.
  intros H. destruct (first_process plain_caller) as [c|] eqn:E; [|discriminate E]. apply (H plain_caller c 2%N E).
  vm_compute in E. injection E as <-. exists 3%N, false. vm_compute. reflexivity.
Qed.
Print Assumptions C97_refuted.
(** Kept are exactly the ones above 2, whatever their flag. *)
Theorem C97_standard_descriptors_partial (p c : pstate) (n : N) : first_process p = Some c →
  (has_open c n ↔ ∃ k b, (2 < k)%N ∧ ps_fds p !! k = Some (Fd (Theirs n) b)).
Proof.
  unfold first_process. set (q := rust_start p).
  assert (∀ k, ps_fds q !! k = match ps_fds p !! k with Some e => Some e | None => if N.ltb k 3 then Some (Fd DevNull false) else None end) as Hq.
  { intros k. unfold q, rust_start. rewrite !guard_fds. cbn [set_sig ps_fds]. rewrite !std_lookup. destruct (ps_fds p !! k); [done|].
    destruct (N.eqb_spec k 0), (N.eqb_spec k 1), (N.eqb_spec k 2), (N.ltb_spec k 3); subst; try done; try lia. }
  clearbody q. unfold got_sandbox.
  destruct (open_fd LockFile true q) as [l p1] eqn:E1. destruct (open_fd PipeRead false p1) as [r p2] eqn:E2.
  destruct (open_fd PipeWrite false p2) as [w p3] eqn:E3. cbn [snd]. intros H. injection H as <-.
  pose proof (open_close PipeWrite false p2) as H3. rewrite E3 in H3. cbn [fst snd] in H3.
  pose proof (open_close PipeRead false p1) as H2. rewrite E2 in H2. cbn [fst snd] in H2.
  assert (∀ k e, k ≠ 0%N → k ≠ 1%N → k ≠ 2%N → ps_fds (set_sig SIGTERM ActHandler (close_fd 0 (close_fd 2 (close_fd 1 (close_fd w (close_fd r p3)))))) !! k = Some e ↔ ps_fds p1 !! k = Some e) as Hk.
  { intros k e H0 H1 H2'. cbn [set_sig close_fd ps_fds]. rewrite !(lookup_delete_ne _ _ k) by done.
    rewrite <-H2. cbn [close_fd ps_fds]. rewrite <-H3. cbn [close_fd ps_fds]. by rewrite delete_commute. }
  assert (∀ k, k = 0%N ∨ k = 1%N ∨ k = 2%N → ps_fds (set_sig SIGTERM ActHandler (close_fd 0 (close_fd 2 (close_fd 1 (close_fd w (close_fd r p3)))))) !! k = None) as Hk0.
  { intros k Hk'. cbn [set_sig close_fd ps_fds]. destruct (decide (k = 0%N)) as [-> |]; [by rewrite lookup_delete|]. rewrite lookup_delete_ne by done.
    destruct (decide (k = 2%N)) as [-> |]; [by rewrite lookup_delete|]. rewrite lookup_delete_ne by done.
    destruct (decide (k = 1%N)) as [-> |]; [by rewrite lookup_delete|]. lia. }
  assert (∀ k b, ps_fds p1 !! k = Some (Fd (Theirs n) b) ↔ ps_fds q !! k = Some (Fd (Theirs n) b)) as H1.
  { intros k b. injection E1 as <- <-. cbn [set_fd ps_fds]. destruct (decide (k = fresh (dom (ps_fds q)))) as [-> |Hne].
    - rewrite lookup_insert, fresh_none. done.
    - by rewrite lookup_insert_ne. }
  split.
  - intros (k & b & Hb). destruct (N.le_gt_cases k 2) as [Hle|Hgt].
    + rewrite Hk0 in Hb by lia. discriminate Hb.
    + apply Hk in Hb; [|lia|lia|lia]. apply H1 in Hb. rewrite Hq in Hb. exists k, b. split; [done|].
      destruct (ps_fds p !! k); [done|]. destruct (N.ltb k 3); discriminate Hb.
  - intros (k & b & Hgt & Hb). exists k, b. apply Hk; [lia|lia|lia|]. apply H1. by rewrite Hq, Hb.
Qed.
Print Assumptions C97_standard_descriptors_partial.
Example C97_nonvacuous : ∃ c, first_process plain_caller = Some c ∧ has_open plain_caller 1 ∧ ¬ has_open c 1.
Proof.
  destruct (first_process plain_caller) as [c|] eqn:E; [|discriminate E]. exists c. split; [done|]. split; [exists 1%N, false; vm_compute; reflexivity|].
  rewrite (C97_standard_descriptors_partial plain_caller c 1 E). intros (k & b & Hk & Hb). cbn [plain_caller ps_fds] in Hb.
  apply elem_of_list_to_map_2 in Hb. repeat (apply elem_of_cons in Hb as [Hb|Hb]; [injection Hb as -> E1; try lia; discriminate E1|]).
  by apply elem_of_nil in Hb.
Qed.

(** ** C95: a process that has ended disappears *)
(** As long as the sandbox runs it is always possible that it goes. *)
Definition C95_full : Prop := ∀ t c e, rtc pt_step new_table t → t !! c = Some e → pt_ended e = true →
  ∃ t', rtc pt_step t t' ∧ t' !! c = None.
Lemma orphan_stays (t t' : ptable) (c : N) : t !! c = Some (Pt (Some 1%N) true) → pt_step t t' → t' !! c = Some (Pt (Some 1%N) true).
Proof.
  intros H [d Hd|p d Hp H1 Hd|p e Hp He H1|p d Hp H1 Hd|d Hd].
  - rewrite lookup_insert_ne; [done|congruence].
  - rewrite lookup_insert_ne; [done|congruence].
  - assert (p ≠ c) as Hne by (intros ->; rewrite H in Hp; injection Hp as <-; done). rewrite lookup_insert_ne by done.
    rewrite lookup_fmap, H. cbn. unfold adopt. case_decide as Hd; [|done]. done.
  - assert (d ≠ c) by (intros ->; rewrite H in Hd; injection Hd as E; congruence). by rewrite lookup_delete_ne.
  - assert (d ≠ c) by (intros ->; rewrite H in Hd; done). by rewrite lookup_delete_ne.
Qed.
(** An ended process whose parent has ended stays until the sandbox is stopped. *)
Theorem C95_orphans_stay (t t' : ptable) (c : N) : t !! c = Some (Pt (Some 1%N) true) → rtc pt_step t t' → t' !! c = Some (Pt (Some 1%N) true).
Proof. intros H Hr. induction Hr as [|x y z Hxy _ IH]; [done|]. apply IH. by eapply orphan_stays. Qed.
Print Assumptions C95_orphans_stay.
(** A command (2) that has started a process (3) and has ended. *)
Definition daemonized : ptable := <[2%N := Pt None true]> (adopt 2 <$> <[3%N := Pt (Some 2%N) false]> (<[2%N := Pt None false]> new_table)).
Lemma daemon_run : rtc pt_step new_table daemonized.
Proof.
  eapply rtc_l; [apply (pt_enter _ 2); vm_compute; reflexivity|].
  eapply rtc_l; [apply (pt_fork _ 2 3); [eexists; split; [vm_compute; reflexivity|done]|done|vm_compute; reflexivity]|].
  apply rtc_once. apply (pt_exit _ 2 (Pt None false)); [vm_compute; reflexivity|done|done].
Qed.
Theorem C95_refuted : ¬ C95_full.
Proof.
  intros H. assert (pt_step daemonized (<[3%N := Pt (Some 1%N) true]> (adopt 3 <$> daemonized))) as Hs
    by (apply (pt_exit daemonized 3 (Pt (Some 1%N) false)); [vm_compute; reflexivity|done|done]).
  assert ((<[3%N := Pt (Some 1%N) true]> (adopt 3 <$> daemonized)) !! 3%N = Some (Pt (Some 1%N) true)) as Hl by (vm_compute; reflexivity).
  destruct (H _ 3%N (Pt (Some 1%N) true) (rtc_r _ _ _ daemon_run Hs) Hl eq_refl) as (t' & Hr & Hn).
  rewrite (C95_orphans_stay _ _ _ Hl Hr) in Hn. discriminate Hn.
Qed.
Print Assumptions C95_refuted.
(** The others can go: a process started by a `sandbox` command, or whose parent is another process that still runs. *)
Theorem C95_others_partial (t : ptable) (c : N) (e : ptent) : t !! c = Some e → pt_ended e = true →
  (pt_parent e = None ∨ ∃ p, pt_parent e = Some p ∧ p ≠ 1%N ∧ alive t p) → ∃ t', rtc pt_step t t' ∧ t' !! c = None.
Proof.
  intros He Hd Hp. exists (delete c t). split; [|apply lookup_delete]. apply rtc_once. destruct e as [q b]. cbn in Hd, Hp. subst b.
  destruct Hp as [-> |(p & -> & H1 & Ha)]; [by apply pt_wait_outside|by apply (pt_wait t p)].
Qed.
Print Assumptions C95_others_partial.
(** Those two kinds are all there are: every ended process in a running sandbox was started by a command, has a living parent, or
    is an orphan. *)
Definition kin_ok (t : ptable) : Prop :=
  t !! 1%N = Some (Pt None false) ∧ ∀ c e, t !! c = Some e → pt_parent e = None ∨ ∃ p, pt_parent e = Some p ∧ p ≠ c ∧ alive t p.
Lemma kin_alive (t : ptable) : kin_ok t → alive t 1.
Proof. intros [H _]. by eexists. Qed.
Lemma kin_grow (t : ptable) (d : N) (x : ptent) : kin_ok t → t !! d = None →
  (pt_parent x = None ∨ ∃ p, pt_parent x = Some p ∧ alive t p) → kin_ok (<[d := x]> t).
Proof.
  intros [H1 H2] Hd Hx.
  assert (∀ q, alive t q → alive (<[d:=x]> t) q ∧ q ≠ d) as Hup.
  { intros q (y & Hy & Hy'). assert (q ≠ d) by congruence. split; [|done]. exists y. split; [|done]. by rewrite lookup_insert_ne. }
  split; [rewrite lookup_insert_ne; [done|congruence]|]. intros c y Hy. destruct (decide (c = d)) as [-> |Hne].
  - rewrite lookup_insert in Hy. injection Hy as <-. destruct Hx as [?|(p & Hp & Ha)]; [by left|]. right. exists p. destruct (Hup p Ha). auto.
  - rewrite lookup_insert_ne in Hy by done. destruct (H2 c y Hy) as [?|(q & ? & ? & Hq)]; [by left|right; exists q]. destruct (Hup q Hq). auto.
Qed.
Lemma kin_shrink (t : ptable) (d : N) (x : ptent) : kin_ok t → t !! d = Some x → pt_ended x = true → kin_ok (delete d t).
Proof.
  intros [H1 H2] Hd Hx.
  assert (∀ q, alive t q → alive (delete d t) q) as Hup.
  { intros q (y & Hy & Hy'). assert (d ≠ q) by congruence. exists y. split; [|done]. by rewrite lookup_delete_ne. }
  assert (d ≠ 1%N) by (intros ->; rewrite H1 in Hd; injection Hd as <-; done).
  split; [by rewrite lookup_delete_ne|]. intros c y Hy. apply lookup_delete_Some in Hy as [_ Hy].
  destruct (H2 c y Hy) as [?|(q & ? & ? & Hq)]; [by left|right; exists q; auto].
Qed.
Lemma kin_step (t t' : ptable) : kin_ok t → pt_step t t' → kin_ok t'.
Proof.
  intros Hk. pose proof (kin_alive t Hk) as Ha. destruct Hk as [H1 H2].
  intros [d Hd|p d Hp Hp1 Hd|p e Hp He Hp1|p d Hp Hp1 Hd|d Hd].
  - by apply kin_grow; [|done|left].
  - apply kin_grow; [done|done|]. right. by exists p.
  - assert (∀ q, q ≠ p → alive t q → alive (<[p:=Pt (pt_parent e) true]> (adopt p <$> t)) q) as Hup.
    { intros q Hq (x & Hx & Hx'). exists (adopt p x). split; [by rewrite lookup_insert_ne, lookup_fmap, Hx|]. unfold adopt. by case_decide. }
    split; [rewrite lookup_insert_ne, lookup_fmap, H1 by done; done|]. intros c x Hx. destruct (decide (c = p)) as [-> |Hne].
    + rewrite lookup_insert in Hx. injection Hx as <-. cbn [pt_parent]. destruct (H2 p e Hp) as [?|(q & Eq & Hqp & Hq)]; [by left|].
      right. exists q. auto.
    + rewrite lookup_insert_ne, lookup_fmap in Hx by done. destruct (t !! c) as [y|] eqn:Ey; [|discriminate Hx]. injection Hx as <-.
      unfold adopt. case_decide as Hd.
      * right. exists 1%N. cbn [pt_parent]. split; [done|]. split; [|by apply Hup]. intros <-. rewrite H1 in Ey. injection Ey as <-. discriminate Hd.
      * destruct (H2 c y Ey) as [?|(q & Eq & Hqc & Hq)]; [by left|]. right. exists q. split; [done|]. split; [done|]. apply Hup; [congruence|done].
  - by eapply kin_shrink.
  - by eapply kin_shrink.
Qed.
Theorem C95_kinds (t : ptable) (c : N) (e : ptent) : rtc pt_step new_table t → t !! c = Some e → pt_ended e = true →
  e = Pt (Some 1%N) true ∨ ∃ t', rtc pt_step t t' ∧ t' !! c = None.
Proof.
  intros Hr He Hd. assert (kin_ok t) as [H1 H2].
  { refine (rtc_ind_r kin_ok new_table _ _ t Hr); [|intros y z _ Hyz Hy; by eapply kin_step]. split; [vm_compute; reflexivity|].
    intros d x Hx. unfold new_table in Hx. apply lookup_singleton_Some in Hx as [<- <-]. by left. }
  destruct (H2 c e He) as [Hp|(p & Hp & Hpc & Ha)].
  - right. apply (C95_others_partial t c e He Hd). by left.
  - destruct (decide (p = 1%N)) as [-> |Hne]; [left; destruct e; cbn in *; congruence|]. right. apply (C95_others_partial t c e He Hd).
    right. exists p. auto.
Qed.
Print Assumptions C95_kinds.
(** The command itself goes, and the process it left behind does not once it has ended. *)
Example C95_nonvacuous : rtc pt_step new_table daemonized ∧ daemonized !! 2%N = Some (Pt None true) ∧ daemonized !! 3%N = Some (Pt (Some 1%N) false).
Proof. split; [exact daemon_run|]. split; vm_compute; reflexivity. Qed.
