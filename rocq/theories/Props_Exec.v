(** * Running a command in a sandbox: C64, C65, C66. *)
From Verif Require Import Exec Props_Creds.

(** ** C64: a command runs inside the sandbox *)

(** Whatever fails or not: when [exec] gets as far as the command, the process that runs it has the six
    namespaces of the recorded process, the root directory of its mount namespace, the caller's working
    directory below that root, and only the ids of the user; if it returns an error there is no such
    process. The waiting process itself has dropped its rights too. *)
Theorem C64_command_joins_recorded_process : ∀ m sb command p parent ch act,
  exec m sb command p = Ok (parent, ch, act) →
  ∃ t, m_procs m !! Z.to_N (x_pid sb) = Some t ∧
    (∀ k, k ∈ [NsMnt; NsPid; NsIpc; NsNet; NsCgroup; NsUts] → pr_ns ch k = t k) ∧
    pr_root ch = (t NsMnt, []) ∧ pr_cwd ch = (t NsMnt, (pr_cwd p).2) ∧
    (x_uid sb ≠ 0%N → ∀ ks, all_ids (id_calls ks (pr_cred ch)) (x_uid sb) (x_gid sb) ∧
                            all_ids (id_calls ks (pr_cred parent)) (x_uid sb) (x_gid sb)).
Proof.
  intros m sb command p parent ch act H. unfold exec, enter in H.
  destruct (pidfd_open m (x_pid sb)) as [t|] eqn:Ht; cbn [rbind] in H; [|discriminate].
  unfold pidfd_open in Ht. destruct (call m "pidfd_open"); cbn [rbind] in Ht; [|discriminate].
  destruct (Z.leb (x_pid sb) 0); [discriminate|]. destruct (m_procs m !! Z.to_N (x_pid sb)) as [t'|]; [|discriminate].
  injection Ht as ->.
  unfold sys_setns in H. destruct (call m "setns"); cbn [rbind] in H; [|discriminate].
  destruct (privileged (pr_cred p)) eqn:Hp; cbn [rbind] in H; [|discriminate].
  unfold sys_chdir, sys_chroot_here in H. destruct (call m "chdir"); cbn [rbind] in H; [|discriminate].
  cbn [pr_ns pr_kids pr_root pr_cwd pr_cred pr_env] in H.
  assert (bool_decide (NsMnt ∈ exec_flags) = true) as HM by reflexivity. rewrite HM in H.
  assert (bool_decide (NsPid ∈ exec_flags) = true) as HP by reflexivity. rewrite HP in H.
  cbn [fst snd app] in H.
  destruct (m_dir m (t NsMnt) []); cbn [rbind] in H; [|discriminate].
  destruct (call m "chroot"); cbn [rbind] in H; [|discriminate].
  cbn [pr_ns pr_kids pr_root pr_cwd pr_cred pr_env] in H. rewrite Hp in H. cbn [rbind pr_ns pr_kids pr_root pr_cwd pr_cred pr_env fst snd app] in H.
  destruct (m_dir m (t NsMnt) (pr_cwd p).2); cbn [rbind pr_ns pr_kids pr_root pr_cwd pr_cred pr_env] in H; [|discriminate].
  apply N.eqb_eq in Hp. destruct (C48_drop_is_final (pr_cred p) (x_uid sb) (x_gid sb) Hp) as (c & Hc & _ & Hfin).
  rewrite Hc in H. cbn [rbind] in H. unfold sys_fork in H.
  destruct (call m "fork"); cbn [rbind] in H; [|discriminate]. injection H as <- <- _.
  exists t. split; [done|]. split.
  { intros k Hk. cbn [forked pr_ns pr_kids]. rewrite !elem_of_cons in Hk.
    destruct Hk as [-> |[-> |[-> |[-> |[-> |[-> |Hk]]]]]]; try reflexivity. by apply elem_of_nil in Hk. }
  split; [reflexivity|]. split; [reflexivity|]. intros Hu ks. split; by apply Hfin.
Qed.
Print Assumptions C64_command_joins_recorded_process.

(** The namespaces a sandbox is given: its own, except for the network if that was asked for. *)
Definition own_kinds (n : net) : list nskind :=
  match n with NetNone => [NsMnt; NsPid; NsIpc; NsUts; NsCgroup; NsNet] | NetHost => [NsMnt; NsPid; NsIpc; NsUts; NsCgroup] end.

(** A machine on which the sandbox was started as process [pid] and then [es] happened. *)
Definition machine_after (n : net) (pid : N) (parent : nskind → N) (s0 : hstate) (es : list hevent)
    (dirs : N → path → bool) (fails : string → option err) : machine :=
  Machine (h_procs (hrun es (hstart n pid parent s0))) dirs fails.

(** The full claim: a command that runs in the sandbox shares none of the sandbox's own kinds of namespace
    with any process that was there before the sandbox. *)
Definition C64_full : Prop := ∀ n pid parent s0 es dirs fails sb command p par ch act,
  (∀ q ns k, h_procs s0 !! q = Some ns → (ns k < h_next s0)%N) →
  h_procs s0 !! pid = None → x_pid sb = Z.of_N pid →
  exec (machine_after n pid parent s0 es dirs fails) sb command p = Ok (par, ch, act) →
  ∀ q ns k, h_procs s0 !! q = Some ns → k ∈ own_kinds n → pr_ns ch k ≠ ns k.

Definition host_ns : nskind → N := λ _, 0%N.
Definition host_state : hstate := HState {[ 1%N := host_ns ]} 1.
Definition root_shell : process :=
  Process host_ns 0 (0%N, []) (0%N, ["home"; "u"]) (Cred 1000 0 0 1000 0 0 [1000%N]) ["PATH=/bin"; "SANDBOX=x"].
Definition all_dirs : N → path → bool := λ _ _, true.
Definition no_fails : string → option err := λ _, None.
Definition sb42 : sandbox_ref := SandboxRef 42 1000 1000 "dev" "/home/u/.sandboxes/dev/data".

(** False: the pid file survives the sandbox (a reboot, or the first process being killed), and when the
    number belongs to a process of the host the command runs on the host, unsandboxed. *)
Theorem C64_refuted : ¬ C64_full.
Proof.
  intros H.
  destruct (exec (machine_after NetNone 42 host_ns host_state [HExit 42; HFork 42 host_ns] all_dirs no_fails)
              sb42 ["rm"; "-rf"; "build"] root_shell) as [[[par ch] act]|e] eqn:E.
  2:{ vm_compute in E. discriminate E. }
  assert (pr_ns ch NsMnt = 0%N) as Hns.
  { pose proof (C64_command_joins_recorded_process _ _ _ _ _ _ _ E) as (t & Ht & Hk & _).
    rewrite (Hk NsMnt) by (apply elem_of_cons; by left). vm_compute in Ht. injection Ht as <-. reflexivity. }
  refine (H NetNone 42%N host_ns host_state _ all_dirs no_fails sb42 _ _ _ _ _ _ _ _ E 1%N host_ns NsMnt _ _ _).
  - intros q ns k Hq. unfold host_state in Hq. cbn [h_procs] in Hq.
    apply lookup_singleton_Some in Hq as [_ <-]. reflexivity.
  - reflexivity.
  - reflexivity.
  - reflexivity.
  - apply elem_of_cons; by left.
  - exact Hns.
Qed.
Print Assumptions C64_refuted.

Definition not_reused (pid : N) (es : list hevent) : Prop := ∀ ns, HFork pid ns ∉ es.

Lemma hrun_pid (pid : N) (es : list hevent) (s : hstate) (ns t : nskind → N) : not_reused pid es →
  h_procs s !! pid = Some ns → h_procs (hrun es s) !! pid = Some t → t = ns.
Proof.
  intros Hr Hs. assert (∀ x, h_procs s !! pid = Some x → x = ns) as Hx by (intros x Hx; congruence).
  clear Hs. revert s Hx. induction es as [|e es IH]; intros s Hx Ht; [by apply Hx|].
  apply IH with (s := hstep e s); [|intros x|done].
  - intros ns' Hin. apply (Hr ns'). apply elem_of_cons. by right.
  - destruct e as [q ns'|q]; cbn [hstep h_procs].
    + destruct (decide (q = pid)) as [-> |Hne]; [|rewrite lookup_insert_ne by done; apply Hx].
      exfalso. apply (Hr ns'). apply elem_of_cons. by left.
    + destruct (decide (q = pid)) as [-> |Hne]; [by rewrite lookup_delete|].
      rewrite lookup_delete_ne by done. apply Hx.
Qed.

(** As long as the number of the sandbox's first process is not given to another process, the command runs
    in namespaces that were made for the sandbox: it shares none of them with any process that existed
    before, and those it shares with other processes, it shares with the sandbox's first process. *)
Theorem C64_command_runs_in_sandbox_partial : ∀ n pid parent s0 es dirs fails sb command p par ch act,
  (∀ q ns k, h_procs s0 !! q = Some ns → (ns k < h_next s0)%N) →
  x_pid sb = Z.of_N pid → not_reused pid es →
  exec (machine_after n pid parent s0 es dirs fails) sb command p = Ok (par, ch, act) →
  (∀ q ns k, h_procs s0 !! q = Some ns → k ∈ own_kinds n → pr_ns ch k ≠ ns k) ∧
  (∀ k, k ∈ own_kinds NetNone → h_procs (hstart n pid parent s0) !! pid ≠ None ∧
     ∀ ns, h_procs (hstart n pid parent s0) !! pid = Some ns → pr_ns ch k = ns k).
Proof.
  intros n pid parent s0 es dirs fails sb command p par ch act Hold Hpid Hr H.
  destruct (C64_command_joins_recorded_process _ _ _ _ _ _ _ H) as (t & Ht & Hk & _).
  cbn [machine_after m_procs] in Ht. rewrite Hpid, N2Z.id in Ht.
  apply hrun_pid with (ns := clone_ns (h_next s0) (start_flags n) parent) in Ht;
    [|done|cbn [hstart h_procs]; by rewrite lookup_insert].
  subst t. split.
  - intros q ns k Hq Hin Heq.
    assert (k ∈ [NsMnt; NsPid; NsIpc; NsNet; NsCgroup; NsUts]) as Hin6.
    { destruct n; cbn [own_kinds] in Hin; rewrite !elem_of_cons in Hin; rewrite !elem_of_cons; tauto. }
    rewrite (Hk k Hin6) in Heq. specialize (Hold q ns k Hq). rewrite <-Heq in Hold.
    unfold clone_ns in Hold. assert (bool_decide (k ∈ start_flags n) = true) as Hb.
    { apply bool_decide_eq_true. destruct n; cbn [own_kinds] in Hin; cbn [start_flags app];
        rewrite !elem_of_cons in Hin; rewrite !elem_of_cons; tauto. }
    rewrite Hb in Hold. lia.
  - intros k Hin. split; [cbn [hstart h_procs]; by rewrite lookup_insert|].
    intros ns. cbn [hstart h_procs]. rewrite lookup_insert. intros [= <-]. apply Hk.
    cbn [own_kinds] in Hin. rewrite !elem_of_cons in Hin. rewrite !elem_of_cons. tauto.
Qed.
Print Assumptions C64_command_runs_in_sandbox_partial.

Example C64_nonvacuous :
  match exec (machine_after NetNone 42 host_ns host_state [HFork 43 host_ns; HExit 43] all_dirs no_fails)
          sb42 ["make"] root_shell with
  | Ok (par, ch, act) =>
      pr_ns ch <$> all_ns = [1; 1; 1; 1; 1; 1; 0; 0]%N ∧ pr_ns par NsPid = 0%N ∧
      pr_root ch = (1%N, []) ∧ pr_cwd ch = (1%N, ["home"; "u"]) ∧ euid (pr_cred ch) = 1000%N ∧
      act = Executes ["make"] ["PATH=/bin"; "SANDBOX=dev"; "SANDBOX_STORAGE_DIR=/home/u/.sandboxes/dev/data"]
  | Err _ => False
  end ∧
  (* the working directory does not exist in the sandbox: nothing is run *)
  exec (machine_after NetNone 42 host_ns host_state [] (λ _ p, bool_decide (p = [])) no_fails) sb42 ["make"] root_shell
    = Err ENOENT ∧
  (* the sandbox has ended *)
  exec (machine_after NetNone 42 host_ns host_state [HExit 42] all_dirs no_fails) sb42 ["make"] root_shell = Err ESRCH.
Proof. vm_compute. auto 10. Qed.

(** ** C65: the command's exit status is passed on *)

(** A run of the waiting process together with the command, from the moment of the fork. *)
Definition waiter0 (d : N → disposition) : waiter := Waiting true d Alive.
(** [e] is how the command ended in a run from [w] to [w']. *)
Inductive wrun : waiter → option ending → waiter → Prop :=
| R_refl (w : waiter) : wrun w None w
| R_loop (w : waiter) (e : option ending) (w' w'' : waiter) (i : bool) :
    wrun w e w' → iteration i w' = Some w'' → wrun w e w''
| R_end (w : waiter) (first : bool) (d : N → disposition) (e : ending) :
    wrun w None (Waiting first d Alive) → wrun w (Some e) (Waiting first d (Zombie e)).

Definition wsound (e : option ending) (w : waiter) : Prop :=
  match w with
  | Ended x => e = Some x
  | Waiting _ _ Alive => e = None
  | Waiting _ _ (Zombie x) => e = Some x
  | Waiting _ _ Reaped => ∃ x, e = Some x
  end.
Lemma wrun_sound (d : N → disposition) (e : option ending) (w : waiter) : wrun (waiter0 d) e w → wsound e w.
Proof.
  intros H. remember (waiter0 d) as w0 eqn:H0. induction H as [w|w e w' w'' i H IH Hi|w first d' e H IH].
  - by subst w.
  - specialize (IH H0). destruct w' as [first d' k|x]; cbn [iteration] in Hi; [|by injection Hi as <-].
    destruct k as [|[c|s]|].
    + destruct (first || i)%bool; [|discriminate]. by injection Hi as <-.
    + by injection Hi as <-.
    + destruct (d' s); injection Hi as <-; cbn [wsound] in *; eauto.
    + by injection Hi as <-.
  - done.
Qed.

(** Safety, for every interleaving: if the waiting process ends, then the command has ended, and in the
    same way. *)
Theorem C65_status_is_the_commands : ∀ d e x, wrun (waiter0 d) e (Ended x) → e = Some x.
Proof. intros d e x H. exact (wrun_sound d e _ H). Qed.
Print Assumptions C65_status_is_the_commands.

(** Iterations of the loop, all uninterrupted. *)
Fixpoint iterate (n : nat) (w : waiter) : option waiter :=
  match n with 0 => Some w | S n' => match iteration false w with Some w' => iterate n' w' | None => None end end.

(** The full claim: once the command has ended the waiting process ends. *)
Definition C65_full : Prop := ∀ d e w, wrun (waiter0 d) (Some e) w → ∃ n, iterate n w = Some (Ended e).

(** False: the runtime's one-shot handler for SIGSEGV swallows the signal the process sends itself, and
    then waitpid fails for ever; the process spins. *)
Definition rust_disp : N → disposition :=
  λ s, if (N.eqb s 11 || N.eqb s 7)%bool then Once else if N.eqb s 13 then Ignored else Default.
Lemma reaped_forever (n : nat) (b : bool) (d : N → disposition) (w : waiter) :
  iterate n (Waiting b d Reaped) = Some w → ∃ b', w = Waiting b' d Reaped.
Proof.
  revert b. induction n as [|n IH]; intros b H; cbn [iterate iteration] in H; [injection H as <-; eauto|].
  by apply IH in H.
Qed.
Theorem C65_refuted : ¬ C65_full.
Proof.
  intros H.
  assert (wrun (waiter0 rust_disp) (Some (Killed 11)) (Waiting false (set_disp rust_disp 11 Default) Reaped)) as Hr.
  { eapply R_loop with (i := false); [apply R_end; apply R_refl|]. reflexivity. }
  destruct (H _ _ _ Hr) as (n & Hn). apply reaped_forever in Hn as [b' Hn]. discriminate Hn.
Qed.
Print Assumptions C65_refuted.

(** Proved when the process has not changed what the signal does, or the command exits normally: it ends
    after at most one more iteration, however often it was interrupted before. *)
Theorem C65_status_passed_on_partial : ∀ d e w, wrun (waiter0 d) (Some e) w →
  (∀ s, e = Killed s → d s = Default) → iterate 1 w = Some (Ended e).
Proof.
  intros d e w H Hd.
  assert (∀ o w, wrun (waiter0 d) o w →
    match w with Waiting _ d' k => (k = Reaped → ∃ s, o = Some (Killed s) ∧ d s ≠ Default) ∧ (k ≠ Reaped → d' = d) | Ended _ => True end) as Hinv.
  { clear. intros o w H. remember (waiter0 d) as w0 eqn:H0. induction H as [w|w e w' w'' i H IH Hi|w first d' e H IH].
    - subst w. cbn [waiter0]. split; [done|done].
    - assert (wsound e w') as Hs by (subst w; by apply (wrun_sound d)).
      specialize (IH H0). destruct w' as [first d' k|x]; cbn [iteration] in Hi; [|by injection Hi as <-].
      destruct IH as [IH1 IH2]. destruct k as [|[c|s]|].
      + destruct (first || i)%bool; [|discriminate]. injection Hi as <-. split; [done|]. intros _. by apply IH2.
      + by injection Hi as <-.
      + assert (d' = d) as -> by by apply IH2.
        destruct (d s) eqn:E; injection Hi as <-; [done|split; [|done]|split; [|done]]; intros _;
          exists s; cbn [wsound] in Hs; (split; [done|congruence]).
      + injection Hi as <-. split; [|done]. intros _. by apply IH1.
    - specialize (IH H0). destruct IH as [_ IH]. split; [done|]. intros _. by apply IH. }
  pose proof (wrun_sound d _ _ H) as Hs. specialize (Hinv _ _ H).
  destruct w as [first d' k|x]; [|cbn [wsound] in Hs; injection Hs as <-; reflexivity].
  destruct Hinv as [H1 H2]. destruct k as [|x|]; cbn [wsound] in Hs.
  - discriminate Hs.
  - injection Hs as <-. destruct e as [c|s]; [reflexivity|]. cbn [iterate iteration].
    rewrite (H2 ltac:(done)), (Hd s eq_refl). reflexivity.
  - exfalso. destruct (H1 eq_refl) as (s & Hs' & Hne). injection Hs' as ->. by apply Hne, Hd.
Qed.
Print Assumptions C65_status_passed_on_partial.

Example C65_nonvacuous :
  wrun (waiter0 rust_disp) (Some (Exited 3)) (Waiting false rust_disp (Zombie (Exited 3))) ∧
  wrun (waiter0 rust_disp) (Some (Killed 9)) (Ended (Killed 9)) ∧ rust_disp 9 = Default.
Proof.
  assert (wrun (waiter0 rust_disp) None (Waiting false rust_disp Alive)) as H.
  { eapply R_loop with (i := false); [apply R_refl|reflexivity]. }
  split; [by apply R_end|]. split; [|reflexivity].
  eapply R_loop with (i := false); [by apply R_end|reflexivity].
Qed.

(** ** C66: the command gets the caller's arguments and environment *)

(** getenv(3) *)
Fixpoint getenv (k : string) (env : list string) : option string :=
  match env with
  | [] => None
  | e :: env' => match strip_prefix (k +:+ "=") e with Some v => Some v | None => getenv k env' end
  end.
(** A key as programs use it. *)
Definition key_ok (k : string) : Prop := k ≠ "" ∧ "="%char ∉ to_bytes k.

Lemma strip_prefix_spec (p s t : string) : strip_prefix p s = Some t ↔ s = p +:+ t.
Proof.
  revert s. induction p as [|a p IH]; intros s.
  - cbn [strip_prefix]. split; [by intros [= ->]|by intros ->].
  - destruct s as [|b s]; cbn [strip_prefix]; [split; [done|intros H; discriminate H]|].
    destruct (Ascii.eqb a b) eqn:E.
    + apply Ascii.eqb_eq in E as ->. rewrite IH. split; [by intros ->|intros H; by injection H].
    + split; [done|]. intros H. injection H as -> _. by rewrite Ascii.eqb_refl in E.
Qed.
Lemma strip_starts (p s : string) : starts_with p s = true ↔ ∃ t, strip_prefix p s = Some t.
Proof. rewrite starts_with_spec. by setoid_rewrite strip_prefix_spec. Qed.

Lemma split_eq_spec (s k v : string) : split_eq s = Some (k, v) ↔ s = k +:+ "=" +:+ v ∧ "="%char ∉ to_bytes k.
Proof.
  revert k. induction s as [|a s IH]; intros k; cbn [split_eq].
  - split; [done|]. intros [H _]. destruct k; discriminate H.
  - destruct (Ascii.eqb a "=") eqn:E.
    + apply Ascii.eqb_eq in E as ->. split.
      * intros [= <- <-]. split; [done|]. by apply not_elem_of_nil.
      * intros [H Hk]. destruct k as [|b k]; [by injection H as ->|].
        injection H as <- _. exfalso. apply Hk. cbn [to_bytes]. apply elem_of_cons. by left.
    + apply Ascii.eqb_neq in E. split.
      * destruct (split_eq s) as [[k' v']|]; [|done]. intros [= <- <-].
        destruct (proj1 (IH k') eq_refl) as [-> Hk]. split; [done|]. cbn [to_bytes].
        rewrite elem_of_cons. intros [H|H]; [by apply E|by apply Hk].
      * intros [H Hk]. destruct k as [|b k]; [injection H; congruence|].
        injection H as -> H. cbn [to_bytes] in Hk.
        assert (split_eq s = Some (k, v)) as ->; [|done].
        apply IH. split; [done|]. intros Hin. apply Hk. apply elem_of_cons. by right.
Qed.
Lemma parse_env_eq (e k v : string) : parse_env e = Some (k, v) → e = k +:+ "=" +:+ v.
Proof.
  destruct e as [|a r]; cbn [parse_env]; [done|].
  destruct (split_eq r) as [[k' v']|] eqn:E; [|done]. intros [= <- <-].
  apply split_eq_spec in E as [-> _]. done.
Qed.
Lemma parse_env_key (k v : string) : key_ok k → parse_env (k +:+ "=" +:+ v) = Some (k, v).
Proof.
  intros [H1 H2]. destruct k as [|a k]; [done|]. change (parse_env (String a (k +:+ "=" +:+ v)) = Some (String a k, v)).
  cbn [parse_env].
  assert (split_eq (k +:+ "=" +:+ v) = Some (k, v)) as ->; [|done].
  apply split_eq_spec. split; [done|]. intros H. apply H2. cbn [to_bytes]. apply elem_of_cons. by right.
Qed.
Lemma app_eq_key (k k' v v' : string) : "="%char ∉ to_bytes k → "="%char ∉ to_bytes k' →
  k +:+ "=" +:+ v = k' +:+ "=" +:+ v' → k = k' ∧ v = v'.
Proof.
  intros H1 H2 H. assert (split_eq (k +:+ "=" +:+ v) = Some (k, v)) as E1 by by apply split_eq_spec.
  rewrite H in E1. assert (split_eq (k' +:+ "=" +:+ v') = Some (k', v')) as E2 by by apply split_eq_spec.
  rewrite E1 in E2. injection E2; auto.
Qed.
Lemma append_eq_assoc (a b : string) : (a +:+ "=") +:+ b = a +:+ "=" +:+ b.
Proof. induction a as [|c a IH]; [done|]. cbn [String.append]. by f_equal. Qed.

Lemma getenv_setenv (k k' v : string) (env : list string) : key_ok k → key_ok k' →
  getenv k' (setenv k v env) = if decide (k' = k) then Some v else getenv k' env.
Proof.
  intros [_ Hk] [_ Hk'].
  assert (∀ rest, getenv k' ((k +:+ "=" +:+ v) :: rest) = if decide (k' = k) then Some v else getenv k' rest) as Hnew.
  { intros rest. cbn [getenv]. destruct (decide (k' = k)) as [-> |Hne].
    - assert (strip_prefix (k +:+ "=") (k +:+ "=" +:+ v) = Some v) as ->; [|done].
      apply strip_prefix_spec. by rewrite append_eq_assoc.
    - destruct (strip_prefix (k' +:+ "=") (k +:+ "=" +:+ v)) as [x|] eqn:E; [|done].
      apply strip_prefix_spec in E. rewrite append_eq_assoc in E. apply app_eq_key in E as [E _]; congruence. }
  induction env as [|e env IH]; cbn [setenv]; [by rewrite Hnew|].
  destruct (has_key k e) eqn:E.
  - rewrite Hnew. destruct (decide (k' = k)) as [-> |Hne]; [done|]. cbn [getenv].
    unfold has_key in E. apply strip_starts in E as [x Ex]. apply strip_prefix_spec in Ex.
    destruct (strip_prefix (k' +:+ "=") e) as [y|] eqn:Ey; [|done]. exfalso.
    apply strip_prefix_spec in Ey. rewrite Ex, !append_eq_assoc in Ey. apply app_eq_key in Ey as [Ey _]; congruence.
  - cbn [getenv]. rewrite IH. destruct (decide (k' = k)) as [-> |Hne]; [|done].
    destruct (strip_prefix (k +:+ "=") e) as [y|] eqn:Ey; [|done].
    exfalso. assert (has_key k e = true) as Hh by (unfold has_key; apply strip_starts; eauto). congruence.
Qed.
Lemma getenv_vars (env : list string) (l : list (string * string)) (k : string) : vars env = Some l → key_ok k →
  getenv k (env_string <$> l) = getenv k env.
Proof.
  intros H Hk. revert l H. induction env as [|e env IH]; intros l H; cbn [vars] in H; [by injection H as <-|].
  destruct (parse_env e) as [[k' v']|] eqn:E.
  - destruct (utf8_valid k' && utf8_valid v')%bool; [|done]. destruct (vars env) as [l'|]; [|done].
    injection H as <-. rewrite fmap_cons. apply parse_env_eq in E.
    assert (env_string (k', v') = e) as -> by (by rewrite E). cbn [getenv].
    destruct (strip_prefix _ e); [done|]. by apply IH.
  - rewrite (IH l H). cbn [getenv]. destruct (strip_prefix (k +:+ "=") e) as [v|] eqn:Ev; [|done].
    apply strip_prefix_spec in Ev. rewrite append_eq_assoc in Ev. subst e. by rewrite (parse_env_key k v Hk) in E.
Qed.

Lemma sys_setns_env (m : machine) (t : nskind → N) (fl : list nskind) (p q : process) : sys_setns m t fl p = Ok q → pr_env q = pr_env p.
Proof.
  unfold sys_setns. destruct (call m "setns"); cbn [rbind]; [|done]. destruct (privileged _); [|done].
  by intros [= <-].
Qed.
Lemma sys_chdir_env (m : machine) (d : path) (p q : process) : sys_chdir m d p = Ok q → pr_env q = pr_env p.
Proof.
  unfold sys_chdir. destruct (call m "chdir"); cbn [rbind]; [|done]. destruct (m_dir _ _ _); [|done]. by intros [= <-].
Qed.
Lemma sys_chroot_env (m : machine) (p q : process) : sys_chroot_here m p = Ok q → pr_env q = pr_env p.
Proof.
  unfold sys_chroot_here. destruct (call m "chroot"); cbn [rbind]; [|done]. destruct (privileged _); [|done]. by intros [= <-].
Qed.
Lemma rbind_ok {A B : Type} (r : res A) (k : A → res B) (b : B) : rbind r k = Ok b → ∃ a, r = Ok a ∧ k a = Ok b.
Proof. destruct r as [a|]; [eauto|done]. Qed.
Lemma exec_env (m : machine) (sb : sandbox_ref) (command : list string) (p par ch : process) (act : child_does) :
  exec m sb command p = Ok (par, ch, act) →
  act = child command ch ∧ pr_env ch = setenv "SANDBOX_STORAGE_DIR" (x_data sb) (setenv "SANDBOX" (x_name sb) (pr_env p)).
Proof.
  unfold exec, enter. intros H. apply rbind_ok in H as (p' & H & H2).
  apply rbind_ok in H2 as ([q1 q2] & Hf & H2). injection H2 as -> -> <-.
  unfold sys_fork in Hf. apply rbind_ok in Hf as (_ & _ & Hf). injection Hf as <- <-.
  split; [done|]. cbn [forked pr_env].
  apply rbind_ok in H as (t & _ & H). apply rbind_ok in H as (p1 & H1 & H). apply rbind_ok in H as (p2 & H2 & H).
  apply rbind_ok in H as (p3 & H3 & H). apply rbind_ok in H as (p4 & H4 & H). apply rbind_ok in H as (c & _ & H).
  injection H as <-. cbn [pr_env].
  by rewrite (sys_chdir_env _ _ _ _ H4), (sys_chroot_env _ _ _ H3), (sys_chdir_env _ _ _ _ H2), (sys_setns_env _ _ _ _ _ H1).
Qed.

(** A command that runs is the one given, and every variable has for it the value it has for the caller,
    except the two that say where it is. *)
Theorem C66_environment : ∀ m sb command p par ch argv envp,
  exec m sb command p = Ok (par, ch, Executes argv envp) →
  argv = command ∧
  ∀ k, key_ok k →
    getenv k envp = if decide (k = "SANDBOX") then Some (x_name sb)
                    else if decide (k = "SANDBOX_STORAGE_DIR") then Some (x_data sb)
                    else getenv k (pr_env p).
Proof.
  intros m sb command p par ch argv envp H. destruct (exec_env _ _ _ _ _ _ _ H) as [Hc He].
  unfold child in Hc. destruct command as [|c0 cs]; [discriminate|]. destruct (forallb _ _); [|discriminate].
  destruct (vars (pr_env ch)) as [l|] eqn:Hv; [|discriminate]. injection Hc as -> ->. split; [done|].
  intros k Hk. rewrite (getenv_vars _ _ k Hv Hk), He.
  assert (key_ok "SANDBOX") as K1.
  { split; [done|]. cbn [to_bytes]. rewrite !not_elem_of_cons. repeat (split; [done|]). apply not_elem_of_nil. }
  assert (key_ok "SANDBOX_STORAGE_DIR") as K2.
  { split; [done|]. cbn [to_bytes]. rewrite !not_elem_of_cons. repeat (split; [done|]). apply not_elem_of_nil. }
  rewrite !getenv_setenv by done.
  destruct (decide (k = "SANDBOX_STORAGE_DIR")) as [-> |]; [by rewrite decide_False by done|].
  destruct (decide (k = "SANDBOX")); done.
Qed.
Print Assumptions C66_environment.

(** The full claim: the command is run once the sandbox has been entered. *)
Definition C66_full : Prop := ∀ m sb c0 cs p par ch act,
  forallb no_nul (c0 :: cs) = true → utf8_valid (x_name sb) = true → utf8_valid (x_data sb) = true →
  exec m sb (c0 :: cs) p = Ok (par, ch, act) → ∃ envp, act = Executes (c0 :: cs) envp.

(** False: one variable that is not UTF-8, set for whatever reason, and no command can be run. *)
Theorem C66_refuted : ¬ C66_full.
Proof.
  intros H.
  set (bad := of_bytes [("X"%char : ascii); "="%char; ascii_of_nat 255]).
  set (p := Process host_ns 0 (0%N, []) (0%N, ["home"]) (Cred 1000 0 0 1000 0 0 [1000%N]) ["PATH=/bin"; bad]).
  set (m := machine_after NetNone 42 host_ns host_state [] all_dirs no_fails).
  destruct (exec m sb42 ["ls"] p) as [[[par ch] act]|e] eqn:E; [|vm_compute in E; discriminate E].
  assert (act = Panics) as Ha.
  { destruct (exec_env _ _ _ _ _ _ _ E) as [-> He]. unfold child. rewrite He. vm_compute. reflexivity. }
  assert (∃ envp, act = Executes ["ls"] envp) as [envp H'].
  { refine (H m sb42 "ls" [] p par ch act _ _ _ E); vm_compute; reflexivity. }
  rewrite Ha in H'. discriminate H'.
Qed.
Print Assumptions C66_refuted.

Lemma utf8_entry (k v : string) : utf8_valid (k +:+ "=" +:+ v) = true → utf8_valid k = true ∧ utf8_valid v = true.
Proof. unfold utf8_valid. rewrite to_bytes_app. cbn [String.append to_bytes]. by apply utf8_split. Qed.
Lemma vars_some (env : list string) : (∀ e, e ∈ env → utf8_valid e = true) → ∃ l, vars env = Some l.
Proof.
  induction env as [|e env IH]; intros H; cbn [vars]; [eauto|].
  destruct IH as [l Hl]; [intros e' He'; apply H; apply elem_of_cons; by right|].
  destruct (parse_env e) as [[k v]|] eqn:E; [|eauto].
  assert (utf8_valid e = true) as He by (apply H; apply elem_of_cons; by left).
  apply parse_env_eq in E. subst e. apply utf8_entry in He as [-> ->]. cbn [andb]. rewrite Hl. eauto.
Qed.
Lemma setenv_elem (k v e : string) (env : list string) : e ∈ setenv k v env → e = k +:+ "=" +:+ v ∨ e ∈ env.
Proof.
  induction env as [|e' env IH]; cbn [setenv]; [rewrite elem_of_list_singleton; auto|].
  destruct (has_key k e'); rewrite !elem_of_cons; tauto.
Qed.
(** Proved when all of the environment is UTF-8. *)
Theorem C66_command_run_partial : ∀ m sb c0 cs p par ch act,
  forallb no_nul (c0 :: cs) = true → utf8_valid (x_name sb) = true → utf8_valid (x_data sb) = true →
  (∀ e, e ∈ pr_env p → utf8_valid e = true) →
  exec m sb (c0 :: cs) p = Ok (par, ch, act) → ∃ envp, act = Executes (c0 :: cs) envp.
Proof.
  intros m sb c0 cs p par ch act Hn H1 H2 Henv H. destruct (exec_env _ _ _ _ _ _ _ H) as [-> He].
  unfold child. rewrite Hn. destruct (vars_some (pr_env ch)) as [l ->]; [|eauto].
  intros e Hin. rewrite He in Hin. apply setenv_elem in Hin as [-> |Hin].
  { unfold utf8_valid in *. rewrite !to_bytes_app. by apply utf8_join, utf8_join. }
  apply setenv_elem in Hin as [-> |Hin]; [|by apply Henv].
  unfold utf8_valid in *. rewrite !to_bytes_app. by apply utf8_join, utf8_join.
Qed.
Print Assumptions C66_command_run_partial.

Example C66_nonvacuous :
  (∀ e, e ∈ pr_env root_shell → utf8_valid e = true) ∧ getenv "PATH" (pr_env root_shell) = Some "/bin" ∧
  getenv "SANDBOX" (setenv "SANDBOX" "dev" (pr_env root_shell)) = Some "dev".
Proof.
  split; [|vm_compute; auto]. intros e He. cbn [root_shell pr_env] in He. rewrite !elem_of_cons in He.
  destruct He as [-> |[-> |He]]; [vm_compute; reflexivity|vm_compute; reflexivity|by apply elem_of_nil in He].
Qed.
