(** * What a command and the sandbox's first process inherit: signal dispositions, open files, children.
    /repo/src/main.rs (start of a Rust program), /repo/src/util/lock_sandbox.rs:24-50,
    /repo/src/sandbox/get_or_create.rs:106-212 and 225-308, 945-995, /repo/src/sandbox/exec.rs:57-184. *)
From Verif Require Export Base.
From stdpp Require Export gmap.

(** ** Dispositions and descriptors *)
Inductive action := ActDefault | ActIgnore | ActHandler.
#[global] Instance action_eq_dec : EqDecision action.
Proof. solve_decision. Defined.
(** An open file: one of the caller's, or one of the program's own. *)
Inductive ofile := Theirs (n : N) | DevNull | LockFile | PipeRead | PipeWrite | PidFd.
Record fdent := Fd { fd_file : ofile; fd_cloexec : bool }.
Record pstate := PState { ps_sig : N → action; ps_fds : gmap N fdent }.
Definition SIGBUS : N := 7.
Definition SIGSEGV : N := 11.
Definition SIGPIPE : N := 13.
Definition SIGTERM : N := 15.
Definition set_sig (k : N) (x : action) (p : pstate) : pstate := PState (λ n, if N.eqb n k then x else ps_sig p n) (ps_fds p).
Definition set_fd (k : N) (x : fdent) (p : pstate) : pstate := PState (ps_sig p) (<[k := x]> (ps_fds p)).
Definition close_fd (k : N) (p : pstate) : pstate := PState (ps_sig p) (delete k (ps_fds p)).

(** The start of a Rust program, before main (std/src/sys/pal/unix/mod.rs [init], stack_overflow.rs): the standard descriptors that
    are closed are opened on /dev/null, SIGPIPE is ignored, SIGSEGV and SIGBUS get a handler if they have the default action.
    main.rs does not opt out of any of this. *)
Definition std_fd (p : pstate) (k : N) : pstate :=
  match ps_fds p !! k with Some _ => p | None => set_fd k (Fd DevNull false) p end.
Definition guard_sig (p : pstate) (k : N) : pstate :=
  match ps_sig p k with ActDefault => set_sig k ActHandler p | _ => p end.
Definition rust_start (p : pstate) : pstate :=
  guard_sig (guard_sig (set_sig SIGPIPE ActIgnore (std_fd (std_fd (std_fd p 0) 1) 2)) SIGSEGV) SIGBUS.

(** A new descriptor. Simplification: some unused number, not the lowest one. *)
Definition open_fd (f : ofile) (cloexec : bool) (p : pstate) : N * pstate :=
  let k := fresh (dom (ps_fds p)) in (k, set_fd k (Fd f cloexec) p).

(** execve(2): handlers become the default, ignored signals stay ignored, descriptors with the flag are closed (signal(7),
    execve(2)). *)
Definition sys_execve (p : pstate) : pstate :=
  PState (λ n, match ps_sig p n with ActHandler => ActDefault | x => x end)
         (filter (λ kv : N * fdent, fd_cloexec kv.2 = false) (ps_fds p)).

(** [Sandbox::get_or_create] in the calling process: the lock (Rust opens files with O_CLOEXEC), and if the sandbox is started the
    pipe (nix's pipe() sets no flag), of which the caller closes both ends (get_or_create.rs:254-281); the lock is dropped at the end
    (127-128). Other files are opened and closed in between. Gives the caller and the new process. *)
Definition got_sandbox (starts : bool) (p : pstate) : pstate * option pstate :=
  let '(l, p1) := open_fd LockFile true p in
  if starts then
    let '(r, p2) := open_fd PipeRead false p1 in
    let '(w, p3) := open_fd PipeWrite false p2 in
    (* the new process: get_or_create.rs:287, 949-961, 963-968 *)
    let c := set_sig SIGTERM ActHandler (close_fd 0 (close_fd 2 (close_fd 1 (close_fd w (close_fd r p3))))) in
    (close_fd l (close_fd r (close_fd w p3)), Some c)
  else (close_fd l p1, None).
(** exec.rs:57-184: pidfd_open(2) sets the flag itself; fork(2) copies; execvpe(3). *)
Definition run_command (starts : bool) (p : pstate) : pstate :=
  let p1 := (got_sandbox starts (rust_start p)).1 in
  sys_execve (open_fd PidFd true p1).2.
Definition first_process (p : pstate) : option pstate := (got_sandbox true (rust_start p)).2.

(** ** The processes of a sandbox *)
(** A process in the sandbox's pid namespace: its parent, [None] if that is outside (exec.rs:91, which waits), and whether it has
    ended. *)
Record ptent := Pt { pt_parent : option N; pt_ended : bool }.
Notation ptable := (gmap N ptent).
(** get_or_create.rs:254-264: process 1 alone. *)
Definition new_table : ptable := {[ 1%N := Pt None false ]}.
Definition alive (t : ptable) (p : N) : Prop := ∃ e, t !! p = Some e ∧ pt_ended e = false.
(** fork(2), _exit(2) and waitpid(2). The children of a process that ends are given to process 1 (pid_namespaces(7)). Process 1 never
    waits (get_or_create.rs:970-995) and does not ignore SIGCHLD. *)
Definition adopt (p : N) (e : ptent) : ptent := if decide (pt_parent e = Some p) then Pt (Some 1%N) (pt_ended e) else e.
Inductive pt_step (t : ptable) : ptable → Prop :=
  | pt_enter c : t !! c = None → pt_step t (<[c := Pt None false]> t)
  | pt_fork p c : alive t p → p ≠ 1%N → t !! c = None → pt_step t (<[c := Pt (Some p) false]> t)
  | pt_exit p e : t !! p = Some e → pt_ended e = false → p ≠ 1%N → pt_step t (<[p := Pt (pt_parent e) true]> (adopt p <$> t))
  | pt_wait p c : alive t p → p ≠ 1%N → t !! c = Some (Pt (Some p) true) → pt_step t (delete c t)
  | pt_wait_outside c : t !! c = Some (Pt None true) → pt_step t (delete c t).
