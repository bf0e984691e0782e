(** * Running a command in a sandbox: sandbox/exec.rs, and the namespaces of sandbox/get_or_create.rs:232-264.

    Modelled: the order of the system calls of [Sandbox::exec], the Linux rules for setns(2), chroot(2),
    chdir(2), fork(2) and waitpid(2) they depend on, the environment handed to the command and the loop
    that waits for it. Any of the calls may fail for a reason of its own ([fails]).
    Not modelled: the search of the command in PATH, the contents of the mount namespace (Mounts.v). *)
From Verif Require Export Creds Utf8.

(** ** Namespaces *)
Inductive nskind := NsMnt | NsPid | NsIpc | NsNet | NsCgroup | NsUts | NsUser | NsTime.
#[global] Instance nskind_eq_dec : EqDecision nskind.
Proof. solve_decision. Defined.
Definition all_ns : list nskind := [NsMnt; NsPid; NsIpc; NsNet; NsCgroup; NsUts; NsUser; NsTime].

(** A process as far as [exec] changes it. [pr_ns NsPid] is the pid namespace it is in, [pr_kids] the one
    its children will be in. Directories are given by the mount namespace and the path from its root. *)
Record process := Process {
  pr_ns : nskind → N;
  pr_kids : N;
  pr_root : N * path;
  pr_cwd : N * path;
  pr_cred : cred;
  pr_env : list string;
}.

(** The rest of the machine: the namespaces of every process, and which paths of a mount namespace lead
    to a directory. *)
Record machine := Machine {
  m_procs : gmap N (nskind → N);
  m_dir : N → path → bool;
  m_fails : string → option err;
}.

Definition call (m : machine) (name : string) : res unit :=
  match m_fails m name with Some e => Err e | None => Ok tt end.

(** exec.rs:192-203: pidfd_open(2) *)
Definition ESRCH : err := EApp "ESRCH".
Definition pidfd_open (m : machine) (pid : Z) : res (nskind → N) :=
  rbind (call m "pidfd_open") (λ _,
  if Z.leb pid 0 then Err EINVAL
  else match m_procs m !! Z.to_N pid with Some t => Ok t | None => Err ESRCH end).

(** setns(2) with a pidfd: the named namespaces of the target; for the pid namespace only the children
    are affected; joining a mount namespace moves root and working directory to its root. *)
Definition sys_setns (m : machine) (t : nskind → N) (flags : list nskind) (p : process) : res process :=
  rbind (call m "setns") (λ _,
  if privileged (pr_cred p) then
    let mnt := bool_decide (NsMnt ∈ flags) in
    Ok (Process
          (λ k, if bool_decide (k ∈ flags) then (if decide (k = NsPid) then pr_ns p k else t k) else pr_ns p k)
          (if bool_decide (NsPid ∈ flags) then t NsPid else pr_kids p)
          (if mnt then (t NsMnt, []) else pr_root p)
          (if mnt then (t NsMnt, []) else pr_cwd p)
          (pr_cred p) (pr_env p))
  else Err EPERM).

(** chdir(2) to an absolute path: resolved from the root directory of the process. Simplification: the
    path is taken as it is written (it comes from getcwd, which has no symlinks or dots in the caller's
    mount namespace). *)
Definition sys_chdir (m : machine) (to : path) (p : process) : res process :=
  rbind (call m "chdir") (λ _,
  let d := ((pr_root p).1, (pr_root p).2 ++ to) in
  if m_dir m d.1 d.2 then Ok (Process (pr_ns p) (pr_kids p) (pr_root p) d (pr_cred p) (pr_env p))
  else Err ENOENT).
(** chroot(2) to "." *)
Definition sys_chroot_here (m : machine) (p : process) : res process :=
  rbind (call m "chroot") (λ _,
  if privileged (pr_cred p)
  then Ok (Process (pr_ns p) (pr_kids p) (pr_cwd p) (pr_cwd p) (pr_cred p) (pr_env p)) else Err EPERM).

(** ** The environment: a list of strings KEY=VALUE *)
(** Rust's [env::vars] (std/src/sys/os/unix): the key ends at the first '=' that is not the first
    character; strings without one are left out. *)
Fixpoint split_eq (s : string) : option (string * string) :=
  match s with
  | EmptyString => None
  | String a r => if Ascii.eqb a "=" then Some (EmptyString, r)
                  else match split_eq r with Some (k, v) => Some (String a k, v) | None => None end
  end.
Definition parse_env (e : string) : option (string * string) :=
  match e with
  | EmptyString => None
  | String a r => match split_eq r with Some (k, v) => Some (String a k, v) | None => None end
  end.
(** setenv(3), [env::set_var]: replaces the first string with this key. *)
Definition has_key (k e : string) : bool := starts_with (k +:+ "=") e.
Fixpoint setenv (k v : string) (env : list string) : list string :=
  match env with
  | [] => [k +:+ "=" +:+ v]
  | e :: env' => if has_key k e then (k +:+ "=" +:+ v) :: env' else e :: setenv k v env'
  end.
(** exec.rs:151-158: [env::vars] panics at a key or value that is not UTF-8. *)
Fixpoint vars (env : list string) : option (list (string * string)) :=
  match env with
  | [] => Some []
  | e :: env' =>
      match parse_env e with
      | None => vars env'
      | Some (k, v) =>
          if (utf8_valid k && utf8_valid v)%bool
          then match vars env' with Some l => Some ((k, v) :: l) | None => None end
          else None
      end
  end.

(** ** exec.rs:22-190 *)
(** exec.rs:26-31 *)
Definition exec_flags : list nskind := [NsMnt; NsPid; NsIpc; NsNet; NsCgroup; NsUts].

(** What the child of the fork does (exec.rs:140-188): it executes a program, or returns an error from
    [exec], or panics. *)
Inductive child_does :=
| Executes (argv envp : list string)
| Returns (e : err)
| Panics.
Definition env_string (kv : string * string) : string := kv.1 +:+ "=" +:+ kv.2.
Definition no_nul (s : string) : bool := negb (existsb (Ascii.eqb "000") (to_bytes s)).
Definition child (command : list string) (p : process) : child_does :=
  match command with
  | [] => Panics
  | _ :: _ =>
      if forallb no_nul command then
        match vars (pr_env p) with
        | None => Panics
        | Some l => Executes command (env_string <$> l)
        end
      else Returns (EApp "nul byte found in provided data")
  end.

Record sandbox_ref := SandboxRef { x_pid : Z; x_uid : N; x_gid : N; x_name : string; x_data : string }.

(** exec.rs:22-92, everything before the fork. *)
Definition enter (m : machine) (sb : sandbox_ref) (p : process) : res process :=
  let cwd := (pr_cwd p).2 in
  rbind (pidfd_open m (x_pid sb)) (λ t,
  rbind (sys_setns m t exec_flags p) (λ p1,
  rbind (sys_chdir m [] p1) (λ p2,
  rbind (sys_chroot_here m p2) (λ p3,
  rbind (sys_chdir m cwd p3) (λ p4,
  rbind (drop_privileges (x_uid sb) (x_gid sb) (pr_cred p4)) (λ c,
  Ok (Process (pr_ns p4) (pr_kids p4) (pr_root p4) (pr_cwd p4) c
        (setenv "SANDBOX_STORAGE_DIR" (x_data sb) (setenv "SANDBOX" (x_name sb) (pr_env p4)))))))))).

(** fork(2): the child lives in the pid namespace chosen for children. *)
Definition forked (p : process) : process :=
  Process (λ k, if decide (k = NsPid) then pr_kids p else pr_ns p k) (pr_kids p) (pr_root p) (pr_cwd p)
    (pr_cred p) (pr_env p).
Definition sys_fork (m : machine) (p : process) : res (process * process) :=
  rbind (call m "fork") (λ _, Ok (p, forked p)).

(** exec.rs:22-190: an error, or the waiting parent, the child, and what the child does. *)
Definition exec (m : machine) (sb : sandbox_ref) (command : list string) (p : process)
    : res (process * process * child_does) :=
  rbind (enter m sb p) (λ p', rbind (sys_fork m p') (λ pc, Ok (pc.1, pc.2, child command pc.2))).

(** main.rs:183-186: without a command, the shell. A SHELL that is not UTF-8 counts as unset. *)
Definition command_of (given : option (list string)) (shell : option string) : list string :=
  match given with
  | Some c => c
  | None => [match shell with Some s => if utf8_valid s then s else "sh" | None => "sh" end]
  end.

(** ** The waiting parent: exec.rs:93-138 *)
(** How a process ends. *)
Inductive ending := Exited (code : N) | Killed (sig : N).
#[global] Instance ending_eq_dec : EqDecision ending.
Proof. solve_decision. Defined.
(** What the waiting process has set up for a signal that kills by default. [Once]: the handler of
    Rust's runtime for SIGSEGV and SIGBUS, which, outside the guard page, only restores the default and
    returns (std/src/sys/pal/unix/stack_overflow.rs). *)
Inductive disposition := Default | Ignored | Once.
Inductive kid := Alive | Zombie (e : ending) | Reaped.
Inductive waiter :=
| Waiting (first : bool) (disp : N → disposition) (k : kid)
| Ended (e : ending).
(** One iteration of the loop (97-137). The first waitpid does not block (WNOHANG); the later ones block
    while the command runs, but a signal handler can interrupt them (EINTR); without a child they fail
    with ECHILD. [None]: blocked. *)
Definition set_disp (d : N → disposition) (s : N) (x : disposition) : N → disposition :=
  λ t, if N.eqb t s then x else d t.
Definition iteration (interrupted : bool) (w : waiter) : option waiter :=
  match w with
  | Ended e => Some (Ended e)
  | Waiting first d k =>
      match k with
      | Alive => if (first || interrupted)%bool then Some (Waiting false d Alive) else None
      | Zombie (Exited c) => Some (Ended (Exited c))
      | Zombie (Killed s) =>
          match d s with
          | Default => Some (Ended (Killed s))
          | Ignored => Some (Waiting false d Reaped)
          | Once => Some (Waiting false (set_disp d s Default) Reaped)
          end
      | Reaped => Some (Waiting false d Reaped)
      end
  end.
(** The loop and the command, in any interleaving. *)
Inductive wstep : waiter → waiter → Prop :=
| W_loop (i : bool) (w w' : waiter) : iteration i w = Some w' → wstep w w'
| W_end (first : bool) (d : N → disposition) (e : ending) :
    wstep (Waiting first d Alive) (Waiting first d (Zombie e)).

(** ** The namespaces of a sandbox: get_or_create.rs:232-245, clone3(2) *)
Inductive net := NetHost | NetNone.
Definition start_flags (n : net) : list nskind :=
  [NsMnt] ++ (match n with NetHost => [] | NetNone => [NsNet] end) ++ [NsPid; NsIpc; NsUts; NsCgroup].
(** clone3: a new namespace, with a number never used before, for every flag; the others are shared. *)
Definition clone_ns (next : N) (flags : list nskind) (parent : nskind → N) : nskind → N :=
  λ k, if bool_decide (k ∈ flags) then next else parent k.

(** Histories: processes start and end, the sandbox is started. The pid file keeps the number of the
    sandbox's first process (get_or_create.rs:259-262). *)
Record hstate := HState { h_procs : gmap N (nskind → N); h_next : N }.
Inductive hevent :=
| HFork (pid : N) (ns : nskind → N)   (* some process starts, with any namespaces that exist *)
| HExit (pid : N).
Definition hstep (e : hevent) (s : hstate) : hstate :=
  match e with
  | HFork pid ns => HState (<[pid := ns]> (h_procs s)) (h_next s)
  | HExit pid => HState (delete pid (h_procs s)) (h_next s)
  end.
Definition hrun (es : list hevent) (s : hstate) : hstate := foldl (λ s e, hstep e s) s es.
(** The start of the sandbox: a process [pid] that was free, cloned from [parent]. *)
Definition hstart (n : net) (pid : N) (parent : nskind → N) (s : hstate) : hstate :=
  HState (<[pid := clone_ns (h_next s) (start_flags n) parent]> (h_procs s)) (h_next s + 1).
