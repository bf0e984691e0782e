(** * The life of a sandbox: names, lock, pid file, stop, list, delete, --last and --new.
    /repo/src/util/get_running_sandbox_pid.rs, /repo/src/util/lock_sandbox.rs,
    /repo/src/sandbox/{stop,delete,exists,unmount}.rs, /repo/src/sandbox/get_or_create.rs:43-104,
    /repo/src/actions/{stop,delete,list}.rs, /repo/src/config/resolve.rs:699-805. *)
From Coq Require Import DecimalString DecimalN.
From Verif Require Export Accept Utf8.

(** ** Names and the files of a sandbox *)
(** resolve.rs:699-705 *)
Definition validate_name (name : string) : res unit :=
  if contains "/" name then Err (EApp "Invalid sandbox name") else Ok tt.
(** get_or_create.rs:50 ([PathBuf::join]; a name without slash adds one component, which the kernel
    skips if it is empty or "."). *)
Definition base_of (storage : path) (name : string) : path := storage ++ [name].
(** lock_sandbox.rs:21-22, delete.rs:19, exists.rs:8: both ways of building the path give this one
    for a name without slash. *)
Definition lock_of (storage : path) (name : string) : path := storage ++ [name +:+ ".lock"].
(** get_running_sandbox_pid.rs:54-59, stop.rs:138, exists.rs:7 *)
Definition pid_of (storage : path) (name : string) : path := storage ++ [name +:+ ".pid"].

(** ** Decimal numbers: [i32::from_str], [ToString for i32] *)
Definition digits (s : string) : option N :=
  match s with
  | EmptyString => None
  | _ => N.of_uint <$> NilEmpty.uint_of_string s
  end.
Definition in_i32 (z : Z) : option Z :=
  if (Z.leb (-2147483648) z && Z.leb z 2147483647)%bool then Some z else None.
Definition parse_i32 (s : string) : option Z :=
  match s with
  | String a r =>
      if Ascii.eqb a "-" then n ← digits r; in_i32 (- Z.of_N n)
      else if Ascii.eqb a "+" then n ← digits r; in_i32 (Z.of_N n)
      else n ← digits s; in_i32 (Z.of_N n)
  | EmptyString => None
  end.
Definition show_pid (n : N) : string := NilEmpty.string_of_uint (N.to_uint n).

(** ** Processes, mounts, the machine *)
(** A process as seen by the program: its pid namespaces, innermost first; the namespace its children
    get; whether it is process 1 of its innermost namespace; name, state letter, command line. *)
Record proc := Proc {
  p_nss : list N;
  p_children : N;
  p_init : bool;
  p_comm : string;
  p_state : string;
  p_cmdline : string;
}.
Definition p_ns (p : proc) : option N := head (p_nss p).

(** A mount: where, and the (empty) directory it covers. *)
Record mount := Mount { mt_at : path; mt_under : node }.

Record sys := Sys { s_fs : fs; s_procs : gmap N proc; s_mounts : list mount }.

(** A run: all states after a modifying system call, the last state, the result. *)
Record sout (A : Type) := SOut { so_trace : list sys; so_sys : sys; so_res : res A }.
Arguments SOut {A} so_trace so_sys so_res.
Arguments so_trace {A} s.
Arguments so_sys {A} s.
Arguments so_res {A} s.
Definition S_ (A : Type) := sys → sout A.
Definition sret {A : Type} (a : A) : S_ A := λ s, SOut [] s (Ok a).
Definition sthrow {A : Type} (e : err) : S_ A := λ s, SOut [] s (Err e).
Definition sbind {A B : Type} (m : S_ A) (k : A → S_ B) : S_ B := λ s,
  let o := m s in
  match so_res o with
  | Ok a => let o' := k a (so_sys o) in SOut (so_trace o ++ so_trace o') (so_sys o') (so_res o')
  | Err e => SOut (so_trace o) (so_sys o) (Err e)
  end.
Definition sget {A : Type} (r : sys → res A) : S_ A := λ s, SOut [] s (r s).
Definition set_fs (s : sys) (f : fs) : sys := Sys f (s_procs s) (s_mounts s).
(** A filesystem computation of the other files. *)
Definition lift_fs {A : Type} (m : M A) : S_ A := λ s,
  let o := m (s_fs s) in SOut (set_fs s <$> o_trace o) (set_fs s (o_fs o)) (o_res o).
(** [.ok()] and similar: the error is dropped. *)
Definition ignore_err (m : S_ unit) : S_ unit := λ s,
  let o := m s in SOut (so_trace o) (so_sys o) (Ok tt).
Declare Scope s_scope.
Delimit Scope s_scope with S_.
Notation "x <~~ m ;~ k" := (sbind m (λ x, k)) (at level 100, m at next level, right associativity) : s_scope.
Notation "m ;~ k" := (sbind m (λ _, k)) (at level 100, right associativity) : s_scope.
Open Scope s_scope.
Fixpoint sfor {A : Type} (l : list A) (f : A → S_ unit) : S_ unit :=
  match l with [] => sret tt | x :: l' => f x ;~ sfor l' f end.

(** kill(pid, SIGKILL) by root: process 1 of the machine is immune; killing process 1 of another pid
    namespace kills every process that is in that namespace, directly or through a nested one
    (pid_namespaces(7)). Killed processes are taken out of the table at once. *)
Definition in_ns (n : N) (p : proc) : bool := bool_decide (n ∈ p_nss p).
Definition kill_procs (q : N) (ps : gmap N proc) : gmap N proc :=
  match ps !! q with
  | None => ps
  | Some p =>
      match p_init p, p_nss p with
      | true, n :: _ :: _ => filter (λ kv : N * proc, in_ns n kv.2 = false) ps
      | true, _ => ps
      | false, _ => delete q ps
      end
  end.
Definition sys_kill (q : N) : S_ unit := λ s,
  match s_procs s !! q with
  | None => SOut [] s (Err (EApp "ESRCH"))
  | Some _ => let s' := Sys (s_fs s) (kill_procs q (s_procs s)) (s_mounts s) in SOut [s'] s' (Ok tt)
  end.
Definition proc_of (s : sys) (z : Z) : option proc :=
  if Z.leb z 0 then None else s_procs s !! Z.to_N z.

(** ** The recorded process *)
(** [str::split_whitespace] (ASCII white space) *)
Definition is_ws (a : ascii) : bool :=
  (N.eqb (N_of_ascii a) 32 || (N.leb 9 (N_of_ascii a) && N.leb (N_of_ascii a) 13))%bool.
Fixpoint words (cur s : string) : list string :=
  match s with
  | EmptyString => if String.eqb cur "" then [] else [cur]
  | String a s' =>
      if is_ws a then (if String.eqb cur "" then words "" s' else cur :: words "" s')
      else words (cur +:+ String a "") s'
  end.
Definition split_whitespace (s : string) : list string := words "" s.
(** /proc/<pid>/stat: "pid (comm) state ..." *)
Definition stat_line (z : Z) (p : proc) : string :=
  show_pid (Z.to_N z) +:+ " (" +:+ p_comm p +:+ ") " +:+ p_state p +:+ " 1 1".

(** get_running_sandbox_pid.rs:12-40, what is found; [kill(pid, 0)] succeeds for every process in the
    table, and no other number has an entry in /proc. *)
Definition recorded_pid (s : sys) (storage : path) (name : string) : option Z :=
  match read_file (s_fs s) (pid_of storage name) with
  | Err _ => None
  | Ok c =>
      if utf8_valid c then
        z ← parse_i32 c;
        p ← proc_of s z;
        w ← split_whitespace (stat_line z p) !! 2;
        if (String.eqb w "Z" || String.eqb w "T")%bool then None else Some z
      else None
  end.
(** get_running_sandbox_pid.rs:12-52: an unusable pid file is removed. *)
Definition get_running_sandbox_pid (storage : path) (name : string) : S_ (option Z) := λ s,
  if exists_ (s_fs s) (pid_of storage name) then
    match recorded_pid s storage name with
    | Some z => sret (Some z) s
    | None => (ignore_err (lift_fs (sys_unlink (pid_of storage name))) ;~ sret None) s
    end
  else sret None s.

(** ** The lock file (the locking itself is in Lock.v): lock_sandbox.rs:17-50 creates it, empty. *)
Definition sys_open_create (umask : N) (p : path) : M unit := λ f,
  match lookup_f f p with
  | Err e => fail_ f e
  | Ok q =>
      match f !! q with
      | Some n => if is_kdir (n_kind n) then fail_ f EISDIR else Out [] f (Ok tt)
      | None => emit (<[q := Node (KFile "") (and_not 438 umask) 0 0 (parent_dev f q) ∅]> f)
      end
  end.

(** A sandbox object: directory and recorded process (None: -1). *)
Record sandbox := Sandbox { sb_storage : path; sb_name : string; sb_pid : option Z }.

(** get_or_create.rs:70-104 with the lock not yet taken *)
Definition sandbox_get (umask : N) (storage : path) (name : string) : S_ (option sandbox) :=
  lift_fs (sys_open_create umask (lock_of storage name)) ;~
  there <~~ sget (λ s, Ok (exists_ (s_fs s) (base_of storage name))) ;~
  if negb there then sret None
  else
    p <~~ get_running_sandbox_pid storage name ;~
    match p with
    | Some z => sret (Some (Sandbox storage name (Some z)))
    | None => sret None
    end.
(** actions/stop.rs:17-28, actions/delete.rs:26-43: fall back to [from_location]. *)
Definition sandbox_get_or_stopped (umask : N) (storage : path) (name : string) : S_ sandbox :=
  o <~~ sandbox_get umask storage name ;~
  sret (default (Sandbox storage name None) o).

(** exists.rs:6-11 *)
Definition sandbox_exists (f : fs) (storage : path) (name : string) : bool :=
  (exists_ f (base_of storage name) || exists_ f (pid_of storage name) || exists_ f (lock_of storage name))%bool.

(** ** Stop: sandbox/stop.rs:8-149 *)
(** The entries of /proc, in some order. A zombie has no namespaces (stop.rs:81-83). The command line
    is read as UTF-8 (97-104). A failing kill is only logged (127-135). *)
Definition stop_one (ns : N) (q : N) : S_ unit := λ s,
  match s_procs s !! q with
  | None => sret tt s
  | Some p =>
      if String.eqb (p_state p) "Z" then sret tt s
      else if bool_decide (p_ns p = Some ns) then
        if utf8_valid (p_cmdline p) then ignore_err (sys_kill q) s
        else sthrow (EApp "failed to read cmdline") s
      else sret tt s
  end.
Definition pids (s : sys) : list N := (map_to_list (s_procs s)).*1.
Definition stop_processes (ord : list N → list N) (pid : option Z) : S_ unit := λ s,
  match pid with
  | None => sret tt s
  | Some z =>
      match proc_of s z with
      | None => sret tt s
      | Some p =>
          if String.eqb (p_state p) "Z" then sret tt s
          else sfor (ord (pids s)) (stop_one (p_children p)) s
      end
  end.
(** stop.rs:138-146 *)
Definition remove_pid_file (storage : path) (name : string) : S_ unit := λ s,
  if exists_ (s_fs s) (pid_of storage name)
  then lift_fs (sys_unlink (pid_of storage name)) s else sret tt s.
Definition sandbox_stop (ord : list N → list N) (sb : sandbox) : S_ unit :=
  stop_processes ord (sb_pid sb) ;~
  remove_pid_file (sb_storage sb) (sb_name sb).

(** ** Unmount: sandbox/unmount.rs:8-41 *)
(** umount2(MNT_DETACH) of the topmost mount at [p] with everything mounted below it; what was covered
    reappears. Simplification: what is covered is an empty directory, as it is for the overlays
    (mount_overlays.rs:57-83). [busy] are the mount points for which the call fails (only logged). *)
Definition umount_fs (m : mount) (f : fs) : fs :=
  <[mt_at m := mt_under m]> (filter (λ kn : path * node, under (mt_at m) kn.1 = false) f).
Fixpoint pop_mount (p : path) (l : list mount) : option (mount * list mount) :=
  match l with
  | [] => None
  | m :: l' => if decide (mt_at m = p) then Some (m, l') else
                 match pop_mount p l' with Some (m', l'') => Some (m', m :: l'') | None => None end
  end.
Definition sys_umount (busy : path → bool) (p : path) : S_ unit := λ s,
  if busy p then sthrow EBUSY s else
  match pop_mount p (s_mounts s) with
  | None => sthrow EINVAL s
  | Some (m, l) =>
      let s' := Sys (umount_fs m (s_fs s)) (s_procs s)
                  (filter (λ m', ¬ (under p (mt_at m') = true ∧ mt_at m' ≠ p)) l) in
      SOut [s'] s' (Ok tt)
  end.
(** The table lists the newest mount first in this model. util/mounts.rs:28 selects by component
    prefix; unmount.rs:11 sorts descending. *)
Definition path_desc (a b : path) : comparison := str_cmp (path_str b) (path_str a).
Definition mounts_below (s : sys) (base : path) : list path :=
  sort_by path_desc (filter (λ p, under base p = true) (mt_at <$> s_mounts s)).
Definition unmount (busy : path → bool) (base : path) : S_ unit := λ s,
  sfor (mounts_below s base) (λ p, ignore_err (sys_umount busy p)) s.

(** ** Delete: sandbox/delete.rs:8-32 *)
Definition sandbox_delete (ord : list N → list N) (busy : path → bool) (dord : list path → list path)
    (sb : sandbox) : S_ unit :=
  let base := base_of (sb_storage sb) (sb_name sb) in
  sandbox_stop ord sb ;~
  unmount busy base ;~
  there <~~ sget (λ s, Ok (exists_ (s_fs s) base)) ;~
  (if there then lift_fs (rmdir_rec dord base) else sret tt) ;~
  lift_fs (sys_unlink (lock_of (sb_storage sb) (sb_name sb))).

(** actions/stop.rs:10-37 *)
Definition stop_action (umask : N) (ord : list N → list N) (busy : path → bool)
    (storage : path) (name : string) : S_ unit :=
  sb <~~ sandbox_get_or_stopped umask storage name ;~
  sandbox_stop ord sb ;~
  unmount busy (base_of storage name).

(** ** Listing: actions/list.rs:54-108 *)
(** [str] slicing [..n]: panics inside a character or past the end. *)
Definition str_take (n : nat) (s : string) : res string :=
  if (n <=? String.length s) then
    match drop n (to_bytes s) with
    | c :: _ => if cont c then Err (EPanic "byte index is not a char boundary")
                else Ok (of_bytes (take n (to_bytes s)))
    | [] => Ok s
    end
  else Err (EPanic "byte index out of bounds").
(** list.rs:70-72, stop.rs:56-58: the sandbox a directory entry stands for. *)
Definition lock_entry (file : string) : res (option string) :=
  if ends_with ".lock" (lossy file) then
    rbind (str_take (String.length file - 5) (lossy file)) (λ n, Ok (Some n))
  else Ok None.

Definition opt_err {A : Type} (e : err) (o : option A) : res A :=
  match o with Some a => Ok a | None => Err e end.

(** list.rs:80-99: is it running? *)
Definition listed_running (s : sys) (storage : path) (name : string) : res bool :=
  if exists_ (s_fs s) (pid_of storage name) then
    rbind (read_file (s_fs s) (pid_of storage name)) (λ c,
      if utf8_valid c then
        Ok match parse_i32 c with
           | Some z => if Z.leb z 0 then Z.eqb z 0 || Z.eqb z (-1) else bool_decide (is_Some (proc_of s z))
           | None => false
           end
      else Err (EApp "stream did not contain valid UTF-8"))
  else Ok false.
Fixpoint collect_sandboxes (glob : string → string → bool) (s : sys) (storage : path)
    (patterns : list string) (entries : list string) : res (list string * list string) :=
  match entries with
  | [] => Ok ([], [])
  | x :: l =>
      rbind (lock_entry x) (λ o,
      match o with
      | None => collect_sandboxes glob s storage patterns l
      | Some name =>
          if (match patterns with [] => true | _ => existsb (λ p, glob p name) patterns end) then
            rbind (listed_running s storage name) (λ r,
            rbind (collect_sandboxes glob s storage patterns l) (λ '(run, stopped),
            Ok (if r then (name :: run, stopped) else (run, name :: stopped))))
          else collect_sandboxes glob s storage patterns l
      end)
  end.
Definition get_sandboxes (glob : string → string → bool) (s : sys) (storage : path)
    (patterns : list string) : res (list string * list string) :=
  rbind (readdir (s_fs s) storage) (λ entries,
  rbind (collect_sandboxes glob s storage patterns entries) (λ '(run, stopped),
  Ok (sort_by str_cmp run, sort_by str_cmp stopped))).

(** actions/stop.rs:39-98. The names are taken from the listing before the first sandbox is stopped. *)
Definition stop_all_wanted (glob : string → string → bool) (patterns : list string) (f : fs)
    (storage : path) (name : string) : bool :=
  (exists_ f (lock_of storage name) && exists_ f (pid_of storage name) && exists_ f (base_of storage name)
   && (match patterns with [] => true | _ => existsb (λ p, glob ("*" +:+ p +:+ "*") name) patterns end))%bool.
Definition stop_all (umask : N) (ord : list N → list N) (busy : path → bool)
    (glob : string → string → bool) (storage : path) (patterns : list string) : S_ unit :=
  entries <~~ sget (λ s, readdir (s_fs s) storage) ;~
  sfor entries (λ x,
    o <~~ sget (λ _, lock_entry x) ;~
    match o with
    | None => sret tt
    | Some name =>
        go <~~ sget (λ s, Ok (stop_all_wanted glob patterns (s_fs s) storage name)) ;~
        if go then ignore_err (stop_action umask ord busy storage name) else sret tt
    end).

(** actions/delete.rs:53-208; [confirmed]: --yes or the answer "y". Returns the names reported as
    deleted and the number of errors reported. Simplification: the modification counts shown before
    the question are not part of this (their failure aborts the command before anything is done). *)
Fixpoint delete_each (umask : N) (ord : list N → list N) (busy : path → bool)
    (dord : list path → list path) (storage : path) (names : list string)
    : S_ (list string * nat) :=
  match names with
  | [] => sret ([], 0)
  | name :: l =>
      sb <~~ sandbox_get_or_stopped umask storage name ;~
      ok <~~ (λ s, let o := sandbox_delete ord busy dord sb s in
                  SOut (so_trace o) (so_sys o) (Ok (is_ok (so_res o)))) ;~
      r <~~ delete_each umask ord busy dord storage l ;~
      sret (if (ok : bool) then (name :: r.1, r.2) else (r.1, S r.2))
  end.
Definition delete_action (umask : N) (ord : list N → list N) (busy : path → bool)
    (dord : list path → list path) (glob : string → string → bool) (storage : path)
    (cfg_name : string) (patterns : list string) (confirmed : bool) : S_ (list string * nat) :=
  names <~~
    (match patterns with
     | [] =>
         there <~~ sget (λ s, Ok (sandbox_exists (s_fs s) storage cfg_name)) ;~
         if (there : bool) then sandbox_get umask storage cfg_name ;~ sret [cfg_name] else sret []
     | _ => sget (λ s, rbind (get_sandboxes glob s storage patterns) (λ '(run, stopped), Ok (run ++ stopped)))
     end) ;~
  match names with
  | [] => sret ([], 0)
  | _ => if confirmed then delete_each umask ord busy dord storage names else sret ([], 0)
  end.

(** ** --last: resolve.rs:754-805 *)
(** [birth]: creation time if the filesystem records it; [mtime]: modification time; both of the
    directory entry itself. *)
Definition is_sandbox_dir (f : fs) (p : path) : bool :=
  (is_dir f p && is_dir f (p ++ ["upper"]) && is_dir f (p ++ ["work"]) && is_dir f (p ++ ["overlay"]))%bool.
Definition entry_time (birth : path → option Z) (mtime : path → Z) (p : path) : Z :=
  default (mtime p) (birth p).
Definition newest_first (a b : string * Z) : comparison := Z.compare b.2 a.2.
Definition find_last_sandbox (birth : path → option Z) (mtime : path → Z) (f : fs) (storage : path)
  : res string :=
  rbind (readdir f storage) (λ entries,
    match sort_by newest_first
            ((λ x, (lossy x, entry_time birth mtime (storage ++ [x]))) <$>
               filter (λ x, is_sandbox_dir f (storage ++ [x]) = true) entries) with
    | [] => Err (EApp "No sandboxes found")
    | (name, _) :: _ => Ok name
    end).

(** ** --new: resolve.rs:707-752 *)
(** Local time with milliseconds. *)
Record stamp := Stamp { t_year : N; t_month : N; t_day : N; t_hour : N; t_min : N; t_sec : N; t_ms : N }.
Definition digit (n : N) : string := String (ascii_of_N (48 + n mod 10)) "".
Definition pad2 (n : N) : string := digit (n / 10) +:+ digit n.
Definition pad3 (n : N) : string := digit (n / 100) +:+ pad2 n.
Definition pad4 (n : N) : string := digit (n / 1000) +:+ pad3 n.
Definition second_name (t : stamp) : string :=
  "ephemeral_" +:+ pad4 (t_year t) +:+ "-" +:+ pad2 (t_month t) +:+ "-" +:+ pad2 (t_day t) +:+ "_" +:+
  pad2 (t_hour t) +:+ "-" +:+ pad2 (t_min t) +:+ "-" +:+ pad2 (t_sec t).
Definition milli_name (t : stamp) : string := second_name t +:+ "." +:+ pad3 (t_ms t).
(** One round of the loop: [None] means sleep and try again. *)
Definition new_name_round (f : fs) (storage : path) (t : stamp) : option string :=
  if negb (exists_ f (storage ++ [second_name t])) then Some (second_name t)
  else if negb (exists_ f (storage ++ [milli_name t])) then Some (milli_name t)
  else None.
(** The loop; [clock i] and [disk i] are the time and the filesystem at round [i]. [None]: still
    running after [fuel] rounds. *)
Fixpoint generate_timestamp_name (fuel : nat) (clock : nat → stamp) (disk : nat → fs) (storage : path)
    (i : nat) : option (nat * string) :=
  match fuel with
  | O => None
  | S n =>
      match new_name_round (disk i) storage (clock i) with
      | Some name => Some (i, name)
      | None => generate_timestamp_name n clock disk storage (S i)
      end
  end.
