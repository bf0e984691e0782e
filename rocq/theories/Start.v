(** * Starting a sandbox, on the host: /repo/src/sandbox/get_or_create.rs:106-308, /repo/src/sandbox/mount_overlays.rs:26-110.

    What happens to the host's files, mounts and processes. The steps of the new process (Mounts.v, Setup.v) appear as the
    list of their outcomes. *)
From Verif Require Export Storage.

(** mount(2) of type overlay on an existing directory. Simplification: the files that can be seen through the overlay, from
    the host, are left out. *)
Definition sys_mount_overlay (fails : option err) (p : path) : S_ unit := λ s,
  match fails with
  | Some e => sthrow e s
  | None =>
      match lookup_f (s_fs s) p with
      | Err e => sthrow e s
      | Ok q =>
          match s_fs s !! q with
          | None => sthrow ENOENT s
          | Some n => if is_kdir (n_kind n) then let s' := Sys (s_fs s) (s_procs s) (Mount q n :: s_mounts s) in SOut [s'] s' (Ok tt)
                      else sthrow ENOTDIR s
          end
      end
  end.

(** [std::fs::write]: open(2) with O_CREAT and O_TRUNC, then write(2). *)
Definition with_text (n : node) (text : string) : node := Node (KFile text) (n_perm n) (n_uid n) (n_gid n) (n_dev n) (n_xattr n).
Definition write_text (umask : N) (p : path) (text : string) : M unit := λ f,
  match lookup_f f p with
  | Err e => fail_ f e
  | Ok q =>
      let go (n : node) : out unit := Out [<[q := with_text n ""]> f; <[q := with_text n text]> f] (<[q := with_text n text]> f) (Ok tt) in
      match f !! q with
      | Some n => match n_kind n with KFile _ => go n | KDir => fail_ f EISDIR | _ => fail_ f (EApp "special file") end
      | None => go (Node (KFile "") (and_not 438 umask) 0 0 (parent_dev f q) ∅)
      end
  end.

(** sethostname(2): at most 64 bytes (__NEW_UTS_LEN). It is the last step of the new process before it reports
    (get_or_create.rs:942-943). *)
Definition sethostname (name : string) : outcome := if Nat.leb (String.length name) 64 then StepOk else StepErr.

(** What the outside world contributes to one start: the user, the mounts to be overlaid (mount_overlays.rs:121-139), which
    mount(2) calls fail, how the steps of the new process end, its pid and what it is. *)
Record attempt := Attempt {
  at_umask : N; at_uid : N; at_gid : N;
  at_mounts : list mount_hash;
  at_fails : string → option err;
  at_steps : list outcome;
  at_pid : N; at_proc : proc;
  at_settings : string;
  at_compatible : bool;
}.

Section start.
  Context (storage : path) (name : string) (a : attempt).
  Notation base := (base_of storage name).
  Definition layer (kind : string) (m : mount_hash) : path := base ++ [kind; mh_hash m].
  (** mount_overlays.rs:41-100, one mount. *)
  Definition mount_one (m : mount_hash) : S_ unit :=
    n <~~ sget (λ s, lstat (s_fs s) (comps (mh_dir m))) ;~
    lift_fs (mkdir (at_umask a) (layer "work" m) (n_uid n) (n_gid n)) ;~
    lift_fs (mkdir (at_umask a) (layer "upper" m) (n_uid n) (n_gid n)) ;~
    lift_fs (mkdir (at_umask a) (layer "overlay" m) (n_uid n) (n_gid n)) ;~
    sys_mount_overlay (at_fails a (mh_hash m)) (layer "overlay" m).
  (** mount_overlays.rs:26-110. The check [can_mkdir] changes nothing (Creds.v). *)
  Definition mount_layers : S_ unit :=
    lift_fs (mkdir (at_umask a) base (at_uid a) (at_gid a)) ;~
    lift_fs (mkdir (at_umask a) (base ++ ["data"]) (at_uid a) (at_gid a)) ;~
    sfor (at_mounts a) mount_one ;~
    lift_fs (write_text (at_umask a) (base ++ ["data"; "settings.json"]) (at_settings a)).
  (** clone3(2), the pid file, and the end of a new process that did not come up (get_or_create.rs:254-307). *)
  Definition sys_clone : S_ unit := λ s,
    let s' := Sys (s_fs s) (<[at_pid a := at_proc a]> (s_procs s)) (s_mounts s) in SOut [s'] s' (Ok tt).
  Definition process_gone : S_ unit := λ s,
    let s' := Sys (s_fs s) (delete (at_pid a) (s_procs s)) (s_mounts s) in SOut [s'] s' (Ok tt).
  Definition steps_of_child : list outcome := at_steps a ++ [sethostname name].
  Definition start_process : S_ unit :=
    sys_clone ;~
    (λ s, let o := lift_fs (write_text (at_umask a) (pid_of storage name) (show_pid (at_pid a))) s in
          match so_res o with
          | Ok _ => o
          | Err e => (λ o' : sout unit, SOut (so_trace o ++ so_trace o') (so_sys o') (Err e)) (process_gone (so_sys o))
          end) ;~
    match child_writes steps_of_child with
    | Some b => if N.eqb b 0 then sret tt else process_gone ;~ sthrow (EApp "Failed to setup sandbox")
    | None => process_gone
    end.
  (** get_or_create.rs:106-212. A sandbox that runs is used as it is, if its settings are compatible (Mounts.v). *)
  Definition start : S_ unit :=
    sb <~~ sandbox_get_or_stopped (at_umask a) storage name ;~
    match sb_pid sb with
    | Some _ => if at_compatible a then sret tt else sthrow (EApp "incompatible settings")
    | None => mount_layers ;~ start_process
    end.
End start.
