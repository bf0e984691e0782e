(** * Which isolation a command gets: get_or_create.rs:106-253 and exec.rs:22-92 over a history.

    Any number of invocations of the program on one sandbox, in any order: each asks for the sandbox (under its lock) and later runs its
    command in the process it was told of. Processes end at any time (stop, kill, a reboot), and anybody may write settings.json: it lies
    in the data directory, which belongs to the user and is bound writable into the sandbox.
    Simplification: the number of a process is not used a second time (what happens if it is: C64). *)
From Verif Require Export Mounts Exec.

(** The network namespace of the host. *)
Definition host_net : N := 0.
(** The first process of a new sandbox: clone3(2) with the flags of get_or_create.rs:229-242. *)
Definition net_kind (n : network) : net := match n with Config.NetNone => NetNone | Config.NetHost => NetHost end.
Definition net_of_start (next : N) (n : network) : N := clone_ns next (start_flags (net_kind n)) (λ _, host_net) NsNet.
(** The command: setns(2) with the flags of exec.rs:26-31. *)
Definition net_of_command (sandbox_net : N) : N := if bool_decide (NsNet ∈ exec_flags) then sandbox_net else host_net.

(** What an invocation asks for: the network, its bind mounts, and that the file systems mounted at this moment are overlaid. *)
Record wants := Wants { want_net : network; want_binds : list bind_mount; want_mounts : list mount_hash }.
(** What a running sandbox has been given: get_or_create.rs:183-205 (the network namespace, the bind mounts, the overlays). *)
Record has := Has { has_net : N; has_binds : list bind_mount; has_mounts : list mount_hash }.
Definition mounts_now (base : string) (table : list mntent) (parent : option (res settings)) : list mount_hash :=
  match determine_mounts base table parent with Ok m => m | Err _ => [] end.

Record scene := Scene {
  w_procs : gmap N has;                    (* the first processes of sandboxes *)
  w_recorded : option N;                   (* the pid file *)
  w_file : option (res settings);          (* settings.json in the data directory *)
  w_next : N;
  w_asked : gmap N (wants * N);            (* invocations between get_or_create and exec: what they asked for, the process *)
}.
Definition nothing_yet : scene := Scene ∅ None None 1 ∅.
Definition live (w : scene) : option N := w_recorded w ≫= λ p, w_procs w !! p ≫= λ _, Some p.
Definition is_up (w : scene) : bool := match live w with Some _ => true | None => false end.

Inductive start_ends := Comes_up | Fails_unsaved | Fails_saved.
Inductive event :=
| Ask (i : N) (n : network) (binds : list bind_mount) (table : list mntent) (parent : option (res settings)) (ends : start_ends)
| Run (i : N)
| Ends (pid : N)
| Writes (r : option (res settings)).

Section history.
  Context (base storage : string).
  (** One event, and the commands it runs: what was asked for and what it gets. *)
  Definition happen (w : scene) (e : event) : scene * list (wants * has) :=
    match e with
    | Ask i n binds table parent ends =>
        let k := Wants n binds (mounts_now base table parent) in
        match get_or_create base storage n binds (is_up w) (w_file w) table parent with
        | Err _ => (w, [])
        | Ok Reuse =>
            match live w with
            | Some p => (Scene (w_procs w) (w_recorded w) (w_file w) (w_next w) (<[i := (k, p)]> (w_asked w)), [])
            | None => (w, [])
            end
        | Ok (Create s _ ms) =>
            let p := w_next w in
            match ends with
            | Comes_up => (Scene (<[p := Has (net_of_start (w_next w) n) (binds ++ [data_bind base]) ms]> (w_procs w)) (Some p) (Some (Ok s)) (w_next w + 1)
                                 (<[i := (k, p)]> (w_asked w)), [])
            | Fails_unsaved => (w, [])
            | Fails_saved => (Scene (w_procs w) (w_recorded w) (Some (Ok s)) (w_next w) (w_asked w), [])
            end
        end
    | Run i =>
        match w_asked w !! i with
        | None => (w, [])
        | Some (k, p) =>
            let w' := Scene (w_procs w) (w_recorded w) (w_file w) (w_next w) (delete i (w_asked w)) in
            match w_procs w !! p with
            | Some h => (w', [(k, Has (net_of_command (has_net h)) (has_binds h) (has_mounts h))])
            | None => (w', [])                      (* pidfd_open fails: nothing is run *)
            end
        end
    | Ends p => (Scene (delete p (w_procs w)) (w_recorded w) (w_file w) (w_next w) (w_asked w), [])
    | Writes r => (Scene (w_procs w) (w_recorded w) r (w_next w) (w_asked w), [])
    end.
  Fixpoint commands (w : scene) (es : list event) : list (wants * has) :=
    match es with
    | [] => []
    | e :: es' => (happen w e).2 ++ commands (happen w e).1 es'
    end.
  Definition after (w : scene) (es : list event) : scene := foldl (λ w e, (happen w e).1) w es.
End history.
