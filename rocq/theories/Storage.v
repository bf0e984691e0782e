(** * The storage directory: config/resolve.rs:431-539, util/mkdir.rs:12-54.
    Simplification: a path is the list of its components, so "." and doubled slashes in the argument are
    dropped at once; in the code they would stay in the string that is compared with /proc/mounts. *)
From Verif Require Export Changes Creds Mounts Lifecycle.

(** chown(2), which follows a final symlink. *)
Definition sys_chown (p : path) (u g : N) : M unit := λ f,
  match lookup_f f p with
  | Err e => fail_ f e
  | Ok q =>
      match f !! q with
      | None => fail_ f ENOENT
      | Some n => emit (<[q := set_owner (set_perm n (chown_perm n)) u g]> f)
      end
  end.

(** [std::fs::create_dir_all]: if the directory cannot be made because something above is missing, make
    that first; a failure does not count if the path is a directory by then. The path is reversed. *)
Definition or_is_dir (p : path) (m : M unit) : M unit := λ f,
  let o := m f in
  match o_res o with
  | Ok _ => o
  | Err e => if is_dir (o_fs o) p then Out (o_trace o) (o_fs o) (Ok tt) else o
  end.
Fixpoint create_dir_all (umask : N) (rp : list string) : M unit := λ f,
  let p := rev rp in
  let o := sys_mkdir umask p f in
  match o_res o with
  | Err ENOENT =>
      match rp with
      | [] => o
      | _ :: rq => (create_dir_all umask rq ;;; or_is_dir p (sys_mkdir umask p)) f
      end
  | _ => or_is_dir p (sys_mkdir umask p) f
  end.

(** mkdir.rs:12-54 *)
Definition mkdir (umask : N) (p : path) (uid gid : N) : M unit := λ f,
  ((if exists_ f p then
      n <-- get_ (λ f, lstat f p) ;;
      if negb (is_kdir (n_kind n)) then throw (EApp "already exists but is not a directory")
      else if negb (N.eqb (n_uid n) uid && N.eqb (n_gid n) gid)
           then throw (EApp "already exists with different owner or group")
           else ret_ tt
    else create_dir_all umask (rev p)) ;;;
   sys_chown p uid gid) f.

(** resolve.rs:438-439 *)
Definition storage_types : list string := ["btrfs"; "ext4"; "tmpfs"; "xfs"; "zfs"].

(** resolve.rs:481-509: the type in the first line of /proc/mounts for this directory. *)
Definition mount_type (table : list mntent) (mp : path) : option string :=
  mnt_type <$> head (filter (λ m, lossy (mnt_dir m) = lossy (path_str mp)) table).

(** resolve.rs:460-533: one proposal. A relative path has no existing ancestor that has a parent: it
    panics if it does not exist and fails if it does. *)
Definition try_storage (umask uid gid : N) (c : cred) (table : list mntent) (cwd : path) (s : string)
    : M (option path) := λ f,
  if negb (is_abs s) then
    (if exists_ f (cwd ++ comps s) then throw ENOENT f else throw (EPanic "Failed to get parent of path") f)
  else
    let p := comps s in
    match find_mount_point f p with
    | Err e => throw e f
    | Ok mp =>
        match mount_type table mp with
        | None => ret_ None f
        | Some t =>
            if bool_decide (t ∈ storage_types) then
              match (can_mkdir f p uid gid c).2 with
              | Err e => throw e f
              | Ok _ => (mkdir umask p uid gid ;;; ret_ (Some p)) f
              end
            else ret_ None f
        end
    end.
Fixpoint first_storage (umask uid gid : N) (c : cred) (table : list mntent) (cwd : path) (l : list string) : M path :=
  match l with
  | [] => throw (EApp "Failed to find a suitable storage directory")
  | s :: l' =>
      o <-- try_storage umask uid gid c table cwd s ;;
      match o with Some p => ret_ p | None => first_storage umask uid gid c table cwd l' end
  end.
(** resolve.rs:449-458, 431-539 *)
Definition proposals (arg : option string) (u : ugh) : list string :=
  match arg with
  | Some s => [s]
  | None => [join_str (ugh_home u) ".sandboxes"; "/tmp/sandboxes-" +:+ show_pid (ugh_uid u)]
  end.
Definition resolve_storage (umask : N) (c : cred) (table : list mntent) (cwd : path) (arg : option string) (u : ugh)
    : M path :=
  first_storage umask (ugh_uid u) (ugh_gid u) c table cwd (proposals arg u).
