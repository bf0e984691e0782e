(** * What setting the namespace up creates: /repo/src/sandbox/get_or_create.rs:311-995.

    [Mounts.namespace] says which mounts there are in the end; here are the directories and files that
    are created on the way, in the layers of the sandbox or on the host. *)
From Verif Require Export Mounts Changes OverlaySpec.

(** State during set-up: the host's tree with the storage; what was created on the sandbox's own
    temporary file systems; the mounts made so far in the new namespace. *)
Record setup := Setup { su_fs : fs; su_tmp : list path; su_mounts : list mnt }.

(** The mount that is seen at [p] (compare [Mounts.seen]). *)
Definition top_mount (ms : list mnt) (p : path) : option mnt := last (filter (λ m, m_at m `prefix_of` p) ms).

(** The file system mounted at [m] as the lower layer of an overlay: mounts below [m] are not part of it,
    their mount points are directories without contents. [hm]: all mount points of the host.
    Simplification: such a mount point has the attributes of what is mounted there. *)
Definition lower_node (hm : list path) (f : fs) (m p : path) : option node :=
  if existsb (λ m', negb (bool_decide (m' = m)) && under m m' && under m' p && negb (bool_decide (m' = p)))%bool hm
  then None else f !! p.

Section setup.
  (** [hm]: the host's mount points; [ub]: the directory of the upper layers; [there]: what the fresh
      pseudo file systems contain; [cpus]: see [system_mounts]; [isdir]: see [realise]. *)
  Context (hm : list path) (ub : path) (there : path → bool) (cpus : list string) (isdir : pbuf → bool) (uid gid : N).

  (** [Path::exists] inside. Simplification: no symlink on the way (targets were canonicalised on the
      host, resolve.rs:40-47), and the layers hold no deletions (the sandbox is fresh). *)
  Definition found (st : setup) (p : path) : bool :=
    match top_mount (su_mounts st) p with
    | None => false
    | Some m =>
        bool_decide (m_at m = p) ||
        match m_what m with
        | BOverlay o =>
            match path_strip (m_at m) p with
            | None => false
            | Some s => bool_decide (is_Some (su_fs st !! ((ub ++ [mh_hash o]) ++ s)))
                        || bool_decide (is_Some (lower_node hm (su_fs st) (m_at m) p))
            end
        | BHost src _ =>
            match path_strip (m_at m) p with
            | None => false
            | Some s => exists_ (su_fs st) (pb_comps src ++ s)
            end
        | BPseudo _ | BMask _ | BSelf _ => bool_decide (p ∈ su_tmp st) || there p
        end
    end.

  (** Directories above a new entry of an overlay are copied up with their attributes. *)
  Definition on_dev (d : N) (n : node) : node := Node (n_kind n) (n_perm n) (n_uid n) (n_gid n) d (n_xattr n).
  Fixpoint copy_up (f : fs) (d : N) (u l s : path) : fs :=
    match s with
    | [] => f
    | c :: r =>
        match r with
        | [] => f
        | _ =>
            let f' := match f !! (u ++ [c]), f !! (l ++ [c]) with
                      | None, Some n => <[u ++ [c] := on_dev d n]> f
                      | _, _ => f
                      end in
            copy_up f' d (u ++ [c]) (l ++ [c]) r
        end
    end.

  (** mkdir(2) or open(2) with O_CREAT of a missing path inside, as root. *)
  Definition make (st : setup) (p : path) (n : node) : res setup :=
    match top_mount (su_mounts st) p with
    | None => Err ENOENT
    | Some m =>
        match m_what m, path_strip (m_at m) p with
        | BOverlay o, Some s =>
            let u := ub ++ [mh_hash o] in
            let d := match su_fs st !! u with Some k => n_dev k | None => 0%N end in
            Ok (Setup (<[u ++ s := on_dev d n]> (copy_up (su_fs st) d u (m_at m) s)) (su_tmp st) (su_mounts st))
        | BPseudo what, Some s =>
            if String.eqb what "tmpfs" then Ok (Setup (su_fs st) (p :: su_tmp st) (su_mounts st)) else Err (EApp "EPERM")
        | BMask false, Some s => Ok (Setup (su_fs st) (p :: su_tmp st) (su_mounts st))
        | BHost src ro, Some s =>
            if ro then Err (EApp "EROFS") else Ok (Setup (<[pb_comps src ++ s := n]> (su_fs st)) (su_tmp st) (su_mounts st))
        | _, _ => Err (EApp "EPERM")
        end
    end.

  (** [std::fs::create_dir_all]: whatever is missing on the way, owned by root. *)
  Definition root_dir : node := Node KDir 493 0 0 0 ∅.
  Fixpoint make_dirs (st : setup) (base todo : path) : res setup :=
    match todo with
    | [] => Ok st
    | c :: r =>
        rbind (if found st (base ++ [c]) then Ok st else make st (base ++ [c]) root_dir) (λ st', make_dirs st' (base ++ [c]) r)
    end.

  (** get_or_create.rs:617-633, 866-888: the parents, then the target itself unless it exists. *)
  Definition make_target (st : setup) (p : path) (n : node) : res setup :=
    rbind (make_dirs st [] (removelast p)) (λ st', if found st' p then Ok st' else make st' p n).
  Definition mounted (m : mnt) (st : setup) : setup := Setup (su_fs st) (su_tmp st) (su_mounts st ++ [m]).

  (** get_or_create.rs:600-642 *)
  Fixpoint bind_overlays (st : setup) (ms : list mount_hash) : res setup :=
    match ms with
    | [] => Ok st
    | m :: r =>
        if String.eqb (mh_dir m) "/" then bind_overlays st r
        else rbind (make_target st (comps (mh_dir m)) root_dir) (λ st',
               bind_overlays (mounted (Mounts.M (comps (mh_dir m)) (BOverlay m)) st') r)
    end.

  (** get_or_create.rs:848-906: directories are made with util::mkdir (owned by the user), files by
      writing nothing (owned by root). [src] is the host's tree when the binds were staged (443-560). *)
  Definition target_node (src : fs) (b : bind_mount) : node :=
    let dir := match b_options b with Mask => isdir (b_target b) | _ => is_dir src (pb_comps (b_source b)) end in
    if dir then Node KDir 493 uid gid 0 ∅ else Node (KFile "") 420 0 0 0 ∅.
  Fixpoint bind_binds (src : fs) (st : setup) (bs : list bind_mount) : res setup :=
    match bs with
    | [] => Ok st
    | b :: r =>
        rbind (make_target st (m_at (realise isdir b)) (target_node src b)) (λ st',
          bind_binds src (mounted (realise isdir b) st') r)
    end.

  (** All of it. The directory for the old root (383-386) and the staging directory (430-441) are removed
      again and leave nothing in the layers; /dev, /run, /proc and /sys are taken to exist. *)
  Definition set_up (f : fs) (ms : list mount_hash) (bs : list bind_mount) : res setup :=
    rbind (bind_overlays (Setup f [] [Mounts.M [] (BOverlay (MH (b32_encode "/") "/")); Mounts.M ["dev"] (BPseudo "tmpfs"); Mounts.M ["run"] (BPseudo "tmpfs")]) ms) (λ st1,
      bind_binds f (Setup (su_fs st1) (su_tmp st1) (su_mounts st1 ++ system_mounts there cpus)) bs).
End setup.
