(** * Where the writes of a sandboxed process end up.

    The namespace is that of [Mounts.namespace]; the options of the overlays are those the program passes
    to mount(2), read as the kernel reads them ([Mounts.kernel_options]).  What is trusted: an overlay is
    written to in its upper and work directory only (Documentation/filesystems/overlayfs.rst), a bind mount
    at the place it was made from, a read-only mount not at all, and a fresh pseudo filesystem changes
    nothing of the host's trees. *)
From Verif Require Export Mounts.

(** The directory a path string denotes, read from the directory [cwd], when no symbolic link is on the way. *)
Definition real_step (acc : path) (x : string) : path := if String.eqb x ".." then removelast acc else acc ++ [x].
Definition real_path (cwd : path) (s : string) : path := foldl real_step (if is_abs s then [] else cwd) (comps s).

(** mount_overlays.rs:84-97: the options of the overlay mounted at [target] (the last one, if there are
    several). *)
Definition overlay_at (steps : list step) (target : string) : option string :=
  last (omap (λ s, match s with SOverlay t o => if String.eqb t target then Some o else None | _ => None end) steps).

(** The mount a path of the sandbox is on. *)
Definition mount_of (ns : list mnt) (q : path) : option mnt := last (filter (λ m, m_at m `prefix_of` q) ns).

(** The places on the host that a write at [q] in the sandbox may change: everything below them.  An overlay:
    its upper and work directory; if none was mounted (the settings of an outer sandbox may name no root),
    the empty directory made for it (get_or_create.rs:327, 353: bind of [root_overlay]). *)
Definition areas (cwd : path) (base : string) (steps : list step) (ns : list mnt) (q : path) : list path :=
  match mount_of ns q with
  | None => []
  | Some m =>
      match m_what m with
      | BOverlay mh =>
          let target := join_str (overlay_base base) (mh_hash mh) in
          match overlay_at steps target with
          | None => [real_path cwd target]
          | Some o =>
              match kernel_options o with
              | Some (KOpts _ (Some u) (Some w) _) => [real_path cwd u; real_path cwd w]
              | _ => []                    (* no upper directory: the overlay is read-only *)
              end
          end
      | BHost src false => [pb_comps src ++ default [] (path_strip (m_at m) q)]
      | BHost _ true | BPseudo _ | BMask _ | BSelf _ => []
      end
  end.

(** One write, at any path of the sandbox: nothing of the host changes except in these places. *)
Definition sandboxed_write (cwd : path) (base : string) (steps : list step) (ns : list mnt) (h h' : fs) : Prop :=
  ∃ q, ∀ p, h' !! p ≠ h !! p → ∃ a, a ∈ areas cwd base steps ns q ∧ a `prefix_of` p.

(** ovl_workdir_ok (fs/overlayfs/super.c): the kernel refuses an overlay whose upper and work directory are
    the same or one inside the other. *)
Definition kernel_takes (cwd : path) (o : string) : Prop :=
  ∃ k, kernel_options o = Some k ∧
  ∀ u w, k_upper k = Some u → k_work k = Some w →
    ¬ real_path cwd u `prefix_of` real_path cwd w ∧ ¬ real_path cwd w `prefix_of` real_path cwd u.
