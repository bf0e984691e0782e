(** * What a process inside the sandbox sees: specification of overlayfs.

    Written from the kernel documentation (Documentation/filesystems/overlayfs.rst), not from
    /repo: the merged view of an upper and a lower directory tree when no directory was renamed
    (redirects are the subject of [RedirectSpec]).  Nothing here is used by the model. *)
From Verif Require Export FS Base32.

(** A whiteout is a character device with device number 0/0, or a regular file carrying the
    whiteout attribute. *)
Definition whiteout (n : node) : bool :=
  match n_kind n with
  | KChr r => N.eqb r 0
  | KFile _ => bool_decide (is_Some (n_xattr n !! "trusted.overlay.whiteout"))
  | _ => false
  end.

(** An opaque directory hides the lower directory. *)
Definition opaque (n : node) : bool :=
  is_kdir (n_kind n) && bool_decide (n_xattr n !! "trusted.overlay.opaque" = Some "y").

(** Look [s] up in the overlay of the upper directory [u] and the lower directory [l] (either may
    be absent); [None] is "no such file". *)
Fixpoint overlay_lookup (f : fs) (u l : option path) (s : path) : option node :=
  match s with
  | [] =>
      match u with
      | Some up => f !! up
      | None => match l with Some lo => f !! lo | None => None end
      end
  | c :: s' =>
      let un := match u with Some up => f !! (up ++ [c]) | None => None end in
      let ln := match l with Some lo => f !! (lo ++ [c]) | None => None end in
      let ldir := match l, ln with
                  | Some lo, Some m => if is_kdir (n_kind m) then Some (lo ++ [c]) else None
                  | _, _ => None
                  end in
      match un with
      | Some n =>
          if whiteout n then None
          else if is_kdir (n_kind n) then
            overlay_lookup f (match u with Some up => Some (up ++ [c]) | None => None end)
              (if opaque n then None else ldir) s'
          else match s' with [] => Some n | _ => None end
      | None =>
          match ln with
          | None => None
          | Some m =>
              if is_kdir (n_kind m) then overlay_lookup f None ldir s'
              else match s' with [] => Some m | _ => None end
          end
      end
  end.

(** Where the program keeps the upper directory of a mount point (BASE32_NOPAD of its text). *)
Definition upper_dir (ub m : path) : path := ub ++ [b32_encode (path_str m)].

(** The mount that holds [p]: the innermost one. *)
Definition owns (ms : list path) (m p : path) : Prop :=
  m ∈ ms ∧ under m p = true ∧ ∀ m', m' ∈ ms → under m' p = true → under m' m = true.

(** What a sandboxed process sees at [m ++ s], for [m ++ s] held by mount [m]. *)
Definition sandbox_view (f : fs) (ub m s : path) : option node :=
  overlay_lookup f (Some (upper_dir ub m)) (Some m) s.

(** An upper entry other than the mount root. *)
Definition staged_at (f : fs) (ub m s : path) (n : node) : Prop :=
  s ≠ [] ∧ f !! (upper_dir ub m ++ s) = Some n.

(** Entries that hide everything the lower layer has below them. *)
Definition hides (n : node) : bool := whiteout n || opaque n || negb (is_kdir (n_kind n)).
