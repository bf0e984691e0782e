(** * Redirects: specification of where overlayfs takes the lower content of a renamed directory
    from.

    Written from the kernel documentation (section "redirect_dir") and fs/overlayfs/namei.c: an
    absolute redirect is a path from the root of the lower layer; a relative redirect replaces the
    name of the directory inside the lower directory its *parent* is merged with.  Nothing here is
    used by the model. *)
From Verif Require Export OverlaySpec.

Definition redirect (n : node) : option string := n_xattr n !! "trusted.overlay.redirect".

(** The lower path merged with the entry [s] below the upper directory [u], when [u] itself is
    merged with [l]; [root] is the root of the lower layer. *)
Fixpoint origin (f : fs) (root u l s : path) : path :=
  match s with
  | [] => l
  | c :: s' =>
      match f !! (u ++ [c]) with
      | Some n =>
          origin f root (u ++ [c])
            (match redirect n with
             | Some r => if is_abs r then root ++ comps r else l ++ comps r
             | None => l ++ [c]
             end) s'
      | None => l ++ c :: s'
      end
  end.

(** For mount point [m] with upper directory [upper_dir ub m]. *)
Definition kernel_source (f : fs) (ub m s : path) : path := origin f m (upper_dir ub m) m s.

(** What a sandboxed process sees when directories were renamed: like [overlay_lookup], but a
    directory carrying a redirect is merged with the directory the redirect names (if it is a
    directory of the lower layer), and not with the one of its own name. *)
Fixpoint renamed_lookup (f : fs) (root : path) (u l : option path) (s : path) : option node :=
  match s with
  | [] =>
      match u with
      | Some up => f !! up
      | None => match l with Some lo => f !! lo | None => None end
      end
  | c :: s' =>
      let un := match u with Some up => f !! (up ++ [c]) | None => None end in
      let ln := match l with Some lo => f !! (lo ++ [c]) | None => None end in
      let as_dir (p : path) := match f !! p with Some k => if is_kdir (n_kind k) then Some p else None | None => None end in
      match un with
      | Some n =>
          if whiteout n then None
          else if is_kdir (n_kind n) then
            renamed_lookup f root (match u with Some up => Some (up ++ [c]) | None => None end)
              (if opaque n then None else
                 match redirect n with
                 | Some r => if is_abs r then as_dir (root ++ comps r)
                             else match l with Some lo => as_dir (lo ++ comps r) | None => None end
                 | None => match l with Some lo => as_dir (lo ++ [c]) | None => None end
                 end) s'
          else match s' with [] => Some n | _ => None end
      | None =>
          match ln with
          | None => None
          | Some k =>
              if is_kdir (n_kind k) then
                renamed_lookup f root None (match l with Some lo => Some (lo ++ [c]) | None => None end) s'
              else match s' with [] => Some k | _ => None end
          end
      end
  end.

(** What a sandboxed process sees at [m ++ s], for [m ++ s] held by mount [m]. *)
Definition renamed_view (f : fs) (ub m s : path) : option node :=
  renamed_lookup f m (Some (upper_dir ub m)) (Some m) s.
