(** * Sandboxes in which directories were renamed: specification

    The states of storage and host the theorems about renamed directories range over.  Like
    [OverlayOk], but directories may carry redirects; one mount point.  Nothing here is used by
    the model. *)
From Verif Require Export RedirectSpec OverlayOk.

(** Overlay format of one upper entry, renamed directories included (the redirect of a directory
    is a relative name or an absolute path of proper components). *)
Record entry_format (n : node) : Prop := {
  ef_chr : ∀ r, n_kind n = KChr r → r = 0%N ∨ N.land r 65535 ≠ 0%N;
  ef_whiteout : ∀ v, n_xattr n !! "trusted.overlay.whiteout" = Some v → is_kfile (n_kind n) = true ∧ String.length v ≤ 1;
  ef_opaque : ∀ v, n_xattr n !! "trusted.overlay.opaque" = Some v → n_kind n = KDir ∧ v = "y";
  ef_redirect : ∀ r, redirect n = Some r → n_kind n = KDir ∧ Forall comp_ok (comps r);
}.

(** The lower directory merged with the directory seen at [s], if any (see [renamed_lookup]). *)
Fixpoint lower_lookup (f : fs) (root : path) (u l : option path) (s : path) : option path :=
  match s with
  | [] => l
  | c :: s' =>
      let as_dir (p : path) := match f !! p with Some k => if is_kdir (n_kind k) then Some p else None | None => None end in
      let own := match l with Some lo => as_dir (lo ++ [c]) | None => None end in
      match match u with Some up => f !! (up ++ [c]) | None => None end with
      | Some n =>
          if whiteout n then None
          else if is_kdir (n_kind n) then
            lower_lookup f root (match u with Some up => Some (up ++ [c]) | None => None end)
              (if opaque n then None else
                 match redirect n with
                 | Some r => if is_abs r then as_dir (root ++ comps r)
                             else match l with Some lo => as_dir (lo ++ comps r) | None => None end
                 | None => own
                 end) s'
          else None
      | None => match own with Some p => lower_lookup f root None (Some p) s' | None => None end
      end
  end.
Definition lower_dir (f : fs) (ub m s : path) : option path := lower_lookup f m (Some (upper_dir ub m)) (Some m) s.

(** A directory renamed in the sandbox; its new place is [m ++ s]. *)
Definition renamed_at (f : fs) (ub m s : path) (n : node) : Prop :=
  staged_at f ub m s n ∧ is_Some (redirect n).
(** The host directory [p] is shown under another name. *)
Definition renamed_away (f : fs) (ub m p : path) : Prop := ∃ s n, renamed_at f ub m s n ∧ kernel_source f ub m s = p.
(** The staged entry at [s] deletes or replaces the host object below it. *)
Definition replaces (f : fs) (ub m s : path) (n : node) : Prop :=
  staged_at f ub m s n ∧ ∃ k, f !! kernel_source f ub m s = Some k ∧
    (whiteout n = true ∨ opaque n = true ∨ is_kdir (n_kind n) = false ∧ n_kind k = KDir).
Definition apart (p q : path) : Prop := under p q = false ∧ under q p = false.

Record renamed_ok (f : fs) (ub m : path) (dev : N) : Prop := {
  ro_storage : storage_ok f ub [m];
  ro_format : ∀ s n, staged_at f ub m s n → entry_format n;
  ro_supported : ∀ s n, staged_at f ub m s n →
    whiteout n = true ∨ match n_kind n with KFile _ | KDir | KLink _ => true | _ => false end = true;
  (** everything below the mount point is on its device, and what is above is not *)
  ro_device : ∀ q k, under m q = true → under ub q = false → f !! q = Some k → n_dev k = dev;
  ro_mounted : m = [] ∨ parent_dev f m ≠ dev;
  (** no host directory is shown in two places *)
  ro_once : ∀ s s' p, lower_dir f ub m s = Some p → lower_dir f ub m s' = Some p → s = s';
  (** a renamed directory: where it came from is a directory with the same attributes, the
      redirect is absolute unless it lies in a plain directory, and its new name was free *)
  ro_redirect : ∀ s n r, staged_at f ub m s n → redirect n = Some r →
    comps r ≠ [] ∧ ((N.of_nat (String.length r) ≤ 65536)%N ∧ utf8_valid r = true) ∧ opaque n = false ∧
    (is_abs r = false → ∀ a b n0, s = a ++ b → b ≠ [] → staged_at f ub m a n0 → redirect n0 = None ∧ opaque n0 = false);
  ro_source : ∀ s n, renamed_at f ub m s n → ∃ k, f !! kernel_source f ub m s = Some k ∧
    n_kind k = KDir ∧ n_uid k = n_uid n ∧ n_gid k = n_gid n ∧ n_perm k = n_perm n;
  ro_free : ∀ s c n, renamed_at f ub m (s ++ [c]) n →
    f !! (kernel_source f ub m s ++ [c]) = None ∨ renamed_away f ub m (kernel_source f ub m s ++ [c]);
  ro_dest_link : ∀ s n, renamed_at f ub m s n → ∀ a c r k, m ++ s = a ++ c :: r → f !! a = Some k → is_klink (n_kind k) = false;
  (** host objects that are deleted or replaced: below a merged directory; no renamed directory is taken from them *)
  ro_replaces : ∀ s c n, replaces f ub m (s ++ [c]) n → is_Some (lower_dir f ub m s);
  ro_keeps : ∀ s n s' n', replaces f ub m s n → ¬ renamed_away f ub m (kernel_source f ub m s) →
    renamed_at f ub m s' n' → under (kernel_source f ub m s) (kernel_source f ub m s') = false;
  ro_deleted : ∀ s n q k, replaces f ub m s n → under (kernel_source f ub m s) q = true → f !! q = Some k →
    match n_kind k with KFile _ | KDir | KLink _ => true | _ => false end = true;
  (** the exclusions of [host_ok] *)
  ro_merged : ∀ s c n k, staged_at f ub m (s ++ [c]) n → n_kind n = KDir → opaque n = false →
    f !! kernel_source f ub m (s ++ [c]) = Some k → n_kind k = KDir ∨ lower_dir f ub m s = None;
  ro_dir_link : ∀ s n k t, staged_at f ub m s n → n_kind n = KDir → f !! kernel_source f ub m s = Some k → n_kind k ≠ KLink t;
  ro_whiteout_link : ∀ s n k t, staged_at f ub m s n → whiteout n = true → f !! kernel_source f ub m s = Some k → n_kind k = KLink t →
    link_to_file f (kernel_source f ub m s);
  ro_file_link : ∀ s n k t, staged_at f ub m s n → f !! kernel_source f ub m s = Some k → n_kind k = KLink t →
    ¬ link_to_dir f (kernel_source f ub m s);
  (** the storage is elsewhere *)
  ro_elsewhere : under ub m = false ∧ ∀ s n, staged_at f ub m s n →
    under ub (m ++ s) = false ∧ under ub (kernel_source f ub m s) = false ∧
    (replaces f ub m s n → under (kernel_source f ub m s) ub = false) ∧
    (is_Some (redirect n) → under (m ++ s) ub = false ∧ under (kernel_source f ub m s) ub = false);
}.

(** The current directory is below the mount point and neither deleted nor renamed nor in the way. *)
Record cwd_ok (f : fs) (ub m cwd : path) : Prop := {
  cw_dir : ∃ d, f !! cwd = Some d ∧ n_kind d = KDir;
  cw_under : under m cwd = true ∧ under ub cwd = false;
  cw_stays : ∀ s n, staged_at f ub m s n →
    (replaces f ub m s n → under (kernel_source f ub m s) cwd = false) ∧
    (is_Some (redirect n) → under (kernel_source f ub m s) cwd = false ∧ under (m ++ s) cwd = false);
}.

(** The identifiers drawn for temporary names: proper, new, and none ends in another. *)
Record identifiers_ok (id : nat → nat → string) (f : fs) : Prop := {
  id_name : ∀ ph i, id ph i ≠ "" ∧ contains "/" (id ph i) = false;
  id_new : ∀ ph i q x, is_Some (f !! (q ++ [x])) → ends_with (id ph i) x = false;
  id_distinct : ∀ ph i ph' j, (ph, i) ≠ (ph', j) → ends_with (id ph i) (id ph' j) = false;
}.
