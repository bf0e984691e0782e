(** * The states of storage and host the theorems about listing and accepting range over.

    [storage_ok] and [entry_ok] describe what the kernel leaves in the upper directories, for
    sandboxes in which no directory was renamed.  [host_ok] names the situations excluded from
    the positive theorems; each exclusion is shown necessary by a [_refuted] theorem. *)
From Verif Require Export OverlaySpec Utf8.

(** Upper directories: one per mount point, named by its encoding; all names in the storage are
    valid UTF-8. *)
Record storage_ok (f : fs) (ub : path) (ms : list path) : Prop := {
  so_wf : wf_tree f;
  so_ub : ∃ d, f !! ub = Some d ∧ n_kind d = KDir;
  so_mount : ∀ m, m ∈ ms → (∃ d, f !! m = Some d ∧ n_kind d = KDir) ∧ utf8_valid (path_str m) = true;
  so_child : ∀ c n, f !! (ub ++ [c]) = Some n → ∃ m, m ∈ ms ∧ c = b32_encode (path_str m);
  so_utf8 : ∀ p n, f !! p = Some n → under ub p = true → utf8_path p;
}.

(** Overlay format of one upper entry: device numbers fit 16 bits, the whiteout attribute only
    occurs on regular files, the opaque attribute is "y" and only occurs on directories, and no
    redirect was recorded. *)
Record entry_ok (n : node) : Prop := {
  eo_chr : ∀ r, n_kind n = KChr r → r = 0%N ∨ N.land r 65535 ≠ 0%N;
  eo_whiteout : ∀ v, n_xattr n !! "trusted.overlay.whiteout" = Some v →
     is_kfile (n_kind n) = true ∧ String.length v ≤ 1;
  eo_opaque : ∀ v, n_xattr n !! "trusted.overlay.opaque" = Some v → n_kind n = KDir ∧ v = "y";
  eo_redirect : n_xattr n !! "trusted.overlay.redirect" = None;
}.

(** Does the host symlink at [p] lead to an existing non-directory? *)
Definition link_to_file (f : fs) (p : path) : Prop := ∃ n, stat f p = Ok n ∧ n_kind n ≠ KDir.
Definition link_to_dir (f : fs) (p : path) : Prop := ∃ n, stat f p = Ok n ∧ n_kind n = KDir.

(** Some staged directory strictly above [s] is opaque. *)
Definition below_opaque (f : fs) (ub m s : path) : Prop :=
  ∃ s1 r n1, s = s1 ++ r ∧ r ≠ [] ∧ staged_at f ub m s1 n1 ∧ opaque n1 = true.

(** The relation between an upper entry [n] at mount [m], path [s] below it, and the host. *)
Record host_ok (f : fs) (ub : path) (ms : list path) (m s : path) (n : node) : Prop := {
  ho_owner : owns ms m (m ++ s);
  ho_storage : under ub (m ++ s) = false;
  ho_above_storage : hides n = true → under (m ++ s) ub = false;
  ho_above_mount : ∀ m', m' ∈ ms → under (m ++ s) m' = true → hides n = false;
  ho_merged : ∀ k, n_kind n = KDir → opaque n = false → f !! (m ++ s) = Some k →
    n_kind k = KDir ∨ below_opaque f ub m s;
  ho_dir_link : ∀ t k, n_kind n = KDir → f !! (m ++ s) = Some k → n_kind k ≠ KLink t;
  ho_whiteout_link : ∀ t k, whiteout n = true → f !! (m ++ s) = Some k → n_kind k = KLink t →
    link_to_file f (m ++ s);
  ho_file_link : ∀ t k, f !! (m ++ s) = Some k → n_kind k = KLink t → ¬ link_to_dir f (m ++ s);
}.

Record sandbox_ok (f : fs) (ub : path) (ms : list path) : Prop := {
  sb_storage : storage_ok f ub ms;
  sb_entry : ∀ m s n, m ∈ ms → staged_at f ub m s n → entry_ok n;
  sb_host : ∀ m s n, m ∈ ms → staged_at f ub m s n → host_ok f ub ms m s n;
}.
