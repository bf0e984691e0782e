(** * /repo/src/sandbox/changes/file_details.rs *)
From Verif Require Export FS Utf8.

(** libc file type constants (octal 0170000, 0100000, 040000, 0120000, 020000, 060000, 010000,
    0140000). *)
Definition S_IFMT : N := 61440.
Definition S_IFREG : N := 32768.
Definition S_IFDIR : N := 16384.
Definition S_IFLNK : N := 40960.
Definition S_IFCHR : N := 8192.
Definition S_IFBLK : N := 24576.
Definition S_IFIFO : N := 4096.
Definition S_IFSOCK : N := 49152.

Definition kind_type (k : kind) : N :=
  match k with
  | KFile _ => S_IFREG | KDir => S_IFDIR | KLink _ => S_IFLNK | KChr _ => S_IFCHR
  | KBlk _ => S_IFBLK | KFifo => S_IFIFO | KSock => S_IFSOCK
  end.

(** st_mode as the kernel reports it. *)
Definition st_mode (n : node) : N := N.lor (kind_type (n_kind n)) (N.land (n_perm n) o7777).

Definition st_rdev (n : node) : N :=
  match n_kind n with KChr r => r | KBlk r => r | _ => 0%N end.

(** file_details.rs:10-14. The [stat] fields the program reads. *)
Record details := Details {
  d_path : path;
  d_mode : N;
  d_uid : N;
  d_gid : N;
  d_dev : N;
  d_rdev : N;
}.

Definition details_of (p : path) (n : node) : details :=
  Details p (st_mode n) (n_uid n) (n_gid n) (n_dev n) (st_rdev n).

(** file_details.rs:17-38: ENOENT is [None], any other failure an error. *)
Definition from_path (f : fs) (p : path) : res (option details) :=
  match lstat f p with
  | Ok n => Ok (Some (details_of p n))
  | Err ENOENT => Ok None
  | Err e => Err e
  end.

(** file_details.rs:40-54 *)
Definition d_is_symlink (d : details) : bool := N.eqb (N.land (d_mode d) S_IFMT) S_IFLNK.
Definition d_is_file (d : details) : bool := N.eqb (N.land (d_mode d) S_IFMT) S_IFREG.
Definition d_is_dir (d : details) : bool := N.eqb (N.land (d_mode d) S_IFMT) S_IFDIR.
Definition d_is_chr (d : details) : bool := N.eqb (N.land (d_mode d) S_IFMT) S_IFCHR.

Definition XOPAQUE := "trusted.overlay.opaque".
Definition XWHITEOUT := "trusted.overlay.whiteout".
Definition XREDIRECT := "trusted.overlay.redirect".

(** file_details.rs:166-170, [path_to_cstring]: the attribute calls are made on the path converted
    lossily to UTF-8. The conversion of the whole text works component by component, because a
    slash is never part of an ill-formed sequence. (Names contain no NUL bytes.) *)
Definition cstring_path (p : path) : path := lossy <$> p.

(** file_details.rs:59-73: one byte buffer, any result but -1. *)
Definition is_opaque (f : fs) (d : details) : bool := is_ok (lgetxattr f (cstring_path (d_path d)) XOPAQUE 1).

(** file_details.rs:75-96: a 0/0 character device (8 bit masks as in the code) or the whiteout
    attribute. *)
Definition is_removed (f : fs) (d : details) : bool :=
  if d_is_chr d then
    N.eqb (N.land (N.shiftr (d_rdev d) 8) 255) 0 && N.eqb (N.land (d_rdev d) 255) 0
  else is_ok (lgetxattr f (cstring_path (d_path d)) XWHITEOUT 1).

(** file_details.rs:99-150, with the retry on ERANGE (lines 130-132). The value is
    converted lossily to UTF-8 (line 148). *)
Definition is_renamed (f : fs) (d : details) : res (option string) :=
  match lgetxattr f (cstring_path (d_path d)) XREDIRECT 256 with
  | Ok v => Ok (Some (lossy v))
  | Err ENODATA => Ok None
  | Err ERANGE =>
      match lgetxattr f (cstring_path (d_path d)) XREDIRECT 65536 with
      | Ok v => Ok (Some (lossy v))
      | Err ENODATA => Ok None
      | Err e => Err e
      end
  | Err e => Err e
  end.
