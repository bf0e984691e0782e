(** * The filesystem and the system calls used by the code.

    One map holds the host files and the sandbox storage.  This file models Linux, not /repo: it
    is the executable meaning given to the [std::fs], [nix] and [libc] calls in
    /repo/src/actions/accept.rs:440-564, /repo/src/actions/reject.rs:36-47,
    /repo/src/sandbox/changes/file_details.rs:17-150 and /repo/src/util/find_mount_point.rs.
    Simplifications: no hard links, no timestamps, no permission checks (the program runs as
    root), no I/O errors, no concurrent writers. *)
From Verif Require Export Base.

Inductive kind :=
  | KFile (content : string)
  | KDir
  | KLink (target : string)
  | KChr (rdev : N)
  | KBlk (rdev : N)
  | KFifo
  | KSock.

(** An inode: type, the twelve permission bits, owner, group, device (st_dev) and extended
    attributes. *)
Record node := Node {
  n_kind : kind;
  n_perm : N;
  n_uid : N;
  n_gid : N;
  n_dev : N;
  n_xattr : gmap string string;
}.

#[global] Instance kind_eq_dec : EqDecision kind.
Proof. solve_decision. Defined.
#[global] Instance node_eq_dec : EqDecision node.
Proof. solve_decision. Defined.

Notation fs := (gmap path node).

Definition is_kdir (k : kind) : bool := match k with KDir => true | _ => false end.
Definition is_klink (k : kind) : bool := match k with KLink _ => true | _ => false end.
Definition is_kfile (k : kind) : bool := match k with KFile _ => true | _ => false end.

(** ** Errors and the monad *)

Inductive err :=
  | ENOENT | ENOTDIR | EISDIR | EEXIST | ENOTEMPTY | ELOOP | EXDEV | EINVAL | EBUSY | ERANGE
  | ENODATA | EOPNOTSUPP
  | EApp (what : string)       (* an error value created by the program itself *)
  | EPanic (what : string).    (* a panic: [expect]/[unwrap] on an absent value *)

Inductive res (A : Type) :=
  | Ok (a : A)
  | Err (e : err).
Arguments Ok {A} a.
Arguments Err {A} e.

Definition rbind {A B : Type} (m : res A) (k : A → res B) : res B :=
  match m with Ok a => k a | Err e => Err e end.

Definition is_ok {A : Type} (r : res A) : bool := match r with Ok _ => true | Err _ => false end.

(** A computation returns every intermediate filesystem state (one after each modifying system
    call, in order: the states a crash can leave), the final state and a result. *)
Record out (A : Type) := Out { o_trace : list fs; o_fs : fs; o_res : res A }.
Arguments Out {A} o_trace o_fs o_res.
Arguments o_trace {A} o.
Arguments o_fs {A} o.
Arguments o_res {A} o.

Definition M (A : Type) := fs → out A.

Definition ret_ {A : Type} (a : A) : M A := λ f, Out [] f (Ok a).
Definition throw {A : Type} (e : err) : M A := λ f, Out [] f (Err e).
Definition bind_ {A B : Type} (m : M A) (k : A → M B) : M B := λ f,
  let o := m f in
  match o_res o with
  | Ok a => let o' := k a (o_fs o) in Out (o_trace o ++ o_trace o') (o_fs o') (o_res o')
  | Err e => Out (o_trace o) (o_fs o) (Err e)
  end.
(** Read-only access to the current state. *)
Definition get_ {A : Type} (r : fs → res A) : M A := λ f, Out [] f (r f).

Declare Scope m_scope.
Delimit Scope m_scope with M.
Notation "x <-- m ;; k" := (bind_ m (λ x, k)) (at level 100, m at next level, right associativity)
  : m_scope.
Notation "m ;;; k" := (bind_ m (λ _, k)) (at level 100, right associativity) : m_scope.
Open Scope m_scope.

(** [for x in l { f(x)?; }] *)
Fixpoint for_ {A : Type} (l : list A) (f : A → M unit) : M unit :=
  match l with
  | [] => ret_ tt
  | x :: l' => f x ;;; for_ l' f
  end.

(** ** Path lookup (kernel namei): symlinks are followed in all directory components, and in the
    last one iff [follow]; at most 40 links. Returns the canonical path; its last component may
    not exist (so that files can be created there). *)
Fixpoint walk (n : nat) (f : fs) (follow : bool) (cur : path) (todo : list string) {struct n}
  : res path :=
  (fix go (cur : path) (todo : list string) {struct todo} : res path :=
     match todo with
     | [] => Ok cur
     | c :: rest =>
         if (String.eqb c "" || String.eqb c ".") then go cur rest
         else if String.eqb c ".." then go (removelast cur) rest
         else
           match f !! cur with
           | None => Err ENOENT
           | Some d =>
               if is_kdir (n_kind d) then
                 let q := cur ++ [c] in
                 match f !! q with
                 | None => match rest with [] => Ok q | _ :: _ => Err ENOENT end
                 | Some nd =>
                     match n_kind nd with
                     | KLink t =>
                         match rest, follow with
                         | [], false => Ok q
                         | _, _ =>
                             match n with
                             | O => Err ELOOP
                             | S n' =>
                                 walk n' f follow (if is_abs t then [] else cur)
                                   (split_on "/" t ++ rest)
                             end
                         end
                     | _ => go q rest
                     end
                 end
               else Err ENOTDIR
           end
     end) cur todo.

Definition max_links : nat := 40.
(** Conversion should unfold these last (performance only). *)
Strategy 1000 [walk max_links].

(** Canonical path of [p], not following / following a final symlink. *)
Definition lookup_l (f : fs) (p : path) : res path := walk max_links f false [] p.
Definition lookup_f (f : fs) (p : path) : res path := walk max_links f true [] p.

(** lstat(2) and stat(2) *)
Definition lstat (f : fs) (p : path) : res node :=
  rbind (lookup_l f p) (λ q, match f !! q with Some n => Ok n | None => Err ENOENT end).
Definition stat (f : fs) (p : path) : res node :=
  rbind (lookup_f f p) (λ q, match f !! q with Some n => Ok n | None => Err ENOENT end).

(** [Path::exists], [Path::is_dir], [Path::is_file] follow symlinks; [Path::is_symlink] does
    not. *)
Definition exists_ (f : fs) (p : path) : bool := is_ok (stat f p).
Definition is_dir (f : fs) (p : path) : bool :=
  match stat f p with Ok n => is_kdir (n_kind n) | Err _ => false end.
Definition is_file (f : fs) (p : path) : bool :=
  match stat f p with Ok n => is_kfile (n_kind n) | Err _ => false end.
Definition is_symlink (f : fs) (p : path) : bool :=
  match lstat f p with Ok n => is_klink (n_kind n) | Err _ => false end.

(** ** Enumerating *)
Definition keys (f : fs) : list path := (map_to_list f).*1.

(** All paths strictly below [q]. *)
Definition below (f : fs) (q : path) : list path :=
  filter (λ k, under q k = true ∧ k ≠ q) (keys f).

(** [WalkDir::new(root)] with default options: the root (a symlink at the root is followed) and
    everything below it, links inside are not followed; the items are named under [root]. An
    unreadable or missing root yields an error item, which the callers drop. *)
Definition walkdir (f : fs) (root : path) : list path :=
  match lookup_f f root with
  | Err _ => []
  | Ok c =>
      match f !! c with
      | None => []
      | Some n =>
          if is_kdir (n_kind n)
          then omap (λ k, match path_strip c k with Some s => Some (root ++ s) | None => None end)
                 (keys f)
          else [root]
      end
  end.

(** ** Modifying system calls *)

Definition emit (f : fs) : out unit := Out [f] f (Ok tt).
Definition fail_ {A : Type} (f : fs) (e : err) : out A := Out [] f (Err e).

(** unlink(2), via [fs::remove_file] *)
Definition sys_unlink (p : path) : M unit := λ f,
  match lookup_l f p with
  | Err e => fail_ f e
  | Ok q =>
      match f !! q with
      | None => fail_ f ENOENT
      | Some n => if is_kdir (n_kind n) then fail_ f EISDIR else emit (delete q f)
      end
  end.

Definition dev_of (f : fs) (p : path) : option N := n_dev <$> f !! p.

(** rmdir(2), via [fs::remove_dir]: the directory must be empty and not a mount point. *)
Definition sys_rmdir (p : path) : M unit := λ f,
  match lookup_l f p with
  | Err e => fail_ f e
  | Ok q =>
      match f !! q with
      | None => fail_ f ENOENT
      | Some n =>
          if is_kdir (n_kind n) then
            match q with
            | [] => fail_ f EBUSY
            | _ =>
                if decide (dev_of f (removelast q) = Some (n_dev n)) then
                  match below f q with
                  | [] => emit (delete q f)
                  | _ :: _ => fail_ f ENOTEMPTY
                  end
                else fail_ f EBUSY
            end
          else fail_ f ENOTDIR
      end
  end.

(** The device a new entry of the directory containing [q] lives on. *)
Definition parent_dev (f : fs) (q : path) : N :=
  match f !! removelast q with Some n => n_dev n | None => 0%N end.

(** Octal constants: 0777, 07777, 04000, 02000. *)
Definition o777 : N := 511.
Definition o7777 : N := 4095.
Definition o4000 : N := 2048.
Definition o2000 : N := 1024.

Definition and_not (a mask : N) : N := N.ldiff a mask.

(** mkdir(2) via [fs::create_dir]: mode 0777 & ~umask, owned by root. *)
Definition sys_mkdir (umask : N) (p : path) : M unit := λ f,
  match lookup_l f p with
  | Err e => fail_ f e
  | Ok q =>
      match f !! q with
      | Some _ => fail_ f EEXIST
      | None => emit (<[q := Node KDir (and_not o777 umask) 0 0 (parent_dev f q) ∅]> f)
      end
  end.

(** symlink(2) *)
Definition sys_symlink (target : string) (p : path) : M unit := λ f,
  match lookup_l f p with
  | Err e => fail_ f e
  | Ok q =>
      match f !! q with
      | Some _ => fail_ f EEXIST
      | None => emit (<[q := Node (KLink target) o777 0 0 (parent_dev f q) ∅]> f)
      end
  end.

(** readlink(2) via [fs::read_link] *)
Definition read_link (f : fs) (p : path) : res string :=
  rbind (lstat f p) (λ n, match n_kind n with KLink t => Ok t | _ => Err EINVAL end).

(** Move the subtree at [old] to [new], replacing whatever is at or below [new]. *)
Definition rekey (old new k : path) : path :=
  match path_strip old k with Some s => new ++ s | None => k end.
Definition moved (f : fs) (old new : path) : fs :=
  list_to_map
    ((λ kn : path * node, (rekey old new kn.1, kn.2)) <$>
       filter (λ kn : path * node, under old kn.1 = true ∨ under new kn.1 = false)
         (map_to_list f)).

(** rename(2) *)
Definition sys_rename (old new : path) : M unit := λ f,
  match lookup_l f old, lookup_l f new with
  | Err e, _ => fail_ f e
  | _, Err e => fail_ f e
  | Ok o, Ok n =>
      match f !! o with
      | None => fail_ f ENOENT
      | Some on =>
          if decide (o = n) then emit f
          else if under o n then fail_ f EINVAL
          else if under n o then fail_ f ENOTEMPTY
          else if negb (N.eqb (parent_dev f o) (parent_dev f n)) then fail_ f EXDEV
          else if negb (N.eqb (n_dev on) (parent_dev f o)) then fail_ f EBUSY
          else
            match f !! n with
            | None => emit (moved f o n)
            | Some nn =>
                if is_kdir (n_kind on) then
                  if is_kdir (n_kind nn) then
                    match below f n with
                    | [] => if N.eqb (n_dev nn) (parent_dev f n) then emit (moved f o n)
                            else fail_ f EBUSY
                    | _ :: _ => fail_ f ENOTEMPTY
                    end
                  else fail_ f ENOTDIR
                else if is_kdir (n_kind nn) then fail_ f EISDIR
                else emit (moved f o n)
            end
      end
  end.

(** All non-empty prefixes of a content, shortest first. *)
Fixpoint prefixes (s : string) : list string :=
  match s with
  | EmptyString => []
  | String c s' => String c "" :: (String c <$> prefixes s')
  end.

Definition set_perm (n : node) (m : N) : node :=
  Node (n_kind n) m (n_uid n) (n_gid n) (n_dev n) (n_xattr n).
Definition set_owner (n : node) (u g : N) : node :=
  Node (n_kind n) (n_perm n) u g (n_dev n) (n_xattr n).
Definition set_content (n : node) (c : string) : node :=
  Node (KFile c) (n_perm n) (n_uid n) (n_gid n) (n_dev n) (n_xattr n).

(** [std::fs::copy]: open the source, create or truncate the destination, set its permission
    bits to the source's, then write the bytes (any number of writes: every prefix is a possible
    intermediate state). Extended attributes are not copied. *)
Definition sys_copy (umask : N) (src dst : path) : M unit := λ f,
  match stat f src with
  | Err e => fail_ f e
  | Ok sn =>
      match n_kind sn with
      | KFile content =>
          match lookup_f f dst with
          | Err e => fail_ f e
          | Ok q =>
              let go (n0 : node) : out unit :=
                let f0 := <[q := n0]> f in
                let n1 := set_perm n0 (n_perm sn) in
                let f1 := <[q := n1]> f in
                let fin := <[q := set_content n1 content]> f in
                Out (f0 :: f1 :: ((λ c, <[q := set_content n1 c]> f) <$> prefixes content)) fin
                  (Ok tt) in
              match f !! q with
              | None => go (Node (KFile "") (and_not (n_perm sn) umask) 0 0 (parent_dev f q) ∅)
              | Some dn =>
                  match n_kind dn with
                  | KFile _ => go (set_content dn "")
                  | KDir => fail_ f EISDIR
                  | _ => fail_ f (EApp "copy to special file")
                  end
              end
          end
      | _ => fail_ f EINVAL
      end
  end.

(** lchown(2): changing the owner of a non-directory clears setuid, and setgid when group-execute
    is set (Linux >= 2.2.13, also for root). *)
Definition chown_perm (n : node) : N :=
  if is_kdir (n_kind n) then n_perm n
  else
    let p := and_not (n_perm n) o4000 in
    if N.testbit (n_perm n) 3 then and_not p o2000 else p.

Definition sys_lchown (p : path) (u g : N) : M unit := λ f,
  match lookup_l f p with
  | Err e => fail_ f e
  | Ok q =>
      match f !! q with
      | None => fail_ f ENOENT
      | Some n => emit (<[q := set_owner (set_perm n (chown_perm n)) u g]> f)
      end
  end.

(** fchmodat(AT_SYMLINK_NOFOLLOW) *)
Definition sys_lchmod (p : path) (mode : N) : M unit := λ f,
  match lookup_l f p with
  | Err e => fail_ f e
  | Ok q =>
      match f !! q with
      | None => fail_ f ENOENT
      | Some n => if is_klink (n_kind n) then fail_ f EOPNOTSUPP
                  else emit (<[q := set_perm n (N.land mode o7777)]> f)
      end
  end.

(** lgetxattr(2) into a buffer of [size] bytes. *)
Definition lgetxattr (f : fs) (p : path) (name : string) (size : N) : res string :=
  rbind (lstat f p) (λ n,
    match n_xattr n !! name with
    | None => Err ENODATA
    | Some v => if (N.of_nat (String.length v) <=? size)%N then Ok v else Err ERANGE
    end).

(** Directory listing of a (possibly symlinked) directory: names of its entries. *)
Definition readdir (f : fs) (p : path) : res (list string) :=
  rbind (lookup_f f p) (λ c,
    match f !! c with
    | None => Err ENOENT
    | Some n =>
        if is_kdir (n_kind n)
        then Ok (omap (λ k, match path_strip c k with Some [x] => Some x | _ => None end) (keys f))
        else Err ENOTDIR
    end).

(** [std::fs::read_to_string] (the utf-8 check is part of the caller's model). *)
Definition read_file (f : fs) (p : path) : res string :=
  rbind (stat f p) (λ n, match n_kind n with
                         | KFile c => Ok c
                         | KDir => Err EISDIR
                         | _ => Err (EApp "special file")
                         end).

(** ** Well-formed trees: the root is a directory, every entry sits in a directory, names are
    legal, permission bits are in range. *)
Record wf_tree (f : fs) : Prop := {
  wf_root : ∃ n, f !! [] = Some n ∧ n_kind n = KDir;
  wf_parent : ∀ p c n, f !! (p ++ [c]) = Some n → ∃ d, f !! p = Some d ∧ n_kind d = KDir;
  wf_comp : ∀ p c n, f !! (p ++ [c]) = Some n → comp_ok c;
  wf_perm : ∀ p n, f !! p = Some n → (n_perm n < 4096)%N;
}.
