(** * /repo/src/actions/accept.rs:118-438 and its helpers 440-564 *)
From Verif Require Export ChangeEntries.

(** accept.rs:513-564. Directory entries are removed in listing order; [fuel] bounds the depth
    (running out is a distinct error, excluded by the theorems). *)
Fixpoint rmdir_recursive (fuel : nat) (ord : list path → list path) (p : path) : M unit :=
  match fuel with
  | O => throw (EApp "out of fuel")
  | S n =>
      root <-- get_ (λ f, lstat f p) ;;
      names <-- get_ (λ f, readdir f p) ;;
      for_ (ord ((λ x, p ++ [x]) <$> names)) (λ ep,
        st <-- get_ (λ f, lstat f ep) ;;
        if negb (N.eqb (n_dev st) (n_dev root)) then
          throw (EApp "entry is on a different device")
        else if is_kdir (n_kind st) then rmdir_recursive n ord ep
        else sys_unlink ep) ;;;
      sys_rmdir p
  end.

(** Depth bound that always suffices. *)
Definition tree_depth (f : fs) : nat := S (foldr (λ k m, length k `max` m) 0 (keys f)).
Definition rmdir_rec (ord : list path → list path) (p : path) : M unit := λ f,
  rmdir_recursive (S (tree_depth f)) ord p f.

(** accept.rs:440-448 *)
Definition set_permissions (p : path) (st : details) : M unit :=
  sys_lchown p (d_uid st) (d_gid st) ;;;
  if N.eqb (N.land (d_mode st) S_IFMT) S_IFLNK then ret_ tt
  else sys_lchmod p (d_mode st).

(** [Path::with_extension]: replace what follows the last dot of the file name (a leading dot
    does not start an extension). *)
Fixpoint find_dot (s : string) : option string := (* [s] reversed: what precedes the last dot *)
  match s with
  | EmptyString => None
  | String c s' => if Ascii.eqb c "." then Some s' else find_dot s'
  end.
Definition file_stem (name : string) : string :=
  match find_dot (str_rev name) with
  | Some EmptyString => name
  | Some r => str_rev r
  | None => name
  end.
Definition with_extension (p : path) (ext : string) : path :=
  match last p with
  | None => p
  | Some name => removelast p ++ [file_stem name +:+ "." +:+ ext]
  end.

(** ** Phase 1: removes (accept.rs:139-169). Returns the number counted and the staged paths to
    clean up. *)
Definition accept_remove (pretend : bool) (c : change) : M (nat * list path) :=
  match c_op c with
  | ORemove =>
      match c_source c with
      | None => throw (EApp "Remove didn't match an existing path to remove")
      | Some s =>
          (if d_is_file s || d_is_symlink s then
             (if pretend then ret_ tt else sys_unlink (d_path s))
           else if d_is_dir s then
             (if pretend then ret_ tt else sys_rmdir (d_path s))
           else throw (EApp "cowardly refusing to remove special file")) ;;;
          ret_ (1, if pretend then [] else match c_staged c with Some d => [d_path d] | None => [] end)
      end
  | _ => ret_ (0, [])
  end.

(** Run over a list accumulating counts and clean-ups. *)
Fixpoint accum {A : Type} (l : list A) (g : A → M (nat * list path)) : M (nat * list path) :=
  match l with
  | [] => ret_ (0, [])
  | x :: l' =>
      r <-- g x ;;
      r' <-- accum l' g ;;
      ret_ (r.1 + r'.1, r.2 ++ r'.2)
  end.

(** ** Phase 2: renames are moved aside (accept.rs:171-264). *)

(** [file_name().unwrap_or_default().to_str().unwrap_or("")] (accept.rs:178-187): the last
    component, or nothing if there is none or it is not valid UTF-8. *)
Definition text_name (p : path) : string :=
  let n := default "" (file_name p) in if utf8_valid n then n else "".
Lemma text_name_slash (p : path) (x : string) : contains "/" x = false → contains "/" (text_name (p ++ [x])) = false.
Proof. intros H. unfold text_name, file_name. rewrite last_snoc. cbn [default from_option id]. by destruct (utf8_valid x). Qed.
Definition tmp_name (cwd : path) (old new : path) (uuid : string) : path :=
  cwd ++ [".rename-" +:+ text_name old +:+ "-to-" +:+ text_name new +:+ "-" +:+ uuid].

(** Sets [tmp_path] on Rename entries that have a source (lines 173-206). *)
Definition assign_tmp (e : env) (phase : nat) (i : nat) (c : change) : change :=
  match c_op c, c_source c with
  | ORename, Some s =>
      Change (c_dest c) ORename (c_source c) (c_staged c)
        (Some (tmp_name (e_cwd e) (d_path s) (c_dest c) (e_uuid e phase i)))
  | _, _ => c
  end.

Definition accept_premove (pretend : bool) (c : change) : M unit :=
  match c_op c, c_source c, c_tmp c with
  | ORename, Some s, Some t =>
      if pretend then
        mp1 <-- get_ (λ f, find_mount_point f (d_path s)) ;;
        mp2 <-- get_ (λ f, find_mount_point f t) ;;
        mp3 <-- get_ (λ f, find_mount_point f (c_dest c)) ;;
        if decide (mp1 = mp2 ∧ mp2 = mp3) then ret_ tt
        else throw (EApp "crosses a mount point")
      else sys_rename (d_path s) t
  | _, _, _ => ret_ tt
  end.

(** ** Phase 3: sets and renames in destination order (accept.rs:266-393). *)
Definition accept_set (e : env) (phase : nat) (pretend : bool) (ic : nat * change)
  : M (nat * list path) :=
  let '(i, c) := ic in
  let dest := c_dest c in
  match c_op c with
  | OSet _ =>
      match c_staged c with
      | None => throw (EApp "invalid staged file")
      | Some st =>
          let n := if is_actually_modified c then 1 else 0 in
          if d_is_file st then
            if pretend then ret_ (n, [])
            else
              let tmp := with_extension dest (e_uuid e (S phase) i) in
              sys_copy (e_umask e) (d_path st) tmp ;;;
              sys_rename tmp dest ;;;
              set_permissions dest st ;;;
              ret_ (n, [d_path st])
          else if d_is_symlink st then
            if pretend then ret_ (n, [])
            else
              target <-- get_ (λ f, read_link f (d_path st)) ;;
              old <-- get_ (λ f, from_path f dest) ;;
              match old with Some _ => sys_unlink dest | None => ret_ tt end ;;;
              sys_symlink target dest ;;;
              set_permissions dest st ;;;
              ret_ (n, [d_path st])
          else if d_is_dir st then
            if pretend then ret_ (n, [])
            else
              isd <-- get_ (λ f, Ok (exists_ f dest && is_dir f dest)) ;;
              (if (isd : bool) then ret_ tt else sys_mkdir (e_umask e) dest) ;;;
              set_permissions dest st ;;;
              ret_ (n, [d_path st])
          else throw (EApp "Error accepting special file")
      end
  | ORemove => ret_ (0, [])
  | ORename =>
      if pretend then ret_ (1, [])
      else
        match c_tmp c with
        | None => throw (EApp "tmp_path is None")
        | Some t =>
            sys_rename t dest ;;;
            ret_ (1, match c_staged c with Some d => [d_path d] | None => [] end)
        end
  | OError _ => throw (EApp "change error")
  end.

(** ** Phase 4: clean-up of the staged files (accept.rs:395-411). *)
Definition clean_one (e : env) (p : path) : M unit :=
  d <-- get_ (λ f, Ok (negb (is_symlink f p) && is_dir f p)) ;;
  if (d : bool) then rmdir_rec (e_ord e) p else sys_unlink p.

Definition desc (a b : path) : comparison := path_cmp b a.

Definition clean_up (e : env) (deferred : list path) : M unit :=
  for_ (dedup (sort_by desc deferred)) (clean_one e).

(** One iteration of [for pretend in [true, false]] (accept.rs:135-417): the change list is kept
    sorted from iteration to iteration as in the code. *)
Definition accept_pass (e : env) (phase : nat) (pretend : bool) (cs : list change)
  : M (nat * list change) :=
  let cs1 := sort_by by_reverse_source cs in
  r1 <-- accum cs1 (accept_remove pretend) ;;
  let cs2 := imap (assign_tmp e phase) (sort_by by_reverse_source cs1) in
  for_ cs2 (accept_premove pretend) ;;;
  let cs3 := sort_by by_destination cs2 in
  r3 <-- accum (imap (λ i c, (i, c)) cs3) (accept_set e phase pretend) ;;
  (if pretend then ret_ tt else clean_up e (r1.2 ++ r3.2)) ;;;
  ret_ (r1.1 + r3.1, cs3).

(** What accept prints: the number accepted (if any change matched) and the number not
    matching. *)
Record report := Report { rep_accepted : option nat; rep_other : nat }.

(** accept.rs:118-438 *)
Definition accept (e : env) (upper_base : path) (include_ignored : bool) (patterns : list string)
  : M report :=
  all <-- get_ (λ f, changes e f upper_base include_ignored) ;;
  let sel := matching (e_glob e) (e_cwd e) patterns all in
  let other := non_matching_count all sel in
  match sel with
  | [] => ret_ (Report None other)
  | _ =>
      r1 <-- accept_pass e 0 true sel ;;
      r2 <-- accept_pass e 2 false r1.2 ;;
      ret_ (Report (Some r2.1) other)
  end.
