(** * Change detection: /repo/src/sandbox/changes/changes.rs, /repo/src/util/find_mount_point.rs *)
From Verif Require Export FileDetails Ignore Base32.

(** Everything the program gets from outside: the glob matcher (crate fast_glob), the order in
    which directory entries are listed, the UUIDs drawn (by phase and index), the current
    directory and the umask. *)
Record env := Env {
  e_glob : string → string → bool;
  e_ord : list path → list path;
  e_uuid : nat → nat → string;
  e_cwd : path;
  e_umask : N;
}.

(** Listing order is some permutation. *)
Definition env_ok (e : env) : Prop := ∀ l, e_ord e l ≡ₚ l.

(** ** util/find_mount_point.rs:4-25; the argument is the reversed path. *)
Fixpoint fmp_existing (f : fs) (rp : list string) : res (list string) :=
  if exists_ f (rev rp) then Ok rp
  else match rp with
       | [] => Err (EPanic "Failed to get parent of path")
       | _ :: rq => fmp_existing f rq
       end.
Fixpoint fmp_climb (f : fs) (dev : N) (rp : list string) : res path :=
  match rp with
  | [] => Ok []
  | _ :: rq =>
      rbind (lstat f (rev rq)) (λ pn,
        if N.eqb (n_dev pn) dev then fmp_climb f dev rq else Ok (rev rp))
  end.
Definition find_mount_point (f : fs) (p : path) : res path :=
  rbind (fmp_existing f (rev p)) (λ rp,
    rbind (lstat f (rev rp)) (λ n, fmp_climb f (n_dev n) rp)).

(** ** changes.rs:572-653, get_source_lower_path_for_upper_path.
    The upper path is [uroot ++ rev rsub], the lower path [lroot ++ rev rsub]; [acc] are the
    components popped so far. *)
Definition if_exists (f : fs) (p : path) : option path := if exists_ f p then Some p else None.

Fixpoint source_loop (f : fs) (uroot lroot : path) (rsub : list string) (acc : path)
  : res (option path) :=
  match from_path f (uroot ++ rev rsub) with
  | Err e => Err e
  | Ok None => Ok (if_exists f (lroot ++ acc))
  | Ok (Some d) =>
      match rsub with
      | [] => Ok (if_exists f (lroot ++ acc))
      | c :: rs =>
          match is_renamed f d with
          | Err e => Err e
          | Ok (Some r) =>
              if is_abs r then
                match find_mount_point f (lroot ++ rev rsub) with
                | Err e => Err e
                | Ok mp => Ok (if_exists f (mp ++ comps r ++ acc))
                end
              else Ok (if_exists f (lroot ++ rev rs ++ comps r ++ acc))
          | Ok None => source_loop f uroot lroot rs (c :: acc)
          end
      end
  end.
Definition get_source (f : fs) (uroot lroot sub : path) : res (option path) :=
  source_loop f uroot lroot (rev sub) [].

(** changes.rs:655-669; the argument is the reversed path. *)
Fixpoint opaque_above (f : fs) (rp : list string) : bool :=
  match rp with
  | [] => false
  | _ :: rq =>
      match from_path f (rev rq) with
      | Ok (Some d) => if is_opaque f d then true else opaque_above f rq
      | _ => false
      end
  end.
Definition has_opaque_ancestor (f : fs) (p : path) : bool := opaque_above f (rev p).

(** changes.rs:19-25 *)
Record upper_entry := UE {
  ue_lower : path;
  ue_upper : path;
  ue_details : details;
  ue_source : option path;
  ue_source_details : option details;
}.

(** Decoding of the first component (changes.rs:298-318). The decoded text is turned into a path;
    the program only ever creates directories whose names decode to absolute mount points. *)
Definition decode_base (enc : string) : option path :=
  match b32_decode enc with
  | Some s => if utf8_valid s then Some (comps s) else None
  | None => None
  end.

(** changes.rs:285-372, one iteration; [None] is [continue]. *)
Definition upper_entry_of (e : env) (f : fs) (upper_base : path) (include_ignored : bool)
    (p : path) (c : cache) : res (option upper_entry) * cache :=
  match path_strip upper_base p with
  | None => (Err (EApp "strip_prefix"), c)
  | Some [] => (Ok None, c)
  | Some (enc :: sub) =>
      match decode_base enc with
      | None => (Ok None, c)
      | Some base =>
          match sub with
          | [] => (Ok None, c)
          | _ :: _ =>
              let '(ig, c') :=
                if include_ignored then (Ok false, c)
                else is_ignored (e_glob e) f upper_base enc base sub c in
              match ig with
              | Err er => (Err er, c')
              | Ok true => (Ok None, c')
              | Ok false =>
                  let uroot := upper_base ++ [enc] in
                  let up := uroot ++ sub in
                  (rbind (get_source f uroot base sub) (λ src,
                   rbind (match src with
                          | Some sp => from_path f sp
                          | None => Ok None
                          end) (λ sd,
                   rbind (from_path f up) (λ ud,
                   match ud with
                   | None => Err (EApp "Failed to get file details for upper path")
                   | Some ud => Ok (Some (UE (base ++ sub) up ud src sd))
                   end))), c')
              end
          end
      end
  end.

Fixpoint upper_entries_loop (e : env) (f : fs) (upper_base : path) (include_ignored : bool)
    (ps : list path) (c : cache) : res (list upper_entry) :=
  match ps with
  | [] => Ok []
  | p :: ps' =>
      let '(r, c') := upper_entry_of e f upper_base include_ignored p c in
      rbind r (λ oe,
        rbind (upper_entries_loop e f upper_base include_ignored ps' c') (λ es,
          Ok (match oe with Some x => x :: es | None => es end)))
  end.

(** changes.rs:280-375 *)
Definition upper_entries (e : env) (f : fs) (upper_base : path) (include_ignored : bool)
  : res (list upper_entry) :=
  upper_entries_loop e f upper_base include_ignored (e_ord e (walkdir f upper_base)) ∅.

(** ** change_entries.rs:14-47, 81-85 *)
Inductive set_type := Create | Modify.
Inductive change_error := UnsupportedFileType | RedirectPathNotFound.
Inductive operation :=
  | OSet (t : set_type)
  | ORemove
  | ORename
  | OError (e : change_error).

Record change := Change {
  c_dest : path;
  c_op : operation;
  c_source : option details;
  c_staged : option details;
  c_tmp : option path;
}.

(** changes.rs:61-75 *)
Fixpoint renamed_paths (f : fs) (es : list upper_entry) : res (list path) :=
  match es with
  | [] => Ok []
  | x :: es' =>
      rbind (is_renamed f (ue_details x)) (λ r,
        rbind (renamed_paths f es') (λ ps,
          Ok (match r, ue_source x with
              | Some _, Some sp => sp :: ps
              | _, _ => ps
              end)))
  end.

Fixpoint rmap {A B : Type} (g : A → res B) (l : list A) : res (list B) :=
  match l with
  | [] => Ok []
  | x :: l' => rbind (g x) (λ y, rbind (rmap g l') (λ ys, Ok (y :: ys)))
  end.

(** changes.rs:97-123: one Remove entry per item of the walk. *)
Definition remove_walk (e : env) (f : fs) (sp : path) (staged : details) : res (list change) :=
  rmap (λ p,
    rbind (from_path f p) (λ od,
      match od with
      | None => Err (EApp "File details should always exist for existing paths")
      | Some d =>
          Ok (Change p ORemove (Some d) (if decide (p = sp) then Some staged else None) None)
      end)) (e_ord e (walkdir f sp)).

(** changes.rs:87-138 *)
Definition remove_changes (e : env) (f : fs) (renamed : list path) (x : upper_entry)
  : res (list change) :=
  let source_is_dir := match ue_source x with Some sp => is_dir f sp | None => false end in
  if is_opaque f (ue_details x) || is_removed f (ue_details x)
     || (negb (d_is_dir (ue_details x)) && source_is_dir)
  then
    match ue_source x with
    | Some sp =>
        if decide (sp ∈ renamed) then Ok []
        else if is_dir f sp then remove_walk e f sp (ue_details x)
        else Ok [Change sp ORemove (ue_source_details x) (Some (ue_details x)) None]
    | None => Ok []
    end
  else Ok [].

(** changes.rs:140-204; [ufd] is the re-read of the upper details (lines 79-80). *)
Definition set_changes (f : fs) (x : upper_entry) (ufd : details) : res (list change) :=
  if is_removed f (ue_details x) then Ok []
  else
    rbind (is_renamed f ufd) (λ r,
      match r with
      | Some _ =>
          match ue_source_details x with
          | None => Ok [Change (ue_lower x) (OError RedirectPathNotFound) None
                          (Some (ue_details x)) None]
          | Some sd => Ok [Change (ue_lower x) ORename (Some sd) (Some (ue_details x)) None]
          end
      | None =>
          let t := N.land (d_mode (ue_details x)) S_IFMT in
          if negb (N.eqb t S_IFREG) && negb (N.eqb t S_IFDIR) && negb (N.eqb t S_IFLNK)
          then Ok [Change (ue_lower x) (OError UnsupportedFileType) (ue_source_details x)
                     (Some ufd) None]
          else
            let ty :=
              match ue_source_details x with
              | Some _ => if has_opaque_ancestor f (ue_upper x) then Create else Modify
              | None => Create
              end in
            Ok [Change (ue_lower x) (OSet ty) (ue_source_details x) (Some ufd) None]
      end).

(** changes.rs:78-205, one iteration *)
Definition entry_changes (e : env) (f : fs) (renamed : list path) (x : upper_entry)
  : res (list change) :=
  rbind (from_path f (ue_upper x)) (λ od,
    match od with
    | None => Err (EApp "Failed to get file details for upper path")
    | Some ufd =>
        rbind (remove_changes e f renamed x) (λ rs,
          rbind (set_changes f x ufd) (λ ss, Ok (rs ++ ss)))
    end).

(** changes.rs:54-208 *)
Definition changes (e : env) (f : fs) (upper_base : path) (include_ignored : bool)
  : res (list change) :=
  rbind (upper_entries e f upper_base include_ignored) (λ es,
    rbind (renamed_paths f es) (λ rp,
      rbind (rmap (entry_changes e f rp) es) (λ css, Ok (mjoin css)))).

(** ** Comparators, changes.rs:549-569 *)
Definition by_reverse_source (a b : change) : comparison :=
  match c_source a, c_source b with
  | Some x, Some y => path_cmp (d_path y) (d_path x)
  | Some _, None => Lt
  | None, Some _ => Gt
  | None, None => Eq
  end.
Definition by_destination (a b : change) : comparison := path_cmp (c_dest a) (c_dest b).
Definition by_staged_descending (a b : change) : comparison :=
  match c_staged a, c_staged b with
  | Some x, Some y => path_cmp (d_path y) (d_path x)
  | Some _, None => Gt
  | None, Some _ => Lt
  | None, None => path_cmp (c_dest b) (c_dest a)
  end.
