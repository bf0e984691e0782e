(** * /repo/src/actions/status.rs and /repo/src/actions/diff.rs *)
From Verif Require Export ChangeEntries.

(** status.rs:34-40 and the four filters: the changes that are printed. *)
Definition is_error (c : change) : bool := match c_op c with OError _ => true | _ => false end.
Definition is_remove (c : change) : bool := match c_op c with ORemove => true | _ => false end.
Definition is_rename (c : change) : bool := match c_op c with ORename => true | _ => false end.
Definition is_modified_set (c : change) : bool :=
  match c_op c with OSet _ => is_actually_modified c | _ => false end.
Definition not_placeholder (c : change) : bool :=
  match c_op c with OSet _ => is_actually_modified c | _ => true end.

(** status.rs:41-83: the entries printed, in order; each stage re-sorts the same list. *)
Definition printed (l : list change) : list change :=
  let l1 := sort_by by_destination l in
  let l2 := sort_by by_reverse_source l1 in
  let l3 := sort_by by_reverse_source l2 in
  let l4 := sort_by by_destination l3 in
  filter (λ c, is_error c = true) l1 ++ filter (λ c, is_remove c = true) l2
  ++ filter (λ c, is_rename c = true) l3 ++ filter (λ c, is_modified_set c = true) l4.

(** What status shows: [None] is "No matching changes" (lines 84-86). *)
Record status_report := StatusReport { sr_changes : option (list change); sr_other : nat }.

(** status.rs:17-101 *)
Definition status (e : env) (f : fs) (upper_base : path) (include_ignored : bool) (patterns : list string)
  : res status_report :=
  rbind (changes e f upper_base include_ignored) (λ all,
    let l := matching (e_glob e) (e_cwd e) patterns all in
    Ok (StatusReport (if existsb not_placeholder l then Some (printed l) else None)
          (non_matching_count all l))).

(** change_entries.rs:107-157: the printed text without colours. *)
Definition rel_to (cwd p : path) : string :=
  match path_strip cwd p with Some r => join_comps r | None => path_str p end.
Definition error_text (er : change_error) : string :=
  match er with
  | UnsupportedFileType => "Unsupported file type. Only files, directories, and symlinks are supported."
  | RedirectPathNotFound => "Redirect path not found. Was the underlying path moved or deleted?"
  end.
Definition display (cwd : path) (c : change) : string :=
  let dst := rel_to cwd (c_dest c) in
  let src := match c_source c with Some s => rel_to cwd (d_path s) | None => path_str (c_dest c) end in
  match c_op c with
  | OSet Create => "   + " +:+ dst
  | OSet Modify => "   ~ " +:+ dst
  | ORemove => "   - " +:+ src
  | ORename => "   > " +:+ src +:+ " -> " +:+ dst
  | OError er => "   ! " +:+ dst +:+ " (error: " +:+ error_text er +:+ ")"
  end.

(** diff.rs:57-148: what is done for one change. [D_diff] runs diff(1) on two paths ([None] is
    /dev/null). *)
Inductive diff_action :=
  | D_skip
  | D_moved (src dst : path)
  | D_diff (left right : option path).

Definition diff_one (f : fs) (c : change) : res diff_action :=
  match c_op c with
  | ORename =>
      match c_source c with
      | None => Err (EPanic "Rename operation must include a source entry")
      | Some s => Ok (D_moved (d_path s) (c_dest c))
      end
  | OError _ => Ok D_skip
  | OSet _ | ORemove =>
      let go :=
        rbind (match c_op c with
               | OSet _ => match c_staged c with
                           | None => Err (EPanic "Set operation must include a staged entry")
                           | Some st => Ok (Some (d_path st))
                           end
               | _ => Ok None
               end) (λ right,
          Ok (D_diff (if exists_ f (c_dest c) then Some (c_dest c) else None) right)) in
      if negb (is_file f (c_dest c)) then
        match c_staged c with
        | None => Err (EPanic "Set operation must include a staged entry")
        | Some st => if negb (d_is_file st) then Ok D_skip else go
        end
      else go
  end.

(** Reading the output of diff(1) line by line fails on bytes that are not UTF-8 (lines
    131-133). [out] gives that output. *)
Definition diff_run (out : option path → option path → string) (f : fs) (c : change) : res unit :=
  rbind (diff_one f c) (λ a,
    match a with
    | D_diff l r => if utf8_valid (out l r) then Ok tt else Err (EApp "Failed to read line from diff output")
    | _ => Ok tt
    end).

Fixpoint diff_all (out : option path → option path → string) (f : fs) (cs : list change) : res unit :=
  match cs with
  | [] => Ok tt
  | c :: cs' => rbind (diff_run out f c) (λ _, diff_all out f cs')
  end.

(** diff.rs:15-148 *)
Definition diff (out : option path → option path → string) (e : env) (f : fs) (upper_base : path)
    (include_ignored : bool) (patterns : list string) : res unit :=
  rbind (changes e f upper_base include_ignored) (λ all,
    diff_all out f (matching (e_glob e) (e_cwd e) patterns all)).
