(** * /repo/src/sandbox/changes/change_entries.rs *)
From Verif Require Export Changes.

(** change_entries.rs:165-203 *)
Definition is_actually_modified (c : change) : bool :=
  match c_op c, c_staged c, c_source c with
  | OSet Modify, Some st, Some so =>
      if negb (N.eqb (d_gid st) (d_gid so)) then true
      else if negb (N.eqb (d_uid st) (d_uid so)) then true
      else if negb (N.eqb (d_mode st) (d_mode so)) then true
      else negb (d_is_dir st)
  | _, _, _ => true
  end.

(** change_entries.rs:245-252: normalise the components, [..] pops. *)
Definition norm_step (acc : path) (c : string) : path :=
  if String.eqb c ".." then removelast acc else acc ++ [c].
Definition normalize (cs : list string) : path := foldl norm_step [] cs.

(** [path.display().to_string()]: the path as text, ill-formed parts of names replaced. *)
Definition shown_path (p : path) : string := lossy (path_str p).
(** [cwd.display()] *)
Definition cwd_str (cwd : path) : string := shown_path cwd.

(** change_entries.rs:231-276, for one pattern. A pattern given is valid UTF-8 (a [String]), and so is
    the text made of it: the last conversion to text (line 253) changes nothing and is left out. *)
Definition norm_pattern (all : list change) (cwd : path) (pattern : string) : string :=
  let negate := starts_with "!" pattern in
  let pattern := if negate then tail_str pattern else pattern in
  let pattern := if starts_with "/" pattern then pattern
                 else cwd_str cwd +:+ "/" +:+ pattern in
  let pattern := path_str (normalize (comps pattern)) in
  let pattern :=
    if ends_with "/" pattern then pattern +:+ "**"
    else if existsb (λ c, starts_with (pattern +:+ "/") (shown_path (c_dest c))) all
    then pattern +:+ "/**" else pattern in
  if negate then "!" +:+ pattern else pattern.

(** change_entries.rs:227-302 *)
Definition matching (glob : string → string → bool) (cwd : path) (patterns : list string)
    (all : list change) : list change :=
  let pats := norm_pattern all cwd <$> patterns in
  let pre := cwd_str cwd +:+ "/" in
  filter (λ c, (match pats with
                | [] => starts_with pre (shown_path (c_dest c))
                | _ => existsb (λ p, glob p (shown_path (c_dest c))) pats
                end) = true) all.

(** change_entries.rs:305-314 *)
Definition actionable (c : change) : bool :=
  match c_op c with
  | OSet _ => is_actually_modified c
  | ORemove => true
  | ORename => true
  | OError _ => false
  end.
Definition count_actionable (l : list change) : nat := length (filter (λ c, actionable c = true) l).

(** change_entries.rs:316-323: [saturating_sub] is [Nat.sub]. *)
Definition non_matching_count (all sel : list change) : nat :=
  count_actionable all - count_actionable sel.
