(** * Ignore rules: /repo/src/sandbox/changes/changes.rs:27-45, 383-547.

    [fast_glob::glob_match] is an external crate: a parameter [glob]. Simplifications: [str::trim]
    is taken to trim ASCII white space. *)
From Verif Require Export FS Utf8.

Record ignore_pattern := IP { ip_negate : bool; ip_pattern : string }.

(** changes.rs:37-45 *)
Definition BUILT_IN : list string :=
  [ "/tmp/**"; "/home/*/.*/**"; "/home/*/.*"; "/root/.*/**"; "/root/.*"; "**/.git/**"; "**/.git" ].

Definition is_space (c : ascii) : bool :=
  let n := nat_of_ascii c in ((9 <=? n) && (n <=? 13)) || (n =? 32).

Fixpoint trim_start (s : string) : string :=
  match s with
  | String c s' => if is_space c then trim_start s' else s
  | EmptyString => ""
  end.
Definition trim_end (s : string) : string := str_rev (trim_start (str_rev s)).
Definition trim (s : string) : string := trim_end (trim_start s).

(** [str::lines]: pieces between newlines; a piece ended by a newline loses one trailing carriage
    return; nothing after a final newline. *)
Definition chop_cr (s : string) : string :=
  match str_rev s with
  | String c r => if Ascii.eqb c "013" then str_rev r else s
  | EmptyString => s
  end.
Definition lines (s : string) : list string :=
  let ps := split_on "010" s in
  let fin := default "" (last ps) in
  (chop_cr <$> removelast ps) ++ (if String.eqb fin "" then [] else [fin]).

(** [String::pop] of an ASCII last character. *)
Definition pop_last (s : string) : string :=
  match str_rev s with String _ r => str_rev r | EmptyString => s end.

(** [s.replace("//", "/")]: one left-to-right pass over non-overlapping occurrences. *)
Fixpoint replace_dslash (s : string) : string :=
  match s with
  | String a (String b r as s') =>
      if (Ascii.eqb a "/" && Ascii.eqb b "/") then String "/" (replace_dslash r)
      else String a (replace_dslash s')
  | _ => s
  end.

(** changes.rs:494-496, the [while contains("//")] loop; each pass shortens the string, so
    [length s] passes suffice (proved in IgnoreFacts). *)
Fixpoint collapse_fuel (n : nat) (s : string) : string :=
  if contains "//" s then
    match n with O => s | S n' => collapse_fuel n' (replace_dslash s) end
  else s.
Definition collapse (s : string) : string := collapse_fuel (String.length s) s.

(** [trim_end_matches('/')] *)
Fixpoint drop_slashes (s : string) : string :=
  match s with
  | String c s' => if Ascii.eqb c "/" then drop_slashes s' else s
  | EmptyString => ""
  end.
Definition trim_end_slashes (s : string) : string := str_rev (drop_slashes (str_rev s)).

(** Result of reading one line: nothing for blanks and comments. *)
Definition tail_str (s : string) : string :=
  match s with String _ r => r | EmptyString => "" end.

(** changes.rs:472-476 *)
Definition line_text (line : string) : string :=
  if ends_with "\ " line then pop_last (trim line) +:+ " " else trim line.

(** changes.rs:481-491 *)
Definition line_negate (t : string) : bool :=
  if starts_with "\!" t then false else starts_with "!" t.
Definition line_body (t : string) : string :=
  if starts_with "\!" t then tail_str t else if starts_with "!" t then tail_str t else t.

(** changes.rs:506-518 *)
Definition anchor (t : string) : string :=
  if starts_with "/" t then tail_str t
  else if negb (contains "/" t) && negb (starts_with "**" t) then "**/" +:+ t
  else t.

(** changes.rs:471-546, one iteration of the loop *)
Definition parse_line (line : string) : list ignore_pattern :=
  let t := line_text line in
  if String.eqb t "" || starts_with "#" t then []
  else
    let negate := line_negate t in
    let body := anchor (collapse (line_body t)) in
    let only_dirs := ends_with "/" body in
    let pat :=
      if only_dirs && negb (ends_with "/**" body) then trim_end_slashes body +:+ "/**" else body in
    (if negb only_dirs && negb (contains "*" t) && negb (contains "?" t)
     then [IP negate (pat +:+ "/**")] else []) ++ [IP negate pat].

(** changes.rs:470-547 *)
Definition parse_ignore_content (content : string) : list ignore_pattern :=
  mjoin (parse_line <$> lines content).

(** [std::fs::read_to_string]: fails on a missing file and on invalid UTF-8. *)
Definition read_to_string (f : fs) (p : path) : option string :=
  match read_file f p with
  | Ok c => if utf8_valid c then Some c else None
  | Err _ => None
  end.

(** changes.rs:452-467 *)
Definition resolve_ignore_file (f : fs) (upper_dir lower_dir : path) (name : string)
  : list ignore_pattern :=
  match read_to_string f (upper_dir ++ [name]) with
  | Some c => parse_ignore_content c
  | None =>
      match read_to_string f (lower_dir ++ [name]) with
      | Some c => parse_ignore_content c
      | None => []
      end
  end.
Definition resolve_ignores (f : fs) (upper_dir lower_dir : path) : list ignore_pattern :=
  resolve_ignore_file f upper_dir lower_dir ".gitignore"
  ++ resolve_ignore_file f upper_dir lower_dir ".ignore".

(** changes.rs:439-443 *)
Definition apply_patterns (glob : string → string → bool) (rel : string)
    (ignored : bool) (ps : list ignore_pattern) : bool :=
  foldl (λ acc p, if glob (ip_pattern p) rel then negb (ip_negate p) else acc) ignored ps.

Notation cache := (gmap path (list ignore_pattern)).

(** changes.rs:422-444: for each component, extend both directories, look the rules up in the
    cache (filling it), and apply them to the remaining components. *)
Fixpoint ignore_loop (glob : string → string → bool) (f : fs) (cur_upper cur_lower : path)
    (todo : list string) (ignored : bool) (c : cache) : bool * cache :=
  match todo with
  | [] => (ignored, c)
  | x :: rest =>
      let cu := cur_upper ++ [x] in
      let cl := cur_lower ++ [x] in
      let '(ps, c') :=
        match c !! cl with
        | Some ps => (ps, c)
        | None => let ps := resolve_ignores f cu cl in (ps, <[cl := ps]> c)
        end in
      ignore_loop glob f cu cl rest (apply_patterns glob (join_comps rest) ignored ps) c'
  end.

(** changes.rs:383-447. [base] are the components of the mount point, [enc] its directory name
    in the upper tree, [sub] the path below it. A path that is not UTF-8 panics (line 392-394). *)
Definition is_ignored (glob : string → string → bool) (f : fs) (upper_base : path)
    (enc : string) (base sub : path) (c : cache) : res bool * cache :=
  let s := path_str (base ++ sub) in
  if negb (utf8_valid s) then (Err (EPanic "lower_path should have a string representation"), c)
  else if existsb (λ pat, glob pat s) BUILT_IN then (Ok true, c)
  else
    let '(b, c') := ignore_loop glob f (upper_base ++ [enc]) base sub false c in (Ok b, c').
