(** * Configuration: /repo/src/config/resolve.rs, structs.rs, impls.rs, /repo/src/util/expand_tilde.rs.

    What the program reads from outside is a [world]: environment variables, the parsed
    configuration files (the TOML parser is external), the filesystem as seen for
    [exists]/[canonicalize], the working directory, the caller's home, the iteration order of the
    hash map, and the results of choosing the storage directory and the automatic names (modelled
    in Storage.v and Names.v). *)
From Verif Require Export Logger FS Creds.

Inductive network := NetNone | NetHost.
Inductive bopt := ReadWrite | ReadOnly | Mask.
#[global] Instance network_eq_dec : EqDecision network.
Proof. solve_decision. Defined.
#[global] Instance bopt_eq_dec : EqDecision bopt.
Proof. solve_decision. Defined.

(** A [PathBuf] up to [==]: absolute or not, and its components ([.] dropped except in front of a
    relative path, [..] kept). *)
Record pbuf := PB { pb_abs : bool; pb_comps : list string }.
#[global] Instance pbuf_eq_dec : EqDecision pbuf.
Proof. solve_decision. Defined.
#[global] Program Instance pbuf_countable : Countable pbuf :=
  inj_countable' (λ p, (pb_abs p, pb_comps p)) (λ x, PB x.1 x.2) _.
Next Obligation. by intros [??]. Qed.

Definition to_pbuf (s : string) : pbuf :=
  PB (is_abs s)
    (match split_on "/" s with
     | "."%string :: _ => "."%string :: comps s
     | _ => comps s
     end).

(** structs.rs:7-13 *)
Record bind_mount := BindMount { b_source : pbuf; b_target : pbuf; b_options : bopt; b_argument : string }.
#[global] Instance bind_mount_eq_dec : EqDecision bind_mount.
Proof. solve_decision. Defined.

(** structs.rs:28-42 *)
Definition parse_options (s : string) : res bopt :=
  if String.eqb s "" || String.eqb s "rw" then Ok ReadWrite
  else if String.eqb s "ro" then Ok ReadOnly
  else if String.eqb s "mask" then Ok Mask
  else Err (EApp "Unknown bind mount option").

(** [str::to_lowercase] on ASCII letters (no other character lower-cases to a letter of the words
    compared with). *)
Definition lower (a : ascii) : ascii :=
  let n := N_of_ascii a in if (N.leb 65 n && N.leb n 90)%bool then ascii_of_N (n + 32) else a.
Definition to_lowercase (s : string) : string := of_bytes (lower <$> to_bytes s).

(** impls.rs:9-19 *)
Definition parse_network (s : string) : option network :=
  let l := to_lowercase s in
  if String.eqb l "none" then Some NetNone else if String.eqb l "host" then Some NetHost else None.
(** [log::LevelFilter::from_str]: case insensitive. *)
Definition parse_level (s : string) : option nat :=
  let l := to_lowercase s in
  if String.eqb l "off" then Some OFF else if String.eqb l "error" then Some ERROR
  else if String.eqb l "warn" then Some WARN else if String.eqb l "info" then Some INFO
  else if String.eqb l "debug" then Some DEBUG else if String.eqb l "trace" then Some TRACE else None.
(** [bool::from_str] *)
Definition parse_bool (s : string) : option bool :=
  if String.eqb s "true" then Some true else if String.eqb s "false" then Some false else None.

(** ** Bind mounts *)

(** [str::splitn(3, ':')]: up to two cuts at the first colons. *)
Fixpoint split_once (c : ascii) (s : string) : option (string * string) :=
  match s with
  | EmptyString => None
  | String a s' => if Ascii.eqb a c then Some ("", s')
                   else match split_once c s' with
                        | Some (x, y) => Some (String a x, y)
                        | None => None
                        end
  end.
Definition splitn3 (s : string) : list string :=
  match split_once ":" s with
  | None => [s]
  | Some (a, r) => match split_once ":" r with None => [a; r] | Some (b, o) => [a; b; o] end
  end.

(** [PathBuf::join] on strings. *)
Definition join_str (a b : string) : string :=
  if is_abs b then b else if ends_with "/" a then a +:+ b else a +:+ "/" +:+ b.

(** expand_tilde.rs:6-17; [home] is the result of resolve_uid_gid_home. *)
Definition expand_tilde (home : res string) (s : string) : res string :=
  if starts_with "~" s then
    rbind home (λ h,
      if String.eqb s "~" then Ok h
      else match strip_prefix "~/" s with Some rest => Ok (join_str h rest) | None => Ok s end)
  else Ok s.

(** The path a string names for the kernel, relative to the working directory. *)
Definition kernel_path (cwd : path) (s : string) : path := if is_abs s then comps s else cwd ++ comps s.

(** [Path::exists] and [Path::canonicalize] (realpath): simplification, a trailing slash after a
    non-directory is not an error here. The empty path does not exist. *)
Definition path_exists (f : fs) (cwd : path) (s : string) : bool :=
  negb (String.eqb s "") && exists_ f (kernel_path cwd s).
Definition canonicalize (f : fs) (cwd : path) (s : string) : res pbuf :=
  if String.eqb s "" then Err ENOENT
  else rbind (lookup_f f (kernel_path cwd s)) (λ q,
         match f !! q with Some _ => Ok (PB true q) | None => Err ENOENT end).

(** resolve.rs:23-62 *)
Definition parse_bind_mount (f : fs) (cwd : path) (home : res string) (arg : string) : res bind_mount :=
  let parts := splitn3 arg in
  let p0 := default "" (parts !! 0) in
  rbind (expand_tilde home p0) (λ source,
  rbind (match parts !! 1 with
         | Some t => if String.eqb t "" then Ok source else expand_tilde home t
         | None => Ok source
         end) (λ target,
  rbind (canonicalize f cwd source) (λ csource,
  rbind (if path_exists f cwd target then canonicalize f cwd target else Ok (to_pbuf target)) (λ ctarget,
  rbind (match parts !! 2 with Some o => parse_options o | None => Ok ReadWrite end) (λ options,
    Ok (BindMount csource ctarget options arg)))))).

(** ** Partial configurations *)

(** structs.rs:52-63 *)
Record partial := Partial {
  p_level : option nat;
  p_name : option string;
  p_storage : option string;
  p_net : option network;
  p_ignored : option bool;
  p_bind : option (list string);
  p_mask : option (list string);
  p_ndb : option bool;
}.
Definition partial_default : partial := Partial None None None None None None None None.

(** [match base { Some(v) => v.extend(x), None => base = Some(x) }] *)
Definition extend (base : option (list string)) (x : list string) : option (list string) :=
  match base with Some v => Some (v ++ x) | None => Some x end.
(** [if let Some(v) = over { base = Some(v) }] *)
Definition over {A : Type} (base x : option A) : option A := match x with Some _ => x | None => base end.

Notation sources := (gmap string string).
Definition note {A : Type} (x : option A) (key src : string) (s : sources) : sources :=
  match x with Some _ => <[key := src]> s | None => s end.

(** resolve.rs:652-697 *)
Definition merge_configs (base : partial * sources) (conf : partial) (src : string) : partial * sources :=
  let '(b, s) := base in
  (Partial (over (p_level b) (p_level conf)) (over (p_name b) (p_name conf))
     (over (p_storage b) (p_storage conf)) (over (p_net b) (p_net conf))
     (over (p_ignored b) (p_ignored conf))
     (match p_bind conf with Some x => extend (p_bind b) x | None => p_bind b end)
     (match p_mask conf with Some x => extend (p_mask b) x | None => p_mask b end)
     (over (p_ndb b) (p_ndb conf)),
   note (p_mask conf) "mask" src (note (p_bind conf) "bind" src
     (note (p_ndb conf) "no_default_binds" src (note (p_ignored conf) "ignored" src
     (note (p_net conf) "net" src (note (p_storage conf) "storage_dir" src
     (note (p_name conf) "name" src (note (p_level conf) "log_level" src s)))))))).

(** cli.rs:12-115, the settings. [a_new], [a_last] and [a_name] exclude each other (clap
    conflicts_with, cli.rs:28-37). *)
Record args := Args {
  a_level : option nat;
  a_name : option string;
  a_new : bool;
  a_last : bool;
  a_storage : option string;
  a_net : option network;
  a_bind : option (list string);
  a_mask : option (list string);
  a_ndb : bool;
  a_ignored : bool;
}.

Record world := World {
  w_env : environ;
  w_files : list (string * partial);          (* configuration files, in loading order *)
  w_fs : fs;
  w_cwd : path;
  w_ugh : res ugh;                             (* resolve_uid_gid_home *)
  w_default_binds : network → list string;     (* get_default_bind_mounts *)
  w_order : list bind_mount → list bind_mount; (* HashMap::into_values: some permutation *)
  w_resolve_storage : option string → res string; (* resolve_sandbox_storage_dir *)
  w_new_name : option string → res string;     (* generate_timestamp_name *)
  w_last_name : option string → res string;    (* find_last_sandbox *)
}.

(** resolve.rs:541-606 for the files found (reading and TOML parsing succeed). *)
Definition load_partial (w : world) : partial * sources :=
  foldl (λ acc '(src, c), merge_configs acc c src)
    (partial_default, if decide (w_files w = []) then ∅ else {[ "config_files" := "config" ]}) (w_files w).

(** A variable that is set to a non-empty value. *)
Definition nonempty_env (w : world) (k : string) : option string :=
  match w_env w !! k with Some s => if String.eqb s "" then None else Some s | None => None end.

(** [str::trim] (ASCII white space) *)
Definition is_space (a : ascii) : bool :=
  let n := N_of_ascii a in N.eqb n 32 || (N.leb 9 n && N.leb n 13).
Fixpoint trim_start (s : string) : string :=
  match s with String a s' => if is_space a then trim_start s' else s | EmptyString => s end.
Definition trim (s : string) : string := str_rev (trim_start (str_rev (trim_start s))).
(** resolve.rs:128-132, 146-151: comma separated, trimmed, empty ones dropped. *)
Definition comma_list (s : string) : list string := filter (λ x, x ≠ "") (trim <$> split_on "," s).
(** resolve.rs:150, 224: [format!("{}:{}:mask", path, path)] *)
Definition mask_arg (p : string) : string := p +:+ ":" +:+ p +:+ ":mask".
(** resolve.rs:307 *)
Definition mask_arg_file (p : string) : string := p +:+ "::mask".

Definition add_list (b : option (list string)) (l : list string) : option (list string) :=
  match l with [] => b | _ => extend b l end.

(** resolve.rs:78-167: environment variables. *)
Definition apply_env (w : world) (a : args) (ps : partial * sources) : res (partial * sources) :=
  let '(p, s) := ps in
  rbind (match w_env w !! "SANDBOX_LOG_LEVEL" with
         | None => Ok None
         | Some v => match parse_level v with Some l => Ok (Some l) | None => Err (EApp "Invalid log level") end
         end) (λ level,
  let name := if a_new a || a_last a then None else nonempty_env w "SANDBOX_NAME" in
  let storage := nonempty_env w "SANDBOX_STORAGE_DIR" in
  rbind (match nonempty_env w "SANDBOX_NET" with
         | None => Ok None
         | Some v => match parse_network v with Some n => Ok (Some n) | None => Err (EApp "Invalid network type") end
         end) (λ net,
  rbind (match w_env w !! "SANDBOX_IGNORED" with
         | None => Ok None
         | Some v => match parse_bool v with Some b => Ok (Some b) | None => Err (EApp "Invalid SANDBOX_IGNORED") end
         end) (λ ignored,
  let binds := match w_env w !! "SANDBOX_BIND" with Some v => comma_list v | None => [] end in
  let masks := match w_env w !! "SANDBOX_MASK" with Some v => mask_arg <$> comma_list v | None => [] end in
  rbind (match w_env w !! "SANDBOX_NO_DEFAULT_BINDS" with
         | None => Ok None
         | Some v => match parse_bool v with
                     | Some b => Ok (Some b)
                     | None => Err (EPanic "Invalid value for SANDBOX_NO_DEFAULT_BINDS")
                     end
         end) (λ ndb,
  Ok (Partial (over (p_level p) level) (over (p_name p) name) (over (p_storage p) storage)
        (over (p_net p) net) (over (p_ignored p) ignored)
        (add_list (add_list (p_bind p) binds) masks) (p_mask p) (over (p_ndb p) ndb),
      note ndb "no_default_binds" "environment"
        (note (head (binds ++ masks)) "bind_mounts" "environment"
        (note ignored "ignored" "environment" (note net "net" "environment"
        (note storage "storage_dir" "environment" (note name "name" "environment"
        (note level "log_level" "environment" s))))))))))).

(** resolve.rs:169-233: command line, with automatic names. *)
Definition flag (b : bool) : option bool := if b then Some true else None.
Definition apply_cli (w : world) (a : args) (ps : partial * sources) : res (partial * sources) :=
  let '(p, s) := ps in
  let storage := over (p_storage p) (a_storage a) in
  let s := note (a_storage a) "storage_dir" "cli" (note (a_level a) "log_level" "cli" s) in
  rbind (if a_new a then rbind (w_new_name w storage) (λ n, Ok (Some n, <["name" := "cli --new"]> s))
         else if a_last a then rbind (w_last_name w storage) (λ n, Ok (Some n, <["name" := "cli --last"]> s))
         else Ok (over (p_name p) (a_name a), note (a_name a) "name" "cli" s)) (λ '(name, s),
  Ok (Partial (over (p_level p) (a_level a)) name storage (over (p_net p) (a_net a))
        (over (p_ignored p) (flag (a_ignored a)))
        (match a_mask a with
         | Some m => extend (match a_bind a with Some b => extend (p_bind p) b | None => p_bind p end) (mask_arg <$> m)
         | None => match a_bind a with Some b => extend (p_bind p) b | None => p_bind p end
         end)
        (p_mask p) (over (p_ndb p) (flag (a_ndb a))),
      note (flag (a_ndb a)) "no_default_binds" "cli" (note (flag (a_ignored a)) "ignored" "cli"
        (note (a_net a) "net" "cli" s)))).

(** resolve.rs:319-342: conflicts and duplicates. *)
Definition add_bind (m : gmap pbuf bind_mount) (b : bind_mount) : res (gmap pbuf bind_mount) :=
  match m !! b_target b with
  | Some x => if decide (b_source x = b_source b ∧ b_options x = b_options b) then Ok m
              else Err (EApp "Conflicting bind mount configurations")
  | None => Ok (<[b_target b := b]> m)
  end.
Fixpoint dedupe (m : gmap pbuf bind_mount) (l : list bind_mount) : res (gmap pbuf bind_mount) :=
  match l with
  | [] => Ok m
  | b :: l' => rbind (add_bind m b) (λ m', dedupe m' l')
  end.
(** [iter.map(f).collect::<Result<Vec<_>>>()] *)
Fixpoint collect {A B : Type} (g : A → res B) (l : list A) : res (list B) :=
  match l with
  | [] => Ok []
  | x :: l' => rbind (g x) (λ y, rbind (collect g l') (λ ys, Ok (y :: ys)))
  end.

(** structs.rs:65-78 (without the paths derived from the others) *)
Record config := Config {
  c_level : nat;
  c_name : string;
  c_storage : string;
  c_net : network;
  c_sources : sources;
  c_ignored : bool;
  c_binds : list bind_mount;
  c_ndb : bool;
}.

(** resolve.rs:699-705 *)
Definition name_ok (name : string) : bool := negb (contains "/" name).

Definition src_default (k : string) (s : sources) : sources :=
  match s !! k with Some _ => s | None => <[k := "default"]> s end.

(** resolve.rs:64-367 *)
Definition resolve_config (w : world) (a : args) : res config :=
  rbind (w_ugh w) (λ u,
  let '(p0, s0) := load_partial w in
  if (a_new a || a_last a) && (match p_name p0 with Some _ => true | None => false end ||
                               match w_env w !! "SANDBOX_NAME" with Some _ => true | None => false end)
  then Err (EApp "Cannot use --new or --last when name is specified")
  else
  rbind (apply_env w a (p0, s0)) (λ ps,
  rbind (apply_cli w a ps) (λ '(p, s),
  let name := default "sandbox" (p_name p) in
  let net := default NetNone (p_net p) in
  let ignored := default false (p_ignored p) in
  let ndb := default false (p_ndb p) in
  let s := src_default "no_default_binds" (src_default "ignored" (src_default "net" (src_default "name" s))) in
  rbind (w_resolve_storage w (p_storage p)) (λ storage,
  let s := src_default "storage_dir" s in
  let all := (if ndb then [] else w_default_binds w net) ++ default [] (p_bind p)
               ++ (mask_arg_file <$> default [] (p_mask p)) in
  rbind (collect (parse_bind_mount (w_fs w) (w_cwd w) (rbind (w_ugh w) (λ u, Ok (ugh_home u)))) all) (λ binds,
  rbind (dedupe ∅ binds) (λ m,
  let binds := w_order w (map_to_list m).*2 in
  if name_ok name
  then Ok (Config (default INFO (p_level p)) name storage net s ignored binds ndb)
  else Err (EApp "Invalid sandbox name"))))))).

(** ** Where configuration files are looked for: resolve.rs:609-650 *)

(** The loop at 614-621: from the working directory upwards until the home directory or the root. *)
Fixpoint config_dirs (n : nat) (home cur : path) : list path :=
  cur :: (if decide (cur = home) then []
          else match n with
               | O => []
               | S n' => match parent cur with Some q => config_dirs n' home q | None => [] end
               end).
(** The whole search list, in loading order (after the [reverse]); filtering the existing readable
    ones keeps the order. *)
Definition config_search (home cwd : path) : list path :=
  rev (flat_map (λ d, [d ++ [".sandbox.conf"]; d ++ [".sandbox.toml"]]) (config_dirs (length cwd) home cwd)
       ++ [home ++ [".config"; "sandbox"; "config.conf"]; home ++ [".config"; "sandbox"; "config.toml"];
           ["etc"; "sandbox.conf"]; ["etc"; "sandbox.toml"]]).
