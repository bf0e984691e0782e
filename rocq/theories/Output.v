(** * What the program prints, the question of `delete`, and the end of a run.
    /repo/src/util/output.rs, /repo/src/main.rs:41-172, /repo/src/actions/{config,sync,list,status,diff,
    reject,accept,delete,stop}.rs, /repo/src/sandbox/changes/change_entries.rs:49-76,
    /repo/src/sandbox/changes/changes.rs:210-273. Colours are left out. *)
From Verif Require Export Config Lifecycle Status Reject.

(** serde_json::Value, as far as it is used *)
Inductive json :=
  | JNull
  | JStr (s : string)
  | JArr (l : list json)
  | JObj (l : list (string * json)).

(** What an action does to its surroundings besides changing the machine: a line for the user
    (output.rs:20-28, [outln!]), a field of the JSON object (output.rs:30-35, [set_json_output]), the
    question on standard error with one line read from standard input (delete.rs:157-163). *)
Inductive event :=
  | Line (s : string)
  | Put (key : string) (v : json)
  | Ask.

(** A computation with output. *)
Record pout (A : Type) := POut { po_trace : list sys; po_sys : sys; po_ev : list event; po_res : res A }.
Arguments POut {A} po_trace po_sys po_ev po_res.
Arguments po_trace {A} p.
Arguments po_sys {A} p.
Arguments po_ev {A} p.
Arguments po_res {A} p.
Definition P_ (A : Type) := sys → pout A.
Definition plift {A : Type} (m : S_ A) : P_ A := λ s,
  let o := m s in POut (so_trace o) (so_sys o) [] (so_res o).
Definition pret {A : Type} (a : A) : P_ A := plift (sret a).
Definition pget {A : Type} (r : sys → res A) : P_ A := plift (sget r).
Definition say (v : event) : P_ unit := λ s, POut [] s [v] (Ok tt).
Definition pbind {A B : Type} (m : P_ A) (k : A → P_ B) : P_ B := λ s,
  let o := m s in
  match po_res o with
  | Ok a => let o' := k a (po_sys o) in
            POut (po_trace o ++ po_trace o') (po_sys o') (po_ev o ++ po_ev o') (po_res o')
  | Err e => POut (po_trace o) (po_sys o) (po_ev o) (Err e)
  end.
Declare Scope p_scope.
Delimit Scope p_scope with P_.
Notation "x <~p m ;p k" := (pbind m (λ x, k)) (at level 100, m at next level, right associativity) : p_scope.
Notation "m ;p k" := (pbind m (λ _, k)) (at level 100, right associativity) : p_scope.
Open Scope p_scope.
Fixpoint pfor {A : Type} (l : list A) (f : A → P_ unit) : P_ unit :=
  match l with [] => pret tt | x :: l' => f x ;p pfor l' f end.

(** ** Texts *)
Definition show_nat (n : nat) : string := show_pid (N.of_nat n).
(** [Path::display().to_string()] *)
Definition display_path (p : path) : string := lossy (path_str p).
Definition pb_str (p : pbuf) : string := (if pb_abs p then "/" else "") +:+ join_comps (pb_comps p).
Fixpoint join_with (sep : string) (l : list string) : string :=
  match l with
  | [] => ""
  | [x] => x
  | x :: l' => x +:+ sep +:+ join_with sep l'
  end.

(** change_entries.rs:50-76 *)
Definition op_name (o : operation) : string :=
  match o with
  | OSet Create => "create"
  | OSet Modify => "modify"
  | ORemove => "remove"
  | ORename => "rename"
  | OError _ => "error"
  end.
Definition opt_json (o : option path) : json :=
  match o with Some p => JStr (display_path p) | None => JNull end.
Definition to_json (c : change) : json :=
  JObj ([("destination", JStr (display_path (c_dest c)));
         ("operation", JStr (op_name (c_op c)));
         ("source", opt_json (d_path <$> c_source c));
         ("staged", opt_json (d_path <$> c_staged c));
         ("tmp_path", opt_json (c_tmp c))]
        ++ match c_op c with
           | OError UnsupportedFileType => [("error", JStr "unsupported_file_type")]
           | OError RedirectPathNotFound => [("error", JStr "redirect_path_not_found")]
           | _ => []
           end).

(** ** count_upper_entries: changes.rs:210-273. The number of entries counted, and how many of these are
    ignored. *)
Fixpoint count_loop (e : env) (f : fs) (upper_base : path) (include_ignored : bool)
    (ps : list path) (c : cache) : res (nat * nat) :=
  match ps with
  | [] => Ok (0, 0)
  | p :: ps' =>
      match path_strip upper_base p with
      | None => Err (EApp "strip_prefix")
      | Some [] => count_loop e f upper_base include_ignored ps' c
      | Some (enc :: sub) =>
          match decode_base enc, sub with
          | Some base, _ :: _ =>
              if is_dir f p then count_loop e f upper_base include_ignored ps' c
              else
                let '(ig, c') :=
                  if include_ignored then (Ok false, c)
                  else is_ignored (e_glob e) f upper_base enc base sub c in
                rbind ig (λ b : bool,
                rbind (count_loop e f upper_base include_ignored ps' c') (λ '(n, i),
                Ok (S n, if b then S i else i)))
          | _, _ => count_loop e f upper_base include_ignored ps' c
          end
      end
  end.
(** (not ignored, ignored), changes.rs:269-272 *)
Definition count_upper_entries (e : env) (f : fs) (upper_base : path) (include_ignored : bool)
  : res (nat * nat) :=
  rbind (count_loop e f upper_base include_ignored (e_ord e (walkdir f upper_base)) ∅) (λ '(n, i),
    Ok (n - i, i)).

(** ** What a command gets from outside *)
Record opts := Opts {
  o_umask : N;
  o_ord : list N → list N;            (* order of /proc *)
  o_busy : path → bool;               (* mount points that cannot be unmounted *)
  o_env : env;
  o_storage : path;
  o_name : string;                    (* the configured name *)
  o_ignored : bool;                   (* --ignored *)
  o_answer : res string;              (* the line read from standard input *)
  o_diff : option path → option path → string; (* diff(1) *)
  o_sync : res unit;                  (* writing /proc/sys/vm/drop_caches *)
  o_show : err → string;              (* [anyhow::Error::to_string] *)
  o_config : config;
  o_files : list string;              (* the configuration files used *)
}.
(** get_or_create.rs:52: the tree of staged entries of a sandbox *)
Definition upper_of (storage : path) (name : string) : path := base_of storage name ++ ["upper"].

(** ** Actions *)
(** list.rs:14-52 *)
Definition list_cmd (o : opts) (patterns : list string) : P_ unit :=
  l <~p pget (λ s, get_sandboxes (e_glob (o_env o)) s (o_storage o) patterns) ;p
  let '(run, stopped) := (l : list string * list string) in
  (match run with [] => pret tt | _ => say (Line "Running sandboxes:") ;p pfor run (λ n, say (Line n)) end) ;p
  (match run, stopped with _ :: _, _ :: _ => say (Line "") | _, _ => pret tt end) ;p
  (match stopped with [] => pret tt | _ => say (Line "Stopped sandboxes:") ;p pfor stopped (λ n, say (Line n)) end) ;p
  say (Put "running_sandboxes" (JArr (JStr <$> run))) ;p
  say (Put "stopped_sandboxes" (JArr (JStr <$> stopped))).

(** status.rs:17-101 *)
Definition newline : string := String "010" "".
Definition status_cmd (o : opts) (patterns : list string) : P_ unit :=
  r <~p pget (λ s, status (o_env o) (s_fs s) (upper_of (o_storage o) (o_name o)) (o_ignored o) patterns) ;p
  (match sr_changes r with
   | Some l => say (Line (newline +:+ "Matching changes:")) ;p
               pfor l (λ c, say (Line (lossy (display (e_cwd (o_env o)) c))))
   | None => say (Line (newline +:+ "No matching changes"))
   end) ;p
  say (Put "changes" (JArr (to_json <$> default [] (sr_changes r)))) ;p
  (if sr_other r =? 0 then pret tt
   else say (Line (newline +:+ show_nat (sr_other r) +:+ " external or non-matching changes"))) ;p
  say (Line newline).

(** diff.rs:15-150; its output is not [outln!]'s and not part of this. *)
Definition diff_cmd (o : opts) (json : bool) (patterns : list string) : P_ unit :=
  if json then plift (sthrow (EApp "JSON mode is not supported for diff"))
  else pget (λ s, diff (o_diff o) (o_env o) (s_fs s) (upper_of (o_storage o) (o_name o)) (o_ignored o) patterns).

(** reject.rs:10-56 *)
Definition reject_cmd (o : opts) (patterns : list string) : P_ unit :=
  n <~p plift (lift_fs (reject (o_env o) (upper_of (o_storage o) (o_name o)) (o_ignored o) patterns)) ;p
  pget (λ _, o_sync o) ;p
  say (Line ("Rejected " +:+ show_nat n +:+ " changes")).

(** accept.rs:118-438. The JSON list built at 268-272 is never used. *)
Definition accept_cmd (o : opts) (patterns : list string) : P_ unit :=
  r <~p plift (lift_fs (accept (o_env o) (upper_of (o_storage o) (o_name o)) (o_ignored o) patterns)) ;p
  (match rep_accepted r with
   | Some 0 => pret tt
   | Some n => say (Line (newline +:+ show_nat n +:+ " changes accepted" +:+ newline))
   | None => say (Line (newline +:+ "No changes in this directory to accept" +:+ newline))
   end) ;p
  (if rep_other r =? 0 then pret tt
   else say (Line (newline +:+ show_nat (rep_other r) +:+ " external or non-matching not accepted" +:+ newline))) ;p
  say (Line newline) ;p
  pget (λ _, o_sync o).

(** sync.rs:8-13 *)
Definition sync_cmd (o : opts) : P_ unit :=
  pget (λ _, o_sync o) ;p
  say (Put "sync" (JStr "success")) ;p
  say (Line "Synchronized host changes").

(** ** `config`: actions/config.rs *)
(** resolve.rs:270-291 (the storage directory is an absolute path). *)
Record derived := Derived { dv_dir : path; dv_upper : path; dv_overlay : path }.
Definition derive (f : fs) (cwd : path) (storage : path) (name : string) : res derived :=
  rbind (find_mount_point f cwd) (λ mp,
  match path_strip mp cwd with
  | None => Err (EApp "prefix not found")
  | Some r =>
      let hash := b32_encode (lossy (path_str mp)) in
      Ok (Derived (base_of storage name)
            (base_of storage name ++ ["upper"; hash] ++ r)
            (base_of storage name ++ ["overlay"; hash] ++ r))
  end).
(** [Path::to_str().unwrap_or("<error>")] *)
Definition to_str_or_error (s : string) : string := if utf8_valid s then s else "<error>".
Definition show_level (n : nat) : string :=
  match n with
  | 0 => "OFF" | 1 => "ERROR" | 2 => "WARN" | 3 => "INFO" | 4 => "DEBUG" | _ => "TRACE"
  end.
Definition show_net (n : network) : string := match n with NetNone => "none" | NetHost => "host" end.
Definition show_bool (b : bool) : string := if b then "true" else "false".
Definition is_mask (b : bind_mount) : bool := match b_options b with Mask => true | _ => false end.
Definition binds_str (cfg : config) : string :=
  join_with "," (b_argument <$> filter (λ b, is_mask b = false) (c_binds cfg)).
Definition masks_str (cfg : config) : string :=
  join_with "," ((λ b, lossy (pb_str (b_target b))) <$> filter (λ b, is_mask b = true) (c_binds cfg)).
(** config.rs:56-93: the key printed and its value *)
Definition config_value (cfg : config) (files : list string) (d : derived) (key : string)
  : res (string * string) :=
  if (String.eqb key "storage_dir" || String.eqb key "storage-dir")%bool
  then Ok ("storage_dir", to_str_or_error (c_storage cfg))
  else if (String.eqb key "sandbox_dir" || String.eqb key "sandbox-dir")%bool
  then Ok ("sandbox_dir", to_str_or_error (path_str (dv_dir d)))
  else if (String.eqb key "upper_cwd" || String.eqb key "upper-cwd")%bool
  then Ok ("upper_cwd", to_str_or_error (path_str (dv_upper d)))
  else if (String.eqb key "overlay_cwd" || String.eqb key "overlay-cwd")%bool
  then Ok ("overlay_cwd", to_str_or_error (path_str (dv_overlay d)))
  else if String.eqb key "net" then Ok ("net", show_net (c_net cfg))
  else if String.eqb key "bind" then Ok ("bind", binds_str cfg)
  else if String.eqb key "mask" then Ok ("mask", masks_str cfg)
  else if String.eqb key "no_default_binds" then Ok ("no_default_binds", show_bool (c_ndb cfg))
  else if String.eqb key "name" then Ok ("name", c_name cfg)
  else if String.eqb key "log_level" then Ok ("log_level", show_level (c_level cfg))
  else if String.eqb key "ignored" then Ok ("ignored", show_bool (c_ignored cfg))
  else if String.eqb key "config_files" then Ok ("config_files", join_with "," files)
  else Err (EApp ("Unknown key: " +:+ key)).
(** config.rs:11-27 *)
Definition default_keys : list string :=
  ["name"; "net"; "log_level"; "bind"; "mask"; "no_default_binds"; "storage_dir"; "sandbox_dir";
   "upper_cwd"; "overlay_cwd"; "ignored"; "config_files"].
Definition options_str (o : bopt) : string :=
  match o with ReadWrite => "ReadWrite" | ReadOnly => "ReadOnly" | Mask => "Mask" end.
Definition bind_json (b : bind_mount) : json :=
  JObj [("source", JStr (lossy (pb_str (b_source b)))); ("target", JStr (lossy (pb_str (b_target b))));
        ("options", JStr (options_str (b_options b))); ("argument", JStr (b_argument b))].
(** config.rs:10-134. Simplification: the paths derived from the storage directory are computed here
    (resolve.rs:270-291 does it while the configuration is resolved). *)
Definition config_cmd (o : opts) (keys : option (list string)) : P_ unit :=
  let ks := default default_keys keys in
  d <~p pget (λ s, derive (s_fs s) (e_cwd (o_env o)) (o_storage o) (o_name o)) ;p
  pfor ks (λ key,
    kv <~p pget (λ _, config_value (o_config o) (o_files o) d key) ;p
    say (Put (fst kv) (JStr (snd kv))) ;p
    say (Line (if 1 <? length ks then fst kv +:+ "=" +:+ snd kv else snd kv))) ;p
  say (Put "bind_mounts" (JArr (bind_json <$> c_binds (o_config o)))) ;p
  say (Put "config_files_list" (JArr (JStr <$> o_files o))).

(** ** `delete`: delete.rs:53-208 *)
(** delete.rs:61-88: running and stopped *)
Definition delete_names (o : opts) (patterns : list string) : S_ (list string * list string) :=
  match patterns with
  | [] =>
      there <~~ sget (λ s, Ok (sandbox_exists (s_fs s) (o_storage o) (o_name o))) ;~
      if (there : bool) then
        sb <~~ sandbox_get (o_umask o) (o_storage o) (o_name o) ;~
        sret (match sb with Some _ => ([o_name o], []) | None => ([], [o_name o]) end)
      else sret ([], [])
  | _ => sget (λ s, get_sandboxes (e_glob (o_env o)) s (o_storage o) patterns)
  end.
(** delete.rs:128-154 *)
Definition entry_line (name : string) (stopped : bool) (n i : nat) : string :=
  "  " +:+ (if stopped then "stopped" else "running") +:+ " " +:+ name +:+ " (" +:+ show_nat n +:+
  " entries, " +:+ show_nat i +:+ " ignored)".
Definition prompt_one (o : opts) (x : string * bool) : P_ unit :=
  plift (sandbox_get_or_stopped (o_umask o) (o_storage o) (fst x)) ;p
  n <~p pget (λ s, count_upper_entries (o_env o) (s_fs s) (upper_of (o_storage o) (fst x)) (o_ignored o)) ;p
  say (Line (entry_line (fst x) (snd x) (fst n) (snd n))).
(** delete.rs:165: [trim] (ASCII white space) and comparison without regard to case *)
Definition confirms (answer : string) : bool := String.eqb (to_lowercase (Ignore.trim answer)) "y".
(** delete.rs:122-169: may the sandboxes be deleted? *)
Definition confirm (o : opts) (force : bool) (names : list (string * bool)) : P_ bool :=
  if force then pret true
  else
    say (Line "The following sandboxes will be deleted:") ;p
    pfor names (prompt_one o) ;p
    say Ask ;p
    a <~p pget (λ _, o_answer o) ;p
    if confirms a then pret true else say (Line "Delete operation cancelled.") ;p pret false.
(** delete.rs:171-199. Simplification: [sandbox_delete] itself does not panic. *)
Fixpoint delete_loop (o : opts) (names : list string) : P_ (list string * list string) :=
  match names with
  | [] => pret ([], [])
  | name :: l =>
      sb <~p plift (sandbox_get_or_stopped (o_umask o) (o_storage o) name) ;p
      r <~p plift (λ s, let d := sandbox_delete (o_ord o) (o_busy o) (e_ord (o_env o)) sb s in
                        SOut (so_trace d) (so_sys d) (Ok (so_res d))) ;p
      say (Line (match r with
                 | Ok _ => "Deleted sandbox: " +:+ name
                 | Err e => "Error deleting sandbox: " +:+ o_show o e
                 end)) ;p
      rest <~p delete_loop o l ;p
      pret (match r with
            | Ok _ => (name :: fst rest, snd rest)
            | Err e => (fst rest, o_show o e :: snd rest)
            end)
  end.
Definition delete_cmd (o : opts) (force : bool) (patterns : list string) : P_ unit :=
  l <~p plift (delete_names o patterns) ;p
  let '(run, stopped) := (l : list string * list string) in
  match run ++ stopped with
  | [] => say (Line (match patterns with
                     | [] => "No sandbox by the name of '" +:+ o_name o +:+ "' found to delete."
                     | _ => "No sandboxes found matching the specified patterns."
                     end))
  | _ =>
      go <~p confirm o force (((λ n, (n, false)) <$> run) ++ ((λ n, (n, true)) <$> stopped)) ;p
      if (go : bool) then
        r <~p delete_loop o (run ++ stopped) ;p
        say (Line (show_nat (length (fst r)) +:+ " sandboxes deleted")) ;p
        say (Put "status" (JStr "success")) ;p
        say (Put "deleted" (JArr (JStr <$> fst r))) ;p
        say (Put "errors" (JArr (JStr <$> snd r)))
      else pret tt
  end.

(** ** main.rs:91-145 *)
Inductive action :=
  | AConfig (keys : option (list string))
  | ASync
  | AList (patterns : list string)
  | AStop (all : bool) (patterns : option (list string))
  | AStatus (patterns : list string)
  | ADiff (patterns : list string)
  | AReject (patterns : list string)
  | AAccept (patterns : list string)
  | ADelete (yes : bool) (patterns : list string).
Definition stop_all_of (o : opts) (patterns : list string) : P_ unit :=
  plift (stop_all (o_umask o) (o_ord o) (o_busy o) (e_glob (o_env o)) (o_storage o) patterns).
Definition dispatch (o : opts) (json : bool) (a : action) : P_ unit :=
  match a with
  | AConfig keys => config_cmd o keys
  | ASync => sync_cmd o
  | AList patterns => list_cmd o patterns
  | AStop true _ => stop_all_of o ["*"]
  | AStop false (Some patterns) => stop_all_of o patterns
  | AStop false None => plift (stop_action (o_umask o) (o_ord o) (o_busy o) (o_storage o) (o_name o))
  | AStatus patterns => status_cmd o patterns
  | ADiff patterns => diff_cmd o json patterns
  | AReject patterns => reject_cmd o patterns
  | AAccept patterns => accept_cmd o patterns
  | ADelete yes patterns => delete_cmd o yes patterns
  end.

(** ** The end of a run: output.rs:20-35, 51-63, main.rs:146-171 *)
(** What the user sees, in order: lines (not with --json) and the question. *)
Inductive seen := Printed (s : string) | Asked.
Definition visible (json : bool) (v : event) : option seen :=
  match v with
  | Line s => if json then None else Some (Printed s)
  | Put _ _ => None
  | Ask => Some Asked
  end.
Definition fields (evs : list event) : gmap string Output.json :=
  foldl (λ m v, match v with Put k x => <[k := x]> m | _ => m end) ∅ evs.
(** The screen, the JSON object printed at the end (if one is), the exit status. *)
Record outcome := Outcome { oc_screen : list seen; oc_object : option (gmap string Output.json); oc_exit : N }.
(** A panic ends the run with status 101 (the default panic handler). *)
Definition exit_of (r : res unit) : N :=
  match r with Ok _ => 0 | Err (EPanic _) => 101 | Err _ => 1 end.
Definition object_of (show : err → string) (evs : list event) (r : res unit) : option (gmap string Output.json) :=
  match r with
  | Ok _ => Some (<["status" := JStr "success"]> (fields evs))
  | Err (EPanic _) => None
  | Err e => Some (<["error" := JStr (show e)]> (<["status" := JStr "error"]> (fields evs)))
  end.
Definition finish (show : err → string) (json : bool) (evs : list event) (r : res unit) : outcome :=
  Outcome (omap (visible json) evs) (if json then object_of show evs r else None) (exit_of r).

(** A run of the program with an action. [pre]: what happens before the action is looked at (main.rs:42-79:
    the logger, the configuration, the caller's identity, the check for root); it prints no JSON. *)
Record run := Run { rn_trace : list sys; rn_sys : sys; rn_out : outcome }.
Definition main_run (o : opts) (pre : res unit) (json : bool) (a : action) (s : sys) : run :=
  match pre with
  | Err e => Run [] s (Outcome [] None (exit_of (Err e)))
  | Ok _ => let p := dispatch o json a s in
            Run (po_trace p) (po_sys p) (finish (o_show o) json (po_ev p) (po_res p))
  end.
