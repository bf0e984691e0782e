(** * Which configuration files are read, and the default bind mounts: /repo/src/config/resolve.rs:369-429 and 541-648.

    Together with [Config.resolve_config] this is the whole of resolve.rs:64-367 except the choice of the storage
    directory (Storage.v) and of automatic names (Lifecycle.v). *)
From Verif Require Export Config Creds.

(** resolve.rs:369-429: [exists] follows links. *)
Definition default_binds (f : fs) (cwd : path) (env : environ) (home : string) (net : network) : list string :=
  (if exists_ f ["dev"; "fuse"] then ["/dev/fuse"] else [])
  ++ match net with
     | NetNone => []
     | NetHost =>
         (if exists_ f ["run"; "dbus"] then ["/run/dbus"] else [])
         ++ match env !! "XDG_RUNTIME_DIR" with
            | None | Some "" => []
            | Some d => if path_exists f cwd (join_str d "bus") then [join_str d "bus"] else []
            end
         ++ (if exists_ f ["run"; "systemd"] then ["/run/systemd"] else [])
     end
  ++ filter (λ s, path_exists f cwd s = true) (join_str home <$> [".claude"; ".aider"; ".cursor"]).

Section files.
  (** [toml]: the TOML parser, an external crate; its error message may quote the text.
      [cli]: the files of --config, already split at commas by clap (cli.rs:92-99). *)
  Context (toml : string → res partial) (env : environ) (c : cred) (cwd : path) (no_config : bool) (cli : option (list string)).

  (** resolve.rs:541-572 and 609-648. The credentials are those before the call: [can_access] restores them
      (C49_checks_use_callers_rights_partial). *)
  Definition chosen_files (f : fs) : res (list string) :=
    if no_config then Ok []
    else
      match cli with
      | Some files =>
          collect (λ s, rbind (expand_tilde (rbind (resolve_uid_gid_home env c f) (λ u, Ok (ugh_home u))) s) (λ p,
                     if path_exists f cwd p then Ok p else Err (EApp "Config file not found")))
            (filter (λ s, s ≠ "") files)
      | None =>
          rbind (resolve_uid_gid_home env c f) (λ u,
            Ok (filter (λ s, (path_exists f cwd s && is_ok (can_access f (comps s) (ugh_uid u) (ugh_gid u) 4 c).2)%bool = true)
                  (path_str <$> config_search (comps (ugh_home u)) cwd)))
      end.

  (** [std::fs::read_to_string], with the rights of the process (root if set-uid). Simplification: text that is not
      UTF-8 is left to [toml] to refuse. *)
  Definition read_to_string (f : fs) (s : string) : res string :=
    rbind (lookup_f f (kernel_path cwd s)) (λ q,
      match f !! q with
      | None => Err ENOENT
      | Some n => match n_kind n with KFile t => Ok t | KDir => Err EISDIR | _ => Err (EApp "cannot be read") end
      end).

  (** resolve.rs:583-603 *)
  Definition files_loaded (f : fs) : res (list (string * partial)) :=
    rbind (chosen_files f)
      (collect (λ s, rbind (read_to_string f s) (λ t, rbind (toml t) (λ p, Ok (s, p))))).

  (** resolve.rs:64-67: all of it. *)
  Definition configure (ord : list bind_mount → list bind_mount) (storage new_name last_name : option string → res string)
      (a : args) (f : fs) : res config :=
    rbind (resolve_uid_gid_home env c f) (λ u,
      rbind (files_loaded f) (λ files,
        resolve_config (World env files f cwd (Ok u) (default_binds f cwd env (ugh_home u)) ord storage new_name last_name) a)).
End files.
