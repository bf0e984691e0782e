(** * What `diff` runs, opens and prints: /repo/src/actions/diff.rs:45-145 (continued from Status.v).

    diff(1) is started by [std::process::Command] with the credentials and the environment of the process: nothing is
    dropped (main.rs:39-172 only checks that the effective user is root). *)
From Verif Require Export Status Config Creds.

(** ** The program: execvp(3) *)
(** The directories of PATH; glibc's default if it is not set. *)
Definition search_path (env : environ) : list string := split_on ":" (default "/bin:/usr/bin" (env !! "PATH")).
(** An empty entry is the working directory. *)
Definition candidate (cwd : path) (d name : string) : path :=
  kernel_path cwd (if String.eqb d "" then name else join_str d name).
(** execve(2): a regular file with execute permission, found with the rights of the process. Simplification: every such
    file can be executed (execvp hands files of unknown format to a shell). *)
Definition runnable (f : fs) (c : cred) (p : path) : option path :=
  match pwalk max_links f c [] p with
  | Err _ => None
  | Ok q => match f !! q with
            | Some n => if (is_kfile (n_kind n) && may c n 1)%bool then Some q else None
            | None => None
            end
  end.
Fixpoint find_program (f : fs) (c : cred) (cwd : path) (dirs : list string) (name : string) : option path :=
  match dirs with
  | [] => None
  | d :: l => match runnable f c (candidate cwd d name) with
              | Some q => Some q
              | None => find_program f c cwd l name
              end
  end.

(** ** The text *)
(** [str::replace]; the pattern is not empty here. [skip] counts the characters of a match still to be passed over. *)
Fixpoint replace_from (skip : nat) (pat rep s : string) : string :=
  match s with
  | EmptyString => ""
  | String a s' =>
      match skip with
      | S k => replace_from k pat rep s'
      | O => if starts_with pat s then rep +:+ replace_from (String.length pat - 1) pat rep s'
             else String a (replace_from 0 pat rep s')
      end
  end.
Definition replace_all (pat rep s : string) : string := replace_from 0 pat rep s.
(** diff.rs:131-140: [BufRead::lines] drops "\n" and "\r\n", and [writeln!] writes "\n". *)
Definition shown_lines (upper_cwd name text : string) : list string :=
  replace_all upper_cwd ("<" +:+ name +:+ ">") <$> lines text.

(** ** The run *)
(** One started program: its file, its credentials, the two files it compares (diff.rs:120-128). *)
Record spawn := Spawn { sp_program : path; sp_cred : cred; sp_left : option path; sp_right : option path }.
(** What appears on standard output: a line for a moved directory (diff.rs:72-84), or the lines of one diff. *)
Inductive shown := ShowMoved (src dst : path) | ShowDiff (s : spawn) (l : list string).

Section run.
  (** [out]: what diff(1) writes for two files; [upper_cwd]: the staging directory for the working directory. *)
  Context (env : environ) (c : cred) (out : option path → option path → string) (upper_cwd name : string).

  (** diff.rs:57-144. Ends at the first failure: a panic, no diff program, output that is not UTF-8. *)
  Fixpoint diff_loop (f : fs) (cwd : path) (cs : list change) : list shown :=
    match cs with
    | [] => []
    | x :: cs' =>
        match diff_one f x with
        | Err _ => []
        | Ok D_skip => diff_loop f cwd cs'
        | Ok (D_moved s d) => ShowMoved s d :: diff_loop f cwd cs'
        | Ok (D_diff l r) =>
            match find_program f c cwd (search_path env) "diff" with
            | None => []
            | Some p =>
                if utf8_valid (out l r)
                then ShowDiff (Spawn p c l r) (shown_lines upper_cwd name (out l r)) :: diff_loop f cwd cs'
                else [ShowDiff (Spawn p c l r) []]
            end
        end
    end.
  (** diff.rs:15-148. Simplification: lines printed before the one that is not UTF-8 are left out. *)
  Definition diff_shows (e : Changes.env) (f : fs) (ub : path) (inc : bool) (pats : list string) : list shown :=
    match changes e f ub inc with
    | Err _ => []
    | Ok all => diff_loop f (e_cwd e) (matching (e_glob e) (e_cwd e) pats all)
    end.
End run.
