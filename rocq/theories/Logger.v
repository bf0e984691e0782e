(** * The logger: /repo/src/logger.rs and its use in /repo/src/main.rs:39-71.

    Simplification: a message is the already formatted line (colours and the level prefix,
    logger.rs:66-87, are a function of the record and are part of the line). *)
From Verif Require Export Base.

(** log::Level and log::LevelFilter as numbers: Off 0, Error 1, Warn 2, Info 3, Debug 4, Trace 5;
    [level <= filter] (logger.rs:39 and 58) is the crate's derived order. *)
Definition OFF : nat := 0. Definition ERROR : nat := 1. Definition WARN : nat := 2.
Definition INFO : nat := 3. Definition DEBUG : nat := 4. Definition TRACE : nat := 5.

Notation message := (nat * string)%type.

(** logger.rs:6-11.  [lg_output] is what has been written to stderr. *)
Record logger := Logger {
  lg_level : nat;
  lg_output : list string;
  lg_deferred : list message;
  lg_defer : bool;
}.

(** logger.rs:14-21 *)
Definition new_logger (level : nat) : logger := Logger level [] [] true.

(** logger.rs:29-31 *)
Definition set_level (level : nat) (l : logger) : logger :=
  Logger level (lg_output l) (lg_deferred l) (lg_defer l).

Definition admits (filter : nat) (m : message) : bool := Nat.leb m.1 filter.

(** logger.rs:34-44: the first block, printing under the locks. *)
Definition print_pending (l : logger) : logger :=
  Logger (lg_level l) (lg_output l ++ (filter (λ m, admits (lg_level l) m = true) (lg_deferred l)).*2)
    (lg_deferred l) (lg_defer l).
(** logger.rs:45-48 *)
Definition clear_pending (l : logger) : logger := Logger (lg_level l) (lg_output l) [] (lg_defer l).
(** logger.rs:49-52 *)
Definition stop_deferring (l : logger) : logger := Logger (lg_level l) (lg_output l) (lg_deferred l) false.
(** logger.rs:33-53 *)
Definition print_deferred (l : logger) : logger := stop_deferring (clear_pending (print_pending l)).

(** logger.rs:57-59 and 61-97 *)
Definition log_ (m : message) (l : logger) : logger :=
  if lg_defer l then Logger (lg_level l) (lg_output l) (lg_deferred l ++ [m]) true
  else if admits (lg_level l) m then Logger (lg_level l) (lg_output l ++ [m.2]) (lg_deferred l) false
  else l.

(** The calls a program can make. *)
Inductive log_call := Log (m : message) | SetLevel (level : nat) | PrintDeferred.
Definition log_step (l : logger) (c : log_call) : logger :=
  match c with Log m => log_ m l | SetLevel n => set_level n l | PrintDeferred => print_deferred l end.
Definition log_run (l : logger) (cs : list log_call) : logger := foldl log_step l cs.

(** main.rs:39-71: the calls [main] makes. [cfg] are the messages logged while the configuration
    is being resolved (between lines 46 and 69), [rest] everything logged afterwards. *)
Definition main_calls (cli_level : option nat) (cfg : list message) (config_level : nat) (rest : list message)
  : list log_call :=
  [SetLevel (match cli_level with Some n => n | None => INFO end)] ++ (Log <$> cfg) ++
  [SetLevel config_level; PrintDeferred] ++ (Log <$> rest).

(** The same logger called by several threads: [print_deferred] is three critical sections
    (logger.rs:34-44, 45-48, 49-52), between which other threads may log. *)
Inductive log_section := SLog (m : message) | SPrint | SClear | SStop.
Definition section_step (l : logger) (c : log_section) : logger :=
  match c with
  | SLog m => log_ m l | SPrint => print_pending l | SClear => clear_pending l | SStop => stop_deferring l
  end.
Definition section_run (l : logger) (cs : list log_section) : logger := foldl section_step l cs.
