(** * The sandbox lock as a transition system.
    /repo/src/util/lock_sandbox.rs:14-57, /repo/src/sandbox/delete.rs:19-24 (the lock file is unlinked by
    the holder), /repo/src/sandbox/get_or_create.rs:70-104 and 225-300 (the sandbox's first process is
    cloned while the lock is held and inherits the descriptor).

    The kernel's part is flock(2): a lock belongs to an open file description and is a lock on the inode;
    it goes away with an explicit LOCK_UN (nix's [Flock] does this when dropped) or when the last
    descriptor that refers to the description is closed. Processes are numbers; a process is in the table
    while it has a descriptor of the lock file. *)
From Verif Require Export Base.
From stdpp Require Export relations.

Inductive role := Command | Child.
Record desc := Desc { d_inode : N; d_locked : bool }.
Global Instance role_eq : EqDecision role.
Proof. solve_decision. Defined.
Global Instance desc_eq : EqDecision desc.
Proof. solve_decision. Defined.
Record lstate := LState {
  l_file : option N;            (* the inode at the lock path *)
  l_fresh : N;                  (* all inodes and descriptions in use are below *)
  l_descs : gmap N desc;        (* open file descriptions *)
  l_fds : gmap N (N * role);    (* process: its description, what it is *)
}.
Definition l_start : lstate := LState None 0 ∅ ∅.

(** A command that has passed [Lock::sandbox] and not yet dropped the lock. *)
Definition holds (st : lstate) (p : N) : Prop :=
  ∃ d i, l_fds st !! p = Some (d, Command) ∧ l_descs st !! d = Some (Desc i true).
Definition waits (st : lstate) (p : N) : Prop :=
  ∃ d i, l_fds st !! p = Some (d, Command) ∧ l_descs st !! d = Some (Desc i false).
(** The inode on which [p] holds the lock. *)
Definition holds_on (st : lstate) (p i : N) : Prop :=
  ∃ d, l_fds st !! p = Some (d, Command) ∧ l_descs st !! d = Some (Desc i true).

(** Close process [p]'s descriptor: the description goes when nobody else refers to it. *)
Definition refers (d : N) (kv : N * (N * role)) : Prop := kv.2.1 = d.
Global Instance refers_dec d kv : Decision (refers d kv).
Proof. unfold refers. apply _. Defined.
Definition close (st : lstate) (p d : N) : lstate :=
  let fds := delete p (l_fds st) in
  LState (l_file st) (l_fresh st)
    (if decide (filter (refers d) fds = ∅) then delete d (l_descs st) else l_descs st) fds.
Definition unlock (st : lstate) (d : N) : lstate :=
  LState (l_file st) (l_fresh st)
    (alter (λ x, Desc (d_inode x) false) d (l_descs st)) (l_fds st).

Inductive event := EOpen (p : N) | EAcquire (p : N) | EClone (p c : N) | EUnlink (p : N) | EDrop (p : N) | EDie (p : N).

Inductive lstep : lstate → event → lstate → Prop :=
  (** lock_sandbox.rs:24-31: open with O_CREAT; a new inode if there is no file. *)
  | step_open st p i : l_fds st !! p = None → l_file st = Some i →
      lstep st (EOpen p)
        (LState (Some i) (l_fresh st + 1) (<[l_fresh st := Desc i false]> (l_descs st))
           (<[p := (l_fresh st, Command)]> (l_fds st)))
  | step_create st p : l_fds st !! p = None → l_file st = None →
      lstep st (EOpen p)
        (LState (Some (l_fresh st)) (l_fresh st + 2) (<[(l_fresh st + 1)%N := Desc (l_fresh st) false]> (l_descs st))
           (<[p := ((l_fresh st + 1)%N, Command)]> (l_fds st)))
  (** lock_sandbox.rs:42-44: flock(LOCK_EX) returns when no description has the inode locked. *)
  | step_acquire st p d i : l_fds st !! p = Some (d, Command) → l_descs st !! d = Some (Desc i false) →
      (∀ d', l_descs st !! d' ≠ Some (Desc i true)) →
      lstep st (EAcquire p) (LState (l_file st) (l_fresh st) (<[d := Desc i true]> (l_descs st)) (l_fds st))
  (** get_or_create.rs:252: clone3 while holding the lock. *)
  | step_clone st p c d : holds st p → l_fds st !! p = Some (d, Command) → l_fds st !! c = None →
      lstep st (EClone p c) (LState (l_file st) (l_fresh st) (l_descs st) (<[c := (d, Child)]> (l_fds st)))
  (** delete.rs:19-24 *)
  | step_unlink st p : holds st p → l_file st ≠ None →
      lstep st (EUnlink p) (LState None (l_fresh st) (l_descs st) (l_fds st))
  (** The lock is dropped: LOCK_UN, then close. *)
  | step_drop st p d : holds st p → l_fds st !! p = Some (d, Command) →
      lstep st (EDrop p) (close (unlock st d) p d)
  (** The end of a process, at any time, for any reason. *)
  | step_die st p d r : l_fds st !! p = Some (d, r) → lstep st (EDie p) (close st p d).

(** Histories. *)
Inductive lsteps : lstate → list event → lstate → Prop :=
  | steps_nil st : lsteps st [] st
  | steps_cons st e st' es st'' : lstep st e st' → lsteps st' es st'' → lsteps st (e :: es) st''.
