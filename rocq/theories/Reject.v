(** * /repo/src/actions/reject.rs:10-56 *)
From Verif Require Export Accept.

(** reject.rs:25-49, the loop with [last_staged_path]. *)
Fixpoint reject_loop (lastp : option path) (cs : list change) : M unit :=
  match cs with
  | [] => ret_ tt
  | c :: cs' =>
      match c_staged c with
      | None => reject_loop lastp cs'
      | Some st =>
          if decide (lastp = Some (d_path st)) then reject_loop lastp cs'
          else
            (if d_is_dir st then sys_rmdir (d_path st) else sys_unlink (d_path st)) ;;;
            reject_loop (Some (d_path st)) cs'
      end
  end.

(** reject.rs:10-56; returns the number printed. *)
Definition reject (e : env) (upper_base : path) (include_ignored : bool) (patterns : list string)
  : M nat :=
  all <-- get_ (λ f, changes e f upper_base include_ignored) ;;
  let sel := sort_by by_staged_descending (matching (e_glob e) (e_cwd e) patterns all) in
  reject_loop None sel ;;;
  ret_ (length sel).
