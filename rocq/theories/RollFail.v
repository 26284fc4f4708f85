(* FileHandler::rollback (fn_file.h:370-392) when remove or rename fail.

   The results of both are not used (378 hands the result of remove to a caller that ignores it, 390 is
   "(void)ret"), so the roll goes on.  [ok d] says whether the call at depth d succeeds: the rename of backup
   d - 1 to backup d, or the remove beyond the last.  Otherwise as [rollback] of FileDev.v. *)
From Coq Require Import String ZArith List Bool.
From Verif Require Import Base LoggerState FileName FileDev.
Import ListNotations.
Open Scope Z_scope.

(* fn_file.h:370-392 *)
Fixpoint roll_fail (fuel : nat) (ok : Z -> bool) (f : fs) (path : text) (depth max_depth : Z) : outcome fs :=
  match fuel with
  | O => Fuel
  | S fuel' =>
      match f path with
      | None => Ret f                                                                       (* 372-375 *)
      | Some _ =>
          if max_depth <? depth then Ret (if ok depth then fset f path None else f)         (* 376-379 *)
          else if INT_MAX <? depth + 1 then Ub
          else
            let next := roll_next path depth in
            let! f := roll_fail fuel' ok f next (depth + 1) max_depth in                    (* 388 *)
            Ret (if ok depth then rename f path next else f)                                (* 389-391 *)
      end
  end.
