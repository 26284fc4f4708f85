(* A process that is killed in the middle of FileHandler::rollback (fn_file.h:370-392).

   remove and rename are each done or not done; [todo] of them are done before the process is
   killed.  The checks with access change nothing.  Otherwise as [rollback] of FileDev.v. *)
From Coq Require Import String ZArith List Bool.
From Verif Require Import Base LoggerState FileName FileDev.
Import ListNotations.
Open Scope Z_scope.

(* the files, how many changes are left, and whether the process is alive *)
Definition cut_state := (fs * nat * bool)%type.
(* a remove or a rename *)
Definition change (s : cut_state) (g : fs -> fs) : cut_state :=
  let '(f, todo, alive) := s in
  if alive then match todo with O => (f, O, false) | S l => (g f, l, true) end else s.
(* fn_file.h:370-392 *)
Fixpoint roll_cut (fuel : nat) (s : cut_state) (path : text) (depth max_depth : Z) : outcome cut_state :=
  match fuel with
  | O => Fuel
  | S fuel' =>
      match fst (fst s) path with
      | None => Ret s                                                                  (* 372-375 *)
      | Some _ =>
          if max_depth <? depth then Ret (change s (fun f => fset f path None))        (* 376-379 *)
          else if INT_MAX <? depth + 1 then Ub
          else
            let next := roll_next path depth in
            let! s := roll_cut fuel' s next (depth + 1) max_depth in                   (* 388 *)
            Ret (change s (fun f => rename f path next))                               (* 389 *)
      end
  end.
(* the files after a roll that was killed after [todo] changes *)
Definition killed_roll (fuel todo : nat) (f : fs) (path : text) (max_depth : Z) : outcome (fs * bool) :=
  let! s := roll_cut fuel (f, todo, true) path 1 max_depth in Ret (fst (fst s), snd s).
