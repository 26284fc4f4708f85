(* What was written to a log file (C131). *)
From Coq Require Import ZArith List Bool.
From Verif Require Import Base Durable.
Import ListNotations.
Open Scope Z_scope.

(* the file is open after [ops] *)
Fixpoint opened (b : bool) (ops : list pop) : bool :=
  match ops with
  | [] => b
  | DOpen :: l => opened true l
  | DClose :: l => opened false l
  | _ :: l => opened b l
  end.
(* the text that was written while it was open *)
Fixpoint texts (b : bool) (ops : list pop) : list Z :=
  match ops with
  | [] => []
  | DOpen :: l => texts true l
  | DClose :: l => texts false l
  | DWrite t :: l => (if b then t else []) ++ texts b l
  | _ :: l => texts b l
  end.
Definition is_write (o : pop) : bool := match o with DWrite _ => true | _ => false end.
