(* Rolls that are cut short (C132). *)
From Coq Require Import String ZArith List Bool.
From Verif Require Import Base FileName FileDev RollCut.
Import ListNotations.
Open Scope Z_scope.

(* any number of rolls cut short *)
Inductive cut_short (fuel : nat) (p : text) (n : Z) : fs -> fs -> Prop :=
| Cut_none : forall f, cut_short fuel p n f f
| Cut_one : forall f todo f1 alive f2, killed_roll fuel todo f p n = Ret (f1, alive) -> cut_short fuel p n f1 f2 -> cut_short fuel p n f f2.
