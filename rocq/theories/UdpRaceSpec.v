(* What becomes of datagrams, in terms of what arrived and what was put out (C127). *)
From Coq Require Import ZArith List Bool.
From Verif Require Import Base UdpRace.
Import ListNotations.
Open Scope Z_scope.

(* the datagrams that arrive in an execution, in order *)
Fixpoint arrivals (ls : list glabel) : list text :=
  match ls with
  | [] => []
  | Arrive m :: ls => m :: arrivals ls
  | GRun _ :: ls => arrivals ls
  end.
(* only thread i logs *)
Definition only_reader (i : nat) (ls : list glabel) : Prop := forall j, In (GRun j) ls -> j = i.
(* nobody is in the reading loop *)
Definition at_rest (s : gstate) : Prop := forall i, gr_pc s i = GStart.
(* a record keeps one byte of its buffer free; a datagram that does not loses its end *)
Definition fitted (cap : Z) (m : text) : text :=
  if zlen m <? cap then m else firstn (Z.to_nat (cap - 2)) m ++ [10; 0].
Definition some_text (m : text) : bool := match m with [] => false | _ => true end.
