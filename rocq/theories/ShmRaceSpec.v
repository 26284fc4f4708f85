(* What processes that start at the same time are to find. *)
From Coq Require Import ZArith List Bool.
From Verif Require Import Base Ring Recover Shm ShmSpec ShmRace.
Import ListNotations.
Open Scope Z_scope.

(* states that any sequence of moves leads to *)
Definition raced (fuel : nat) (K : rlim) (z : race) : Prop := exists l, race_run fuel K race_boot l = Some z.

(* moves of processes that all have the same key, with nothing failing and nobody
   killed or giving the memory up *)
Definition calm (k : Z) (a : move) : Prop :=
  match a with
  | MStart key => 0 < key /\ key mod 2 ^ 32 = k
  | MStep _ f => f = all_well
  | MUnload _ | MKill _ => False
  | _ => True
  end.
(* nobody logs *)
Definition no_store (a : move) : Prop := match a with MStore _ _ => False | _ => True end.
(* all calls have returned *)
Definition all_back (z : race) : Prop := forall l, In l (z_at z) -> exists e, l = Idle (Some e).
(* the segment that a process at this line is making *)
Definition making (l : at_line) (i : Z) : Prop := l = LAtNew i \/ l = LReset i \/ l = LSize i \/ l = LId i.
