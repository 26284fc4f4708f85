(* Happens-before and data races of a list of memory accesses, after the C++
   memory model ([intro.races]) for executions in which every atomic read sees
   the last write. *)
From Coq Require Import ZArith List Bool Lia.
From Verif Require Import Base LoggerState Ring Mem.
Import ListNotations.
Open Scope Z_scope.

Definition publishes (o : way) : Prop := o = Release \/ o = Change.
Definition observes (o : way) : Prop := o = Acquire \/ o = Change.
Definition alters (o : way) : Prop := o = Release \/ o = Change \/ o = Relaxed \/ o = Set_.
Definition plain (o : way) : Prop := o = Get \/ o = Set_.

(* sequenced before: an earlier access of the same thread *)
Definition sequenced (tr : list event) (i j : nat) : Prop :=
  (i < j)%nat /\ exists a b, nth_error tr i = Some a /\ nth_error tr j = Some b /\ e_who a = e_who b.

(* synchronizes with: j observes the value that i published, because nothing in
   between altered the place *)
Definition synchronizes (tr : list event) (i j : nat) : Prop :=
  (i < j)%nat /\ exists a b, nth_error tr i = Some a /\ nth_error tr j = Some b /\
    e_place a = e_place b /\ publishes (e_way a) /\ observes (e_way b) /\
    forall k x, (i < k < j)%nat -> nth_error tr k = Some x -> e_place x = e_place a -> ~ alters (e_way x).

Inductive before (tr : list event) : nat -> nat -> Prop :=
| b_seq : forall i j, sequenced tr i j -> before tr i j
| b_syn : forall i j, synchronizes tr i j -> before tr i j
| b_trans : forall i j k, before tr i j -> before tr j k -> before tr i k.

(* two plain accesses of different threads to one place, at least one of them a
   write, neither of which happens before the other *)
Definition conflict (a b : event) : Prop :=
  e_who a <> e_who b /\ e_place a = e_place b /\ plain (e_way a) /\ plain (e_way b) /\
  (e_way a = Set_ \/ e_way b = Set_).

Definition race (tr : list event) (i j : nat) (a b : event) : Prop :=
  (i < j)%nat /\ nth_error tr i = Some a /\ nth_error tr j = Some b /\ conflict a b /\
  ~ before tr i j.

(* accesses to the bytes of a record *)
Definition on_text (e : event) : Prop := exists i, e_place e = PlText i.
(* accesses to the length of a record *)
Definition on_length (e : event) : Prop := exists i, e_place e = PlLen i.
