(* Log statements made inside another log statement.

   A LogStream reserves its slot in its constructor (fn_stream.h:92) and makes
   the record ready in its destructor (fn_stream.h:192), so its slot is
   reserved while the operands of << are evaluated and while the hook of the
   virtual device runs (fn_stream.h:180-191, fn_out_virtual_device.h:32-64).
   Whatever these call may log to the same channel.

   The queue is that of Ring.v.  One program thread is several threads there,
   one for each depth: [par q = Some p] says that q stands for the statements
   that the statement of p makes.  [nested] are the schedules in which these
   behave like one call stack.  That the evaluation of operands interleaves with
   the bytes of the record is as in Ring.v (Fill); statements to other channels
   are in Multi.v. *)
From Coq Require Import ZArith List Bool.
From Verif Require Import Base LoggerState Ring.
Import ListNotations.
Open Scope Z_scope.

(* the statement of thread [p] is waiting for a statement made inside it *)
Definition calling (par : nat -> option nat) (s : st) (p : nat) : Prop :=
  exists q t, par q = Some p /\ nth_error (ths s) q = Some t /\ t_pc t <> Idle.

(* the statement of thread [p] is between its constructor and the PushLog of its
   destructor *)
Definition open (s : st) (p : nat) : Prop :=
  exists t i rest, nth_error (ths s) p = Some t /\ t_pc t = Fill i rest.

(* An inner statement begins while the outer one is open and makes no other
   call; a statement does not move while it waits for an inner one. *)
Definition call_ok (par : nat -> option nat) (s : st) (l : label) : Prop :=
  match l with
  | LLog q _ => match par q with Some p => open s p /\ ~ calling par s p | None => True end
  | LRun p => ~ calling par s p
  | _ => True
  end.

Fixpoint nested (par : nat -> option nat) (c : rcfg) (s : st) (ls : list label) : Prop :=
  match ls with
  | [] => True
  | l :: ls' => call_ok par s l /\ forall s', step c s l = Some s' -> nested par c s' ls'
  end.

(* the writer thread of an async channel logs nothing *)
Definition calls_ok (par : nat -> option nat) (c : rcfg) : Prop :=
  is_sync c = false -> par 0%nat = None /\ forall q, par q <> Some 0%nat.

(* the statements of thread [q] are made, directly or not, inside those of [p] *)
Inductive inside (par : nat -> option nat) : nat -> nat -> Prop :=
| inside_one : forall q p, par q = Some p -> inside par q p
| inside_more : forall q r p, par q = Some r -> inside par r p -> inside par q p.

(* a statement that has not got a slot yet: HoldChannel, fn_channel.h:439-473 *)
Definition holding (t : thr) : Prop :=
  match t_pc t with HState | HLoad | HRead _ | HCas _ | HOut => True | _ => False end.
