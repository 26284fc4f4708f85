(* What a log statement costs: the number of atomic operations one statement
   makes among those of the other threads, and how often it finds the queue
   full.  Counted over the schedules of Ring.v (HoldChannel fn_channel.h:430-475,
   the filling of the record, PushChannel 477-525 and, on a synchronous channel,
   EnterProcChannel 99-270). *)
From Coq Require Import ZArith List Bool.
From Verif Require Import Base LoggerState Ring.
Import ListNotations.
Open Scope Z_scope.

(* how many steps thread [tid] makes *)
Fixpoint steps_of (tid : nat) (ls : list label) : Z :=
  match ls with
  | [] => 0
  | LRun i :: ls' => (if Nat.eqb i tid then 1 else 0) + steps_of tid ls'
  | _ :: ls' => steps_of tid ls'
  end.

(* the thread is about to find the queue full, fn_channel.h:457-460 *)
Definition finds_full (c : rcfg) (s : st) (tid : nat) : bool :=
  match nth_error (ths s) tid with
  | Some t => match t_pc t with HRead old => nxt c old =? x_read (sh s) | _ => false end
  | None => false
  end.

(* how often thread [tid] finds the queue full *)
Fixpoint full_of (c : rcfg) (tid : nat) (s : st) (ls : list label) : Z :=
  match ls with
  | [] => 0
  | l :: ls' =>
      (match l with LRun i => if Nat.eqb i tid && finds_full c s tid then 1 else 0 | _ => 0 end) +
      match step c s l with Some s' => full_of c tid s' ls' | None => 0 end
  end.

(* thread [tid] begins no other statement *)
Definition one_statement (tid : nat) (ls : list label) : Prop := forall m, ~ In (LLog tid m) ls.
