(* What is meant by StopLogger returning under every schedule. *)
From Coq Require Import ZArith List Bool.
From Verif Require Import Base LoggerState Load Stop.
Import ListNotations.
Open Scope Z_scope.

(* channel [i] has a thread and it stands at [p] *)
Definition stands (s : sys) (i : nat) (p : wpc) : Prop := exists w, nth_error (q_ws s) i = Some w /\ w_async w = true /\ w_pc w = p.
(* StopLogger is called on a running logger; the threads may be anywhere, and one
   may hold the lock for a hot update *)
Definition called (s : sys) : Prop :=
  q_state s = LOGGER_STATE_RUNNING /\ q_stop s = SBegin /\ q_lock s <> Stopper /\
  (forall i, q_lock s = Writer i <-> stands s i WApply) /\
  (forall i w, nth_error (q_ws s) i = Some w -> w_async w = true -> w_state w = CHANNEL_STATE_RUNNING /\ w_pc w <> WEnd).
(* a schedule says which thread moves next, and whether the file looks changed to it;
   in a fair one every thread moves again and again *)
Definition schedule := nat -> thread * bool.
Definition fair (f : schedule) : Prop := forall t n, exists m, (n <= m)%nat /\ fst (f m) = t.
Fixpoint run (f : schedule) (s : sys) (n : nat) : sys :=
  match n with O => s | S n => step (f n) (run f s n) end.
Definition returned (s : sys) (z : Z) : Prop := q_stop s = SDone z.
(* StopLogger holds the lock that a writer thread wants for its hot update *)
Definition deadlocked (s : sys) : Prop := q_lock s = Stopper /\ exists i, stands s i WLock.
(* the logger is stopped: all threads have ended with empty queues *)
Definition stopped (s : sys) : Prop :=
  q_state s = LOGGER_STATE_UNINIT /\ q_lock s = Free /\
  forall i w, nth_error (q_ws s) i = Some w -> w_state w = CHANNEL_STATE_NULL /\ (w_async w = true -> w_pc w = WEnd /\ w_left w = O).
