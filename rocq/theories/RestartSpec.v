(* A logger that is stopped and started again, any number of times, each time
   while no thread is inside a log statement. *)
From Coq Require Import ZArith List Bool.
From Verif Require Import Base LoggerState Ring RingSpec.
Import ListNotations.
Open Scope Z_scope.

(* What StopLogger (fn_core.h:97-103) and the next StartLogger (fn_core.h:36-54)
   do once the channel is stopped: join the writer, clean the ring, start the
   writer and wait until it has set the channel to RUNNING.  The writer needs
   four steps for that; on a sync channel there is nothing to wait for. *)
Definition restart (c : rcfg) : list label :=
  [LJoin; LClean; LStart] ++ if is_sync c then [] else repeat (LRun 0) 4.

(* The states at the beginning of a session: the first start, or the end of a
   restart.  During a session threads log as they like; at its end no thread is
   inside a log statement when StopLogger is called.  Between the stop and the
   restart threads may again call the logger, as long as they have returned when
   the channel is cleaned. *)
Inductive session (c : rcfg) (slots : list slot) (k : nat) : st -> Prop :=
| first_session : session c slots k (start c slots k)
| next_session : forall s0 ls1 s1 s2 ls2 s3 s4,
    session c slots k s0 ->
    no_lap c s0 (ls1 ++ LStop :: ls2) ->
    run c s0 ls1 = Some s1 -> threads_only ls1 -> quiet c s1 ->
    step c s1 LStop = Some s2 ->
    run c s2 ls2 = Some s3 -> threads_only ls2 -> quiet c s3 ->
    run c s3 (restart c) = Some s4 ->
    session c slots k s4.

(* The states of such a program: inside a session. *)
Definition lives (c : rcfg) (slots : list slot) (k : nat) (ls : list label) (s : st) : Prop :=
  exists s0, session c slots k s0 /\ no_lap c s0 ls /\ run c s0 ls = Some s.

(* Two states of a channel that differ only in what happened in the past: the
   ring, its indices, the channel state and the place of every thread are the
   same. *)
Definition alike (s s' : st) : Prop :=
  x_hold (sh s) = x_hold (sh s') /\ x_write (sh s) = x_write (sh s') /\
  x_proc (sh s) = x_proc (sh s') /\ x_read (sh s) = x_read (sh s') /\
  x_slots (sh s) = x_slots (sh s') /\ x_state (sh s) = x_state (sh s') /\
  x_ctl (sh s) = x_ctl (sh s') /\ map t_pc (ths s) = map t_pc (ths s').
