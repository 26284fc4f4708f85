(* Log statements made inside statements to other channels.

   A logger has several channels (SHMLogger, fn_data.h:342-352),
   each with a ring of its own; what HoldChannel and PushChannel touch
   (fn_channel.h:430-525) belongs to the channel they are called for.  So the
   queues of a logger are several states of Ring.v side by side.  An operand of
   << or the hook of the virtual device may log to another channel while its
   own statement keeps its slot (fn_stream.h:92, 180-192), as in Nest.v.

   A node (ch, i) is thread i of the queue of channel ch; [par q = Some p] says
   that node q stands for the statements made inside those of node p.  One
   program thread is several nodes.  That it makes one outermost statement at a
   time is not asked for, so more schedules are considered than there are. *)
From Coq Require Import ZArith List Bool Arith.
From Verif Require Import Base LoggerState Ring RingSpec Nest.
Import ListNotations.
Open Scope Z_scope.

Definition node : Type := (nat * nat)%type.

(* the queues of all channels *)
Definition mst : Type := nat -> st.
Definition mlabel : Type := (nat * label)%type.

(* one operation on one of the channels *)
Definition mstep (c : nat -> rcfg) (s : mst) (l : mlabel) : option mst :=
  match step (c (fst l)) (s (fst l)) (snd l) with
  | Some s' => Some (fun ch => if Nat.eqb ch (fst l) then s' else s ch)
  | None => None
  end.

Fixpoint mrun (c : nat -> rcfg) (s : mst) (ls : list mlabel) : option mst :=
  match ls with
  | [] => Some s
  | l :: ls' => match mstep c s l with Some s' => mrun c s' ls' | None => None end
  end.

(* all channels have just been started, fn_core.h:109-147 *)
Definition mstart (c : nat -> rcfg) (slots : nat -> list slot) (k : nat -> nat) : mst :=
  fun ch => start (c ch) (slots ch) (k ch).

(* what a schedule does to one channel *)
Definition proj (ch : nat) (ls : list mlabel) : list label :=
  map snd (filter (fun l => Nat.eqb (fst l) ch) ls).

Definition thread_of (s : mst) (n : node) : option thr := nth_error (ths (s (fst n))) (snd n).

(* the statement of node [p] is waiting for a statement made inside it *)
Definition mcalling (par : node -> option node) (s : mst) (p : node) : Prop :=
  exists q t, par q = Some p /\ thread_of s q = Some t /\ t_pc t <> Idle.

(* the statement of node [p] has its slot and is not finished *)
Definition mopen (s : mst) (p : node) : Prop :=
  exists t i rest, thread_of s p = Some t /\ t_pc t = Fill i rest.

(* An inner statement begins while the outer one is open and makes no other
   call; a statement does not move while it waits for an inner one. *)
Definition mcall_ok (par : node -> option node) (s : mst) (l : mlabel) : Prop :=
  match snd l with
  | LLog q _ => match par (fst l, q) with Some p => mopen s p /\ ~ mcalling par s p | None => True end
  | LRun p => ~ mcalling par s (fst l, p)
  | _ => True
  end.

Fixpoint mnested (par : node -> option node) (c : nat -> rcfg) (s : mst) (ls : list mlabel) : Prop :=
  match ls with
  | [] => True
  | l :: ls' => mcall_ok par s l /\ forall s', mstep c s l = Some s' -> mnested par c s' ls'
  end.

(* A set of statements that wait for each other: each of them waits for a
   statement of the set that was made inside it, or for a slot of its channel
   while the slot that hold_idx_ would reach next belongs to an open statement
   of the set. *)
Definition deadlocked (par : node -> option node) (c : nat -> rcfg) (D : node -> Prop) (s : mst) : Prop :=
  forall d, D d -> exists t, thread_of s d = Some t /\ t_pc t <> Idle /\
    ((~ holding t /\ exists e, D e /\ par e = Some d) \/
     (holding t /\ exists p v rest, D (fst d, p) /\ thread_of s (fst d, p) = Some v /\
        t_pc v = Fill (nxt (c (fst d)) (x_hold (sh (s (fst d))))) rest)).

(* no lap and no control action on any channel *)
Definition mno_lap (c : nat -> rcfg) (s : mst) (ls : list mlabel) : Prop := forall ch, no_lap (c ch) (s ch) (proj ch ls).
Definition mthreads_only (ls : list mlabel) : Prop :=
  Forall (fun l => match snd l with LLog _ _ | LRun _ => True | _ => False end) ls.

(* the writer threads, node (ch, 0) of an asynchronous channel, log nothing *)
Definition mcalls_ok (par : node -> option node) (c : nat -> rcfg) : Prop :=
  forall ch, is_sync (c ch) = false -> par (ch, 0%nat) = None /\ forall q, par q <> Some (ch, 0%nat).
