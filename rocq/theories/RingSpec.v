(* What the queue properties talk about, in terms of schedules and of what
   threads are doing. *)
From Coq Require Import ZArith List Bool Lia.
From Verif Require Import Base LoggerState Ring.
Import ListNotations.
Open Scope Z_scope.

(* What a device must receive for a log statement that writes [msg]. *)
Definition line (c : rcfg) (msg : text) : text :=
  firstn (Z.to_nat (log_size c - 2)) msg ++ [10].

(* The slot a thread is writing: from the moment it reserved it until it marks
   it ready. *)
Definition filling (t : thr) : option Z :=
  match t_pc t with
  | HCount i | HMark i | FInit i | Fill i _ | PState i | PTerm i | PMark i => Some i
  | _ => None
  end.

(* The slot a thread is dispatching: from the moment it claimed it until it
   clears the mark. *)
Definition reading (t : thr) : option Z :=
  match t_pc t with
  | CRead i _ _ | CMark i => Some i
  | _ => None
  end.

(* A compare-exchange compares a loaded index with the current one modulo the
   ring size.  [fresh]: the thread that is about to execute one loaded the index
   less than one full lap ago. *)
Definition fresh_thr (c : rcfg) (g : ghost) (t : thr) : Prop :=
  match t_pc t with
  | HCas _ => gH g - t_snap t < n_ring c
  | PCas _ => gW g - t_snap t < n_ring c
  | CCas _ => gP g - t_snap t < n_ring c
  | RCas _ => gR g - t_snap t < n_ring c
  | _ => True
  end.

Definition fresh (c : rcfg) (s : st) (l : label) : Prop :=
  match l with
  | LRun tid => forall t, nth_error (ths s) tid = Some t -> fresh_thr c (gh s) t
  | _ => True
  end.

(* A schedule in which no index makes a full lap between a load and the
   compare-exchange that uses it. *)
Fixpoint no_lap (c : rcfg) (s : st) (ls : list label) : Prop :=
  match ls with
  | [] => True
  | l :: ls' => fresh c s l /\ forall s', step c s l = Some s' -> no_lap c s' ls'
  end.

(* Schedules without a restart, and without any control action. *)
Definition no_restart (ls : list label) : Prop := ~ In LClean ls.
Definition threads_only (ls : list label) : Prop :=
  Forall (fun l => match l with LLog _ _ | LRun _ => True | _ => False end) ls.

(* The memory of a fresh ring: the right number of slots, none marked. *)
Definition blank (c : rcfg) (slots : list slot) : Prop :=
  zlen slots = n_ring c /\ Forall (fun x => s_mark x = 0) slots.

(* RingBuffer::BUFFER_LEN is more than 10 (fn_data.h:284) and a record has room
   for its terminator. *)
Definition cfg_ok (c : rcfg) : Prop := 10 < n_ring c /\ 2 <= log_size c.

(* The states a program can reach. *)
Definition reaches (c : rcfg) (slots : list slot) (k : nat) (ls : list label) (s : st) : Prop :=
  run c (start c slots k) ls = Some s.

(* No thread is inside a log statement; the async writer may be anywhere in its
   loop. *)
Definition quiet (c : rcfg) (s : st) : Prop :=
  forall tid t, nth_error (ths s) tid = Some t ->
    (is_sync c = false /\ tid = 0%nat) \/ t_pc t = Idle.

Definition of_thread (tid : nat) (l : list (nat * text)) : list text :=
  map snd (filter (fun e => Nat.eqb (fst e) tid) l).

Definition is_prefix {A : Type} (a b : list A) : Prop := exists r, b = a ++ r.

Inductive subseq {A : Type} : list A -> list A -> Prop :=
| sub_nil : subseq [] []
| sub_keep : forall x a b, subseq a b -> subseq (x :: a) (x :: b)
| sub_skip : forall x a b, subseq a b -> subseq a (x :: b).
