(* Threads logging at the same time compared with the same statements one after
   the other. *)
From Coq Require Import String ZArith List Bool Permutation.
From Verif Require Import Base Ring RingSpec Stream World WorldSpec.
Import ListNotations.
Open Scope Z_scope.

(* a log statement of a thread *)
Definition call : Type := nat * (stmt * io).
Definition calls_of (tid : nat) (l : list call) : list call := filter (fun a => Nat.eqb (fst a) tid) l.
(* the statements begun in a schedule *)
Fixpoint logs_of (ls : list label) : list (nat * text) :=
  match ls with
  | [] => []
  | LLog tid m :: ls => (tid, m) :: logs_of ls
  | _ :: ls => logs_of ls
  end.
(* the statement begun is this call: same thread, and the text it writes *)
Definition is_call (W : wcfg) (o : Z) (a : call) (e : nat * text) : Prop :=
  fst e = fst a /\ statement_text W o (snd (snd a)) (fst (snd a)) (snd e).

(* [order] rearranges the calls so that at every moment of the schedule a first
   part of it consists of calls made by then, in the order of each thread, and
   includes every call that has returned. *)
Definition in_real_time (c : rcfg) (slots : list slot) (k : nat) (ls : list label) (calls order : list call) : Prop :=
  Permutation calls order /\
  forall ls1 ls2 s1, ls = ls1 ++ ls2 -> reaches c slots k ls1 s1 ->
    let made := firstn (length (logs_of ls1)) calls in
    exists early late, order = early ++ late /\
      (forall tid, is_prefix (calls_of tid early) (calls_of tid made)) /\
      (forall tid t, nth_error (ths s1) tid = Some t -> t_pc t = Idle -> calls_of tid early = calls_of tid made).

(* each statement is followed by a round of the channel's writer thread *)
Definition one_by_one (k : Z) (i : io) (l : list call) : list action :=
  flat_map (fun a => [ALog (fst (snd a)) (snd (snd a)); AProc k i]) l.
