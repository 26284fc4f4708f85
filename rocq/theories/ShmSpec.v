(* What shared memory segments are to do. *)
From Coq Require Import ZArith List Bool.
From Verif Require Import Base Ring Recover Shm.
Import ListNotations.
Open Scope Z_scope.

(* Segments as a system keeps them: ids are not used twice, no two segments have
   the same key, a removed segment has no key and exists only while attached. *)
Record kern_ok (v : kern) : Prop := mkKernOk {
  ko_ids : NoDup (map e_id (v_segs v));
  ko_next : forall s, In s (v_segs v) -> 0 <= e_id s < v_next v;
  ko_zero : 0 <= v_next v;
  ko_at : forall s, In s (v_segs v) -> 0 <= e_at s;
  ko_keys : forall s t, In s (v_segs v) -> In t (v_segs v) -> e_key s = e_key t -> e_key s <> 0 -> e_id s = e_id t;
  ko_gone : forall s, In s (v_segs v) -> e_gone s = true -> e_key s = 0 /\ 0 < e_at s
}.

(* nothing fails *)
Definition all_well : fails := mkFails false false false.

(* only the segment with the id [i] may differ *)
Definition others_kept (i : Z) (v v' : kern) : Prop :=
  forall t, e_id t <> i -> (In t (v_segs v') <-> In t (v_segs v)).

(* an empty ring: nothing reserved, published, claimed or released *)
Definition empty_ring (q : rring) : Prop := q_write q = 0 /\ q_hold q = 0 /\ q_proc q = 0 /\ q_read q = 0.

(* states of the machine: nothing at first, then what processes do *)
Definition seen (fuel : nat) (K : rlim) (y : sys) : Prop := exists es, sys_run fuel K boot es = Some y.

(* how many attachments of the segment [i] the processes have *)
Fixpoint times (i : Z) (l : list Z) : Z := match l with [] => 0 | x :: l' => (if x =? i then 1 else 0) + times i l' end.
Fixpoint attached (i : Z) (ps : list proc) : Z := match ps with [] => 0 | p :: ps' => times i (p_maps p) + attached i ps' end.

(* who acts *)
Definition by_proc (n : nat) (e : event) : Prop :=
  match e with EStart _ => False | ELoad m _ | EStore m _ | ERekey m _ | EUnload m | EExit m => m = n end.
