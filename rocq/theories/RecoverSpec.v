(* What the recovery properties talk about. *)
From Coq Require Import String ZArith List Bool.
From Verif Require Import Base Ring RingSpec Recover.
Import ListNotations.
Open Scope Z_scope.

(* how many steps index [b] is ahead of index [a] on a ring of [n] slots *)
Definition lead (n a b : Z) : Z := (b - a) mod n.

(* the text of a record *)
Definition shown (d : rdata) : text := firstn (Z.to_nat (d_len d)) (d_buf d).

(* a record as any thread leaves it, finished or not *)
Definition sane (K : rlim) (d : rdata) : Prop :=
  zlen (d_buf d) = k_log K /\ 0 <= d_len d <= k_log K.

(* [d'] is the unfinished record [d], flagged *)
Definition flagged (K : rlim) (d d' : rdata) : Prop :=
  d_mark d' = 2 /\ d_prio d' = 6 /\
  shown d' = firstn (Z.to_nat (k_log K - 20)) (shown d) ++ s2z "!!!core recover!!!" ++ [10] /\
  0 <= d_len d' < k_log K /\ zlen (d_buf d') = k_log K /\ rd (d_buf d') (d_len d') = Ret 0.

Definition in_ring (K : rlim) (i : Z) : Prop := 0 <= i < k_ring K.

(* the text the recovery leaves for an unfinished record with text [x] *)
Definition flag_text (c : rcfg) (x : text) : text :=
  firstn (Z.to_nat (log_size c - 20)) x ++ s2z "!!!core recover!!!" ++ [10].

(* The thread has reserved its slot but not begun to write the record. *)
Definition not_begun (t : thr) : Prop :=
  match t_pc t with HCount _ | HMark _ | FInit _ => True | _ => False end.

(* What is in the slot of the record with text [m] logged by thread [t] when it
   has not been published: nothing of it yet, a beginning of it, or all of it. *)
Definition unfinished (c : rcfg) (t : option thr) (m x : text) : Prop :=
  is_prefix x m \/ x = line c m \/ exists u, t = Some u /\ not_begun u.
