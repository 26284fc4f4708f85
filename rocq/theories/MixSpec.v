(* Statements and rounds of the writer threads in any order: what should happen. *)
From Coq Require Import String ZArith List Bool.
From Verif Require Import Base LoggerState FilterSpec Stream World WorldSpec.
Import ListNotations.
Open Scope Z_scope.

(* Between two calls: at channel k the records qs k wait, none if the channel is
   synchronous; nobody holds a slot; no hook and no datagrams. *)
Definition relaxed (W : wcfg) (w : world) (qs : Z -> list item) : Prop :=
  forall k ch r, chan_at w k ch -> ring_at w k r ->
    settled_ring r /\ waiting W r (qs k) /\ (c_type ch = 1 -> qs k = []) /\ no_datagrams w k /\
    (W_hook W = None \/ c_virtual ch < 0) /\
    Forall (fun l => -7 <= i_prio l <= 10 /\ devices_scope ch (i_cat l) (i_ident l)) (qs k).
(* file device j of channel k takes the line *)
Definition takes (w : world) (k j : Z) (l : item) : Prop :=
  exists ch d, chan_at w k ch /\ has_device ch j d /\ device_on d /\ device_accepts d (i_prio l) (i_cat l) (i_ident l) /\ d_out d = 2.
(* the lines of a queue for file device j *)
Definition pending (w : world) (k j : Z) (q : list item) (us : list text) : Prop := picked (takes w k j) q (map i_line q) us.
(* the statements of a run *)
Fixpoint said (l : list action) : list (stmt * io) :=
  match l with
  | [] => []
  | ALog s i :: l => (s, i) :: said l
  | _ :: l => said l
  end.
(* the last action concerning channel k is a round of its writer thread *)
Definition drained (k : Z) (l : list action) : Prop :=
  exists a b i, l = a ++ AProc k i :: b /\ forall s x, In (ALog s x) b -> t_chan s <> k.
(* There is always room: n k bounds the records waiting at channel k. *)
Fixpoint roomy (W : wcfg) (w : world) (n : Z -> Z) (l : list action) : Prop :=
  match l with
  | [] => True
  | ALog s _ :: l =>
      ((exists ch, chan_at w (t_chan s) ch /\ c_type ch = 1) \/ n (t_chan s) + 1 < W_ring W) /\
      roomy W w (fun a => if a =? t_chan s then n a + 1 else n a) l
  | AProc k _ :: l => roomy W w (fun a => if a =? k then 0 else n a) l
  | AArrive _ _ _ :: l => roomy W w n l
  end.
