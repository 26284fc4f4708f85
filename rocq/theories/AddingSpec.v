(* A device that is not there completely (C130). *)
From Coq Require Import ZArith List Bool.
From Verif Require Import Base LoggerState.
Import ListNotations.
Open Scope Z_scope.

(* channel [ch] with one device more *)
Definition grown (ch : channel) (d : device) : channel :=
  mkChannel (c_type ch) (c_virtual ch) (c_size ch + 1) (c_state ch) (c_cfg ch) (firstn (Z.to_nat (c_size ch)) (c_devs ch) ++ [d]) (c_log ch) (c_dlog ch).
(* some settings of [x] are those of [d], the others are zero *)
Definition part_of (d x : device) : Prop :=
  d_in x = d_in d /\ forall a, nth a (d_cfg x) 0 = 0 \/ nth a (d_cfg x) 0 = nth a (d_cfg d) 0.
