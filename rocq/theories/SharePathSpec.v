(* Devices that share a path (C135). *)
From Coq Require Import ZArith List Bool Arith.
From Verif Require Import Base SharePath.
Import ListNotations.
Open Scope Z_scope.

(* no device has opened a file yet; there may be files of an earlier run *)
Record begins (s : hstate) : Prop := mkBegins {
  b_open : forall i, h_open s i = None;
  b_count : forall i, h_count s i = 0;
  b_size : forall f, 0 <= h_size s f;
  b_new : forall f, (h_next s <= f)%nat -> h_size s f = 0;
  b_dir : Forall (fun f => (f < h_next s)%nat) (h_dir s)
}.
(* records of these devices that are not larger than the limit *)
Definition fitting (limit : Z) (devs : list nat) (ops : list hop) : Prop := Forall (fun w => In (o_dev w) devs /\ 0 <= o_len w <= limit) ops.
(* what is in all files, those that were removed included; the bytes of the records *)
Definition all_bytes (s : hstate) : Z := fold_right Z.add 0 (map (h_size s) (seq 0 (h_next s))).
Definition op_bytes (ops : list hop) : Z := fold_right Z.add 0 (map o_len ops).
