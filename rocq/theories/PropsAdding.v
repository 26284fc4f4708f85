(* C130: a record that is dispatched while a device is added to its channel. *)
From Coq Require Import ZArith List Bool Arith Lia.
From Verif Require Import Base BaseFacts LoggerState Filter FilterSpec Torn Adding AddingSpec AddingProofs.
Import ListNotations.
Open Scope Z_scope.

(* the record is treated exactly as by a channel that has the new device with a part of its settings *)
Theorem C130_exact : forall ch d r o, sound_channel ch ->
  (exists sched, adding sched ch d r = Some o) <-> (exists x, part_of d x /\ dispatch (grown ch x) r = o).
Proof. exact adding_iff. Qed.
Print Assumptions C130_exact.

(* a channel with one device; a device with a switch, a priority and a window of the category *)
Definition one : channel := mkChannel 1 0 1 1 [0; 0; 0; 0; 0; 0; 0] [mkDevice 0 1 [1; 0; 0; 0; 0; 0; 0; 0; 0; 0; 0; 0; 0; 0; 0]] [] [].
Definition dev (able prio cat ext : Z) : device := mkDevice 0 2 [able; prio; cat; ext; 0; 0; 0; 0; 0; 0; 0; 0; 0; 0; 0].
Lemma one_sound : sound_channel one.
Proof. cbv. split; discriminate. Qed.
Example C130_exact_hypotheses : sound_channel one /\ part_of (dev 1 4 7 2) (dev 1 0 7 2) /\ dispatch (grown one (dev 1 0 7 2)) (mkRec 2 8 0) = Ret [0; 1].
Proof. split; [exact one_sound|]. split; [|reflexivity]. split; [reflexivity|]. intros [|[|[|[|a]]]]; cbn; auto. Qed.

(* the devices that were there before put out the record as ever, the new one at most once and after them *)
Theorem C130_old_devices : forall ch d r sched o, sound_channel ch -> adding sched ch d r = Some (Ret o) ->
  exists ids, dispatch ch r = Ret ids /\ (o = ids \/ o = ids ++ [c_size ch]).
Proof. exact old_undisturbed. Qed.
Print Assumptions C130_old_devices.
Example C130_old_devices_hypotheses : sound_channel one /\ adding (repeat false 20 ++ repeat true 20) one (dev 1 0 7 2) (mkRec 2 8 0) = Some (Ret [0; 1]) /\
  adding (repeat true 20) one (dev 1 0 7 2) (mkRec 2 8 0) = Some (Ret [0]).
Proof. split; [exact one_sound|]. split; vm_compute; reflexivity. Qed.

(* a device with one setting, which is its switch if it is to put out anything: with it or without it *)
Theorem C130_plain_partial : forall ch d r sched o a0, sound_channel ch -> (forall a, a <> a0 -> nth a (d_cfg d) 0 = 0) -> adding sched ch d r = Some o ->
  o = dispatch ch r \/ o = dispatch (grown ch d) r.
Proof. exact one_nonzero. Qed.
Print Assumptions C130_plain_partial.
Example C130_plain_hypotheses : sound_channel one /\ (forall a, a <> 0%nat -> nth a (d_cfg (dev 1 0 0 0)) 0 = 0) /\
  adding (repeat false 3 ++ repeat true 20) one (dev 1 0 0 0) (mkRec 2 8 0) = Some (Ret [0]) /\
  adding (repeat false 4 ++ repeat true 20) one (dev 1 0 0 0) (mkRec 2 8 0) = Some (Ret [0; 1]).
Proof.
  split; [exact one_sound|]. split; [|split; vm_compute; reflexivity]. intros a N. do 15 (destruct a as [|a]; [try contradiction; reflexivity|]). destruct a; reflexivity.
Qed.

(* the full statement is false: the new device puts out a record of a priority ... *)
Theorem C130_priority_refuted : exists ch d r sched, sound_channel ch /\ dispatch ch r = Ret [0] /\ dispatch (grown ch d) r = Ret [0] /\ adding sched ch d r = Some (Ret [0; 1]).
Proof.
  exists one, (dev 1 4 0 0), (mkRec 2 8 0), (repeat false 4 ++ repeat true 20). split; [exact one_sound|]. repeat split; vm_compute; reflexivity.
Qed.
Print Assumptions C130_priority_refuted.
(* ... or of a category that is not for it *)
Theorem C130_category_refuted : exists ch d r sched, sound_channel ch /\ dispatch ch r = Ret [0] /\ dispatch (grown ch d) r = Ret [0] /\
  fld (d_cfg d) DEVICE_CFG_PRIORITY = 0 /\ adding sched ch d r = Some (Ret [0; 1]).
Proof.
  exists one, (dev 1 0 7 2), (mkRec 2 3 0), (repeat false 5 ++ repeat true 20). split; [exact one_sound|]. repeat split; vm_compute; reflexivity.
Qed.
Print Assumptions C130_category_refuted.
