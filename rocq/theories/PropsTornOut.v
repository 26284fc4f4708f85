(* C129: a record that is dispatched while the settings are replaced. *)
From Coq Require Import ZArith List Bool Arith Lia Sorting.Sorted.
From Verif Require Import Base BaseFacts LoggerState Filter FilterSpec FilterProofs Torn TornSpec TornProofs TornOut TornOutProofs.
Import ListNotations.
Open Scope Z_scope.

(* the devices that put out the record are exactly those of a mixture of settings *)
Theorem C129_exact : forall ch ch' r o, sound_channel ch ->
  (exists sched, dispatch_during sched ch ch' r = Some o) <-> (exists x, mixture ch ch' x /\ dispatch x r = o).
Proof. intros ch ch' r o [S0 S1]. apply dispatch_iff. unfold count, zlen in *. lia. Qed.
Print Assumptions C129_exact.

(* two devices, each with a switch and a window of the category *)
Definition two (on0 on1 cat0 cat1 n0 n1 : Z) : channel :=
  mkChannel 1 0 2 1 [0; 0; 0; 0; 0; 0; 0]
    [mkDevice 0 1 [on0; 0; cat0; n0; 0; 0; 0; 0; 0; 0; 0; 0; 0; 0; 0]; mkDevice 0 2 [on1; 0; cat1; n1; 0; 0; 0; 0; 0; 0; 0; 0; 0; 0; 0]] [] [].
Example C129_exact_hypotheses : sound_channel (two 1 0 0 0 0 0) /\
  mixture (two 1 0 0 0 0 0) (two 0 1 0 0 0 0) (two 1 1 0 0 0 0) /\ dispatch (two 1 1 0 0 0 0) (mkRec 2 0 0) = Ret [0; 1].
Proof.
  split; [cbv; split; discriminate|]. split; [|reflexivity]. repeat split; auto.
  intros [|[|j]] a J A; cbn in J; try lia; destruct a as [|a]; cbn; auto.
Qed.

(* at most one setting of each device changes: every device decides as with the old or as
   with the new settings, and puts the record out at most once *)
Theorem C129_devices_partial : forall ch ch' sched r o, sound_channel ch -> c_size ch' = c_size ch -> map d_in (c_devs ch') = map d_in (c_devs ch) ->
  devices_scope ch (r_category r) (r_identify r) -> devices_scope ch' (r_category r) (r_identify r) ->
  (forall j, exists a0, forall a, a <> a0 -> nth a (d_cfg (nth j (c_devs ch') (mkDevice 0 0 []))) 0 = nth a (d_cfg (nth j (c_devs ch) (mkDevice 0 0 []))) 0) ->
  dispatch_during sched ch ch' r = Some o ->
  exists old new ids, dispatch ch r = Ret old /\ dispatch ch' r = Ret new /\ o = Ret ids /\ StronglySorted Z.lt ids /\
    forall j, (In j ids -> In j old \/ In j new) /\ (In j old -> In j new -> In j ids).
Proof. exact one_each. Qed.
Print Assumptions C129_devices_partial.
Lemma two_scope : forall a b, devices_scope (two a b 0 0 0 0) 0 0.
Proof.
  intros a b k d [K D]. cbn [two c_devs c_size] in *. destruct (Z.to_nat k) as [|[|n]]; cbn in D; [injection D as <-|injection D as <-|destruct n; discriminate];
    cbv; repeat split; intros; try discriminate; contradiction.
Qed.
(* the output moves from the first device to the second *)
Example C129_devices_hypotheses : let ch := two 1 0 0 0 0 0 in let ch' := two 0 1 0 0 0 0 in
  sound_channel ch /\ c_size ch' = c_size ch /\ map d_in (c_devs ch') = map d_in (c_devs ch) /\ devices_scope ch 0 0 /\ devices_scope ch' 0 0 /\
  (forall j, exists a0, forall a, a <> a0 -> nth a (d_cfg (nth j (c_devs ch') (mkDevice 0 0 []))) 0 = nth a (d_cfg (nth j (c_devs ch) (mkDevice 0 0 []))) 0) /\
  dispatch_during (repeat true 20) ch ch' (mkRec 2 0 0) = Some (Ret [0]) /\
  dispatch_during (repeat false 37 ++ repeat true 20) ch ch' (mkRec 2 0 0) = Some (Ret [1]).
Proof.
  cbv zeta. split; [cbv; split; discriminate|]. split; [reflexivity|]. split; [reflexivity|]. split; [apply two_scope|]. split; [apply two_scope|].
  split; [|split; vm_compute; reflexivity]. intros j. exists 0%nat. intros a N. destruct j as [|[|j]]; [destruct a as [|a]; [contradiction|reflexivity]..|]. destruct j; reflexivity.
Qed.

(* the full statement is false.  The output moves from one device to the other: with the old
   and with the new settings a record is put out once; it can be put out twice, ... *)
Theorem C129_twice_refuted : exists ch ch' sched r, sound_channel ch /\ dispatch ch r = Ret [0] /\ dispatch ch' r = Ret [1] /\ dispatch_during sched ch ch' r = Some (Ret [0; 1]).
Proof.
  exists (two 1 0 0 0 0 0), (two 0 1 0 0 0 0), (repeat true 8 ++ repeat false 37 ++ repeat true 20), (mkRec 2 0 0).
  split; [cbv; split; discriminate|]. repeat split; vm_compute; reflexivity.
Qed.
Print Assumptions C129_twice_refuted.
(* ... or not at all ... *)
Theorem C129_lost_refuted : exists ch ch' sched r, sound_channel ch /\ dispatch ch r = Ret [0] /\ dispatch ch' r = Ret [1] /\ dispatch_during sched ch ch' r = Some (Ret []).
Proof.
  exists (two 1 0 0 0 0 0), (two 0 1 0 0 0 0), (repeat false 8 ++ repeat true 20), (mkRec 2 0 0).
  split; [cbv; split; discriminate|]. repeat split; vm_compute; reflexivity.
Qed.
Print Assumptions C129_lost_refuted.
(* ... and a device can put out what it takes with neither *)
Theorem C129_stray_refuted : exists ch ch' sched r, sound_channel ch /\ dispatch ch r = Ret [] /\ dispatch ch' r = Ret [] /\ dispatch_during sched ch ch' r = Some (Ret [0]).
Proof.
  exists (two 1 0 1 0 1 0), (two 1 0 5 0 3 0), (repeat true 3 ++ repeat false 20 ++ repeat true 20), (mkRec 2 3 0).
  split; [cbv; split; discriminate|]. repeat split; vm_compute; reflexivity.
Qed.
Print Assumptions C129_stray_refuted.
