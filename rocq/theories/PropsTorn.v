(* C126: a log statement that is made while the settings are replaced. *)
From Coq Require Import ZArith List Bool Arith Lia ZifyBool ZifyNat ZifyN.
From Verif Require Import Base BaseFacts LoggerState Filter FilterSpec FilterProofs Torn TornSpec TornProofs.
Import ListNotations.
Open Scope Z_scope.
Ltac Zify.zify_post_hook ::= idtac.

(* C126.  What BlockInput can return while HotUpdateLogger replaces the settings of the
   channel is exactly what it returns, without any update, for the mixtures of the old
   and the new settings: each setting of the channel and of its devices on its own is
   the old or the new one, in every combination. *)
Theorem C126_exact : forall ch ch' k p c i r, c_state ch = 1 -> sound_channel ch -> 0 <= k ->
  (exists sched, block_during sched ch ch' p c i = Some r) <->
  (exists x lg, mixture ch ch' x /\ running lg k x /\ block_input lg k p c i = r).
Proof.
  intros ch ch' k p c i r ST [S0 S1] K. apply during_iff; [exact ST| |exact K]. unfold count, zlen in *. lia.
Qed.
Print Assumptions C126_exact.

(* windows 1..1 and 5..7 of the category *)
Definition one_chan (cat cat_n idn idn_n : Z) : channel :=
  mkChannel 0 0 1 1 [0; cat; cat_n; 0; idn; idn_n; 0] [mkDevice 0 1 [1; 0; 0; 0; 0; 0; 0; 0; 0; 0; 0; 0; 0; 0; 0]] [] [].
Ltac runs := repeat split; try reflexivity; try discriminate; try (unfold zlen; cbn; lia).
Definition one_log (ch : channel) : logger := mkLogger true 2 1 [ch].
Example C126_exact_hypotheses : forall a b c d, c_state (one_chan a b c d) = 1 /\ sound_channel (one_chan a b c d) /\ running (one_log (one_chan a b c d)) 0 (one_chan a b c d).
Proof. intros. split; [reflexivity|]. split; [cbv; split; discriminate|]. repeat split; try reflexivity; cbn; lia. Qed.

(* One setting is replaced, as by SetChannelConfig and SetDeviceConfig
   (fn_core.h:278-330) or an update of a file with one change: the statement gets the
   old or the new answer. *)
Theorem C126_channel_setting_partial : forall lg lg' k ch ch' a0 sched p c i r, running lg k ch -> running lg' k ch' ->
  sound_channel ch -> c_size ch' = c_size ch -> c_devs ch' = c_devs ch -> (a0 < 7)%nat ->
  (forall a, a <> a0 -> nth a (c_cfg ch') 0 = nth a (c_cfg ch) 0) ->
  block_during sched ch ch' p c i = Some r -> r = block_input lg k p c i \/ r = block_input lg' k p c i.
Proof.
  intros lg lg' k ch ch' a0 sched p c i r R R' [S0 S1] SZ D A C H. apply (one_setting lg lg' k ch ch' a0 sched); auto.
  - unfold count, zlen in *. lia.
  - rewrite D. reflexivity.
  - apply once_channel; assumption.
Qed.
Print Assumptions C126_channel_setting_partial.
Theorem C126_device_setting_partial : forall lg lg' k ch ch' j0 a0 sched p c i r, running lg k ch -> running lg' k ch' ->
  sound_channel ch -> c_size ch' = c_size ch -> map d_in (c_devs ch') = map d_in (c_devs ch) -> c_cfg ch' = c_cfg ch -> (a0 < 15)%nat ->
  (forall j a, (j, a) <> (j0, a0) ->
     nth a (d_cfg (nth j (c_devs ch') (mkDevice 0 0 []))) 0 = nth a (d_cfg (nth j (c_devs ch) (mkDevice 0 0 []))) 0) ->
  block_during sched ch ch' p c i = Some r -> r = block_input lg k p c i \/ r = block_input lg' k p c i.
Proof.
  intros lg lg' k ch ch' j0 a0 sched p c i r R R' [S0 S1] SZ IN C A D H.
  apply (one_setting lg lg' k ch ch' (dev_word j0 a0) sched); auto.
  - unfold count, zlen in *. lia.
  - apply once_device; assumption.
Qed.
Print Assumptions C126_device_setting_partial.
(* the channel's window grows between the loads; then the device is switched off *)
Example C126_channel_setting_partial_hypotheses : let ch := one_chan 1 1 0 0 in let ch' := one_chan 1 5 0 0 in
  c_size ch' = c_size ch /\ c_devs ch' = c_devs ch /\ (forall a, a <> 2%nat -> nth a (c_cfg ch') 0 = nth a (c_cfg ch) 0) /\
  block_input (one_log ch) 0 3 4 0 = Ret true /\ block_input (one_log ch') 0 3 4 0 = Ret false /\
  block_during (repeat true 20) ch ch' 3 4 0 = Some (Ret true) /\
  block_during (true :: repeat false 3 ++ repeat true 20) ch ch' 3 4 0 = Some (Ret false).
Proof.
  cbv zeta. split; [reflexivity|]. split; [reflexivity|]. split; [|repeat split; vm_compute; reflexivity].
  intros a N. destruct a as [|[|[|a]]]; try reflexivity. contradiction.
Qed.
Definition dev_off : channel :=
  mkChannel 0 0 1 1 [0; 1; 1; 0; 0; 0; 0] [mkDevice 0 1 [0; 0; 0; 0; 0; 0; 0; 0; 0; 0; 0; 0; 0; 0; 0]] [] [].
Example C126_device_setting_partial_hypotheses : let ch := one_chan 1 1 0 0 in
  running (one_log dev_off) 0 dev_off /\ c_size dev_off = c_size ch /\ map d_in (c_devs dev_off) = map d_in (c_devs ch) /\ c_cfg dev_off = c_cfg ch /\
  (forall j a, (j, a) <> (0%nat, 0%nat) ->
     nth a (d_cfg (nth j (c_devs dev_off) (mkDevice 0 0 []))) 0 = nth a (d_cfg (nth j (c_devs ch) (mkDevice 0 0 []))) 0) /\
  block_during (repeat true 20) ch dev_off 3 1 0 = Some (Ret false) /\
  block_during (repeat false 8 ++ repeat true 20) ch dev_off 3 1 0 = Some (Ret true).
Proof.
  cbv zeta. split; [runs|]. do 3 (split; [reflexivity|]). split; [|split; vm_compute; reflexivity].
  intros j a N. destruct j as [|j]; [|reflexivity]. destruct a as [|a]; [contradiction|]. reflexivity.
Qed.

(* An update that only lowers priorities and enables devices: a statement that was
   admitted before is admitted, one that is not admitted afterwards is not. *)
Definition looser (ch ch' : channel) : Prop :=
  nth 0 (c_cfg ch') 0 <= nth 0 (c_cfg ch) 0 /\ (forall a, a <> 0%nat -> nth a (c_cfg ch') 0 = nth a (c_cfg ch) 0) /\
  forall j, let f y a := nth a (d_cfg (nth j (c_devs y) (mkDevice 0 0 []))) 0 in
    (f ch 0%nat <> 0 -> f ch' 0%nat <> 0) /\ f ch' 1%nat <= f ch 1%nat /\
    forall a, (2 <= a)%nat -> f ch' a = f ch a.
Theorem C126_looser_partial : forall lg lg' k ch ch' sched p c i r, running lg k ch -> running lg' k ch' ->
  sound_channel ch -> c_size ch' = c_size ch -> map d_in (c_devs ch') = map d_in (c_devs ch) ->
  channel_scope ch c i -> devices_scope ch c i -> looser ch ch' ->
  block_during sched ch ch' p c i = Some r ->
  exists b, r = Ret b /\ (admitted lg k p c i -> b = false) /\ (~ admitted lg' k p c i -> b = true).
Proof.
  intros lg lg' k ch ch' sched p c i r (R1 & R2 & R3 & R4 & R5 & _) (Q1 & Q2 & Q3 & Q4 & Q5 & _) SC SZ IN CS DS (L1 & L2 & L3) H.
  assert (LEN : length (c_devs ch') = length (c_devs ch)) by (rewrite <- (map_length d_in), IN, map_length; reflexivity).
  assert (EX : exists x l, mixture ch ch' x /\ running l k x /\ block_input l k p c i = r).
  { apply (C126_exact ch ch' k p c i r R5 SC ltac:(lia)). exists sched. exact H. }
  destruct EX as (x & l & (M1 & M2 & M3 & M4 & M5 & M6) & (X1 & X2 & X3 & X4 & X5 & X6) & E).
  (* settings other than the priority and the switch are the same *)
  assert (CX : forall a, (0 < a < 7)%nat -> nth a (c_cfg x) 0 = nth a (c_cfg ch) 0).
  { intros a A. destruct (M5 a ltac:(lia)) as [->| ->]; [reflexivity|]. apply L2. lia. }
  destruct SC as [S0 S1]. unfold zlen in S1.
  assert (DXA : forall j, (j < Z.to_nat (c_size ch))%nat -> let f y a := nth a (d_cfg (nth j (c_devs y) (mkDevice 0 0 []))) 0 in
     (forall a, (2 <= a < 15)%nat -> f x a = f ch a) /\ (f ch 0%nat <> 0 -> f x 0%nat <> 0) /\ (f x 0%nat <> 0 -> f ch' 0%nat <> 0) /\
     f ch' 1%nat <= f x 1%nat <= f ch 1%nat /\ (forall a, (2 <= a < 15)%nat -> f ch' a = f ch a)).
  { intros j J. cbv beta zeta. specialize (L3 j). cbv beta zeta in L3. destruct L3 as (B1 & B2 & B3).
    assert (M : forall a, (a < 15)%nat -> _) by (intros a A; exact (M6 j a J A)). cbv beta zeta in M.
    split; [|split; [|split; [|split]]].
    - intros a A. destruct (M a ltac:(lia)) as [->| ->]; [reflexivity|]. apply B3. lia.
    - intros N. destruct (M 0%nat ltac:(lia)) as [->| ->]; [exact N|]. apply B1. exact N.
    - intros N. destruct (M 0%nat ltac:(lia)) as [Q|Q]; rewrite Q in N; [apply B1; exact N|exact N].
    - destruct (M 1%nat ltac:(lia)) as [->| ->]; lia.
    - intros a A. apply B3. lia. }
  assert (INS : forall y, map d_in (c_devs y) = map d_in (c_devs ch) -> forall j, (j < length (c_devs ch))%nat ->
     d_in (nth j (c_devs y) (mkDevice 0 0 [])) = d_in (nth j (c_devs ch) (mkDevice 0 0 []))).
  { intros y Y j J. change (d_in (nth j (c_devs y) (mkDevice 0 0 []))) with (d_in (nth j (c_devs y) (mkDevice 0 0 []))).
    rewrite <- !(map_nth d_in). rewrite Y. reflexivity. }
  assert (SCX : channel_scope x c i).
  { unfold channel_scope in *. cbv beta zeta in *. rewrite !CX by lia. exact CS. }
  assert (DSX : devices_scope x c i).
  { intros j d [J D]. rewrite M2 in J. pose proof (DXA (Z.to_nat j) ltac:(lia)) as F. cbv beta zeta in F. destruct F as (F & _).
    assert (ND : nth (Z.to_nat j) (c_devs x) (mkDevice 0 0 []) = d) by (apply nth_error_nth; exact D).
    rewrite ND in F. unfold device_scope. cbv zeta. rewrite !F by lia.
    apply (DS j (nth (Z.to_nat j) (c_devs ch) (mkDevice 0 0 []))). split; [exact J|]. apply nth_error_nth'. lia. }
  assert (SX : sound_channel x) by (unfold sound_channel, zlen; rewrite M2, M3; lia).
  destruct (block_input_correct l k p c i) as (b & EB & AB).
  { intros y Y. rewrite X4 in Y. injection Y as <-. split; [exact SX|]. split; [exact SCX|exact DSX]. }
  { lia. }
  exists b. split; [congruence|].
  (* device y of one channel has a counterpart in the other *)
  assert (UP : forall y z, length (c_devs y) = length (c_devs ch) -> c_size y = c_size ch -> length (c_devs z) = length (c_devs ch) -> c_size z = c_size ch ->
     (forall j, (j < Z.to_nat (c_size ch))%nat -> let f v a := nth a (d_cfg (nth j (c_devs v) (mkDevice 0 0 []))) 0 in
        (f y 0%nat <> 0 -> f z 0%nat <> 0) /\ f z 1%nat <= f y 1%nat /\ (forall a, (2 <= a < 15)%nat -> f z a = f y a) /\
        d_in (nth j (c_devs z) (mkDevice 0 0 [])) = d_in (nth j (c_devs y) (mkDevice 0 0 []))) ->
     forall q, (exists j d, has_device y j d /\ device_on d /\ device_accepts d q c i) ->
       exists j d, has_device z j d /\ device_on d /\ device_accepts d q c i).
  { intros y z Y1 Y2 Z1 Z2 F q (j & d & [J D] & ON & AC). rewrite Y2 in J. specialize (F (Z.to_nat j) ltac:(lia)). cbv beta zeta in F.
    assert (ND : nth (Z.to_nat j) (c_devs y) (mkDevice 0 0 []) = d) by (apply nth_error_nth; exact D).
    rewrite ND in F. destruct F as (F0 & F1 & F2 & F3). exists j, (nth (Z.to_nat j) (c_devs z) (mkDevice 0 0 [])).
    split; [split; [lia|apply nth_error_nth'; lia]|]. unfold device_on, device_accepts, accepts in *. cbv beta zeta in *.
    destruct ON as [ON1 ON2]. split; [split; [apply F0; exact ON1|congruence]|].
    rewrite (F2 2%nat), (F2 3%nat), (F2 4%nat), (F2 5%nat), (F2 6%nat), (F2 7%nat) by lia. destruct AC as (A1 & A2). split; [lia|exact A2]. }
  split.
  - intros (_ & _ & _ & ch0 & C0 & _ & CA & DA). rewrite R4 in C0. injection C0 as <-. apply AB.
    split; [exact X1|]. split; [exact X2|]. split; [exact X3|]. exists x. split; [exact X4|]. split; [exact X5|]. split.
    + unfold channel_accepts, accepts in *. cbv beta zeta in *. rewrite (CX 1%nat), (CX 2%nat), (CX 3%nat), (CX 4%nat), (CX 5%nat), (CX 6%nat) by lia. destruct CA as (A1 & A2). split; [|exact A2].
      destruct (M5 0%nat ltac:(lia)) as [->| ->]; lia.
    + apply (UP ch x); auto. intros j J. pose proof (DXA j J) as F. cbv beta zeta in *. destruct F as (F1 & F2 & F3 & F4 & F5).
      split; [exact F2|]. split; [lia|]. split; [exact F1|]. apply INS; [exact M4|lia].
  - intros NA. destruct b; [reflexivity|]. exfalso. apply NA. destruct (proj1 AB eq_refl) as (_ & _ & _ & x0 & E0 & _ & CA & DA).
    rewrite X4 in E0. injection E0 as <-. split; [exact Q1|]. split; [exact Q2|]. split; [exact Q3|]. exists ch'. split; [exact Q4|]. split; [exact Q5|]. split.
    + unfold channel_accepts, accepts in *. cbv beta zeta in *. rewrite (CX 1%nat), (CX 2%nat), (CX 3%nat), (CX 4%nat), (CX 5%nat), (CX 6%nat) in CA by lia. rewrite (L2 1%nat), (L2 2%nat), (L2 3%nat), (L2 4%nat), (L2 5%nat), (L2 6%nat) by lia. destruct CA as (A1 & A2). split; [|exact A2].
      destruct (M5 0%nat ltac:(lia)) as [Q|Q]; rewrite Q in A1; lia.
    + apply (UP x ch'); auto. intros j J. pose proof (DXA j J) as F. cbv beta zeta in *. destruct F as (F1 & F2 & F3 & F4 & F5).
      split; [exact F3|]. split; [lia|]. split; [intros a A; rewrite F1, F5 by lia; reflexivity|].
      rewrite (INS ch' IN j ltac:(lia)), (INS x M4 j ltac:(lia)). reflexivity.
Qed.
Print Assumptions C126_looser_partial.
Definition tight_chan : channel :=
  mkChannel 0 0 2 1 [3; 1; 1; 0; 0; 0; 0] [mkDevice 0 1 [0; 0; 0; 0; 0; 0; 0; 0; 0; 0; 0; 0; 0; 0; 0]; mkDevice 0 1 [1; 4; 0; 0; 0; 0; 0; 0; 0; 0; 0; 0; 0; 0; 0]] [] [].
Definition loose_chan : channel :=
  mkChannel 0 0 2 1 [1; 1; 1; 0; 0; 0; 0] [mkDevice 0 1 [1; 0; 0; 0; 0; 0; 0; 0; 0; 0; 0; 0; 0; 0; 0]; mkDevice 0 1 [1; 2; 0; 0; 0; 0; 0; 0; 0; 0; 0; 0; 0; 0; 0]] [] [].
Example C126_looser_partial_hypotheses : running (one_log tight_chan) 0 tight_chan /\ running (one_log loose_chan) 0 loose_chan /\
  sound_channel tight_chan /\ channel_scope tight_chan 1 0 /\ devices_scope tight_chan 1 0 /\ looser tight_chan loose_chan /\
  block_input (one_log tight_chan) 0 3 1 0 = Ret true /\ block_input (one_log loose_chan) 0 3 1 0 = Ret false /\
  block_during (repeat false 9 ++ repeat true 30) tight_chan loose_chan 3 1 0 = Some (Ret false).
Proof.
  split; [runs|]. split; [runs|]. split; [cbv; split; discriminate|].
  split; [cbv; repeat split; intros; try discriminate; contradiction|].
  split. { intros k d [K D]. cbn [tight_chan c_devs c_size] in *.
           destruct (Z.to_nat k) as [|[|n]]; cbn in D; [injection D as <-|injection D as <-|destruct n; discriminate];
             cbv; repeat split; intros; try discriminate; contradiction. }
  split. { split; [cbn; lia|]. split; [intros [|a] N; [contradiction|reflexivity]|].
           intros [|[|j]]; cbn [nth tight_chan loose_chan c_devs d_cfg].
           - repeat split; try lia; intros [|[|a]] A; lia || reflexivity.
           - repeat split; try lia; intros [|[|a]] A; lia || reflexivity.
           - destruct j; cbn; repeat split; try lia; auto. }
  repeat split; vm_compute; reflexivity.
Qed.

(* In general it is neither the old nor the new answer: a statement that both settings
   reject is admitted, ... *)
Theorem C126_admits_refuted : exists ch ch' sched p c i, running (one_log ch) 0 ch /\ running (one_log ch') 0 ch' /\
  block_input (one_log ch) 0 p c i = Ret true /\ block_input (one_log ch') 0 p c i = Ret true /\
  block_during sched ch ch' p c i = Some (Ret false).
Proof.
  exists (one_chan 1 1 0 0), (one_chan 5 3 0 0), ([true; true] ++ repeat false 3 ++ repeat true 20), 3, 3, 0.
  split; [runs|]. split; [runs|]. repeat split; vm_compute; reflexivity.
Qed.
Print Assumptions C126_admits_refuted.
(* ... one that both admit is dropped, ... *)
Theorem C126_drops_refuted : exists ch ch' sched p c i, running (one_log ch) 0 ch /\ running (one_log ch') 0 ch' /\
  block_input (one_log ch) 0 p c i = Ret false /\ block_input (one_log ch') 0 p c i = Ret false /\
  block_during sched ch ch' p c i = Some (Ret true).
Proof.
  exists (one_chan 1 10 0 0), (one_chan 9 3 0 0), ([true; true] ++ repeat false 3 ++ repeat true 20), 3, 10, 0.
  split; [runs|]. split; [runs|]. repeat split; vm_compute; reflexivity.
Qed.
Print Assumptions C126_drops_refuted.
(* ... and the addition can overflow although it does with neither. *)
Theorem C126_undefined_refuted : exists ch ch' sched p c i, running (one_log ch) 0 ch /\ running (one_log ch') 0 ch' /\
  block_input (one_log ch) 0 p c i = Ret true /\ block_input (one_log ch') 0 p c i = Ret true /\
  block_during sched ch ch' p c i = Some Ub.
Proof.
  exists (one_chan 0 0 (LLONG_MAX - 1) 1), (one_chan 0 0 0 100), (repeat true 5 ++ repeat false 7 ++ repeat true 20), 3, 0, LLONG_MAX.
  split; [runs|]. split; [runs|]. repeat split; vm_compute; reflexivity.
Qed.
Print Assumptions C126_undefined_refuted.
