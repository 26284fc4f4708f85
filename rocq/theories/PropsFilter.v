(* Property theorems C01-C05: admission, dispatch, masks, virtual hook. *)
From Coq Require Import ZArith List Bool Sorted Lia.
From Verif Require Import Base BaseFacts LoggerState Filter FilterSpec FilterProofs.
Import ListNotations.
Open Scope Z_scope.

(* C01.  BlockInput is defined and answers "not blocked" exactly for admitted
   records, in every state and for every argument in scope of the settings. *)
Theorem C01_admission : forall lg k p c i,
  (forall ch, nth_error (g_chs lg) (Z.to_nat k) = Some ch ->
     sound_channel ch /\ channel_scope ch c i /\ devices_scope ch c i) ->
  0 <= g_size lg <= zlen (g_chs lg) ->
  exists b, block_input lg k p c i = Ret b /\ (b = false <-> admitted lg k p c i).
Proof. exact block_input_correct. Qed.
Print Assumptions C01_admission.

(* Two devices: 0 takes ERROR+ of category 3..5; 1 is an enabled screen for
   identify 1 and 2 (mask 6) of any priority >= INFO. *)
Definition ex_dev0 := mkDevice 0 DEVICE_OUT_FILE   [1; 4; 3; 3; 0; 0; 0; 0; 0;0;0;0;0;0;0].
Definition ex_dev1 := mkDevice 0 DEVICE_OUT_SCREEN [1; 2; 0; 0; 0; 0; 0; 6; 0;0;0;0;0;0;0].
Definition ex_dev2 := mkDevice 0 DEVICE_OUT_VIRTUAL [0; 0; 0; 0; 0; 0; 0; 0; 0;0;0;0;0;0;0].
Definition ex_ch := mkChannel CHANNEL_ASYNC 2 3 CHANNEL_STATE_RUNNING [1; 0; 0; 0; 0; 0; 0]
                      [ex_dev0; ex_dev1; ex_dev2] (repeat 0 25) (repeat (repeat 0 18) 3).
Definition ex_lg := mkLogger true LOGGER_STATE_RUNNING 1 [ex_ch].

Lemma ex_scope : forall c i, 0 <= c <= 63 -> 0 <= i <= 63 -> sound_channel ex_ch /\ channel_scope ex_ch c i /\ devices_scope ex_ch c i.
Proof.
  intros c i Hc Hi. split; [split; vm_compute; congruence|]. split.
  - unfold channel_scope, in_scope, is_ll, LLONG_MIN, LLONG_MAX. cbn. repeat split; intros; lia.
  - intros k d (Hk & Hd). cbn in Hk, Hd.
    assert (k = 0 \/ k = 1 \/ k = 2) as [-> | [-> | ->]] by lia; cbn in Hd; inversion Hd; subst d;
      unfold device_scope, in_scope, is_ll, LLONG_MIN, LLONG_MAX; cbn; repeat split; intros; lia.
Qed.

Example C01_example :
  (forall ch, nth_error (g_chs ex_lg) (Z.to_nat 0) = Some ch ->
     sound_channel ch /\ channel_scope ch 4 0 /\ devices_scope ch 4 0) /\
  block_input ex_lg 0 4 4 0 = Ret false /\   (* device 0 *)
  block_input ex_lg 0 9 5 9 = Ret false /\   (* above FATAL *)
  block_input ex_lg 0 2 9 2 = Ret false /\   (* device 1 *)
  block_input ex_lg 0 4 6 3 = Ret true /\
  block_input ex_lg 0 0 4 1 = Ret true /\    (* below the channel *)
  block_input ex_lg 1 4 4 0 = Ret true.
Proof.
  split; [intros ch H; inversion H; subst; apply ex_scope; lia|].
  repeat split; vm_compute; reflexivity.
Qed.

(* C02.  The ids handed to EnterProcDevice are strictly increasing (hence each
   at most once) and are exactly the active devices accepting the record. *)
Theorem C02_dispatch : forall ch r, sound_channel ch ->
  devices_scope ch (r_category r) (r_identify r) ->
  exists ids, dispatch ch r = Ret ids /\ StronglySorted Z.lt ids /\
    forall j, In j ids <-> exists d, has_device ch j d /\ device_on d /\
                device_accepts d (r_priority r) (r_category r) (r_identify r).
Proof. exact dispatch_correct. Qed.
Print Assumptions C02_dispatch.

Example C02_example :
  sound_channel ex_ch /\ devices_scope ex_ch 3 1 /\
  dispatch ex_ch (mkRec 5 3 1) = Ret [0; 1] /\ dispatch ex_ch (mkRec 3 3 1) = Ret [1] /\
  dispatch ex_ch (mkRec 5 6 0) = Ret [].
Proof.
  split; [apply (ex_scope 3 1); lia|]. split; [apply (ex_scope 3 1); lia|].
  repeat split; vm_compute; reflexivity.
Qed.

(* C03.  With the same settings, admission and dispatch agree. *)
Theorem C03_admitted_reaches_device : forall lg k p c i ch,
  nth_error (g_chs lg) (Z.to_nat k) = Some ch ->
  sound_channel ch -> channel_scope ch c i -> devices_scope ch c i ->
  0 <= g_size lg <= zlen (g_chs lg) ->
  block_input lg k p c i = Ret false ->
  exists j rest, dispatch ch (mkRec p c i) = Ret (j :: rest).
Proof. exact admitted_dispatched. Qed.
Print Assumptions C03_admitted_reaches_device.

Theorem C03_filtered_reaches_none : forall lg k p c i ch,
  nth_error (g_chs lg) (Z.to_nat k) = Some ch ->
  sound_channel ch -> channel_scope ch c i -> devices_scope ch c i ->
  0 <= g_size lg <= zlen (g_chs lg) ->
  g_shm lg = true -> g_state lg = 2 -> 0 <= k < g_size lg -> c_state ch = 1 -> channel_accepts ch p c i ->
  (forall j d, has_device ch j d -> nth 1 (d_cfg d) 0 <= 6) ->
  block_input lg k p c i = Ret true ->
  dispatch ch (mkRec p c i) = Ret [].
Proof. exact blocked_not_dispatched. Qed.
Print Assumptions C03_filtered_reaches_none.

Example C03_example :
  (block_input ex_lg 0 9 5 9 = Ret false /\ dispatch ex_ch (mkRec 9 5 9) = Ret [0]) /\
  (channel_accepts ex_ch 4 6 3 /\ (forall j d, has_device ex_ch j d -> nth 1 (d_cfg d) 0 <= 6) /\
   block_input ex_lg 0 4 6 3 = Ret true /\ dispatch ex_ch (mkRec 4 6 3) = Ret []).
Proof.
  split; [split; vm_compute; reflexivity|].
  split. { unfold channel_accepts, accepts, in_window, in_mask. cbn. repeat split; lia. }
  split.
  { intros j d (Hj & Hd). cbn in Hj. assert (j = 0 \/ j = 1 \/ j = 2) as [-> | [-> | ->]] by lia; cbn in Hd; inversion Hd; subst d; cbn; lia. }
  split; vm_compute; reflexivity.
Qed.

(* A device priority above FATAL breaks the agreement: rejected at admission
   (where the record counts as FATAL) but accepted at dispatch. *)
Theorem C03_above_fatal_refuted : exists lg ch p c i,
  nth_error (g_chs lg) 0 = Some ch /\ g_shm lg = true /\ g_state lg = 2 /\ g_size lg = 1 /\ c_state ch = 1 /\
  block_input lg 0 p c i = Ret true /\ dispatch ch (mkRec p c i) = Ret [0].
Proof.
  exists (mkLogger true 2 1 [mkChannel 0 (-1) 1 1 (repeat 0 7) [mkDevice 0 1 (1 :: 7 :: repeat 0 13)] (repeat 0 25) [repeat 0 18]]).
  eexists. exists 7, 0, 0. repeat split; vm_compute; reflexivity.
Qed.
Print Assumptions C03_above_fatal_refuted.

(* C04 for values 0..63.  Missing: other values, refuted below. *)
Theorem C04_mask_partial : forall m x, m mod 2 ^ 64 <> 0 -> 0 <= x <= 63 ->
  exists b, mask_reject m x = Ret b /\ (b = false <-> Z.testbit m x = true).
Proof.
  intros m x Hm Hx. destruct (mask_ok m x) as (b & Hb & Hiff); [intros _; exact Hx|].
  exists b. split; [exact Hb|]. rewrite Hiff. unfold in_mask. split; [intros [H|(_ & H)]; [contradiction|exact H]|right; auto].
Qed.
Print Assumptions C04_mask_partial.

Example C04_example : 6 mod 2 ^ 64 <> 0 /\ mask_reject 6 2 = Ret false /\ mask_reject 6 3 = Ret true /\
  mask_reject (-1) 63 = Ret false.
Proof. repeat split; vm_compute; congruence. Qed.

(* C04 fails outside 0..63: a category of 64 shifts too far (undefined), and an
   identify of 2^32 counts as 0 and passes the white list {0}. *)
Theorem C04_mask_refuted :
  (exists m x, m mod 2 ^ 64 <> 0 /\ is_ll x /\ ~ 0 <= x <= 63 /\ mask_reject m x = Ret false) /\
  (exists m x, m mod 2 ^ 64 <> 0 /\ is_int x /\ mask_reject m x = Ub).
Proof.
  split; [exists 1, (2 ^ 32) | exists 1, 64]; repeat split; try (vm_compute; congruence).
  intros (_ & H). vm_compute in H. congruence.
Qed.
Print Assumptions C04_mask_refuted.

(* C05 for a channel whose virtual_device_id_ names a device: the hook runs
   exactly if that device's priority, windows and masks accept the record.
   Missing: the device being enabled and being a virtual one (refuted). *)
Theorem C05_hook_partial : forall ch r d,
  0 <= c_virtual ch -> nth_error (c_devs ch) (Z.to_nat (c_virtual ch)) = Some d ->
  device_scope d (r_category r) (r_identify r) -> -7 <= r_priority r <= 10 ->
  exists o, stream_hook true ch r = Ret o /\
   (o = Some (c_virtual ch) <-> device_accepts d (r_priority r) (r_category r) (r_identify r)) /\
   (o = None \/ o = Some (c_virtual ch)).
Proof. exact stream_hook_correct. Qed.
Print Assumptions C05_hook_partial.

Example C05_example :
  0 <= c_virtual ex_ch /\ nth_error (c_devs ex_ch) (Z.to_nat (c_virtual ex_ch)) = Some ex_dev2 /\
  device_scope ex_dev2 1 1 /\ stream_hook true ex_ch (mkRec 3 1 1) = Ret (Some 2) /\
  stream_hook true ex_ch (mkRec (-1) 1 1) = Ret None /\
  stream_hook false ex_ch (mkRec 3 1 1) = Ret None.
Proof.
  split; [cbn; lia|]. split; [reflexivity|].
  split; [|repeat split; vm_compute; reflexivity].
  unfold device_scope, in_scope, is_ll, LLONG_MIN, LLONG_MAX. cbn. repeat split; intros; lia.
Qed.

(* C05 is false: the hook also runs for a disabled virtual device, and in a
   channel with no virtual device at all (virtual_device_id_ is zeroed by the
   memset of ParseLogger, fn_parse.h:1402-1512, and then names device 0). *)
Theorem C05_hook_refuted :
  (exists ch r d, nth_error (c_devs ch) 0 = Some d /\ c_virtual ch = 0 /\ d_out d = DEVICE_OUT_VIRTUAL /\
     ~ device_on d /\ stream_hook true ch r = Ret (Some 0)) /\
  (exists ch r, (forall d, In d (c_devs ch) -> d_out d <> DEVICE_OUT_VIRTUAL) /\
     stream_hook true ch r = Ret (Some 0)).
Proof.
  split.
  - exists (mkChannel 0 0 1 1 (repeat 0 7) [mkDevice 0 4 (repeat 0 15)] (repeat 0 25) [repeat 0 18]), (mkRec 3 0 0).
    eexists. split; [reflexivity|]. split; [reflexivity|]. split; [reflexivity|].
    split; [|vm_compute; reflexivity]. intros (H & _). apply H. reflexivity.
  - exists (mkChannel 0 0 1 1 (repeat 0 7) [mkDevice 0 1 (1 :: repeat 0 14)] (repeat 0 25) [repeat 0 18]), (mkRec 3 0 0).
    split; [|vm_compute; reflexivity]. intros d [<-|[]]. vm_compute. congruence.
Qed.
Print Assumptions C05_hook_refuted.
