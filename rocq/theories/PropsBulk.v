(* Properties C101-C103: the calls that set one thing for all channels or all devices of a kind. *)
From Coq Require Import ZArith List Bool Lia Sorted.
From Verif Require Import Base BaseFacts LoggerState ConfigApi ConfigSpec ConfigProofs Filter FilterSpec FilterProofs Bulk BulkSpec BulkProofs.
Import ListNotations.
Open Scope Z_scope.

(* C101.  On a started logger each of the calls is defined and changes exactly the
   entries that BulkSpec.v lists, of the used devices and channels; everything else
   in the logger is as before. *)
Theorem C101_exact_partial : forall lg b, started lg ->
  bulk_set lg b = Ret (mkLogger (g_shm lg) (g_state lg) (g_size lg)
     (map (channel_then b) (firstn (Z.to_nat (g_size lg)) (g_chs lg)) ++ skipn (Z.to_nat (g_size lg)) (g_chs lg))).
Proof. exact bulk_exact. Qed.
Print Assumptions C101_exact_partial.

(* C102.  Afterwards a record goes to exactly the devices that are expected: devices
   of other kinds as before, devices of the kind by the new setting. *)
Theorem C102_routes : forall lg b n ch p c i, started lg -> int_args b ->
  nth_error (g_chs lg) n = Some ch -> Z.of_nat n < g_size lg -> devices_scope ch c i ->
  exists lg' ch' ids ids', bulk_set lg b = Ret lg' /\ nth_error (g_chs lg') n = Some ch' /\
    dispatch ch (mkRec p c i) = Ret ids /\ dispatch ch' (mkRec p c i) = Ret ids' /\
    StronglySorted Z.lt ids' /\ forall j, In j ids' <-> goes_to b ch ids p c i j.
Proof. exact bulk_routes. Qed.
Print Assumptions C102_routes.

(* C103.  And a statement is admitted exactly if logger and channel run, the channel
   lets it in by the new setting and some device is left that takes it. *)
Theorem C103_admits : forall lg b n ch p c i, started lg -> int_args b ->
  nth_error (g_chs lg) n = Some ch -> Z.of_nat n < g_size lg -> channel_scope ch c i -> devices_scope ch c i -> p <= 6 ->
  exists lg' ids x, bulk_set lg b = Ret lg' /\ dispatch ch (mkRec p c i) = Ret ids /\ block_input lg' (Z.of_nat n) p c i = Ret x /\
    (x = false <-> g_state lg = 2 /\ c_state ch = 1 /\ lets_in b ch p c i /\ exists j, goes_to b ch ids p c i j).
Proof. exact bulk_admits. Qed.
Print Assumptions C103_admits.

(* a file for everything, a screen from INFO on, a switched-off UDP output, and an unused slot *)
Definition exb_dev o on q := mkDevice 0 o (on :: q :: repeat 0 13).
Definition exb_ch := mkChannel CHANNEL_ASYNC 0 3 CHANNEL_STATE_RUNNING (repeat 0 7)
  [exb_dev 2 1 0; exb_dev 1 1 2; exb_dev 3 0 0; exb_dev 2 1 0] (repeat 0 25) (repeat (repeat 0 18) 4).
Definition exb_lg := mkLogger true LOGGER_STATE_RUNNING 1 [exb_ch; exb_ch].
Lemma exb_started : started exb_lg.
Proof. split; [reflexivity|]. split; [vm_compute; split; congruence|]. repeat constructor; try reflexivity; vm_compute; congruence. Qed.
Lemma exb_scope : forall c i, channel_scope exb_ch c i /\ devices_scope exb_ch c i.
Proof.
  intros c i. split; [unfold channel_scope, in_scope; cbn; lia|].
  intros k d (Hk & Hd). cbn in Hk. assert (k = 0 \/ k = 1 \/ k = 2) as [-> | [-> | ->]] by lia; cbn in Hd; inversion Hd; subst d;
    unfold device_scope, in_scope; cbn; lia.
Qed.
Definition routes_after b p := match bulk_set exb_lg b with
  | Ret g => match nth_error (g_chs g) 0 with Some ch => Some (dispatch ch (mkRec p 5 0)) | None => None end | _ => None end.
Example C101_ex : started exb_lg /\
  bulk_set exb_lg (AllPriority File 4) = Ret (mkLogger true 2 1
    [mkChannel 0 0 3 1 (repeat 0 7) [exb_dev 2 1 4; exb_dev 1 1 2; exb_dev 3 0 0; exb_dev 2 1 0] (repeat 0 25) (repeat (repeat 0 18) 4); exb_ch]).
Proof. split; [exact exb_started|vm_compute; reflexivity]. Qed.
Example C102_ex : started exb_lg /\ nth_error (g_chs exb_lg) 0 = Some exb_ch /\ devices_scope exb_ch 5 0 /\
  dispatch exb_ch (mkRec 3 5 0) = Ret [0; 1] /\
  routes_after (EnableAll Screen false) 3 = Some (Ret [0]) /\
  routes_after (EnableAll Udp true) 3 = Some (Ret [0; 1; 2]) /\
  routes_after (AllPriority File 4) 3 = Some (Ret [1]) /\
  routes_after (AllCategory Screen 6 2) 3 = Some (Ret [0]) /\
  routes_after (AllCategory Screen 4 2) 3 = Some (Ret [0; 1]) /\
  routes_after (FileLimit 100) 3 = Some (Ret [0; 1]).
Proof. split; [exact exb_started|]. split; [reflexivity|]. split; [exact (proj2 (exb_scope 5 0))|]. vm_compute. auto 10. Qed.
Example C103_ex : channel_scope exb_ch 5 0 /\
  (forall b, In b [EnableAll File false; ChannelPriority 2; ChannelCategory 5 1] -> exists g, bulk_set exb_lg b = Ret g /\ block_input g 0 2 5 0 = Ret false) /\
  (forall b, In b [AllPriority Screen 3; ChannelPriority 1] -> exists g, bulk_set exb_lg b = Ret g /\ block_input g 0 0 5 0 = Ret (match b with ChannelPriority _ => true | _ => false end)) /\
  exists g, bulk_set exb_lg (ChannelCategory 6 1) = Ret g /\ block_input g 0 2 5 0 = Ret true.
Proof.
  split; [exact (proj1 (exb_scope 5 0))|]. split; [|split].
  - intros b [<-|[<-|[<-|[]]]]; eexists; (split; [vm_compute; reflexivity|vm_compute; reflexivity]).
  - intros b [<-|[<-|[]]]; eexists; (split; [vm_compute; reflexivity|vm_compute; reflexivity]).
  - eexists; split; [vm_compute; reflexivity|vm_compute; reflexivity].
Qed.

(* C101 is false of the names: SetAllFilePriority(logger, begin, count) leaves every
   priority and sets the category window, so that a file loses the records of the
   other categories. *)
Theorem C101_name_refuted : exists lg lg' ch ch',
  started lg /\ set_all_file_priority lg PRIORITY_ERROR PRIORITY_FATAL = Ret lg' /\
  nth_error (g_chs lg) 0 = Some ch /\ nth_error (g_chs lg') 0 = Some ch' /\
  map (fun d => nth 1 (d_cfg d) 0) (c_devs ch') = map (fun d => nth 1 (d_cfg d) 0) (c_devs ch) /\
  dispatch ch (mkRec PRIORITY_TRACE 4 0) = Ret [0] /\ dispatch ch' (mkRec PRIORITY_TRACE 4 0) = Ret [0] /\
  dispatch ch (mkRec PRIORITY_FATAL 3 0) = Ret [0; 1] /\ dispatch ch' (mkRec PRIORITY_FATAL 3 0) = Ret [1].
Proof.
  exists exb_lg. eexists. exists exb_ch. eexists. split; [exact exb_started|]. split; [vm_compute; reflexivity|].
  split; [reflexivity|]. split; [reflexivity|]. vm_compute. auto 10.
Qed.
Print Assumptions C101_name_refuted.
