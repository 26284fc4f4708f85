(* Proofs about FastStart.v. *)
From Coq Require Import String ZArith List Bool Lia ZifyBool ZifyNat ZifyN.
From Verif Require Import Base BaseFacts LoggerState ParseVal Lexer ParseCfg Load LoadSpec LoadProofs ConfigApi Filter FastStart FastSpec.
Import ListNotations.
Open Scope Z_scope.

Definition pdev_file (id prio : Z) (f : text) : pdev := mkPdev id 0 2 [1; prio; 0; 0; 0; 0; 0; 0; 100000000; 4; 0; 0; 0; 0; 0] f [].
Definition pdev_screen (id : Z) : pdev := mkPdev id 0 1 [1; 2; 0; 0; 0; 0; 0; 0; 0; 0; 0; 0; 0; 0; 0] [] [].
Definition pch (id : Z) (ds : list pdev) : pchan := mkPchan id id 0 [0; 0; 0; 0; 0; 0; 0] ds.
Definition fast0 : pchan := pch 0 [pdev_file 0 0 (s2z "$PNAME"); pdev_file 1 4 (s2z "$PNAME_error"); pdev_screen 2].
Definition fast1 : pchan := pch 1 [pdev_file 0 0 (s2z "$PNAME_sync"); pdev_file 1 2 (s2z "$PNAME_sync_info"); pdev_screen 2].

Lemma fast_parse : forall n dns ar old, exists s, parse_logger (3000 + n) (mkPenv dns ar 2 20) old default_text = Ret (0, s) /\
  s_chs s = [fast0; fast1] /\ s_shm s = old /\ s_hot s = false /\ s_name s = [] /\ s_desc s = [].
Proof. intros n dns ar old. eexists. split; [vm_compute; reflexivity|]. repeat split. Qed.

Lemma blk_dev : forall t q f rest p c i, block_devices (mkDevice 0 t (1 :: q :: 0 :: 0 :: 0 :: 0 :: 0 :: 0 :: f) :: rest) p c i = if p <? q then block_devices rest p c i else Ret true.
Proof. reflexivity. Qed.
Lemma dsp_dev : forall j t q f rest r, dispatch_from j (mkDevice 0 t (1 :: q :: 0 :: 0 :: 0 :: 0 :: 0 :: 0 :: f) :: rest) r =
  if r_priority r <? q then dispatch_from (j + 1) rest r else let! ids := dispatch_from (j + 1) rest r in Ret (j :: ids).
Proof. reflexivity. Qed.
Lemma blk_in0 : forall t v s ds l d ch p c i, block_input (mkLogger true 2 2 [mkChannel t v s 1 [0; 0; 0; 0; 0; 0; 0] ds l d; ch]) 0 p c i =
  if p <? 0 then Ret true else let! n := block_devices (firstn (Z.to_nat s) ds) (if 7 <=? p then 6 else p) c i in Ret (negb n).
Proof. reflexivity. Qed.
Lemma blk_in1 : forall t v s ds l d ch p c i, block_input (mkLogger true 2 2 [ch; mkChannel t v s 1 [0; 0; 0; 0; 0; 0; 0] ds l d]) 1 p c i =
  if p <? 0 then Ret true else let! n := block_devices (firstn (Z.to_nat s) ds) (if 7 <=? p then 6 else p) c i in Ret (negb n).
Proof. reflexivity. Qed.
Lemma serves_logger : forall l0 d0 l1 d1 n0 n1 debug p0 p1 p2 q0 q1 q2 f0 f1 f2 h0 h1 h2,
  p0 = least debug 0 0 -> p1 = least debug 0 1 -> p2 = least debug 0 2 -> q0 = least debug 1 0 -> q1 = least debug 1 1 -> q2 = least debug 1 2 ->
  serves debug (mkLogger true 2 2 [
    mkChannel 0 0 3 1 [0; 0; 0; 0; 0; 0; 0] (mkDevice 0 2 (1 :: p0 :: 0 :: 0 :: 0 :: 0 :: 0 :: 0 :: f0) :: mkDevice 0 2 (1 :: p1 :: 0 :: 0 :: 0 :: 0 :: 0 :: 0 :: f1) ::
      mkDevice 0 1 (1 :: p2 :: 0 :: 0 :: 0 :: 0 :: 0 :: 0 :: f2) :: n0) l0 d0;
    mkChannel 1 0 3 1 [0; 0; 0; 0; 0; 0; 0] (mkDevice 0 2 (1 :: q0 :: 0 :: 0 :: 0 :: 0 :: 0 :: 0 :: h0) :: mkDevice 0 2 (1 :: q1 :: 0 :: 0 :: 0 :: 0 :: 0 :: 0 :: h1) ::
      mkDevice 0 1 (1 :: q2 :: 0 :: 0 :: 0 :: 0 :: 0 :: 0 :: h2) :: n1) l1 d1]).
Proof.
  intros l0 d0 l1 d1 n0 n1 debug p0 p1 p2 q0 q1 q2 f0 f1 f2 h0 h1 h2 -> -> -> -> -> ->. split.
  - intros k p c i. destruct ((2 <=? k) || (k <? 0)) eqn:K.
    + unfold block_input. cbn [g_shm g_size negb orb]. rewrite K. replace ((0 <=? k) && (k <? 2)) with false by lia. reflexivity.
    + assert (KK : k = 0 \/ k = 1) by lia.
      destruct KK as [-> | ->]; rewrite ?blk_in0, ?blk_in1; change (Z.to_nat 3) with 3%nat; cbn [firstn]; rewrite blk_dev;
        replace (least debug _ 0) with 0 by (destruct debug; reflexivity); replace ((if 7 <=? p then 6 else p) <? 0) with (p <? 0) by (destruct (7 <=? p) eqn:X; lia);
        (destruct (p <? 0) eqn:P; [replace (0 <=? p) with false by lia; reflexivity|replace (0 <=? p) with true by lia; reflexivity]).
  - eexists _, _. split; [reflexivity|]. split; [reflexivity|]. split; [reflexivity|].
    split; intros r; unfold dispatch; cbn [c_size c_devs]; change (Z.to_nat 3) with 3%nat; cbn [firstn]; rewrite !dsp_dev; cbn [dispatch_from filter]; rewrite !Z.leb_antisym;
      repeat match goal with |- context [r_priority r <? ?x] => destruct (r_priority r <? x) end; reflexivity.
Qed.

Lemma fast_started : forall e th g, x_maxch (y_pe e) = 2 -> x_maxdev (y_pe e) = 20 -> (3000 <= y_fuel e)%nat -> lenv_ok e -> reach e g -> lg_state g = LOGGER_STATE_UNINIT ->
  y_old e <= 0 \/ lg_shm g <> None -> th 0 = Up ->
  exists g' m l0 d0 l1 d1, fast_start_default e th g = Ret (Code 0, g') /\ lg_shm g' = Some m /\ lg_state g' = LOGGER_STATE_RUNNING /\ sm_size m = 2 /\
    sm_chans m = [mkLchan fast0 1 0 0 l0 d0; mkLchan fast1 1 0 0 l1 d1] /\
    lg_name g' = lg_name g /\ lg_desc g' = lg_desc g /\ lg_hot g' = false /\ lg_path g' = [].
Proof.
  intros e th g MC MD FU E R ST OLD TH. pose proof (reach_inv e g E R) as IV.
  destruct e as [[dns ar mc md] fu old att]. cbn [y_pe y_fuel y_old y_attach x_maxch x_maxdev] in *. subst mc md.
  destruct (fast_parse (fu - 3000) dns ar old) as (s & PA & CH & KEY & HOT & NM & DS). replace (3000 + (fu - 3000))%nat with fu in PA by lia.
  assert (MM : exists m o0 o1, match lg_shm g with Some m => (0, Some m) | None => load_shm (mkLenv (mkPenv dns ar 2 20) fu old att) old end = (0, Some m) /\ sm_chans m = [o0; o1]).
  { destruct (lg_shm g) as [m|] eqn:SM.
    - pose proof (sw_len _ _ (iv_shm _ _ IV m SM)) as L. cbn [y_pe x_maxch] in L. destruct (sm_chans m) as [|o0 [|o1 [|o2 l]]] eqn:SC; unfold zlen in L; cbn [length] in L; try lia.
      exists m, o0, o1. auto.
    - destruct OLD as [OLD | OLD]; [|congruence]. unfold load_shm. replace (old <=? 0) with true by lia. eexists _, _, _. split; reflexivity. }
  destruct MM as (m & o0 & o1 & MM & SC).
  eexists _, _, _, _, _, _. unfold fast_start_default, parse_and_start, then_start. replace (negb (lg_state g =? LOGGER_STATE_UNINIT)) with false by (rewrite ST; reflexivity).
  unfold init_yaml. replace (negb (lg_state g =? LOGGER_STATE_UNINIT)) with false by (rewrite ST; reflexivity). cbn [y_fuel y_pe y_old]. rewrite PA. cbn [bind].
  replace (negb (0 =? PEC_NONE)) with false by reflexivity. cbn [lg_shm lg_key lg_state lg_name lg_desc lg_hot]. rewrite KEY, MM, CH, SC, NM, DS, HOT. cbn -[fast0 fast1].
  rewrite ST. cbn -[fast0 fast1]. change (pc_type fast0) with 0. change (pc_type fast1) with 1. cbn -[fast0 fast1]. rewrite TH. cbn -[fast0 fast1].
  split; [reflexivity|]. repeat split.
Qed.

Lemma fast_default : forall e th g, x_maxch (y_pe e) = 2 -> x_maxdev (y_pe e) = 20 -> (3000 <= y_fuel e)%nat -> lenv_ok e -> reach e g -> lg_state g = LOGGER_STATE_UNINIT ->
  y_old e <= 0 \/ lg_shm g <> None -> th 0 = Up ->
  exists g', fast_start_default e th g = Ret (Code 0, g') /\ serves false (as_logger e g') /\
    map (fun c => map (fun d => (pd_out d, pd_file d)) (pc_devs (lc_p c))) (chans g') = places /\
    Forall (fun c => Forall (fun d => pd_out d = DEVICE_OUT_FILE -> nth 8 (pd_cfg d) 0 = 100000000 /\ nth 9 (pd_cfg d) 0 = 4) (pc_devs (lc_p c))) (chans g') /\
    lg_name g' = lg_name g /\ lg_hot g' = false.
Proof.
  intros e th g MC MD FU E R ST OLD TH. destruct (fast_started e th g MC MD FU E R ST OLD TH) as (g' & m & l0 & d0 & l1 & d1 & GO & SM & RN & SZ & SC & NM & DS & HO & PT).
  exists g'. split; [exact GO|]. split; [|split; [|split; [|split; [exact NM|exact HO]]]].
  - unfold as_logger. rewrite SM, RN, SZ, SC, MD. apply serves_logger; reflexivity.
  - unfold chans. rewrite SM, SZ, SC. reflexivity.
  - unfold chans. rewrite SM, SZ, SC. change (Z.to_nat 2) with 2%nat. cbn [firstn lc_p fast0 fast1 pch pc_devs]. repeat (apply Forall_cons || apply Forall_nil); intros X; try discriminate X; split; reflexivity.
Qed.

Lemma fast_debug : forall e th g, x_maxch (y_pe e) = 2 -> x_maxdev (y_pe e) = 20 -> (3000 <= y_fuel e)%nat -> lenv_ok e -> reach e g -> lg_state g = LOGGER_STATE_UNINIT ->
  y_old e <= 0 \/ lg_shm g <> None -> th 0 = Up ->
  exists l, fast_start_debug e th g = Ret (Code 0, l) /\ serves true l /\
    map (fun c => map d_out (firstn (Z.to_nat (c_size c)) (c_devs c))) (g_chs l) = map (map fst) places.
Proof.
  intros e th g MC MD FU E R ST OLD TH. destruct (fast_started e th g MC MD FU E R ST OLD TH) as (g' & m & l0 & d0 & l1 & d1 & GO & SM & RN & SZ & SC & NM & DS & HO & PT).
  eexists. unfold fast_start_debug. rewrite GO. cbn [bind]. unfold as_logger. rewrite SM, RN, SZ, SC, MD. split; [vm_compute; reflexivity|]. split.
  - apply serves_logger; reflexivity.
  - reflexivity.
Qed.
