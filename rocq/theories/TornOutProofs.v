(* Proofs about DispatchLog during an update (C129). *)
From Coq Require Import ZArith List Bool Arith Lia Sorting.Sorted ZifyBool ZifyNat ZifyN.
From Verif Require Import Base BaseFacts LoggerState Filter FilterSpec FilterProofs Torn TornSpec TornProofs TornOut.
Import ListNotations.
Open Scope Z_scope.
Ltac Zify.zify_post_hook ::= idtac.

Lemma out_ordered : forall ins j r acc, ordered (words j) (words (j + length ins)) (out_loop ins j r acc).
Proof.
  induction ins as [|x ins IH]; intros j r acc; [exact Logic.I|].
  assert (NX : forall lo acc, (lo <= words (S j))%nat -> ordered lo (words (j + length (x :: ins))) (out_loop ins (S j) r acc)).
  { intros lo acc' H. apply (ordered_weaken _ _ (words (S j))); [exact H|]. replace (j + length (x :: ins))%nat with (S j + length ins)%nat by (cbn; lia).
    apply IH. }
  cbn [out_loop ordered]. split; [unfold dev_word, words; cbn [length]; lia|]. intros able.
  destruct (able =? 0). { apply NX. unfold dev_word, words. lia. }
  destruct (negb _). { apply NX. unfold dev_word, words. lia. }
  cbn [ordered]. split; [unfold dev_word, words; cbn [length]; lia|]. intros prio.
  destruct (_ <? _). { apply NX. unfold dev_word, words. lia. }
  unfold load_settings. cbn [ordered].
  repeat (split; [unfold dev_word, words; cbn [length]; lia|]; intros ?).
  destruct (settings_reject _ _ _ _ _ _ _ _) as [[|]| |]; try exact Logic.I; apply NX; unfold dev_word, words; lia.
Qed.

Lemma out_eval : forall devs j r acc m,
  (forall n i, (n < length devs)%nat -> (i < 8)%nat -> m (dev_word (j + n) i) = nth i (d_cfg (nth n devs (mkDevice 0 0 []))) 0) ->
  eval (out_loop (map d_in devs) j r acc) m = (let! ids := dispatch_from (Z.of_nat j) devs r in Ret (rev acc ++ ids)).
Proof.
  induction devs as [|d devs IH]; intros j r acc m H; [cbn; rewrite app_nil_r; reflexivity|].
  assert (W : forall k, (k < 8)%nat -> m (dev_word j k) = nth k (d_cfg d) 0).
  { intros k K. rewrite <- (Nat.add_0_r j). apply (H 0%nat k); [cbn; lia|exact K]. }
  assert (N : forall acc, eval (out_loop (map d_in devs) (S j) r acc) m = (let! ids := dispatch_from (Z.of_nat j + 1) devs r in Ret (rev acc ++ ids))).
  { intros acc'. replace (Z.of_nat j + 1) with (Z.of_nat (S j)) by lia. apply IH. intros n k L K. replace (S j + n)%nat with (j + S n)%nat by lia. apply (H (S n) k); [cbn; lia|exact K]. }
  cbn [map out_loop eval dispatch_from]. rewrite W by lia.
  change (fld (d_cfg d) DEVICE_CFG_ABLE) with (nth 0 (d_cfg d) 0).
  change (fld (d_cfg d) DEVICE_CFG_PRIORITY) with (nth 1 (d_cfg d) 0).
  destruct (_ =? 0); [apply N|]. destruct (negb _); [apply N|]. cbn [eval]. rewrite W by lia. destruct (_ <? _); [apply N|]. unfold load_settings. cbn [eval].
  change (2 + 0)%nat with 2%nat. change (2 + 1)%nat with 3%nat. change (2 + 2)%nat with 4%nat.
  change (2 + 3)%nat with 5%nat. change (2 + 4)%nat with 6%nat. change (2 + 5)%nat with 7%nat.
  rewrite !W by lia.
  change (fld (d_cfg d) DEVICE_CFG_CATEGORY) with (nth 2 (d_cfg d) 0).
  change (fld (d_cfg d) DEVICE_CFG_CATEGORY_EXTEND) with (nth 3 (d_cfg d) 0).
  change (fld (d_cfg d) DEVICE_CFG_CATEGORY_MASK) with (nth 4 (d_cfg d) 0).
  change (fld (d_cfg d) DEVICE_CFG_IDENTIFY) with (nth 5 (d_cfg d) 0).
  change (fld (d_cfg d) DEVICE_CFG_IDENTIFY_EXTEND) with (nth 6 (d_cfg d) 0).
  change (fld (d_cfg d) DEVICE_CFG_IDENTIFY_MASK) with (nth 7 (d_cfg d) 0).
  unfold settings_reject.
  destruct (window_reject _ _ (r_category r)) as [[|]| |]; cbn [bind]; try reflexivity; [apply N|].
  destruct (window_reject _ _ (r_identify r)) as [[|]| |]; cbn [bind]; try reflexivity; [apply N|].
  destruct (mask_reject _ (r_category r)) as [[|]| |]; cbn [bind]; try reflexivity; [apply N|].
  destruct (mask_reject _ (r_identify r)) as [[|]| |]; cbn [bind]; try reflexivity; [apply N|].
  rewrite N. destruct (dispatch_from _ devs r); cbn [bind]; try reflexivity. cbn [rev]. rewrite <- app_assoc. reflexivity.
Qed.
Lemma out_alone : forall ch r m, (count ch <= length (c_devs ch))%nat ->
  (forall j a, (j < count ch)%nat -> (a < 8)%nat -> m (dev_word j a) = nth a (d_cfg (nth j (c_devs ch) (mkDevice 0 0 []))) 0) ->
  eval (out_loop (map d_in (firstn (count ch) (c_devs ch))) 0 r []) m = dispatch ch r.
Proof.
  intros ch r m CN MD. rewrite out_eval.
  - unfold dispatch. fold (count ch). cbn [Z.of_nat rev app]. destruct (dispatch_from _ _ r); reflexivity.
  - intros n a L A. rewrite firstn_length in L. rewrite nth_firstn by lia. apply MD; lia.
Qed.

Lemma dispatch_iff : forall ch ch' r o, (count ch <= length (c_devs ch))%nat ->
  (exists sched, dispatch_during sched ch ch' r = Some o) <-> (exists x, mixture ch ch' x /\ dispatch x r = o).
Proof.
  intros ch ch' r o CN. unfold dispatch_during. fold (count ch).
  assert (LEN : length (map d_in (firstn (count ch) (c_devs ch))) = count ch) by (rewrite map_length, firstn_length; lia).
  pose proof (out_ordered (map d_in (firstn (count ch) (c_devs ch))) 0 r []) as ORD. rewrite LEN in ORD. cbn [plus] in ORD.
  split.
  - intros (sched & H). destruct (meet_sound _ _ _ _ _ _ _ _ _ ORD H) as (m & M & E).
    set (x := chan_of m ch). exists x. split.
    + unfold mixture, x, chan_of. cbn [c_state c_size c_devs c_cfg]. repeat split; try reflexivity.
      * apply devs_of_length.
      * apply devs_of_in.
      * intros a A. rewrite nth_map_seq by lia. destruct (M (ch_word a)) as [Q|Q]; rewrite words_ch in Q by lia; auto.
      * intros j a J A. cbv zeta. rewrite devs_of_nth by (fold (count ch) in J; lia). rewrite Nat.add_0_l.
        destruct (M (dev_word j a)) as [Q|Q]; rewrite words_dev in Q by lia; auto.
    + rewrite <- E. rewrite <- (out_alone x r m).
      * replace (map d_in (firstn (count x) (c_devs x))) with (map d_in (firstn (count ch) (c_devs ch))); [reflexivity|].
        rewrite <- !firstn_map. unfold x, chan_of, count. cbn [c_size c_devs]. rewrite devs_of_in. reflexivity.
      * unfold x, chan_of, count. cbn [c_size c_devs]. rewrite devs_of_length. exact CN.
      * intros j a J A. unfold x, chan_of. cbn [c_devs]. rewrite devs_of_nth; [reflexivity| |lia].
        unfold x, chan_of, count in J. cbn [c_size] in J. fold (count ch) in J. lia.
  - intros (x & (M1 & M2 & M3 & M4 & M5 & M6) & E).
    assert (XC : count x = count ch) by (unfold count; rewrite M2; reflexivity).
    set (m := fun a => if Nat.ltb a (words (count ch)) then words_of x a else words_of ch a).
    destruct (meet_complete _ (words_of ch) (words_of ch') (words (count ch)) _ (words 0) 0 m ORD ltac:(lia)) as (sched & H).
    { intros a. unfold m. destruct (Nat.ltb a (words (count ch))) eqn:L; [|auto]. unfold words in L.
      destruct (Nat.ltb a 7) eqn:A7.
      - change a with (ch_word a). rewrite !words_ch by lia. apply M5. lia.
      - assert (DV : a = dev_word ((a - 7) / 15) ((a - 7) mod 15)).
        { unfold dev_word. pose proof (Nat.div_mod (a - 7) 15 ltac:(lia)). lia. }
        pose proof (Nat.mod_upper_bound (a - 7) 15 ltac:(lia)).
        rewrite DV, !words_dev by lia. apply M6; [|lia]. fold (count ch). apply Nat.div_lt_upper_bound; lia. }
    exists sched. rewrite H. f_equal. rewrite <- E.
    rewrite <- (out_alone x r m).
    + rewrite XC. rewrite <- !firstn_map, M4. reflexivity.
    + rewrite XC, M3. exact CN.
    + intros j a J A. unfold m. replace (Nat.ltb (dev_word j a) (words (count ch))) with true by (unfold dev_word, words; lia).
      apply words_dev. lia.
Qed.

(* ---- one setting of each device ---- *)
Definition field (ch : channel) (j a : nat) : Z := nth a (d_cfg (nth j (c_devs ch) (mkDevice 0 0 []))) 0.
Lemma dev_alike : forall x y j d e, has_device x j d -> has_device y j e -> (forall a, (a < 15)%nat -> field x (Z.to_nat j) a = field y (Z.to_nat j) a) -> d_in d = d_in e ->
  (forall c i, device_scope d c i <-> device_scope e c i) /\ (device_on d <-> device_on e) /\ forall p c i, device_accepts d p c i <-> device_accepts e p c i.
Proof.
  intros x y j d e [J D] [_ E] F IN. unfold field in F. apply (nth_error_nth _ _ (mkDevice 0 0 [])) in D, E. rewrite D, E in F.
  unfold device_scope, device_on, device_accepts. cbv beta zeta. rewrite (F 0%nat), (F 1%nat), (F 2%nat), (F 3%nat), (F 4%nat), (F 5%nat), (F 6%nat), (F 7%nat), IN by lia. tauto.
Qed.
Lemma device_at : forall ch ch' j d, c_size ch' = c_size ch -> map d_in (c_devs ch') = map d_in (c_devs ch) -> has_device ch j d -> exists e, has_device ch' j e /\ d_in e = d_in d.
Proof.
  intros ch ch' j d SZ IN [J D]. assert (LEN : length (c_devs ch') = length (c_devs ch)) by (rewrite <- (map_length d_in), IN, map_length; reflexivity).
  assert (L : (Z.to_nat j < length (c_devs ch))%nat) by (apply nth_error_Some; congruence).
  exists (nth (Z.to_nat j) (c_devs ch') (mkDevice 0 0 [])). split; [split; [lia|apply nth_error_nth'; lia]|].
  apply (nth_error_nth _ _ (mkDevice 0 0 [])) in D. rewrite <- D, <- !(map_nth d_in), IN. reflexivity.
Qed.
Lemma one_each : forall ch ch' sched r o, sound_channel ch -> c_size ch' = c_size ch -> map d_in (c_devs ch') = map d_in (c_devs ch) ->
  devices_scope ch (r_category r) (r_identify r) -> devices_scope ch' (r_category r) (r_identify r) ->
  (forall j, exists a0, forall a, a <> a0 -> field ch' j a = field ch j a) ->
  dispatch_during sched ch ch' r = Some o ->
  exists old new ids, dispatch ch r = Ret old /\ dispatch ch' r = Ret new /\ o = Ret ids /\ StronglySorted Z.lt ids /\
    forall j, (In j ids -> In j old \/ In j new) /\ (In j old -> In j new -> In j ids).
Proof.
  intros ch ch' sched r o SC SZ IN DS DS' ONE H.
  assert (CN : (count ch <= length (c_devs ch))%nat) by (destruct SC as [S0 S1]; unfold count, zlen in *; lia).
  assert (LEN : length (c_devs ch') = length (c_devs ch)) by (rewrite <- (map_length d_in), IN, map_length; reflexivity).
  assert (SC' : sound_channel ch') by (unfold sound_channel, zlen in *; rewrite SZ, LEN; exact SC).
  destruct (proj1 (dispatch_iff ch ch' r o CN)) as (x & (M1 & M2 & M3 & M4 & M5 & M6) & E); [eauto|].
  assert (SX : sound_channel x) by (unfold sound_channel, zlen in *; rewrite M2, M3; exact SC).
  (* a device of x is the old or the new one *)
  assert (EITHER : forall j d, has_device x j d -> exists e e', has_device ch j e /\ has_device ch' j e' /\
    ((forall c i, device_scope d c i <-> device_scope e c i) /\ (device_on d <-> device_on e) /\ (forall p c i, device_accepts d p c i <-> device_accepts e p c i) \/
     (forall c i, device_scope d c i <-> device_scope e' c i) /\ (device_on d <-> device_on e') /\ (forall p c i, device_accepts d p c i <-> device_accepts e' p c i))).
  { intros j d D. destruct (device_at x ch j d ltac:(congruence) ltac:(congruence) D) as (e & HE & IE). destruct (device_at ch ch' j e SZ IN HE) as (e' & HE' & IE').
    exists e, e'. split; [exact HE|]. split; [exact HE'|]. destruct (ONE (Z.to_nat j)) as (a0 & F).
    assert (J : (Z.to_nat j < Z.to_nat (c_size ch))%nat) by (destruct HE; lia).
    assert (M : forall a, (a < 15)%nat -> field x (Z.to_nat j) a = field ch (Z.to_nat j) a \/ field x (Z.to_nat j) a = field ch' (Z.to_nat j) a) by (intros a A; exact (M6 (Z.to_nat j) a J A)).
    assert (W : (forall a, (a < 15)%nat -> field x (Z.to_nat j) a = field ch (Z.to_nat j) a) \/ (forall a, (a < 15)%nat -> field x (Z.to_nat j) a = field ch' (Z.to_nat j) a)).
    { destruct (lt_dec a0 15) as [A0|A0].
      - destruct (M a0 A0) as [Q|Q]; [left|right]; intros a A; (destruct (Nat.eq_dec a a0) as [->|N]; [exact Q|]); destruct (M a A) as [R|R]; rewrite R, ?(F a N); reflexivity.
      - left. intros a A. destruct (M a A) as [R|R]; [exact R|]. rewrite R. apply F. lia. }
    destruct W as [W|W]; [left; apply (dev_alike x ch j)|right; apply (dev_alike x ch' j)]; auto; congruence. }
  destruct (dispatch_correct ch r SC DS) as (old & RO & _ & IO). destruct (dispatch_correct ch' r SC' DS') as (new & RN & _ & INW).
  destruct (dispatch_correct x r SX) as (ids & RX & ST & IX).
  { intros j d D. destruct (EITHER j d D) as (e & e' & HE & HE' & [(S & _)|(S & _)]); apply S; [eapply DS|eapply DS']; eauto. }
  exists old, new, ids. split; [exact RO|]. split; [exact RN|]. split; [congruence|]. split; [exact ST|].
  intros j. rewrite IO, INW, IX. split.
  - intros (d & D & ON & AC). destruct (EITHER j d D) as (e & e' & HE & HE' & [(_ & O & A)|(_ & O & A)]); [left; exists e|right; exists e']; (split; [assumption|]; split; [apply O; exact ON|apply A; exact AC]).
  - intros (d1 & D1 & ON1 & AC1) (d2 & D2 & ON2 & AC2). destruct (device_at ch x j d1 M2 M4 D1) as (d & D & _). exists d. split; [exact D|].
    destruct (EITHER j d D) as (e & e' & HE & HE' & W). assert (e = d1) as -> by (destruct HE, D1; congruence). assert (e' = d2) as -> by (destruct HE', D2; congruence).
    destruct W as [(_ & O & A)|(_ & O & A)]; (split; [apply O; assumption|apply A; assumption]).
Qed.
