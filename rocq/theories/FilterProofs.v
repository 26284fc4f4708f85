(* Correctness of Filter.v against FilterSpec.v. *)
From Coq Require Import ZArith List Bool Lia Sorted ZifyBool ZifyNat ZifyN.
From Verif Require Import Base BaseFacts LoggerState Filter FilterSpec.
Import ListNotations.
Open Scope Z_scope.
Ltac Zify.zify_post_hook ::= Z.div_mod_to_equations.

Lemma window_ok : forall b n x, (0 < n -> is_ll (b + n)) ->
  exists r, window_reject b n x = Ret r /\ (r = false <-> in_window b n x).
Proof.
  intros b n x H. unfold window_reject, in_window.
  destruct (0 <? n) eqn:E1.
  - destruct (x <? b) eqn:E2.
    + exists true. split; [reflexivity|]. split; [discriminate|lia].
    + unfold ll_chk. unfold is_ll in H.
      destruct ((LLONG_MIN <=? b + n) && (b + n <=? LLONG_MAX)) eqn:E3; [|lia].
      cbn [bind]. eexists; split; [reflexivity|]. lia.
  - exists false. split; [reflexivity|]. lia.
Qed.

Lemma land_pow2 : forall m k, 0 <= k -> (Z.land m (2 ^ k) =? 0) = negb (Z.testbit m k).
Proof.
  intros m k Hk.
  destruct (Z.testbit m k) eqn:E; simpl.
  - apply Z.eqb_neq. intros H. assert (Z.testbit (Z.land m (2 ^ k)) k = false) by (rewrite H; apply Z.bits_0).
    rewrite Z.land_spec, E, Z.pow2_bits_true in H0 by lia. discriminate.
  - apply Z.eqb_eq. apply Z.bits_inj'. intros n Hn. rewrite Z.bits_0, Z.land_spec, Z.pow2_bits_eqb by lia.
    destruct (k =? n) eqn:F; [|apply andb_false_r]. assert (k = n) by lia. subst. rewrite E. reflexivity.
Qed.

Lemma testbit_u64 : forall m k, 0 <= k < 64 -> Z.testbit (u64 m) k = Z.testbit m k.
Proof. intros m k H. unfold u64. apply Z.mod_pow2_bits_low. lia. Qed.

Lemma mask_ok : forall m x, (m mod 2 ^ 64 <> 0 -> 0 <= x <= 63) ->
  exists r, mask_reject m x = Ret r /\ (r = false <-> in_mask m x).
Proof.
  intros m x H. unfold mask_reject, in_mask. unfold u64 at 1.
  destruct (m mod 2 ^ 64 =? 0) eqn:E.
  - exists false. split; [reflexivity|]. split; [left; lia|reflexivity].
  - specialize (H ltac:(lia)).
    assert (Hu: u32 x = x) by (unfold u32; apply Z.mod_small; lia).
    rewrite Hu. destruct (64 <=? x) eqn:E2; [lia|].
    eexists; split; [reflexivity|]. rewrite land_pow2 by lia. rewrite testbit_u64 by lia.
    split.
    + intros Hf. right. split; [lia|]. destruct (Z.testbit m x); [reflexivity|discriminate].
    + intros [Hm|[_ Hb]]; [lia|]. rewrite Hb. reflexivity.
Qed.

(* one settings block *)
Ltac run_checks Hc Hi Hcw Hiw :=
  match goal with
  | |- context [window_reject ?b ?n ?x] =>
      let r := fresh "r" in let E := fresh "E" in let S := fresh "S" in
      destruct (window_ok b n x) as (r & E & S); [assumption|]; rewrite E; cbn [bind]
  | |- context [mask_reject ?m ?x] =>
      let r := fresh "r" in let E := fresh "E" in let S := fresh "S" in
      destruct (mask_ok m x) as (r & E & S); [assumption|]; rewrite E; cbn [bind]
  end.

Lemma fld_nth : forall cfg i, fld cfg i = nth (Z.to_nat i) cfg 0.
Proof. reflexivity. Qed.

Lemma block_devices_ok : forall devs p c i,
  (forall d, In d devs -> device_scope d c i) ->
  exists b, block_devices devs p c i = Ret b /\
    (b = true <-> exists d, In d devs /\ device_on d /\ device_accepts d p c i).
Proof.
  induction devs as [|d devs IH]; intros p c i Hs.
  - exists false. split; [reflexivity|]. split; [discriminate|]. intros (d & [] & _).
  - destruct (IH p c i) as (b & Hb & Hiff). { intros; apply Hs; right; assumption. }
    assert (Hd := Hs d (or_introl eq_refl)).
    unfold device_scope, in_scope in Hd. cbv zeta in Hd. destruct Hd as (S1 & S2 & S3 & S4).
    cbn [block_devices]. rewrite Hb.
    change (fld (d_cfg d) DEVICE_CFG_ABLE) with (nth 0 (d_cfg d) 0).
    change (fld (d_cfg d) DEVICE_CFG_PRIORITY) with (nth 1 (d_cfg d) 0).
    change (fld (d_cfg d) DEVICE_CFG_CATEGORY) with (nth 2 (d_cfg d) 0).
    change (fld (d_cfg d) DEVICE_CFG_CATEGORY_EXTEND) with (nth 3 (d_cfg d) 0).
    change (fld (d_cfg d) DEVICE_CFG_CATEGORY_MASK) with (nth 4 (d_cfg d) 0).
    change (fld (d_cfg d) DEVICE_CFG_IDENTIFY) with (nth 5 (d_cfg d) 0).
    change (fld (d_cfg d) DEVICE_CFG_IDENTIFY_EXTEND) with (nth 6 (d_cfg d) 0).
    change (fld (d_cfg d) DEVICE_CFG_IDENTIFY_MASK) with (nth 7 (d_cfg d) 0).
    assert (SKIP: ~ (device_on d /\ device_accepts d p c i) ->
      exists b0, Ret b = Ret b0 /\ (b0 = true <-> exists d0, In d0 (d :: devs) /\ device_on d0 /\ device_accepts d0 p c i)).
    { intros Hn. exists b. split; [reflexivity|]. rewrite Hiff. split.
      - intros (d0 & ? & ?). exists d0. split; [right; assumption|assumption].
      - intros (d0 & [<- | Hin] & Ha); [contradiction|]. exists d0. split; assumption. }
    unfold device_on, device_accepts, accepts in *. cbv zeta in *.
    destruct ((nth 0 (d_cfg d) 0 =? 0) || (p <? nth 1 (d_cfg d) 0)) eqn:E1.
    { apply SKIP. lia. }
    destruct (negb (d_in d =? DEVICE_IN_NULL)) eqn:E2.
    { apply SKIP. change DEVICE_IN_NULL with 0 in E2. lia. }
    change DEVICE_IN_NULL with 0 in E2.
    run_checks c i c i. destruct r. { apply SKIP. intuition congruence. }
    run_checks c i c i. destruct r. { apply SKIP. intuition congruence. }
    run_checks c i c i. destruct r. { apply SKIP. intuition congruence. }
    run_checks c i c i. destruct r. { apply SKIP. intuition congruence. }
    exists true. split; [reflexivity|]. split; [intros _|reflexivity].
    exists d. split; [left; reflexivity|]. split; [lia|].
    split; [lia|]. repeat split; [apply S|apply S0|apply S5|apply S6]; reflexivity.
Qed.

Lemma in_firstn_has : forall ch d, sound_channel ch ->
  (In d (firstn (Z.to_nat (c_size ch)) (c_devs ch)) <-> exists j, has_device ch j d).
Proof.
  intros ch d (H0 & H1). unfold has_device. split.
  - intros Hin. apply In_nth_error in Hin. destruct Hin as (n & Hn).
    assert (HL: (n < length (firstn (Z.to_nat (c_size ch)) (c_devs ch)))%nat) by (apply nth_error_Some; congruence).
    rewrite firstn_length in HL. unfold zlen in H1.
    exists (Z.of_nat n). split; [lia|]. rewrite Nat2Z.id.
    rewrite <- (firstn_skipn (Z.to_nat (c_size ch)) (c_devs ch)).
    rewrite nth_error_app1; [assumption|]. rewrite firstn_length. lia.
  - intros (j & Hj & Hn). apply nth_error_In with (n := Z.to_nat j).
    rewrite <- (firstn_skipn (Z.to_nat (c_size ch)) (c_devs ch)) in Hn.
    rewrite nth_error_app1 in Hn; [assumption|]. rewrite firstn_length. unfold zlen in H1. lia.
Qed.

Lemma clamp_min : forall p, (if PRIORITY_MAX <=? p then PRIORITY_FATAL else p) = Z.min p 6.
Proof. intros p. unfold PRIORITY_MAX, PRIORITY_FATAL. destruct (7 <=? p) eqn:E; lia. Qed.

Lemma block_input_correct : forall lg k p c i,
  (forall ch, nth_error (g_chs lg) (Z.to_nat k) = Some ch ->
     sound_channel ch /\ channel_scope ch c i /\ devices_scope ch c i) ->
  0 <= g_size lg <= zlen (g_chs lg) ->
  exists b, block_input lg k p c i = Ret b /\ (b = false <-> admitted lg k p c i).
Proof.
  intros lg k p c i Hsc Hsz. unfold block_input, admitted.
  destruct (negb (g_shm lg) || (g_size lg <=? k) || (k <? 0)) eqn:E0.
  { exists true. split; [reflexivity|]. split; [discriminate|]. intros (A & B & C & _). rewrite A in E0. simpl in E0. lia. }
  destruct (negb (g_state lg =? LOGGER_STATE_RUNNING)) eqn:E1.
  { exists true. split; [reflexivity|]. split; [discriminate|]. unfold LOGGER_STATE_RUNNING in *. lia. }
  destruct (rd_in _ (g_chs lg) k ltac:(lia)) as (ch & Hr). rewrite Hr. cbn [bind].
  apply rd_inv in Hr. destruct Hr as (_ & Hr).
  destruct (Hsc ch Hr) as (Hsound & Hcs & Hds).
  assert (BLK: ~ (c_state ch = 1 /\ channel_accepts ch p c i /\
            exists j d, has_device ch j d /\ device_on d /\ device_accepts d (Z.min p 6) c i) ->
     exists b, Ret true = Ret b /\ (b = false <->
       g_shm lg = true /\ g_state lg = 2 /\ 0 <= k < g_size lg /\
       exists ch, nth_error (g_chs lg) (Z.to_nat k) = Some ch /\
        c_state ch = 1 /\ channel_accepts ch p c i /\
        exists j d, has_device ch j d /\ device_on d /\ device_accepts d (Z.min p 6) c i)).
  { intros Hn. exists true. split; [reflexivity|]. split; [discriminate|].
    intros (_ & _ & _ & ch' & Hr' & Hrest). rewrite Hr in Hr'. inversion Hr'; subst ch'. contradiction. }
  unfold channel_scope, in_scope in Hcs. cbv zeta in Hcs. destruct Hcs as (S1 & S2 & S3 & S4).
  change (fld (c_cfg ch) CHANNEL_CFG_PRIORITY) with (nth 0 (c_cfg ch) 0).
  change (fld (c_cfg ch) CHANNEL_CFG_CATEGORY) with (nth 1 (c_cfg ch) 0).
  change (fld (c_cfg ch) CHANNEL_CFG_CATEGORY_EXTEND) with (nth 2 (c_cfg ch) 0).
  change (fld (c_cfg ch) CHANNEL_CFG_CATEGORY_MASK) with (nth 3 (c_cfg ch) 0).
  change (fld (c_cfg ch) CHANNEL_CFG_IDENTIFY) with (nth 4 (c_cfg ch) 0).
  change (fld (c_cfg ch) CHANNEL_CFG_IDENTIFY_EXTEND) with (nth 5 (c_cfg ch) 0).
  change (fld (c_cfg ch) CHANNEL_CFG_IDENTIFY_MASK) with (nth 6 (c_cfg ch) 0).
  assert (CA: channel_accepts ch p c i <->
     nth 0 (c_cfg ch) 0 <= p /\ in_window (nth 1 (c_cfg ch) 0) (nth 2 (c_cfg ch) 0) c /\
     in_window (nth 4 (c_cfg ch) 0) (nth 5 (c_cfg ch) 0) i /\
     in_mask (nth 3 (c_cfg ch) 0) c /\ in_mask (nth 6 (c_cfg ch) 0) i) by reflexivity.
  unfold CHANNEL_STATE_RUNNING in *.
  destruct (negb (c_state ch =? 1)) eqn:E2. { apply BLK. lia. }
  destruct (p <? nth 0 (c_cfg ch) 0) eqn:E3. { apply BLK. rewrite CA. lia. }
  run_checks c i c i. destruct r. { apply BLK. rewrite CA. intuition congruence. }
  run_checks c i c i. destruct r. { apply BLK. rewrite CA. intuition congruence. }
  run_checks c i c i. destruct r. { apply BLK. rewrite CA. intuition congruence. }
  run_checks c i c i. destruct r. { apply BLK. rewrite CA. intuition congruence. }
  cbv zeta.
  rewrite clamp_min.
  destruct (block_devices_ok (firstn (Z.to_nat (c_size ch)) (c_devs ch)) (Z.min p 6) c i) as (b & Hb & Hiff).
  { intros d Hin. apply in_firstn_has in Hin; [|assumption]. destruct Hin as (j & Hj). eapply Hds; eauto. }
  rewrite Hb. cbn [bind]. exists (negb b). split; [reflexivity|].
  rewrite negb_false_iff, Hiff. split.
  - intros (d & Hin & Hon & Hac). apply in_firstn_has in Hin; [|assumption]. destruct Hin as (j & Hj).
    split; [destruct (g_shm lg); [reflexivity|discriminate]|].
    unfold LOGGER_STATE_RUNNING in *. split; [lia|]. split; [lia|].
    exists ch. split; [assumption|]. split; [lia|]. split.
    + rewrite CA. repeat split; [lia|apply S|apply S0|apply S5|apply S6]; reflexivity.
    + exists j, d. auto.
  - intros (_ & _ & _ & ch' & Hr' & _ & _ & j & d & Hj & Hon & Hac).
    rewrite Hr in Hr'. inversion Hr'; subst ch'.
    exists d. split; [apply in_firstn_has; eauto|auto].
Qed.

(* ---- dispatch ---- *)
Lemma dispatch_from_ok : forall devs k r,
  (forall d, In d devs -> device_scope d (r_category r) (r_identify r)) ->
  exists ids, dispatch_from k devs r = Ret ids /\
    StronglySorted Z.lt ids /\ Forall (fun j => k <= j) ids /\
    forall j, In j ids <-> exists d, k <= j /\ nth_error devs (Z.to_nat (j - k)) = Some d /\
        device_on d /\ device_accepts d (r_priority r) (r_category r) (r_identify r).
Proof.
  induction devs as [|d devs IH]; intros k r Hs.
  - exists []. split; [reflexivity|]. split; [constructor|]. split; [constructor|].
    intros j. split; [intros []|]. intros (d & _ & H & _). destruct (Z.to_nat (j - k)); discriminate.
  - destruct (IH (k + 1) r) as (ids & Hb & Hso & Hge & Hiff). { intros; apply Hs; right; assumption. }
    assert (Hd := Hs d (or_introl eq_refl)).
    unfold device_scope, in_scope in Hd. cbv zeta in Hd. destruct Hd as (S1 & S2 & S3 & S4).
    cbn [dispatch_from]. rewrite Hb.
    change (fld (d_cfg d) DEVICE_CFG_ABLE) with (nth 0 (d_cfg d) 0).
    change (fld (d_cfg d) DEVICE_CFG_PRIORITY) with (nth 1 (d_cfg d) 0).
    change (fld (d_cfg d) DEVICE_CFG_CATEGORY) with (nth 2 (d_cfg d) 0).
    change (fld (d_cfg d) DEVICE_CFG_CATEGORY_EXTEND) with (nth 3 (d_cfg d) 0).
    change (fld (d_cfg d) DEVICE_CFG_CATEGORY_MASK) with (nth 4 (d_cfg d) 0).
    change (fld (d_cfg d) DEVICE_CFG_IDENTIFY) with (nth 5 (d_cfg d) 0).
    change (fld (d_cfg d) DEVICE_CFG_IDENTIFY_EXTEND) with (nth 6 (d_cfg d) 0).
    change (fld (d_cfg d) DEVICE_CFG_IDENTIFY_MASK) with (nth 7 (d_cfg d) 0).
    assert (STEP: forall j, j <> k ->
       ((exists d0, k + 1 <= j /\ nth_error devs (Z.to_nat (j - (k + 1))) = Some d0 /\
        device_on d0 /\ device_accepts d0 (r_priority r) (r_category r) (r_identify r)) <->
       (exists d0, k <= j /\ nth_error (d :: devs) (Z.to_nat (j - k)) = Some d0 /\
        device_on d0 /\ device_accepts d0 (r_priority r) (r_category r) (r_identify r)))).
    { intros j Hj. split; intros (d0 & Hk & Hn & Hr); exists d0.
      - split; [lia|]. replace (Z.to_nat (j - k)) with (S (Z.to_nat (j - (k + 1)))) by lia. auto.
      - split; [lia|]. replace (Z.to_nat (j - k)) with (S (Z.to_nat (j - (k + 1)))) in Hn by lia. auto. }
    assert (Hge': Forall (fun j => k <= j) ids).
    { eapply Forall_impl; [|exact Hge]. intros; simpl in *; lia. }
    assert (NK: ~ In k ids). { intros Hin. rewrite Forall_forall in Hge. specialize (Hge _ Hin). lia. }
    assert (SKIP: ~ (device_on d /\ device_accepts d (r_priority r) (r_category r) (r_identify r)) ->
      exists ids0, Ret ids = Ret ids0 /\ StronglySorted Z.lt ids0 /\ Forall (fun j => k <= j) ids0 /\
      forall j, In j ids0 <-> exists d0, k <= j /\ nth_error (d :: devs) (Z.to_nat (j - k)) = Some d0 /\
        device_on d0 /\ device_accepts d0 (r_priority r) (r_category r) (r_identify r)).
    { intros Hn. exists ids. split; [reflexivity|]. split; [assumption|]. split; [assumption|].
      intros j. destruct (Z.eq_dec j k) as [->|Hj].
      - split; [contradiction|]. intros (d0 & _ & Hd0 & Hr). rewrite Z.sub_diag in Hd0. simpl in Hd0.
        inversion Hd0; subst. contradiction.
      - rewrite Hiff. apply STEP; assumption. }
    assert (DA: forall q, device_accepts d q (r_category r) (r_identify r) <->
      nth 1 (d_cfg d) 0 <= q /\ in_window (nth 2 (d_cfg d) 0) (nth 3 (d_cfg d) 0) (r_category r) /\
      in_window (nth 5 (d_cfg d) 0) (nth 6 (d_cfg d) 0) (r_identify r) /\
      in_mask (nth 4 (d_cfg d) 0) (r_category r) /\ in_mask (nth 7 (d_cfg d) 0) (r_identify r)) by (intros; reflexivity).
    destruct (nth 0 (d_cfg d) 0 =? 0) eqn:E1. { apply SKIP. unfold device_on. lia. }
    destruct (negb (d_in d =? DEVICE_IN_NULL)) eqn:E2.
    { apply SKIP. unfold device_on. change DEVICE_IN_NULL with 0 in E2. lia. }
    change DEVICE_IN_NULL with 0 in E2.
    destruct (r_priority r <? nth 1 (d_cfg d) 0) eqn:E3. { apply SKIP. rewrite DA. lia. }
    run_checks c i c i. destruct r0. { apply SKIP. rewrite DA. intuition congruence. }
    run_checks c i c i. destruct r0. { apply SKIP. rewrite DA. intuition congruence. }
    run_checks c i c i. destruct r0. { apply SKIP. rewrite DA. intuition congruence. }
    run_checks c i c i. destruct r0. { apply SKIP. rewrite DA. intuition congruence. }
    exists (k :: ids). split; [reflexivity|]. split; [|split].
    + constructor; [assumption|]. eapply Forall_impl; [|exact Hge]. intros; simpl in *; lia.
    + constructor; [lia|assumption].
    + intros j. destruct (Z.eq_dec j k) as [->|Hj].
      * split; [intros _|intros _; left; reflexivity].
        exists d. split; [lia|]. rewrite Z.sub_diag. split; [reflexivity|].
        split; [unfold device_on; lia|]. rewrite DA. split; [lia|].
        repeat split; [apply S|apply S0|apply S5|apply S6]; reflexivity.
      * rewrite <- STEP by assumption. rewrite <- Hiff. simpl. intuition congruence.
Qed.

Lemma dispatch_correct : forall ch r, sound_channel ch ->
  devices_scope ch (r_category r) (r_identify r) ->
  exists ids, dispatch ch r = Ret ids /\ StronglySorted Z.lt ids /\
    forall j, In j ids <-> exists d, has_device ch j d /\ device_on d /\
                device_accepts d (r_priority r) (r_category r) (r_identify r).
Proof.
  intros ch r Hs Hd. unfold dispatch.
  destruct (dispatch_from_ok (firstn (Z.to_nat (c_size ch)) (c_devs ch)) 0 r) as (ids & Hr & Hso & _ & Hiff).
  { intros d Hin. apply in_firstn_has in Hin; [|assumption]. destruct Hin as (j & Hj). eapply Hd; eauto. }
  exists ids. split; [assumption|]. split; [assumption|].
  intros j. rewrite Hiff. rewrite Z.sub_0_r. destruct Hs as (H0 & H1). unfold has_device.
  split; [intros (d & A & B & C & D)|intros (d & A & B & C)]; exists d.
  - assert (HL: (Z.to_nat j < length (firstn (Z.to_nat (c_size ch)) (c_devs ch)))%nat) by (apply nth_error_Some; congruence).
    rewrite firstn_length in HL. unfold zlen in H1. split; [split; [lia|]|auto].
    rewrite <- (firstn_skipn (Z.to_nat (c_size ch)) (c_devs ch)).
    rewrite nth_error_app1; [assumption|]. rewrite firstn_length. lia.
  - destruct A as (A1 & A2). split; [lia|]. split; [|auto].
    rewrite <- (firstn_skipn (Z.to_nat (c_size ch)) (c_devs ch)) in A2.
    rewrite nth_error_app1 in A2; [assumption|]. rewrite firstn_length. unfold zlen in H1. lia.
Qed.

(* ---- admission versus dispatch ---- *)
Lemma device_accepts_min : forall d p c i, device_accepts d (Z.min p 6) c i -> device_accepts d p c i.
Proof. unfold device_accepts, accepts. intros d p c i H. cbv zeta in *. intuition lia. Qed.

Lemma admitted_dispatched : forall lg k p c i ch,
  nth_error (g_chs lg) (Z.to_nat k) = Some ch ->
  sound_channel ch -> channel_scope ch c i -> devices_scope ch c i ->
  0 <= g_size lg <= zlen (g_chs lg) ->
  block_input lg k p c i = Ret false ->
  exists j rest, dispatch ch (mkRec p c i) = Ret (j :: rest).
Proof.
  intros lg k p c i ch Hch Hs Hcs Hds Hsz Hb.
  destruct (block_input_correct lg k p c i) as (b & Hb' & Hiff); [|assumption|].
  { intros ch' Hch'. rewrite Hch in Hch'. inversion Hch'; subst; auto. }
  rewrite Hb in Hb'. inversion Hb'; subst b.
  destruct (proj1 Hiff eq_refl) as (_ & _ & _ & ch' & Hr & _ & _ & j & d & Hj & Hon & Hac).
  rewrite Hch in Hr. inversion Hr; subst ch'.
  destruct (dispatch_correct ch (mkRec p c i) Hs Hds) as (ids & Hd & _ & Hin).
  assert (In j ids).
  { apply Hin. exists d. cbn. split; [assumption|]. split; [assumption|]. apply device_accepts_min; assumption. }
  rewrite Hd. destruct ids as [|j' ids]; [contradiction|]. exists j', ids. reflexivity.
Qed.

Lemma blocked_not_dispatched : forall lg k p c i ch,
  nth_error (g_chs lg) (Z.to_nat k) = Some ch ->
  sound_channel ch -> channel_scope ch c i -> devices_scope ch c i ->
  0 <= g_size lg <= zlen (g_chs lg) ->
  g_shm lg = true -> g_state lg = 2 -> 0 <= k < g_size lg -> c_state ch = 1 -> channel_accepts ch p c i ->
  (forall j d, has_device ch j d -> nth 1 (d_cfg d) 0 <= 6) ->
  block_input lg k p c i = Ret true ->
  dispatch ch (mkRec p c i) = Ret [].
Proof.
  intros lg k p c i ch Hch Hs Hcs Hds Hsz H1 H2 H3 H4 H5 Hp Hb.
  destruct (block_input_correct lg k p c i) as (b & Hb' & Hiff); [|assumption|].
  { intros ch' Hch'. rewrite Hch in Hch'. inversion Hch'; subst; auto. }
  rewrite Hb in Hb'. inversion Hb'; subst b.
  destruct (dispatch_correct ch (mkRec p c i) Hs Hds) as (ids & Hd & _ & Hin).
  rewrite Hd. destruct ids as [|j ids]; [reflexivity|exfalso].
  destruct (proj1 (Hin j) (or_introl eq_refl)) as (d & Hj & Hon & Hac). cbn in Hac.
  assert (true = false); [|discriminate]. apply Hiff. unfold admitted.
  split; [assumption|]. split; [assumption|]. split; [assumption|].
  exists ch. split; [assumption|]. split; [assumption|]. split; [assumption|].
  exists j, d. split; [assumption|]. split; [assumption|].
  specialize (Hp j d Hj). unfold device_accepts, accepts in *. cbv zeta in *. intuition lia.
Qed.

(* ---- virtual device hook ---- *)
Lemma stream_hook_correct : forall ch r d,
  0 <= c_virtual ch -> nth_error (c_devs ch) (Z.to_nat (c_virtual ch)) = Some d ->
  device_scope d (r_category r) (r_identify r) -> -7 <= r_priority r <= 10 ->
  exists o, stream_hook true ch r = Ret o /\
   (o = Some (c_virtual ch) <-> device_accepts d (r_priority r) (r_category r) (r_identify r)) /\
   (o = None \/ o = Some (c_virtual ch)).
Proof.
  intros ch r d Hv Hd Hsc Hp. unfold stream_hook.
  destruct (0 <=? c_virtual ch) eqn:E0; [|lia].
  rewrite (rd_ret _ _ _ d Hv Hd). cbn [bind].
  unfold device_scope, in_scope in Hsc. cbv zeta in Hsc. destruct Hsc as (S1 & S2 & S3 & S4).
  unfold enter_virtual. rewrite (rd_ret _ _ _ d Hv Hd). cbn [bind]. cbv zeta.
    change (fld (d_cfg d) DEVICE_CFG_PRIORITY) with (nth 1 (d_cfg d) 0).
    change (fld (d_cfg d) DEVICE_CFG_CATEGORY) with (nth 2 (d_cfg d) 0).
    change (fld (d_cfg d) DEVICE_CFG_CATEGORY_EXTEND) with (nth 3 (d_cfg d) 0).
    change (fld (d_cfg d) DEVICE_CFG_CATEGORY_MASK) with (nth 4 (d_cfg d) 0).
    change (fld (d_cfg d) DEVICE_CFG_IDENTIFY) with (nth 5 (d_cfg d) 0).
    change (fld (d_cfg d) DEVICE_CFG_IDENTIFY_EXTEND) with (nth 6 (d_cfg d) 0).
    change (fld (d_cfg d) DEVICE_CFG_IDENTIFY_MASK) with (nth 7 (d_cfg d) 0).
  assert (DA: forall q, device_accepts d q (r_category r) (r_identify r) <->
      nth 1 (d_cfg d) 0 <= q /\ in_window (nth 2 (d_cfg d) 0) (nth 3 (d_cfg d) 0) (r_category r) /\
      in_window (nth 5 (d_cfg d) 0) (nth 6 (d_cfg d) 0) (r_identify r) /\
      in_mask (nth 4 (d_cfg d) 0) (r_category r) /\ in_mask (nth 7 (d_cfg d) 0) (r_identify r)) by (intros; reflexivity).
  assert (NO: ~ device_accepts d (r_priority r) (r_category r) (r_identify r) ->
     exists o, Ret None = Ret o /\
   (o = Some (c_virtual ch) <-> device_accepts d (r_priority r) (r_category r) (r_identify r)) /\
   (o = None \/ o = Some (c_virtual ch))).
  { intros Hn. exists None. split; [reflexivity|]. split; [|left; reflexivity]. split; [discriminate|contradiction]. }
  destruct (nth 1 (d_cfg d) 0 <=? r_priority r) eqn:E1. 2: { apply NO. rewrite DA. lia. }
  run_checks c i c i. destruct r0. { apply NO. rewrite DA. intuition congruence. }
  run_checks c i c i. destruct r0. { apply NO. rewrite DA. intuition congruence. }
  run_checks c i c i. destruct r0. { apply NO. rewrite DA. intuition congruence. }
  run_checks c i c i. destruct r0. { apply NO. rewrite DA. intuition congruence. }
  unfold DEVICE_LOG_PRIORITY, DEVICE_LOG_MAX_ID.
  destruct ((0 <=? 7 + r_priority r) && (7 + r_priority r <? 18)) eqn:EI; [|lia].
  eexists; split; [reflexivity|]. split; [|right; reflexivity]. split; [intros _|reflexivity].
  rewrite DA. split; [lia|]. repeat split; [apply S|apply S0|apply S5|apply S6]; reflexivity.
Qed.
