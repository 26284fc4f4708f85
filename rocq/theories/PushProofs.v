(* PushChannel in any state of the queue, with any number of slots being filled. *)
From Coq Require Import String ZArith List Bool Lia ZifyBool ZifyNat ZifyN.
From Verif Require Import Base BaseFacts DateFmt DblFmt LoggerState Filter FilterSpec FilterProofs Stream StreamSpec StreamProofs RenderProofs PrefixProofs
  World WorldSpec WorldProofs WorldUdp WorldSeq HookSpec.
Import ListNotations.
Open Scope Z_scope.

Lemma write_up_gen : forall W fuel r ch n, 10 < W_ring W -> zlen (rg_cells r) = W_ring W -> chan_ok ch -> 0 <= rg_write r < W_ring W ->
  rg_hold r = (rg_write r + n) mod W_ring W -> 0 <= n < W_ring W -> n < Z.of_nat fuel ->
  exists m ch', write_up fuel W r ch = Ret (mkRing ((rg_write r + m) mod W_ring W) (rg_hold r) (rg_read r) (rg_proc r) (rg_cells r) (rg_udp r), ch') /\
    0 <= m <= n /\ (forall j, 0 <= j < m -> marked W r (rg_write r) j 2) /\ (m = n \/ ~ marked W r (rg_write r) m 2) /\ cgrow ch ch' (fun x => hit x 2 m).
Proof.
  intros W fuel. induction fuel as [|fuel IH]; intros r ch n N L CO R H n0 FU; [lia|]. cbn [write_up].
  destruct (rg_write r =? rg_hold r) eqn:E.
  - assert (n = 0) as ->. { assert (E': rg_write r = rg_hold r) by lia. rewrite H in E'. symmetry in E'. destruct (Z.eq_dec n 0) as [|X]; [assumption|]. exfalso. revert E'. apply shift_ne; lia. }
    exists 0, ch. rewrite Z.add_0_r, Z.mod_small by lia. split; [destruct r; reflexivity|]. split; [lia|]. split; [intros; lia|]. split; [left; reflexivity|].
    split; [apply same_setup_refl|]. split; [exact CO|]. split; [reflexivity|]. intros x X X1 X2. unfold hit. destruct (x =? 2); lia.
  - assert (1 <= n) as N1. { destruct (Z.eq_dec n 0) as [->|]; [|lia]. rewrite Z.add_0_r, Z.mod_small in H by lia. lia. }
    destruct (rd_nth _ (rg_cells r) (rg_write r) ltac:(lia)) as (c & RC & C). rewrite RC. cbn [bind]. unfold MARK_READY. destruct (ce_mark c =? 2) eqn:MK.
    + unfold CHANNEL_LOG_PUSH. destruct (inc_ch_ok ch 2 1 CO ltac:(lia)) as (c1 & -> & G1). cbn [bind].
      set (r1 := mkRing (nxt W (rg_write r)) (rg_hold r) (rg_read r) (rg_proc r) (rg_cells r) (rg_udp r)).
      assert (SH: forall j, (rg_write r1 + j) mod W_ring W = (rg_write r + (1 + j)) mod W_ring W). { intros j. cbn [r1 rg_write]. unfold nxt. rewrite Zplus_mod_idemp_l. f_equal. lia. }
      destruct (IH r1 c1 (n - 1) N L (cgrow_ok _ _ _ G1)) as (m & ch' & -> & M0 & MA & MB & G2).
      { cbn [r1 rg_write]. unfold nxt. apply Z.mod_pos_bound. lia. } { rewrite SH. cbn [r1 rg_hold]. rewrite H. f_equal. lia. } { lia. } { lia. }
      exists (1 + m), ch'. split; [rewrite SH; reflexivity|]. split; [lia|]. split; [|split].
      * intros j J. destruct (Z.eq_dec j 0) as [->|NE]; [exists c; rewrite Z.add_0_r, Z.mod_small by lia; split; [exact C|lia]|].
        destruct (MA (j - 1) ltac:(lia)) as (x & X & Y). exists x. rewrite SH in X. replace (1 + (j - 1)) with j in X by lia. split; assumption.
      * destruct MB as [->|MB]; [left; lia|right]. intros (x & X & Y). apply MB. exists x. rewrite SH. split; assumption.
      * eapply cgrow_trans; [exact G1|exact G2|]. intros x X. unfold hit. destruct (x =? 2); lia.
    + exists 0, ch. rewrite Z.add_0_r, Z.mod_small by lia. split; [destruct r; reflexivity|]. split; [lia|]. split; [intros; lia|]. split.
      * right. intros (x & X & Y). rewrite Z.add_0_r, Z.mod_small in X by lia. assert (x = c) by congruence. subst x. lia.
      * split; [apply same_setup_refl|]. split; [exact CO|]. split; [reflexivity|]. intros x X X1 X2. unfold hit. destruct (x =? 2); lia.
Qed.

Lemma push_gen : forall W i w k ch r idx cl T, shape W w -> chan_at w k ch -> ring_at w k r -> c_state ch = 1 -> 0 <= idx < W_ring W ->
  nth_error (rg_cells r) (Z.to_nat idx) = Some cl -> has_text W (ce_log cl) T -> -3 <= ld_prio (ce_log cl) < 22 ->
  exists w1 ch1 r1 log1 m,
    push W i w k idx = (if c_type ch =? 1 then bind (enter_proc W i w1 k) (fun w => Ret (w, 0)) else Ret (w1, 0)) /\
    only_at k w w1 /\ shape W w1 /\ w_ev w1 = w_ev w /\ chan_at w1 k ch1 /\ ring_at w1 k r1 /\
    cgrow ch ch1 (fun x => hit x (3 + ld_prio (ce_log cl)) (zlen (line W T)) + hit x 2 m) /\
    rg_hold r1 = rg_hold r /\ rg_read r1 = rg_read r /\ rg_proc r1 = rg_proc r /\ rg_write r1 = (rg_write r + m) mod W_ring W /\
    0 <= m <= (rg_hold r - rg_write r) mod W_ring W /\
    (forall j, 0 <= j < m -> marked W r1 (rg_write r) j 2) /\ (m = (rg_hold r - rg_write r) mod W_ring W \/ ~ marked W r1 (rg_write r) m 2) /\
    nth_error (rg_cells r1) (Z.to_nat idx) = Some (mkCell 2 log1) /\
    (forall j, 0 <= j -> j <> idx -> nth_error (rg_cells r1) (Z.to_nat j) = nth_error (rg_cells r) (Z.to_nat j)) /\
    (exists buf, log1 = set_text (ce_log cl) (ld_plen (ce_log cl)) (zlen (line W T)) buf /\ exists rest, buf = line W T ++ 0 :: rest).
Proof.
  intros W i w k ch r idx cl T SH CA RA CS IX CL HT PR. pose proof SH as (S1 & S2 & S3 & S4 & S5 & S6). destruct (shape_at _ _ _ _ _ SH CA RA) as (CO & RO).
  pose proof CA as (K & C). pose proof RA as (_ & R). destruct RO as (R1 & R2 & R3 & R4 & R5 & R6 & R7).
  unfold push. destruct (_ || _) eqn:E1; [lia|]. destruct (_ || _) eqn:E2 at 1; [lia|].
  rewrite (rd_of _ _ k _ (proj1 K) C). cbn [bind]. unfold CHANNEL_STATE_RUNNING at 1. rewrite CS. cbn [Z.eqb Pos.eqb negb].
  unfold get_log at 1. rewrite (rd_of _ _ k _ (proj1 K) R). cbn [bind]. rewrite (rd_of _ _ idx _ (proj1 IX) CL). cbn [bind].
  destruct (push_text_ok (W_env W) T _ HT S1) as (st & post & PT & SB & SL & SC). rewrite PT. cbn [bind]. cbv zeta.
  set (log1 := set_text (ce_log cl) (ld_plen (ce_log cl)) (s_len st) (s_buf st)).
  unfold put_cell. rewrite (rd_of _ _ k _ (proj1 K) R). cbn [bind]. rewrite (rd_of _ _ idx _ (proj1 IX) CL). cbn [bind].
  destruct (wr_ok _ (rg_cells r) idx (mkCell MARK_READY log1) ltac:(lia)) as (cells & -> & L & SS & Oth). cbn [bind].
  set (ra := mkRing (rg_write r) (rg_hold r) (rg_read r) (rg_proc r) cells (rg_udp r)).
  destruct (put_ring_ok w k ra ltac:(lia)) as (wa & -> & A1 & A2 & A3 & A4 & A5 & A6). cbn [bind].
  unfold CHANNEL_LOG_PRIORITY. change (ld_prio log1) with (ld_prio (ce_log cl)). change (ld_len log1) with (s_len st).
  destruct (inc_ch_ok ch (3 + ld_prio (ce_log cl)) (s_len st) CO ltac:(lia)) as (c1 & -> & G1). cbn [bind].
  rewrite (rd_of _ _ k _ (proj1 K) A5). cbn [bind].
  assert (NB: 0 <= (rg_hold r - rg_write r) mod W_ring W < W_ring W) by (apply Z.mod_pos_bound; lia).
  destruct (write_up_gen W (S (Z.to_nat (W_ring W))) ra c1 ((rg_hold r - rg_write r) mod W_ring W) S2 ltac:(cbn [ra rg_cells]; lia) (cgrow_ok _ _ _ G1)) as (m & c2 & -> & M0 & MA & MB & G2).
  { exact R4. } { cbn [ra rg_hold rg_write]. rewrite Zplus_mod_idemp_r. replace (rg_write r + (rg_hold r - rg_write r)) with (rg_hold r) by lia. rewrite Z.mod_small; lia. } { exact NB. } { lia. }
  cbn [bind ra rg_write rg_hold rg_read rg_proc rg_cells rg_udp].
  set (r1 := mkRing ((rg_write r + m) mod W_ring W) (rg_hold r) (rg_read r) (rg_proc r) cells (rg_udp r)).
  destruct (becomes_put k wa ch ra c2 r1 (proj1 K) ltac:(rewrite A1; exact C) A5) as (w1 & P & BE & EV).
  apply bind_ret_inv in P as (w0 & -> & P). cbn [bind]. rewrite P. cbn [bind].
  assert (BA: becomes k ch ra w wa). { unfold becomes, only_at. rewrite A1, A2. repeat (split; [reflexivity|]). split; [|split; [reflexivity|split; [exact A4|split; [exact C|exact A5]]]]. repeat (split; [reflexivity|]). split; [|reflexivity]. intros a Ha Ha0. split; [reflexivity|apply A6; assumption]. }
  pose proof (becomes_trans _ _ _ _ _ _ _ _ BA BE) as BW.
  assert (LL: s_len st = zlen (line W T)) by (rewrite SL; reflexivity).
  assert (SBL: s_buf st = line W T ++ 0 :: post) by (rewrite SB; unfold line; rewrite <- app_assoc; reflexivity).
  assert (LO: log_ok W (ce_log (mkCell MARK_READY log1))) by (unfold log_ok; exact SC).
  assert (RO1: ring_ok W r1).
  { unfold ring_ok. cbn [r1 rg_write rg_hold rg_read rg_proc rg_cells rg_udp]. split; [lia|]. split; [eapply forall_wr; [exact R2|exact LO|exact L|exact SS|exact Oth]|].
    split; [exact R3|]. split; [apply Z.mod_pos_bound; lia|]. tauto. }
  assert (G: cgrow ch c2 (fun x => hit x (3 + ld_prio (ce_log cl)) (zlen (line W T)) + hit x 2 m)).
  { rewrite <- LL. eapply cgrow_trans; [exact G1|exact G2|]. intros; reflexivity. }
  destruct (becomes_at _ _ _ _ _ _ _ SH CA BW) as (CA1 & RA1).
  exists w1, c2, r1, log1, m. split.
  { assert (c_type c2 = c_type ch /\ c_state c2 = c_state ch) as (-> & ->) by (destruct G as (GS & _); unfold same_setup in GS; tauto).
    rewrite CS. unfold CHANNEL_SYNC, CHANNEL_STATE_RUNNING. cbn [Z.eqb Pos.eqb]. rewrite andb_true_r. reflexivity. }
  split; [apply BW|]. split; [eapply becomes_shape; [exact SH|apply K|exact BW|exact (cgrow_ok _ _ _ G)|exact RO1]|].
  split; [congruence|]. split; [exact CA1|]. split; [exact RA1|]. split; [exact G|]. repeat (split; [reflexivity|]). split; [exact M0|]. split; [exact MA|]. split; [exact MB|].
  split; [exact SS|]. split; [exact Oth|]. exists (s_buf st). split; [unfold log1; rewrite LL; reflexivity|]. exists post. exact SBL.
Qed.

Lemma push_refused : forall W i w k idx, shape W w ->
  (~ 0 <= k < g_size (w_lg w) -> push W i w k idx = Ret (w, 5)) /\
  (0 <= k < g_size (w_lg w) -> ~ 0 <= idx < W_ring W -> push W i w k idx = Ret (w, 20)) /\
  (forall ch, chan_at w k ch -> 0 <= idx < W_ring W -> c_state ch <> 1 -> push W i w k idx = Ret (w, 3)).
Proof.
  intros W i w k idx SH. unfold push. split; [|split].
  - intros K. replace ((g_size (w_lg w) <=? k) || (k <? 0)) with true by lia. reflexivity.
  - intros K Ix. replace ((g_size (w_lg w) <=? k) || (k <? 0)) with false by lia. replace ((W_ring W <=? idx) || (idx <? 0)) with true by lia. reflexivity.
  - intros ch (K & C) Ix CS. replace ((g_size (w_lg w) <=? k) || (k <? 0)) with false by lia. replace ((W_ring W <=? idx) || (idx <? 0)) with false by lia.
    rewrite (rd_of _ _ k _ (proj1 K) C). cbn [bind]. unfold CHANNEL_STATE_RUNNING. destruct (c_state ch =? 1) eqn:E3; [lia|reflexivity].
Qed.
