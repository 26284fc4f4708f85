(* Proofs about log statements with a user hook. *)
From Coq Require Import String ZArith List Bool Lia ZifyBool ZifyNat ZifyN.
From Verif Require Import Base BaseFacts DateFmt DblFmt LoggerState Filter FilterSpec FilterProofs Stream StreamSpec StreamProofs RenderProofs PrefixProofs
  World WorldSpec WorldProofs WorldUdp WorldSeq HookSpec.
Import ListNotations.
Open Scope Z_scope.

Lemma queued_alike : forall W k p c n t q w w', queued W k p c n t q w w' -> alike w w'.
Proof.
  intros W k p c n t q w w' ((O1 & O2 & O3 & O4 & O5) & SH & _ & ch & ch' & r & r' & CA & CA' & SS & _). unfold alike. repeat (split; [assumption|]).
  assert (K: 0 <= k) by (destruct CA as ((? & _) & _); lia). split; intros a x H; (destruct (Z.eq_dec (Z.of_nat a) k) as [E|E]; [|exists x; split; [|apply same_setup_refl]]).
  - subst k. destruct CA as (_ & C). destruct CA' as (_ & C'). rewrite Nat2Z.id in C, C'. exists ch'. split; [exact C'|]. congruence.
  - destruct (O4 (Z.of_nat a) E ltac:(lia)) as (A & _). rewrite Nat2Z.id in A. congruence.
  - subst k. destruct CA as (_ & C). destruct CA' as (_ & C'). rewrite Nat2Z.id in C, C'. exists ch. split; [exact C|]. congruence.
  - destruct (O4 (Z.of_nat a) E ltac:(lia)) as (A & _). rewrite Nat2Z.id in A. congruence.
Qed.

Lemma times_nonneg : forall k l, 0 <= times k l.
Proof. intros k l. induction l as [|((a & c) & n) l IH]; cbn [times]; [lia|]. destruct (a =? k); lia. Qed.
Lemma room_less : forall W w k m m', room W w k m -> m' <= m -> room W w k m'.
Proof.
  intros W w k m m' R L ch r CA RA. destruct (R ch r CA RA) as [A|(A & B & q & C & D)]; [left; exact A|right]. split; [exact A|]. split; [exact B|]. exists q. split; [exact C|]. lia.
Qed.
Lemma room_other : forall W w w' k a m, only_at k w w' -> a <> k -> room W w a m -> room W w' a m.
Proof.
  intros W w w' k a m (O1 & O2 & O3 & O4 & O5) NE R ch r (K & C) (_ & RR). rewrite O3 in K. destruct (O4 a NE (proj1 K)) as (A & B). rewrite A in C. rewrite B in RR.
  destruct (R ch r (conj K C) (conj K RR)) as [(X & Y & Z0)|X]; [left|right; exact X]. split; [exact X|]. split; [exact Y|]. intros d. rewrite O5. apply Z0.
Qed.
Lemma room_written : forall W i w w' k p c n t m m', written_through W i k p c n t w w' -> room W w k m -> (forall ch, chan_at w k ch -> c_type ch = 1) -> room W w' k m'.
Proof.
  intros W i w w' k p c n t m m' ((O1 & O2 & O3 & O4 & O5) & SH & ch & ch' & r & r' & f & CA & CA' & SS & _ & _ & _ & RA & RA' & EM & _) R TY x y CX RY.
  rewrite (chan_at_fun _ _ _ _ CX CA'). destruct RY as (_ & RY). destruct RA' as (_ & RA'). assert (y = r') as -> by congruence. left.
  specialize (TY ch CA). destruct SS as (S1 & _). split; [congruence|]. split; [exact EM|]. destruct (R ch r CA RA) as [(_ & _ & N)|(N & _)]; [|congruence]. intros d. rewrite O5. apply N.
Qed.
Lemma zlen_snoc : forall A (q : list A) x, zlen (q ++ [x]) = zlen q + 1.
Proof. intros. rewrite zlen_app. reflexivity. Qed.
Lemma room_queued : forall W w w' k p c n t q m, queued W k p c n t q w w' -> zlen q + 1 + m < W_ring W -> (forall ch, chan_at w k ch -> c_type ch <> 1) -> room W w' k m.
Proof.
  intros W w w' k p c n t q m ((O1 & O2 & O3 & O4 & O5) & SH & _ & ch & ch' & r & r' & CA & CA' & SS & _ & _ & RA & RA' & ST & RD & WT) L TY x y CX RY.
  rewrite (chan_at_fun _ _ _ _ CX CA'). destruct RY as (_ & RY). destruct RA' as (_ & RA'). assert (y = r') as -> by congruence. right.
  specialize (TY ch CA). destruct SS as (S1 & _). split; [congruence|]. split; [exact ST|]. eexists. split; [exact WT|]. rewrite zlen_snoc. lia.
Qed.

Lemma hold_cases : forall W w k p c n, shape W w -> in_sense w k c n -> admitted (w_lg w) k p c n \/ ~ admitted (w_lg w) k p c n.
Proof.
  intros W w k p c n (S1 & S2 & S3 & S4 & S5 & S6) M. destruct (block_input_correct (w_lg w) k p c n) as (b & _ & B); [|exact S3|].
  { intros x H. rewrite Forall_forall in S5. destruct (M x H). split; [|tauto]. specialize (S5 x (nth_error_In _ _ H)). unfold chan_ok in S5. unfold sound_channel. tauto. }
  destruct b; [right; intros A; apply B in A; discriminate|left; apply B; reflexivity].
Qed.
Lemma waiting_len : forall W r q q', 10 < W_ring W -> waiting W r q -> waiting W r q' -> zlen q = zlen q'.
Proof.
  intros W r q q' N (A1 & _ & A2 & _) (B1 & _ & B2 & _). pose proof (zlen_nonneg _ q). pose proof (zlen_nonneg _ q').
  rewrite A2 in B2. rewrite (Z.add_comm _ (zlen q)), (Z.add_comm _ (zlen q')) in B2.
  assert ((zlen q - zlen q') mod W_ring W = 0) as E. { replace (zlen q - zlen q') with ((zlen q + rg_read r) - (zlen q' + rg_read r)) by lia. rewrite Zminus_mod, B2, Z.sub_diag. apply Z.mod_0_l. lia. }
  apply Z.mod_divide in E; [|lia]. destruct E as (z & E). assert (z <= -1 \/ z = 0 \/ 1 <= z) as [Z1|[->|Z1]] by lia; [assert (z * W_ring W <= (-1) * W_ring W) by (apply Z.mul_le_mono_nonneg_r; lia); lia|lia|assert (1 * W_ring W <= z * W_ring W) by (apply Z.mul_le_mono_nonneg_r; lia); lia].
Qed.

(* the part of the logger that belongs to channel k is untouched *)
Definition keeps (k : Z) (w w' : world) : Prop :=
  g_shm (w_lg w') = g_shm (w_lg w) /\ g_state (w_lg w') = g_state (w_lg w) /\ g_size (w_lg w') = g_size (w_lg w) /\
  nth_error (g_chs (w_lg w')) (Z.to_nat k) = nth_error (g_chs (w_lg w)) (Z.to_nat k) /\
  nth_error (w_rings w') (Z.to_nat k) = nth_error (w_rings w) (Z.to_nat k) /\ forall a b, w_in w' a b = w_in w a b.
Lemma keeps_refl : forall k w, keeps k w w.
Proof. intros. unfold keeps. repeat split; reflexivity. Qed.
Lemma keeps_trans : forall k a b c, keeps k a b -> keeps k b c -> keeps k a c.
Proof. intros k a b c (A1 & A2 & A3 & A4 & A5 & A6) (B1 & B2 & B3 & B4 & B5 & B6). unfold keeps. repeat (split; [congruence|]). intros. rewrite B6. apply A6. Qed.
Lemma only_keeps : forall k a w w', only_at k w w' -> a <> k -> 0 <= a -> keeps a w w'.
Proof. intros k a w w' (O1 & O2 & O3 & O4 & O5) NE A. destruct (O4 a NE A). unfold keeps. repeat (split; [assumption|]). assumption. Qed.

Lemma transmits_ok : forall W i log T, has_text W log T -> -3 <= ld_prio log <= 10 -> 0 <= ld_chan log -> forall l w, shape W w ->
  (forall x, In x l -> target W w (ld_chan log) l x) ->
  exists w', transmits W i w log l = Ret w' /\ forwarded W i log (line W T) l w w' /\ shape W w' /\ keeps (ld_chan log) w w'.
Proof.
  intros W i log T HT P OW l. induction l as [|((k & c) & n) l IH]; intros w SH TG; cbn [transmits].
  { exists w. split; [reflexivity|]. split; [constructor|]. split; [exact SH|apply keeps_refl]. }
  assert (TAIL: forall x, In x l -> target W w (ld_chan log) l x).
  { intros ((k' & c') & n') HI. specialize (TG _ (or_intror HI)). cbn [target times] in *. destruct TG as [A|(A & B)]; [left; exact A|right]. split; [exact A|]. eapply room_less; [exact B|]. destruct (k =? k'); lia. }
  assert (STEP: forall w1, alike w w1 -> only_at k w w1 -> (forall m, room W w k (1 + m) -> room W w1 k m) -> forall x, In x l -> target W w1 (ld_chan log) l x).
  { intros w1 AL OA RM ((k' & c') & n') HI. specialize (TG _ (or_intror HI)). cbn [target times] in *. destruct TG as [A|(A & B)]; [left; exact A|right]. split; [eapply sense_alike; eassumption|].
    destruct (k =? k') eqn:E; [assert (k' = k) as -> by lia; apply RM, B|]. eapply room_other; [exact OA|lia|]. exact B. }
  destruct (Z.eq_dec (ld_chan log) k) as [<- |NE].
  { rewrite transmit_own. cbn [bind]. destruct (IH w SH TAIL) as (w' & A & B & C). exists w'. split; [exact A|]. split; [constructor; exact B|exact C]. }
  destruct (TG _ (or_introl eq_refl)) as [A|(SE & RM)]; [lia|]. cbn [times] in RM. rewrite Z.eqb_refl in RM. pose proof (times_nonneg k l) as TN.
  destruct (hold_cases W w k (ld_prio log) c n SH SE) as [AD|NA].
  2: { rewrite (transmit_blocked W i w k c n log SH SE NA). cbn [bind]. destruct (IH w SH TAIL) as (w' & A & B & C). exists w'. split; [exact A|]. split; [apply fw_rejected; assumption|exact C]. }
  destruct (admitted_chan _ _ _ _ _ AD) as (ch & CA & CS). assert (exists r, ring_at w k r) as (r & RA).
  { destruct CA as (K & C). pose proof SH as (_ & _ & S3 & S4 & _). assert (k < zlen (w_rings w)) by (rewrite S4; assert (Z.to_nat k < length (g_chs (w_lg w)))%nat by (apply nth_error_Some; congruence); unfold zlen; lia).
    destruct (rd_nth _ (w_rings w) k ltac:(lia)) as (r & _ & N). exists r. split; assumption. }
  destruct (RM ch r CA RA) as [(TY & EM & ND)|(TY & ST & q & WT & L)].
  - destruct (transmit_sync W i w k c n log T ch r SH SE CA RA EM NE AD HT P TY ND) as (w1 & -> & WR). cbn [bind].
    destruct (IH w1 (proj1 (proj2 WR))) as (w' & A & B & C & D).
    { apply STEP; [eapply written_alike, WR|apply WR|]. intros m RM'. eapply room_written; [exact WR|exact RM'|]. intros x CX. rewrite (chan_at_fun _ _ _ _ CX CA). exact TY. }
    exists w'. split; [exact A|]. split; [eapply fw_written; eassumption|]. split; [exact C|]. eapply keeps_trans; [eapply only_keeps; [apply WR|exact NE|exact OW]|exact D].
  - destruct (transmit_async W i w k c n log T ch r q SH SE) as (w1 & r1 & log1 & -> & WR & _); [repeat (split; [assumption|]); lia|exact NE|exact AD|exact HT|lia|exact TY|]. cbn [bind].
    destruct (IH w1 (proj1 (proj2 WR))) as (w' & A & B & C & D).
    { apply STEP; [eapply queued_alike, WR|apply WR|]. intros m RM'. destruct (RM' ch r CA RA) as [(X & _)|(_ & _ & q' & WT' & L')]; [congruence|].
      eapply room_queued; [exact WR| |intros x CX; rewrite (chan_at_fun _ _ _ _ CX CA); exact TY]. assert (zlen q' = zlen q) as <-; [|lia]. eapply waiting_len; [|exact WT'|exact WT]. apply SH. }
    exists w'. split; [exact A|]. split; [eapply fw_queued; eassumption|]. split; [exact C|]. eapply keeps_trans; [eapply only_keeps; [apply WR|exact NE|exact OW]|exact D].
Qed.

Lemma holding_keeps : forall W w w' k ch r q cl, holding W w k ch r q cl -> shape W w' -> keeps k w w' -> holding W w' k ch r q cl.
Proof.
  intros W w w' k ch r q cl (A1 & (K & A2) & (_ & A3) & A4 & A5 & A6 & A7 & A8) SH (K1 & K2 & K3 & K4 & K5 & K6). unfold holding, chan_at, ring_at. rewrite K3, K4, K5. tauto.
Qed.
Lemma holding_count : forall W w k ch r q cl ch', holding W w k ch r q cl -> same_setup ch ch' -> chan_ok ch' ->
  exists w', put_ch w k ch' = Ret w' /\ becomes k ch' r w w' /\ w_ev w' = w_ev w /\ holding W w' k ch' r q cl.
Proof.
  intros W w k ch r q cl ch' (SH & (K & C) & (_ & R) & A4 & A5 & A6 & A7 & A8) SS CO. assert (k < zlen (g_chs (w_lg w))). { assert (Z.to_nat k < length (g_chs (w_lg w)))%nat by (apply nth_error_Some; congruence). unfold zlen; lia. }
  destruct (put_ch_ok w k ch' ltac:(lia)) as (w' & E & B1 & B2 & B3 & B4 & B5 & B6 & B7 & B8 & B9). exists w'. split; [exact E|].
  assert (BE: becomes k ch' r w w'). { split; [|rewrite B1; repeat split; assumption]. unfold only_at. repeat (split; [assumption|]). split; [|intros; rewrite B2; reflexivity]. intros a NE A. split; [apply B9; assumption|]. rewrite B1. reflexivity. }
  split; [exact BE|]. split; [exact B3|]. destruct (shape_at _ _ _ _ _ SH (conj K C) (conj K R)) as (_ & RO).
  split; [eapply becomes_shape; [exact SH|apply K|exact BE|exact CO|exact RO]|]. destruct (becomes_at _ _ _ _ _ _ _ SH (conj K C) BE) as (X & Y). split; [exact X|]. split; [exact Y|].
  split; [destruct SS as (_ & _ & _ & S & _); congruence|]. tauto.
Qed.

(* the NUL that the hook's device writes behind the text *)
Lemma nul_text : forall W log T, 2 <= e_cap (W_env W) -> has_text W log T ->
  exists buf T' rest, wr (ld_buf log) (Z.min (ld_len log) (LOG_SIZE W - 1)) 0 = Ret buf /\ has_text W (set_text log (ld_plen log) (ld_len log) buf) T' /\
    zlen T' = zlen T /\ line W T' = line W T /\ buf = firstn (Z.to_nat (e_cap (W_env W) - 1)) T ++ 0 :: rest.
Proof.
  intros W log T CAP (rest & A & B & C). cbn [s_buf s_len] in *. unfold LOG_SIZE. rewrite A, B. rewrite A, zlen_app in C. pose proof (zlen_nonneg _ rest). pose proof (zlen_nonneg _ T).
  destruct rest as [|x rest].
  - rewrite zlen_nil in C. rewrite app_nil_r. destruct (split_at _ T (e_cap (W_env W) - 1) ltac:(lia)) as (a & b & E & L).
    assert (exists y, b = [y]) as (y & ->). { rewrite E, zlen_app in C. destruct b as [|y [|z b]]; [rewrite zlen_nil in C; lia|eexists; reflexivity|]. unfold zlen in C, L. cbn [length] in C. lia. }
    rewrite Z.min_r by lia. rewrite E, (wr_splice _ a [] y 0) by lia. exists (a ++ [0]), (a ++ [0]), []. split; [reflexivity|].
    assert (F: firstn (Z.to_nat (e_cap (W_env W) - 1)) (a ++ [y]) = a). { rewrite firstn_app. unfold zlen in L. replace (Z.to_nat (e_cap (W_env W) - 1)) with (length a) by lia. rewrite firstn_all, Nat.sub_diag. apply app_nil_r. }
    split; [|split; [rewrite !zlen_app; reflexivity|split; [|rewrite F; reflexivity]]].
    + exists []. cbn [s_buf s_len ld_buf ld_len set_text]. rewrite app_nil_r. split; [reflexivity|]. assert (zlen T = zlen a + 1) by (rewrite E, zlen_app; reflexivity). rewrite !zlen_app. change (zlen [0]) with 1. change (zlen [y]) with 1. split; lia.
    + unfold line. f_equal. rewrite !firstn_app. unfold zlen in L. replace (Z.to_nat (e_cap (W_env W) - 2) - length a)%nat with 0%nat by lia. reflexivity.
  - unfold zlen in C. cbn [length] in C. rewrite Z.min_l by (unfold zlen; lia). rewrite (wr_splice _ T rest x 0) by reflexivity. exists (T ++ 0 :: rest), T, rest. split; [reflexivity|].
    split; [|split; [reflexivity|split; [reflexivity|]]].
    + exists (0 :: rest). cbn [s_buf s_len ld_buf ld_len set_text]. split; [reflexivity|]. split; [first [exact B|reflexivity]|]. rewrite zlen_app. unfold zlen. cbn [length]. lia.
    + rewrite firstn_all2; [reflexivity|lia].
Qed.

Lemma same_virtual : forall a b, same_setup a b -> c_virtual b = c_virtual a /\ c_devs b = c_devs a /\ c_size b = c_size a /\ c_type b = c_type a.
Proof. intros a b (A1 & A2 & A3 & A4 & A5 & A6). repeat split; assumption. Qed.

Lemma target_later : forall W w w1 k l x, alike w w1 -> only_at k w w1 -> target W w k l x -> target W w1 k l x.
Proof.
  intros W w w1 k l ((a & c) & n) AL OA TG. cbn [target] in *. destruct (Z.eq_dec a k) as [E|NE]; [left; exact E|]. destruct TG as [E|(A & B)]; [left; exact E|right]. split; [eapply sense_alike; eassumption|eapply room_other; eassumption].
Qed.

(* ~LogStream up to PushChannel, when the hook is called *)
Lemma run_hook_ok : forall W i w k ch r q cl h v d p c n T, holding W w k ch r q cl -> made W (ce_log cl) k p c n T -> -3 <= p <= 10 -> W_hook W = Some h ->
  c_virtual ch = v -> 0 <= v -> nth_error (c_devs ch) (Z.to_nat v) = Some d -> device_scope d c n -> device_accepts d p c n -> forall (log : ldata) ,
  (forall x, In x (h log) -> target W w k (h log) x) ->
  (exists buf, wr (ld_buf (ce_log cl)) (Z.min (ld_len (ce_log cl)) (LOG_SIZE W - 1)) 0 = Ret buf /\ log = set_text (ce_log cl) (ld_plen (ce_log cl)) (ld_len (ce_log cl)) buf) ->
  exists w1 w2 ch' r' cl' T', run_hook W i w k (rg_write r) = Ret w2 /\ only_at k w w1 /\ w_ev w1 = w_ev w ++ [EHook log] /\ forwarded W i log (line W T) (h log) w1 w2 /\
    holding W w2 k ch' r' q cl' /\ made W (ce_log cl') k p c n T' /\ line W T' = line W T /\ dgrow ch ch' (at_dev v (written p (zlen T))) /\
    rg_write r' = rg_write r /\ rg_read r' = rg_read r /\ keeps k w1 w2.
Proof.
  intros W i w k ch r q cl h v d p c n T HO (HT & M1 & M2 & M3 & M4) P HK VV V0 DV DS DA log TG (buf & WB & LG). pose proof HO as (SH & CA & RA & _). pose proof SH as (CAP & _).
  destruct (nul_text W (ce_log cl) T CAP HT) as (buf' & T' & rest & WB' & HT' & LT & LL & BU). assert (buf' = buf) as -> by congruence.
  unfold run_hook. rewrite HK. rewrite (rd_of _ _ k _ (proj1 (proj1 CA)) (proj2 CA)). cbn [bind]. rewrite (holding_get _ _ _ _ _ _ _ HO). cbn [bind].
  destruct (stream_hook_correct ch (filter_rec (ce_log cl)) d ltac:(lia) ltac:(rewrite VV; exact DV)) as (o & -> & OI & OO); [cbn [filter_rec r_category r_identify]; rewrite M3, M4; exact DS|cbn [filter_rec r_priority]; lia|]. cbn [bind].
  assert (o = Some v) as ->. { rewrite <- VV. apply OI. cbn [filter_rec r_priority r_category r_identify]. rewrite M2, M3, M4. exact DA. }
  rewrite WB. cbn [bind]. rewrite <- LG. rewrite <- LG in HT'.
  destruct (holding_put W w k ch r q cl log HO (has_text_ok _ _ _ HT')) as (wa & ra & -> & Ba & Va & Wa & Ra & Ha). cbn [bind].
  destruct (shape_at _ _ _ _ _ SH CA RA) as (CO & RO). assert (v < zlen (c_devs ch)). { assert (Z.to_nat v < length (c_devs ch))%nat by (apply nth_error_Some; congruence). unfold zlen. lia. }
  assert (LP: ld_prio log = p /\ ld_len log = zlen T /\ ld_chan log = k /\ ld_cat log = c /\ ld_ident log = n). { subst log. cbn [ld_prio ld_len ld_chan ld_cat ld_ident set_text]. destruct HT as (x & _ & Y & _). cbn [s_len] in Y. repeat split; assumption. }
  destruct LP as (LP & LE & LC & LA & LI).
  destruct (count_written_ok ch v log CO ltac:(lia) ltac:(lia)) as (ch1 & -> & G). cbn [bind]. rewrite LP, LE in G. pose proof G as (SS & CO1 & _).
  destruct (holding_count W wa k ch ra q _ ch1 Ha SS CO1) as (wb & -> & Bb & Vb & Hb). cbn [bind].
  set (w1 := put_ev wb (w_ev wb ++ [EHook log])).
  assert (KE: keeps k wb w1) by (unfold keeps; repeat split; reflexivity). assert (SH1: shape W w1) by (destruct Hb as (SHb & _); exact SHb).
  assert (O1: only_at k w w1). { pose proof (only_at_trans _ _ _ _ (proj1 Ba) (proj1 Bb)) as OO1. exact OO1. }
  assert (AL: alike w w1).
  { destruct O1 as (Q1 & Q2 & Q3 & Q4 & Q5). unfold alike. repeat (split; [assumption|]). destruct CA as (K & C). destruct Hb as (_ & (_ & Cb) & _).
    split; intros a x Hx; (destruct (Z.eq_dec (Z.of_nat a) k) as [E|E]; [|exists x; split; [|apply same_setup_refl]]).
    - rewrite <- E, Nat2Z.id in C, Cb. exists ch1. split; [exact Cb|congruence].
    - destruct (Q4 (Z.of_nat a) E ltac:(lia)) as (A & _). rewrite Nat2Z.id in A. congruence.
    - rewrite <- E, Nat2Z.id in C, Cb. exists ch. split; [exact C|]. change (g_chs (w_lg w1)) with (g_chs (w_lg wb)) in Hx. congruence.
    - destruct (Q4 (Z.of_nat a) E ltac:(lia)) as (A & _). rewrite Nat2Z.id in A. congruence. }
  destruct (transmits_ok W i log T' HT' ltac:(lia) ltac:(rewrite LC; apply CA) (h log) w1 SH1) as (w2 & E2 & FW & SH2 & KP).
  { rewrite LC. intros x HI. eapply target_later; [exact AL|exact O1|apply TG, HI]. }
  rewrite LL in FW. rewrite LC in KP. exists w1, w2, ch1, ra, (mkCell (ce_mark cl) log), T'. split; [exact E2|]. split; [exact O1|].
  split; [cbn [w1 put_ev w_ev]; rewrite Vb, Va; reflexivity|]. split; [exact FW|]. split; [eapply holding_keeps; [exact Hb|exact SH2|exact (keeps_trans _ _ _ _ KE KP)]|].
  split; [split; [exact HT'|]; cbn [ce_log]; repeat split; assumption|]. split; [exact LL|]. split; [exact G|]. split; [exact Wa|]. split; [exact Ra|]. exact KP.
Qed.

(* up to the push on the own channel *)
Lemma log_hooked : forall W o i w s ch r q h v d, shape W w -> in_sense w (t_chan s) (t_cat s) (t_ident s) -> at_rest W w (t_chan s) ch r q ->
  admitted (w_lg w) (t_chan s) (t_prio s) (t_cat s) (t_ident s) -> well_formed W o i s -> -3 <= t_prio s <= 10 -> W_hook W = Some h ->
  c_virtual ch = v -> 0 <= v -> nth_error (c_devs ch) (Z.to_nat v) = Some d -> device_scope d (t_cat s) (t_ident s) -> device_accepts d (t_prio s) (t_cat s) (t_ident s) ->
  (forall T log x, record_of W o i s T log -> In x (h log) -> target W w (t_chan s) (h log) x) ->
  exists T log w1 w2 ch2 r2 cl T', record_of W o i s T log /\ log_stmt W i w s = push W i w2 (t_chan s) (rg_write r2) /\
    only_at (t_chan s) w w1 /\ w_ev w1 = w_ev w ++ [EHook log] /\ forwarded W i log (line W T) (h log) w1 w2 /\ holding W w2 (t_chan s) ch2 r2 q cl /\
    made W (ce_log cl) (t_chan s) (t_prio s) (t_cat s) (t_ident s) T' /\ line W T' = line W T /\
    grow ch ch2 (at_dev v (written (t_prio s) (zlen T))) (fun x => hit x 1 1) /\ rg_write r2 = rg_write r /\ rg_read r2 = rg_read r /\ (forall a b, w_in w2 a b = w_in w a b).
Proof.
  intros W o i w s ch r q h v d SH M (CA & RA & ST & WT & RM) AD WF P HK VV V0 DV DS DA TG. unfold log_stmt.
  destruct (hold_holding W w _ _ _ _ ch r q SH M CA RA AD ST WT RM) as (w1 & ch1 & r1 & cl & -> & NN & B1 & V1 & G1 & W1 & D1 & HO & MK). cbn [bind].
  destruct (rg_write r <? 0) eqn:E; [lia|]. rewrite <- W1. rewrite (holding_get _ _ _ _ _ _ _ HO). cbn [bind].
  pose proof SH as (CAP & _). pose proof WF as (W1' & W2' & W3' & W4' & W5').
  destruct (fill_ok W o i s (ce_log cl) W1' W2' W3' W4' CAP (holding_log _ _ _ _ _ _ _ HO)) as (t & pss & log0 & F1 & F2 & F3 & -> & F4 & F5). cbn [bind].
  rewrite (ll_of_id _ W5') in F4. set (T := feed_all (e_cap (W_env W)) t (concat pss)) in *.
  destruct (holding_put W w1 _ ch1 r1 q cl log0 HO (has_text_ok _ _ _ (proj1 F4))) as (w2 & r2 & -> & B2 & V2 & W2 & D2 & HO2). cbn [bind].
  destruct (nul_text W log0 T CAP (proj1 F4)) as (buf & T' & rest & WB & _ & _ & _ & BU). set (log := set_text log0 (ld_plen log0) (ld_len log0) buf).
  assert (RO: record_of W o i s T log).
  { destruct F4 as (HT & X1 & X2 & X3 & X4). destruct F5 as (Y1 & Y2 & Y3 & Y4 & Y5 & Y6 & Y7 & Y8 & Y9). destruct HT as (x & _ & HL & _). cbn [s_len] in HL.
    unfold record_of. cbn [log set_text ld_chan ld_prio ld_cat ld_ident ld_line ld_func ld_func_len ld_file ld_file_len ld_ts ld_prec ld_thread ld_len ld_buf ld_plen].
    repeat (split; [assumption|]). split; [exists rest; exact BU|]. exists t, pss. repeat (split; [assumption|]). split; [reflexivity|assumption]. }
  destruct (same_virtual _ _ (proj1 G1)) as (E1 & E2 & E3 & E4).
  assert (AL: alike w w2).
  { pose proof (becomes_trans _ _ _ _ _ _ _ _ B1 B2) as ((Q1 & Q2 & Q3 & Q4 & Q5) & _ & _ & C2 & _). unfold alike. repeat (split; [assumption|]). destruct CA as (K & C).
    split; intros a x Hx; (destruct (Z.eq_dec (Z.of_nat a) (t_chan s)) as [EE|EE]; [|exists x; split; [|apply same_setup_refl]]).
    - rewrite <- EE, Nat2Z.id in C, C2. exists ch1. split; [exact C2|]. assert (x = ch) as -> by congruence. apply G1.
    - destruct (Q4 (Z.of_nat a) EE ltac:(lia)) as (A & _). rewrite Nat2Z.id in A. congruence.
    - rewrite <- EE, Nat2Z.id in C, C2. exists ch. split; [exact C|]. assert (x = ch1) as -> by congruence. apply G1.
    - destruct (Q4 (Z.of_nat a) EE ltac:(lia)) as (A & _). rewrite Nat2Z.id in A. congruence. }
  pose proof (only_at_trans _ _ _ _ (proj1 B1) (proj1 B2)) as O12.
  destruct (run_hook_ok W i w2 (t_chan s) ch1 r2 q _ h v d (t_prio s) (t_cat s) (t_ident s) T HO2 F4 P HK ltac:(congruence) V0 ltac:(rewrite E2; exact DV) DS DA log) as (w3 & w4 & ch4 & r4 & cl4 & T4 & H1' & H2' & H3' & H4' & H5' & H6' & H7' & H8' & H9' & H10' & H11').
  { intros x HI. eapply target_later; [exact AL|exact O12|]. eapply TG; [exact RO|exact HI]. }
  { exists buf. split; [exact WB|reflexivity]. }
  exists T, log, w3, w4, ch4, r4, cl4, T4. split; [exact RO|]. rewrite <- W2 at 1. rewrite H1'. cbn [bind]. split; [congruence|].
  split; [eapply only_at_trans; eassumption|]. split; [congruence|]. repeat (split; [assumption|]). split.
  - eapply grow_trans; [apply grow_c, G1|apply grow_d, H8'| |]; intros; cbn beta; lia.
  - split; [congruence|]. split; [congruence|]. intros a b. destruct H11' as (_ & _ & _ & _ & _ & X). rewrite X. destruct H2' as (_ & _ & _ & _ & Y). rewrite Y. apply O12.
Qed.

Lemma log_hook_sync : forall W o i w s ch r h d, shape W w -> in_sense w (t_chan s) (t_cat s) (t_ident s) -> chan_at w (t_chan s) ch -> ring_at w (t_chan s) r -> empty r ->
  admitted (w_lg w) (t_chan s) (t_prio s) (t_cat s) (t_ident s) -> well_formed W o i s -> -3 <= t_prio s <= 10 -> c_type ch = 1 -> no_datagrams w (t_chan s) -> W_hook W = Some h ->
  0 <= c_virtual ch -> nth_error (c_devs ch) (Z.to_nat (c_virtual ch)) = Some d -> device_scope d (t_cat s) (t_ident s) -> device_accepts d (t_prio s) (t_cat s) (t_ident s) ->
  (forall T log x, record_of W o i s T log -> In x (h log) -> target W w (t_chan s) (h log) x) ->
  exists w', log_stmt W i w s = Ret (w', 0) /\ hooked_sync W o i s h w w'.
Proof.
  intros W o i w s ch r h d SH M CA RA EM AD WF P TY ND HK V0 DV DS DA TG.
  destruct (log_hooked W o i w s ch r [] h (c_virtual ch) d SH M (empty_rest _ _ _ _ _ SH CA RA EM) AD WF P HK eq_refl V0 DV DS DA TG) as (T & log & w1 & w2 & ch2 & r2 & cl & T' & RO & -> & O1 & V1 & FW & HO & MD & LL & G & W2 & R2 & IN).
  pose proof G as (SS & _). destruct (same_virtual _ _ SS) as (E1 & E2 & E3 & E4). pose proof HO as (SH2 & CA2 & RA2 & _).
  assert (DSC: devices_scope ch (t_cat s) (t_ident s)) by (apply (M ch (proj2 CA))).
  assert (ND2: no_datagrams w2 (t_chan s)) by (intros a; rewrite IN; apply ND).
  destruct (push_sync W i w2 (t_chan s) ch2 r2 [] cl (t_prio s) (t_cat s) (t_ident s) T' HO MD P ltac:(congruence) (Forall_nil _) (scope_same _ _ _ _ SS DSC) ND2) as (w3 & ch3 & r3 & f & -> & B3 & SH3 & G3 & DL & EM3 & WR).
  rewrite LL in *. destruct (becomes_at _ _ _ _ _ _ _ SH2 CA2 B3) as (CA3 & RA3). rewrite E3, E2 in DL. destruct (delivered_one _ _ _ _ _ _ _ _ _ _ DL) as (g & DG & GE).
  exists w3. split; [reflexivity|]. exists T, log, w1, w2, ch, ch3, r, r3, g. split; [exact RO|]. split; [exact O1|]. split; [exact V1|]. split; [exact FW|]. split; [apply B3|]. split; [exact SH3|].
  split; [exact CA|]. split; [exact CA3|]. pose proof G3 as (SS3 & _ & GD & GC). destruct G as (_ & _ & HD & HC). split; [eapply same_setup_trans; eassumption|]. split; [exact DG|].
  split; [intros j x J X; rewrite GD, HD, GE by assumption; unfold hook_delta, at_dev, written; lia|].
  split; [intros x X X1 X2; rewrite GC, HC by assumption; unfold channel_delta, proc_delta; cbn [app fold_right i_line]; change (zlen [mkItem (t_prio s) (t_cat s) (t_ident s) (line W T)]) with 1; rewrite ?Z.add_0_r; lia|].
  split; [exact RA|]. split; [exact RA3|]. split; [exact EM3|]. rewrite WR, W2. reflexivity.
Qed.
Lemma log_hook_async : forall W o i w s ch r q h d, shape W w -> in_sense w (t_chan s) (t_cat s) (t_ident s) -> at_rest W w (t_chan s) ch r q ->
  admitted (w_lg w) (t_chan s) (t_prio s) (t_cat s) (t_ident s) -> well_formed W o i s -> -3 <= t_prio s <= 10 -> c_type ch <> 1 -> W_hook W = Some h ->
  0 <= c_virtual ch -> nth_error (c_devs ch) (Z.to_nat (c_virtual ch)) = Some d -> device_scope d (t_cat s) (t_ident s) -> device_accepts d (t_prio s) (t_cat s) (t_ident s) ->
  (forall T log x, record_of W o i s T log -> In x (h log) -> target W w (t_chan s) (h log) x) ->
  exists w', log_stmt W i w s = Ret (w', 0) /\ hooked_async W o i s h q w w'.
Proof.
  intros W o i w s ch r q h d SH M AR AD WF P TY HK V0 DV DS DA TG. pose proof AR as (CA & RA & _).
  destruct (log_hooked W o i w s ch r q h (c_virtual ch) d SH M AR AD WF P HK eq_refl V0 DV DS DA TG) as (T & log & w1 & w2 & ch2 & r2 & cl & T' & RO & -> & O1 & V1 & FW & HO & MD & LL & G & W2 & R2 & IN).
  pose proof G as (SS & _). destruct (same_virtual _ _ SS) as (E1 & E2 & E3 & E4). pose proof HO as (SH2 & CA2 & RA2 & _).
  destruct (push_async W i w2 (t_chan s) ch2 r2 q cl (t_prio s) (t_cat s) (t_ident s) T' HO MD ltac:(lia) ltac:(congruence)) as (w3 & ch3 & r3 & -> & B3 & SH3 & V3 & G3 & ST3 & RD & WT & _).
  rewrite LL in *. destruct (becomes_at _ _ _ _ _ _ _ SH2 CA2 B3) as (CA3 & RA3).
  exists w3. split; [reflexivity|]. exists T, log, w1, w2, ch, ch3, r, r3. split; [exact RO|]. split; [exact O1|]. split; [exact V1|]. split; [exact FW|]. split; [apply B3|]. split; [exact SH3|]. split; [exact V3|].
  split; [exact CA|]. split; [exact CA3|]. pose proof G3 as (SS3 & _ & GD & GC). destruct G as (_ & _ & HD & HC). split; [eapply same_setup_trans; eassumption|].
  split; [intros j x J X; unfold dcnt at 1; rewrite GD; fold (dcnt ch2 j x); rewrite HD by assumption; unfold hook_delta, at_dev, written; lia|].
  split; [intros x X X1 X2; rewrite GC, HC by assumption; lia|].
  split; [exact RA|]. split; [exact RA3|]. split; [exact ST3|]. split; [congruence|]. exact WT.
Qed.

(* the virtual device rejects the record: as without a hook *)
Lemma run_hook_quiet : forall W i w k ch r q cl d p c n T, holding W w k ch r q cl -> made W (ce_log cl) k p c n T -> -3 <= p <= 10 ->
  0 <= c_virtual ch -> nth_error (c_devs ch) (Z.to_nat (c_virtual ch)) = Some d -> device_scope d c n -> ~ device_accepts d p c n -> run_hook W i w k (rg_write r) = Ret w.
Proof.
  intros W i w k ch r q cl d p c n T HO (_ & _ & M2 & M3 & M4) P V0 DV DS DA. pose proof HO as (_ & CA & _). unfold run_hook. destruct (W_hook W) as [h|]; [|reflexivity].
  rewrite (rd_of _ _ k _ (proj1 (proj1 CA)) (proj2 CA)). cbn [bind]. rewrite (holding_get _ _ _ _ _ _ _ HO). cbn [bind].
  destruct (stream_hook_correct ch (filter_rec (ce_log cl)) d V0 DV) as (o & -> & OI & OO); [cbn [filter_rec r_category r_identify]; rewrite M3, M4; exact DS|cbn [filter_rec r_priority]; lia|]. cbn [bind].
  destruct OO as [-> | ->]; [reflexivity|]. exfalso. apply DA. rewrite <- M2, <- M3, <- M4. apply OI. reflexivity.
Qed.
Lemma log_stmt_quiet : forall W o i w s ch r q d, shape W w -> in_sense w (t_chan s) (t_cat s) (t_ident s) -> at_rest W w (t_chan s) ch r q ->
  admitted (w_lg w) (t_chan s) (t_prio s) (t_cat s) (t_ident s) -> well_formed W o i s -> -3 <= t_prio s <= 10 ->
  0 <= c_virtual ch -> nth_error (c_devs ch) (Z.to_nat (c_virtual ch)) = Some d -> device_scope d (t_cat s) (t_ident s) -> ~ device_accepts d (t_prio s) (t_cat s) (t_ident s) ->
  log_stmt W i w s = post W i w (t_chan s) (t_prio s) (t_cat s) (t_ident s) (fill W i s).
Proof.
  intros W o i w s ch r q d SH M (CA & RA & ST & WT & RM) AD WF P V0 DV DS DA. unfold log_stmt, post.
  destruct (hold_holding W w _ _ _ _ ch r q SH M CA RA AD ST WT RM) as (w1 & ch1 & r1 & cl & -> & NN & B1 & V1 & G1 & W1 & D1 & HO & MK). cbn [bind].
  destruct (rg_write r <? 0) eqn:E; [lia|]. rewrite <- W1. rewrite (holding_get _ _ _ _ _ _ _ HO). cbn [bind].
  pose proof SH as (CAP & _). destruct (well_formed_fills W o i s CAP WF (ce_log cl) (holding_log _ _ _ _ _ _ _ HO)) as (T & log & QT & -> & MD). cbn [bind].
  destruct (holding_put W w1 _ ch1 r1 q cl log HO (has_text_ok _ _ _ (proj1 MD))) as (w2 & r2 & -> & B2 & V2 & W2 & D2 & HO2). cbn [bind].
  destruct (same_virtual _ _ (proj1 G1)) as (E1 & E2 & _).
  rewrite <- W2 at 1. rewrite (run_hook_quiet W i w2 _ ch1 r2 q _ d _ _ _ T HO2 MD P ltac:(lia) ltac:(rewrite E1, E2; exact DV) DS DA). reflexivity.
Qed.
Lemma log_quiet_sync : forall W o i w s ch r d, shape W w -> in_sense w (t_chan s) (t_cat s) (t_ident s) -> chan_at w (t_chan s) ch -> ring_at w (t_chan s) r -> empty r ->
  admitted (w_lg w) (t_chan s) (t_prio s) (t_cat s) (t_ident s) -> well_formed W o i s -> -3 <= t_prio s <= 10 -> c_type ch = 1 -> no_datagrams w (t_chan s) ->
  0 <= c_virtual ch -> nth_error (c_devs ch) (Z.to_nat (c_virtual ch)) = Some d -> device_scope d (t_cat s) (t_ident s) -> ~ device_accepts d (t_prio s) (t_cat s) (t_ident s) ->
  exists w' T, log_stmt W i w s = Ret (w', 0) /\ statement_text W o i s T /\ written_through W i (t_chan s) (t_prio s) (t_cat s) (t_ident s) (line W T) w w'.
Proof.
  intros W o i w s ch r d SH M CA RA EM AD WF P TY ND V0 DV DS DA. rewrite (log_stmt_quiet W o i w s ch r [] d SH M (empty_rest _ _ _ _ _ SH CA RA EM) AD WF P V0 DV DS DA). pose proof SH as (CAP & _).
  destruct (post_sync W i w _ _ _ _ _ ch r (t_ident s) _ SH M CA RA EM AD (well_formed_fills W o i s CAP WF) P TY (proj2 (M ch (proj2 CA))) ND) as (w' & T & log & A & B & C).
  exists w', T. tauto.
Qed.
Lemma log_quiet_async : forall W o i w s ch r q d, shape W w -> in_sense w (t_chan s) (t_cat s) (t_ident s) -> at_rest W w (t_chan s) ch r q ->
  admitted (w_lg w) (t_chan s) (t_prio s) (t_cat s) (t_ident s) -> well_formed W o i s -> -3 <= t_prio s <= 10 -> c_type ch <> 1 ->
  0 <= c_virtual ch -> nth_error (c_devs ch) (Z.to_nat (c_virtual ch)) = Some d -> device_scope d (t_cat s) (t_ident s) -> ~ device_accepts d (t_prio s) (t_cat s) (t_ident s) ->
  exists w' T, log_stmt W i w s = Ret (w', 0) /\ statement_text W o i s T /\ queued W (t_chan s) (t_prio s) (t_cat s) (t_ident s) (line W T) q w w'.
Proof.
  intros W o i w s ch r q d SH M AR AD WF P TY V0 DV DS DA. rewrite (log_stmt_quiet W o i w s ch r q d SH M AR AD WF P V0 DV DS DA). pose proof SH as (CAP & _).
  destruct (post_async W i w _ _ _ _ _ ch r q (t_ident s) _ SH M AR AD (well_formed_fills W o i s CAP WF) ltac:(lia) TY) as (w' & T & log & A & B & C & _).
  exists w', T. tauto.
Qed.
