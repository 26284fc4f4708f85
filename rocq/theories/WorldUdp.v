(* What a channel does with incoming datagrams. *)
From Coq Require Import String ZArith List Bool Lia ZifyBool ZifyNat ZifyN.
From Verif Require Import Base BaseFacts NumFmt LoggerState FilterSpec Stream World WorldSpec WorldProofs.
Import ListNotations.
Open Scope Z_scope.

Lemma nth_last_app : forall (a b : text) n x, nth_error (a ++ b) n = Some x -> (length a <= n)%nat -> forall a', length a' = length a -> nth_error (a' ++ b) n = Some x.
Proof. intros a b n x H L a' E. rewrite nth_error_app2 in H |- * by lia. rewrite E. exact H. Qed.

(* the record after reading one datagram *)
Definition took (W : wcfg) (u : ldata) (t : text) : Prop := content u = Ret t /\ ld_len u = zlen t /\ udp_ok W u /\ ld_prio u = 2.
Definition patch (W : wcfg) (u : ldata) : outcome ldata :=
  if ld_len u =? LOG_SIZE W
  then let! b := wr (ld_buf u) (ld_len u - 2) 10 in let! b := wr b (ld_len u - 1) 0 in Ret (set_text u (ld_plen u) (ld_len u) b)
  else Ret u.

Definition read1 (W : wcfg) (i : io) (k : Z) (u : ldata) (q : list text) : outcome (ldata * list text) :=
  let! u := init_log i u k PRIORITY_INFO 0 0 in
  let! (u, q) := udp_read W u q in
  let! u := patch W u in
  Ret (u, q).

Lemma content_all : forall log t, ld_buf log = t -> ld_len log = zlen t -> content log = Ret t.
Proof.
  intros log t <- L. unfold content, slice. rewrite L. pose proof (zlen_nonneg _ (ld_buf log)). destruct (_ || _) eqn:E; [lia|]. cbn [Z.to_nat skipn]. f_equal.
  unfold zlen. rewrite Nat2Z.id. apply firstn_all.
Qed.
Lemma content_front : forall log t rest, ld_buf log = t ++ rest -> ld_len log = zlen t -> content log = Ret t.
Proof.
  intros log t rest B L. unfold content, slice. rewrite L, B, zlen_app. pose proof (zlen_nonneg _ t). pose proof (zlen_nonneg _ rest). destruct (_ || _) eqn:E; [lia|]. cbn [Z.to_nat skipn]. f_equal.
  unfold zlen. rewrite Nat2Z.id, firstn_app, firstn_all, Nat.sub_diag. cbn [firstn]. apply app_nil_r.
Qed.
Lemma wr_splice : forall A (a c : list A) x y i, i = zlen a -> wr (a ++ x :: c) i y = Ret (a ++ y :: c).
Proof. intros A a c x y i ->. unfold wr. exact (blit_splice _ a [x] c [y] (zlen a) eq_refl eq_refl). Qed.

(* the buffer seen as everything but the last two bytes, and those *)
Lemma two_last : forall (l : text) n, zlen l = n -> 2 <= n -> exists a x y, l = a ++ [x; y] /\ zlen a = n - 2 /\ a = firstn (Z.to_nat (n - 2)) l.
Proof.
  intros l n L N. destruct (split_at _ l (n - 2)) as (a & b & -> & A); [lia|]. rewrite zlen_app in L.
  assert (zlen b = 2) as LB by lia. destruct b as [|x [|y [|z b]]]; unfold zlen in LB; cbn [length] in LB; try lia.
  exists a, x, y. split; [reflexivity|]. split; [exact A|]. rewrite firstn_app. replace (Z.to_nat (n - 2) - length a)%nat with 0%nat by (unfold zlen in A; lia).
  cbn [firstn]. rewrite app_nil_r. rewrite firstn_all2; [reflexivity|unfold zlen in A; lia].
Qed.
Lemma last_byte : forall (l : text) n, zlen l = n -> 1 <= n -> nth_error l (Z.to_nat (n - 1)) = Some 0 -> exists a, l = a ++ [0] /\ zlen a = n - 1.
Proof.
  intros l n L N H. destruct (split_at _ l (n - 1)) as (a & b & -> & A); [lia|]. rewrite zlen_app in L.
  assert (zlen b = 1) as LB by lia. destruct b as [|x [|y b]]; unfold zlen in LB; cbn [length] in LB; try lia.
  rewrite nth_error_app2 in H by (unfold zlen in A; lia). replace (Z.to_nat (n - 1) - length a)%nat with 0%nat in H by (unfold zlen in A; lia). cbn in H. injection H as ->. eauto.
Qed.
Lemma nth_last : forall (a : text) n x, zlen a = n - 1 -> nth_error (a ++ [x]) (Z.to_nat (n - 1)) = Some x.
Proof. intros a n x A. rewrite nth_error_app2 by (unfold zlen in A; lia). replace (Z.to_nat (n - 1) - length a)%nat with 0%nat by (unfold zlen in A; lia). reflexivity. Qed.

Lemma kept_len : forall W m, 2 <= e_cap (W_env W) -> m <> [] -> 0 < zlen (kept W m) <= e_cap (W_env W).
Proof.
  intros W m C M. assert (0 < zlen m) by (destruct m; [congruence|rewrite zlen_cons; pose proof (zlen_nonneg _ m); lia]). unfold kept. destruct (zlen m <? e_cap (W_env W)) eqn:E; [lia|].
  rewrite zlen_app, zlen_firstn by lia. change (zlen [10; 0]) with 2. lia.
Qed.

Lemma read_step : forall W i u k (m : text) (q : list text), 2 <= e_cap (W_env W) -> udp_ok W u -> m <> [] ->
  exists u', read1 W i k u (m :: q) = Ret (u', q) /\ took W u' (kept W m).
Proof.
  intros W i u k m q C (L & LN) M. unfold read1. destruct (init_log_ok W i u k PRIORITY_INFO 0 0 L C) as (u1 & -> & L1 & _ & P1 & _ & _ & _ & _ & OTH). cbn [bind].
  unfold log_ok in *. cbn [udp_read]. unfold LOG_SIZE. set (cap := e_cap (W_env W)) in *.
  assert (0 < zlen m) by (destruct m; [congruence|rewrite zlen_cons; pose proof (zlen_nonneg _ m); lia]).
  assert (LN1: nth_error (ld_buf u1) (Z.to_nat (cap - 1)) = Some 0) by (rewrite OTH by lia; exact LN). unfold patch, LOG_SIZE, kept. fold cap.
  destruct (zlen m <? cap) eqn:E.
  - rewrite firstn_all2 by (unfold zlen in *; lia). destruct (split_at _ (ld_buf u1) (zlen m)) as (a & b & EB & LA); [lia|].
    rewrite EB. rewrite <- (app_nil_l (a ++ b)), (blit_splice _ [] a b m 0) by (rewrite ?zlen_nil; lia). cbn [bind app ld_len set_text].
    fold cap. destruct (zlen m =? cap) eqn:E2; [lia|]. cbn [bind]. eexists. split; [reflexivity|]. split; [eapply content_front; reflexivity|]. split; [reflexivity|]. split; [|exact P1].
    split; [unfold log_ok; cbn [ld_buf set_text]; fold cap; rewrite <- L1, EB, !zlen_app; lia|]. cbn [ld_buf set_text]. fold cap. rewrite EB in LN1. eapply nth_last_app; [exact LN1|unfold zlen in *; lia|unfold zlen in *; lia].
  - set (m' := firstn (Z.to_nat cap) m). assert (LM: zlen m' = cap) by (apply zlen_firstn; lia).
    assert (B: blit (ld_buf u1) 0 m' = Ret m').
    { rewrite <- (app_nil_r (ld_buf u1)), <- (app_nil_l (ld_buf u1 ++ [])). rewrite (blit_splice _ [] (ld_buf u1) [] m' 0) by (rewrite ?zlen_nil; lia). rewrite app_nil_r. reflexivity. }
    rewrite B. cbn [bind ld_len set_text ld_buf]. rewrite LM. fold cap. rewrite Z.eqb_refl.
    destruct (two_last m' cap LM C) as (a & x & y & EM & LA & FA). rewrite EM. rewrite (wr_splice _ a [y] x 10) by lia. cbn [bind].
    replace (a ++ [10; y]) with ((a ++ [10]) ++ [y]) by (rewrite <- app_assoc; reflexivity). rewrite (wr_splice _ (a ++ [10]) [] y 0) by (rewrite zlen_app; change (zlen [10]) with 1; lia). cbn [bind].
    assert (AM: a = firstn (Z.to_nat (cap - 2)) m). { rewrite FA. unfold m'. rewrite firstn_firstn. f_equal. lia. } rewrite <- AM, <- app_assoc. cbn [app].
    assert (LK: zlen (a ++ [10; 0]) = cap) by (rewrite zlen_app; change (zlen [10; 0]) with 2; lia).
    eexists. split; [reflexivity|]. split; [apply content_all; [reflexivity|cbn [ld_len set_text]; lia]|]. split; [cbn [ld_len set_text]; lia|]. split; [|exact P1].
    split; [unfold log_ok; cbn [ld_buf set_text]; exact LK|]. cbn [ld_buf set_text]. fold cap. replace (a ++ [10; 0]) with ((a ++ [10]) ++ [0]) by (rewrite <- app_assoc; reflexivity). apply nth_last. rewrite zlen_app. change (zlen [10]) with 1. lia.
Qed.
Lemma c_string_some : forall (a b : text), exists s, c_string (a ++ 0 :: b) = Ret s.
Proof. intros a b. rewrite c_string_line. eauto. Qed.

Lemma udp_loop_S : forall n W i k d u q ch evs, udp_loop (S n) W i k d u q ch evs =
  bind (read1 W i k u q)
    (fun p => if ld_len (fst p) =? 0 then Ret (fst p, snd p, ch, evs) else let! (ch, e) := out_device i evs k ch d (fst p) in udp_loop n W i k d (fst p) (snd p) ch (evs ++ e)).
Proof.
  intros. cbn [udp_loop]. unfold read1. destruct (init_log i u k PRIORITY_INFO 0 0) as [u1| |]; [|reflexivity|reflexivity]. cbn [bind].
  destruct (udp_read W u1 q) as [(u2 & q2)| |]; [|reflexivity|reflexivity]. cbn [bind]. unfold patch. destruct (ld_len u2 =? LOG_SIZE W); [|reflexivity].
  destruct (wr (ld_buf u2) (ld_len u2 - 2) 10) as [b| |]; [|reflexivity|reflexivity]. cbn [bind]. destruct (wr b (ld_len u2 - 1) 0); reflexivity.
Qed.

Lemma udp_loop_ok : forall n W i k d dev u q ch evs, 2 <= e_cap (W_env W) -> udp_ok W u -> chan_ok ch -> 0 <= d -> nth_error (c_devs ch) (Z.to_nat d) = Some dev ->
  exists u' ch' evs' f, udp_loop n W i k d u q ch evs = Ret (u', snd (round n q), ch', evs') /\ udp_ok W u' /\ dgrow ch ch' f /\
    (d_out dev <> 1 -> evs' = forward W i k d dev (fst (round n q)) evs).
Proof.
  induction n as [|n IH]; intros W i k d dev u q ch evs C U K D N.
  { cbn [udp_loop round fst snd forward]. exists u, ch, evs, (fun _ _ => 0). split; [reflexivity|]. split; [exact U|]. split; [apply dgrow_refl, K|]. reflexivity. }
  assert (NONE: forall q', exists u', (let! u := init_log i u k PRIORITY_INFO 0 0 in Ret (set_text u (ld_plen u) 0 (ld_buf u), q' : list text)) = Ret (u', q') /\ udp_ok W u' /\ ld_len u' = 0).
  { intros q'. destruct U as (L & LN). destruct (init_log_ok W i u k PRIORITY_INFO 0 0 L C) as (u1 & -> & L1 & _ & P1 & _ & _ & _ & _ & OTH). cbn [bind]. eexists. split; [reflexivity|]. split; [|reflexivity].
    split; [exact L1|]. cbn [ld_buf set_text]. rewrite OTH by lia. exact LN. }
  rewrite udp_loop_S. destruct q as [|m q].
  - destruct (NONE []) as (u1 & E & U1 & Z1). apply bind_ret_inv in E as (u0 & E0 & E). unfold read1. rewrite E0. injection E as E. cbn [bind udp_read]. rewrite E. unfold patch. rewrite Z1. unfold LOG_SIZE. destruct (0 =? e_cap (W_env W)) eqn:F; [lia|].
    cbn [bind fst snd]. rewrite Z1. cbn [Z.eqb round fst snd forward]. exists u1, ch, evs, (fun _ _ => 0). split; [reflexivity|]. split; [exact U1|]. split; [apply dgrow_refl, K|]. reflexivity.
  - destruct m as [|b m].
    + destruct (NONE q) as (u1 & E & U1 & Z1). apply bind_ret_inv in E as (u0 & E0 & E). unfold read1. rewrite E0. injection E as E. cbn [bind udp_read]. rewrite firstn_nil.
      replace (blit (ld_buf u0) 0 []) with (Ret (ld_buf u0)) by (symmetry; apply blit_nil; pose proof (zlen_nonneg _ (ld_buf u0)); lia). cbn [bind]. rewrite zlen_nil. rewrite E. unfold patch. rewrite Z1. unfold LOG_SIZE. destruct (0 =? e_cap (W_env W)) eqn:F; [lia|].
      cbn [bind fst snd]. rewrite Z1. cbn [Z.eqb round fst snd forward]. exists u1, ch, evs, (fun _ _ => 0). split; [reflexivity|]. split; [exact U1|]. split; [apply dgrow_refl, K|]. reflexivity.
    + destruct (read_step W i u k (b :: m) q C U ltac:(discriminate)) as (u1 & -> & CT & LL & U1 & P1). cbn [bind fst snd].
      destruct (kept_len W (b :: m) C ltac:(discriminate)) as (KL & _). destruct (ld_len u1 =? 0) eqn:F; [lia|].
      destruct U1 as (L1 & LN1). destruct (last_byte (ld_buf u1) (e_cap (W_env W)) L1 ltac:(lia) LN1) as (a & EA & _).
      destruct (c_string_some a []) as (s & CS). rewrite <- EA in CS.
      destruct (out_device_gen i evs k ch d u1 (kept W (b :: m)) s dev K D N CT LL (fun _ => CS) ltac:(lia)) as (c1 & -> & G1). cbn [bind].
      destruct (dgrow_ok _ _ _ G1) as (K1 & E1).
      destruct (IH W i k d dev u1 q c1 (evs ++ (if d_out dev =? 1 then [EScreen (painted (ld_prio u1) s)] else outputs i evs k d dev (ld_prio u1) (kept W (b :: m)))) C (conj L1 LN1) K1 D ltac:(rewrite E1; exact N)) as (u2 & c2 & evs2 & f & -> & U2 & G2 & FW).
      cbn [round fst snd forward]. do 4 eexists. split; [reflexivity|]. split; [exact U2|]. split; [eapply dgrow_trans; [exact G1|exact G2|intros; reflexivity]|].
      intros NS. rewrite (FW NS). destruct (d_out dev =? 1) eqn:X; [lia|]. rewrite P1. reflexivity.
Qed.

Definition no_screen_input (ds : list device) : Prop := Forall (fun dev => d_in dev = 1 -> d_out dev <> 1) ds.
Lemma udp_devices_ok : forall W i k ds d u qs ch evs, 2 <= e_cap (W_env W) -> udp_ok W u -> chan_ok ch -> 0 <= d ->
  (forall m dev, nth_error ds m = Some dev -> nth_error (c_devs ch) (Z.to_nat (d + Z.of_nat m)) = Some dev) ->
  exists u' qs' ch' evs' f, udp_devices ds d W i k u qs ch evs = Ret (u', qs', ch', evs') /\ udp_ok W u' /\ dgrow ch ch' f /\
    (no_screen_input ds -> evs' = snd (receive W i k d ds qs evs) /\ forall a, qs' a = fst (receive W i k d ds qs evs) a).
Proof.
  intros W i k ds. induction ds as [|dev ds IH]; intros d u qs ch evs C U K D N; cbn [udp_devices receive].
  { exists u, qs, ch, evs, (fun _ _ => 0). split; [reflexivity|]. split; [exact U|]. split; [apply dgrow_refl, K|]. intros _. split; reflexivity. }
  unfold receives, DEVICE_IN_UDP, fld. change (Z.to_nat DEVICE_CFG_ABLE) with 0%nat.
  assert (N0: nth_error (c_devs ch) (Z.to_nat d) = Some dev). { replace d with (d + Z.of_nat 0) by lia. apply N. reflexivity. }
  assert (N1: forall m dv, nth_error ds m = Some dv -> nth_error (c_devs ch) (Z.to_nat (d + 1 + Z.of_nat m)) = Some dv).
  { intros m dv H. replace (d + 1 + Z.of_nat m) with (d + Z.of_nat (S m)) by lia. apply N. exact H. }
  destruct ((d_in dev =? 1) && negb (nth 0 (d_cfg dev) 0 =? 0) && io_sock i evs k d) eqn:E.
  - destruct (udp_loop_ok READ_MAX W i k d dev u (qs d) ch evs C U K D N0) as (u1 & c1 & evs1 & f1 & -> & U1 & G1 & F1). cbn [bind]. destruct (dgrow_ok _ _ _ G1) as (K1 & E1).
    destruct (IH (d + 1) u1 (fun j => if j =? d then snd (round READ_MAX (qs d)) else qs j) c1 evs1 C U1 K1 ltac:(lia) ltac:(rewrite E1; exact N1)) as (u2 & q2 & c2 & evs2 & f2 & -> & U2 & G2 & F2).
    do 5 eexists. split; [reflexivity|]. split; [exact U2|]. split; [eapply dgrow_trans; [exact G1|exact G2|intros; reflexivity]|].
    intros NS. inversion NS; subst. change 1000%nat with READ_MAX. rewrite <- F1 by (match goal with H : _ = 1 -> _ |- _ => apply H end; lia). apply F2. assumption.
  - destruct (IH (d + 1) u qs ch evs C U K ltac:(lia) N1) as (u2 & q2 & c2 & evs2 & f2 & -> & U2 & G2 & F2).
    do 5 eexists. split; [reflexivity|]. split; [exact U2|]. split; [exact G2|]. intros NS. inversion NS; subst. apply F2. assumption.
Qed.
Lemma nth_error_firstn : forall A (l : list A) n m x, nth_error (firstn n l) m = Some x -> nth_error l m = Some x.
Proof. intros A l n. revert l. induction n as [|n IH]; intros [|y l] [|m] x H; cbn in *; try discriminate; [exact H|]. eapply IH, H. Qed.

(* everything but channel k and its input is as before *)
Definition only_at' (k : Z) (w w' : world) : Prop :=
  g_shm (w_lg w') = g_shm (w_lg w) /\ g_state (w_lg w') = g_state (w_lg w) /\ g_size (w_lg w') = g_size (w_lg w) /\
  (forall a, a <> k -> 0 <= a -> nth_error (g_chs (w_lg w')) (Z.to_nat a) = nth_error (g_chs (w_lg w)) (Z.to_nat a) /\
                       nth_error (w_rings w') (Z.to_nat a) = nth_error (w_rings w) (Z.to_nat a)) /\
  (forall a b, a <> k -> w_in w' a b = w_in w a b).

Lemma shape_put : forall W k ch0 ch r w w', shape W w -> chan_at w k ch0 -> becomes k ch r w w' -> chan_ok ch -> ring_ok W r -> shape W w'.
Proof. intros W k ch0 ch r w w' SH ((K & _) & _) BE CO RO. eapply becomes_shape; eassumption. Qed.

Lemma enter_proc_udp : forall W i w k ch r q, shape W w -> chan_at w k ch -> ring_at w k r -> c_state ch <> 0 -> waiting W r q ->
  Forall (fun l => prio_in (i_prio l) /\ devices_scope ch (i_cat l) (i_ident l)) q ->
  exists w' ch' r' evs f g, enter_proc W i w k = Ret w' /\ only_at' k w w' /\ shape W w' /\ chan_at w' k ch' /\ ring_at w' k r' /\ grow ch ch' (fun j x => f j x + g j x) (proc_delta q) /\
    delivered_all i k (firstn (Z.to_nat (c_size ch)) (c_devs ch)) q (w_ev w) evs f /\
    (no_screen_input (firstn (Z.to_nat (c_size ch)) (c_devs ch)) ->
       w_ev w' = snd (receive W i k 0 (firstn (Z.to_nat (c_size ch)) (c_devs ch)) (w_in w k) evs) /\
       forall d, w_in w' k d = fst (receive W i k 0 (firstn (Z.to_nat (c_size ch)) (c_devs ch)) (w_in w k) evs) d) /\
    rg_write r' = rg_write r /\ rg_hold r' = rg_hold r /\ rg_proc r' = rg_write r /\ rg_read r' = rg_write r.
Proof.
  intros W i w k ch r q SH CA RA CS WT FA. pose proof SH as (S1 & S2 & S3 & S4 & S5 & S6). destruct (shape_at _ _ _ _ _ SH CA RA) as (CO & RO).
  pose proof CA as (K & C). pose proof RA as (_ & R). unfold enter_proc. rewrite (rd_of _ _ k _ (proj1 K) C). cbn [bind]. rewrite (rd_of _ _ k _ (proj1 K) R). cbn [bind].
  destruct (proc_records_ok W i k q (S (Z.to_nat (W_ring W))) r ch (w_ev w) S2 RO WT CO FA) as (r1 & c1 & evs & f & -> & DA & G & RO1 & NM & P1 & Q1).
  { destruct WT as (WL & _). unfold zlen in WL. lia. }
  cbn [bind]. pose proof G as (SS & CO1 & _). assert (c_state c1 = c_state ch /\ c_size c1 = c_size ch /\ c_devs c1 = c_devs ch) as (E1 & E2 & E3) by (unfold same_setup in SS; tauto).
  unfold CHANNEL_STATE_NULL. destruct (c_state c1 =? 0) eqn:E; [lia|]. rewrite E2, E3.
  destruct (udp_devices_ok W i k (firstn (Z.to_nat (c_size ch)) (c_devs ch)) 0 (rg_udp r1) (w_in w k) c1 evs S1 ltac:(unfold ring_ok in RO1; tauto) CO1 ltac:(lia)) as (u & qs & c2 & evs2 & g & -> & LU & G2 & F).
  { intros m dev H. rewrite E3. cbn [Z.add]. rewrite Nat2Z.id. eapply nth_error_firstn, H. }
  cbn [bind]. assert (GT: grow ch c2 (fun j x => f j x + g j x) (proc_delta q)) by (eapply grow_trans; [exact G|apply grow_d, G2|intros; reflexivity|intros; cbn beta; lia]).
  pose proof GT as (_ & CO2 & _).
  destruct (becomes_put k w ch r c2 (mkRing (rg_write r1) (rg_hold r1) (rg_read r1) (rg_proc r1) (rg_cells r1) u) (proj1 K) C R) as (w1 & P & B & EV).
  apply bind_ret_inv in P as (w0 & -> & P). cbn [bind]. rewrite P. cbn [bind].
  assert (RO2: ring_ok W (mkRing (rg_write r1) (rg_hold r1) (rg_read r1) (rg_proc r1) (rg_cells r1) u)).
  { unfold ring_ok in RO1 |- *. cbn [rg_write rg_hold rg_read rg_proc rg_cells rg_udp]. tauto. }
  pose proof (shape_put _ _ _ _ _ _ _ SH CA B CO2 RO2) as SH1. destruct (becomes_at _ _ _ _ _ _ _ SH CA B) as (CA1 & RA1).
  unfold no_marks in NM. do 6 eexists. split; [reflexivity|]. split.
  { destruct B as ((A1 & A2 & A3 & A4 & A5) & _). unfold only_at'. cbn [w_lg w_rings w_in]. repeat (split; [assumption|]). intros a b NE. destruct (a =? k) eqn:EK; [lia|apply A5]. }
  split; [exact SH1|]. split; [exact CA1|]. split; [exact RA1|]. split; [exact GT|]. split; [exact DA|]. split.
  { intros NS. destruct (F NS) as (F1 & F2). cbn [w_ev w_in]. rewrite Z.eqb_refl. split; assumption. }
  cbn [rg_write rg_hold rg_read rg_proc]. tauto.
Qed.
