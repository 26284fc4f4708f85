(* Proofs about recovery. *)
From Coq Require Import String ZArith List Bool Lia ZifyBool ZifyNat ZifyN.
From Verif Require Import Base BaseFacts LoggerState Ring RingSpec RingInv RingProofs RingLive RingRun RingQuiet
  RingStop Recover RecoverSpec.
Import ListNotations.
Open Scope Z_scope.

Lemma core_len : zlen CORE = 18.
Proof. reflexivity. Qed.

Lemma firstn_exact : forall A (a b : list A), firstn (length a) (a ++ b) = a.
Proof. intros. rewrite firstn_app, Nat.sub_diag, firstn_all, firstn_O. apply app_nil_r. Qed.

(* ---- one slot ---- *)
Lemma recover_slot_ok : forall K d, 20 <= k_log K -> sane K d ->
  exists d', recover_slot K d = Ret d' /\ flagged K d d' /\ sane K d'.
Proof.
  intros K d L [B1 B2]. unfold recover_slot. rewrite core_len.
  set (n := Z.min (d_len d) (k_log K - 18 - 2)).
  assert (N : 0 <= n /\ n + 20 <= k_log K /\ n <= d_len d /\ n <= k_log K - 20) by (unfold n; lia).
  destruct (split_at _ (d_buf d) n ltac:(lia)) as (a & r & E & A). rewrite E in B1. rewrite zlen_app in B1.
  destruct (split_at _ r 18 ltac:(lia)) as (m & r2 & -> & M). rewrite zlen_app in B1.
  destruct r2 as [|x [|y r3]]; [rewrite zlen_nil in B1; lia|rewrite zlen_cons, zlen_nil in B1; lia|].
  rewrite !zlen_cons in B1. pose proof (zlen_nonneg _ r3).
  rewrite E. rewrite blit_splice by (rewrite ?core_len; lia). cbn [bind]. unfold wr.
  assert (E1 : blit (a ++ CORE ++ x :: y :: r3) (n + 18) [10] = Ret (a ++ CORE ++ 10 :: y :: r3)).
  { replace (a ++ CORE ++ x :: y :: r3) with ((a ++ CORE) ++ [x] ++ y :: r3) by (rewrite <- app_assoc; reflexivity).
    rewrite blit_splice; [rewrite <- app_assoc; reflexivity|rewrite zlen_app, core_len; lia|reflexivity]. }
  rewrite E1. cbn [bind].
  assert (E2 : blit (a ++ CORE ++ 10 :: y :: r3) (n + 18 + 1) [0] = Ret (a ++ CORE ++ 10 :: 0 :: r3)).
  { replace (a ++ CORE ++ 10 :: y :: r3) with ((a ++ CORE ++ [10]) ++ [y] ++ r3) by (rewrite <- !app_assoc; reflexivity).
    rewrite blit_splice; [rewrite <- !app_assoc; reflexivity|rewrite !zlen_app, core_len; change (zlen [10]) with 1; lia|reflexivity]. }
  rewrite E2. cbn [bind]. eexists. split; [reflexivity|].
  assert (Z : zlen (a ++ CORE ++ 10 :: 0 :: r3) = k_log K).
  { rewrite !zlen_app, core_len, !zlen_cons. lia. }
  unfold flagged, sane, shown. cbn [d_mark d_prio d_len d_buf]. split; [|split; [assumption|lia]].
  split; [reflexivity|]. split; [reflexivity|]. split; [|split; [lia|split; [assumption|]]].
  - rewrite E, firstn_firstn. replace (Nat.min (Z.to_nat (k_log K - 20)) (Z.to_nat (d_len d))) with (length a)
      by (unfold zlen in *; unfold n in *; lia).
    rewrite (firstn_exact _ a).
    replace (a ++ CORE ++ 10 :: 0 :: r3) with ((a ++ CORE ++ [10]) ++ 0 :: r3) by (rewrite <- !app_assoc; reflexivity).
    replace (Z.to_nat (n + 18 + 1)) with (length (a ++ CORE ++ [10]))
      by (rewrite !app_length; change (length CORE) with 18%nat; cbn [length]; unfold zlen in *; lia).
    rewrite (firstn_exact _ (a ++ CORE ++ [10])). reflexivity.
  - replace (a ++ CORE ++ 10 :: 0 :: r3) with ((a ++ CORE ++ [10]) ++ 0 :: r3) by (rewrite <- !app_assoc; reflexivity).
    apply rd_app_mid. rewrite !zlen_app, core_len. change (zlen [10]) with 1. lia.
Qed.

(* ---- the ring ---- *)

Lemma wr_ok : forall A (l : list A) i v, 0 <= i < zlen l -> exists l', wr l i v = Ret l'.
Proof. intros. unfold wr. rewrite blit_ret by (change (zlen [v]) with 1; lia). eauto. Qed.

Lemma lead_bound : forall n a b, 0 < n -> 0 <= lead n a b < n.
Proof. intros. apply Z.mod_pos_bound. assumption. Qed.

Lemma lead_same : forall n a, 0 < n -> lead n a a = 0.
Proof. intros. unfold lead. rewrite Z.sub_diag. apply Z.mod_0_l. lia. Qed.

Lemma lead_0 : forall n a b, 0 < n -> 0 <= a < n -> 0 <= b < n -> lead n a b = 0 -> a = b.
Proof.
  intros n a b N A B H. unfold lead in H. apply Z.mod_divide in H; [|lia]. destruct H as [q Q].
  assert (q = 0) by nia. lia.
Qed.

Lemma lead_next : forall n a b, 0 < n -> 0 <= a < n -> 0 <= b < n -> a <> b ->
  lead n ((a + 1) mod n) b = lead n a b - 1.
Proof.
  intros n a b N A B D. unfold lead. rewrite Zminus_mod_idemp_r.
  assert (P : (b - a) mod n <> 0) by (intros X; apply D; apply (lead_0 n a b); assumption).
  pose proof (Z.mod_pos_bound (b - a) n N) as M. pose proof (Z.div_mod (b - a) n ltac:(lia)) as E.
  symmetry. apply Z.mod_unique with (q := (b - a) / n); lia.
Qed.

Definition ring_sane (K : rlim) (q : rring) : Prop :=
  zlen (q_slots q) = k_ring K /\
  forall j d, lead (k_ring K) (q_write q) j < lead (k_ring K) (q_write q) (q_hold q) ->
    rd (q_slots q) j = Ret d -> sane K d.

Lemma recover_loop_ok : forall K, 0 < k_ring K -> 20 <= k_log K ->
  forall fuel q, in_ring K (q_write q) -> in_ring K (q_hold q) -> ring_sane K q ->
  lead (k_ring K) (q_write q) (q_hold q) <= Z.of_nat fuel ->
  exists q', recover_loop fuel K q = Ret q' /\ q_write q' = q_hold q /\ q_hold q' = q_hold q /\
    q_read q' = q_read q /\ q_proc q' = q_proc q /\ zlen (q_slots q') = k_ring K /\
    forall j d, rd (q_slots q) j = Ret d -> exists d', rd (q_slots q') j = Ret d' /\
      if lead (k_ring K) (q_write q) j <? lead (k_ring K) (q_write q) (q_hold q) then flagged K d d' else d' = d.
Proof.
  intros K N L fuel. induction fuel as [|fuel IH]; intros q W H [S1 S2] F; cbn [recover_loop].
  - pose proof (lead_bound (k_ring K) (q_write q) (q_hold q) N) as B.
    assert (E : q_write q = q_hold q) by (apply (lead_0 (k_ring K)); try assumption; lia).
    rewrite E, Z.eqb_refl. exists q. split; [reflexivity|]. split; [assumption|]. split; [reflexivity|].
    split; [reflexivity|]. split; [reflexivity|]. split; [assumption|].
    intros j d D. exists d. split; [assumption|].
    pose proof (lead_bound (k_ring K) (q_hold q) j N). rewrite (lead_same _ _ N).
    destruct (lead (k_ring K) (q_hold q) j <? 0) eqn:Q; [lia|reflexivity].
  - destruct (q_write q =? q_hold q) eqn:Q.
    + apply Z.eqb_eq in Q. exists q. split; [reflexivity|]. split; [assumption|]. split; [reflexivity|].
      split; [reflexivity|]. split; [reflexivity|]. split; [assumption|].
      intros j d D. exists d. split; [assumption|]. rewrite Q.
      pose proof (lead_bound (k_ring K) (q_hold q) j N). rewrite (lead_same _ _ N).
      destruct (lead (k_ring K) (q_hold q) j <? 0) eqn:Q'; [lia|reflexivity].
    + apply Z.eqb_neq in Q. pose proof (lead_next (k_ring K) (q_write q) (q_hold q) N W H Q) as LN.
      pose proof (lead_bound (k_ring K) ((q_write q + 1) mod k_ring K) (q_hold q) N) as LB.
      destruct (rd_in _ (q_slots q) (q_write q)) as [d D]; [unfold in_ring in W; lia|].
      rewrite D. cbn [bind].
      assert (SD : sane K d).
      { apply (S2 (q_write q) d); [|assumption]. rewrite (lead_same _ _ N). lia. }
      destruct (recover_slot_ok K d L SD) as (d' & -> & FL & _). cbn [bind].
      destruct (wr_ok _ (q_slots q) (q_write q) d') as [l WL]; [unfold in_ring in W; lia|].
      rewrite WL. cbn [bind]. destruct (wr_rd _ _ _ _ _ WL) as [ZL RL].
      set (q1 := mkRing ((q_write q + 1) mod k_ring K) (q_hold q) (q_read q) (q_proc q) l).
      assert (NX : forall j e, rd (q_slots q) j = Ret e -> j <> q_write q ->
        lead (k_ring K) ((q_write q + 1) mod k_ring K) j = lead (k_ring K) (q_write q) j - 1).
      { intros j e J ND. apply lead_next; try assumption; [|congruence]. apply rd_inv in J. lia. }
      destruct (IH q1) as (q' & E & Q1 & Q2 & Q3 & Q4 & Q5 & Q6).
      * apply Z.mod_pos_bound. assumption.
      * assumption.
      * split; [cbn [q1 q_slots]; congruence|]. cbn [q1 q_slots q_write q_hold]. intros j e J R. rewrite RL in R.
        destruct (j =? q_write q) eqn:JQ.
        -- injection R as <-. apply Z.eqb_eq in JQ. subst j. exfalso.
           assert (lead (k_ring K) ((q_write q + 1) mod k_ring K) (q_write q) = k_ring K - 1).
           { unfold lead. rewrite Zminus_mod_idemp_r. replace (q_write q - (q_write q + 1)) with (k_ring K - 1 + (-1) * k_ring K) by ring.
             rewrite Z_mod_plus_full. apply Z.mod_small. lia. }
           pose proof (lead_bound (k_ring K) (q_write q) (q_hold q) N). lia.
        -- apply (S2 j e); [|assumption]. apply Z.eqb_neq in JQ. rewrite (NX j e R JQ) in J. lia.
      * cbn [q1 q_write q_hold]. lia.
      * exists q'. cbn [q1 q_write q_hold q_read q_proc q_slots] in *. split; [assumption|].
        split; [assumption|]. split; [assumption|]. split; [assumption|]. split; [assumption|]. split; [assumption|].
        intros j e J. destruct (Z.eq_dec j (q_write q)) as [->|ND].
        -- assert (e = d) by congruence. subst e.
           destruct (Q6 (q_write q) d') as (d2 & R2 & C2); [rewrite RL, Z.eqb_refl; reflexivity|].
           exists d2. split; [assumption|]. rewrite (lead_same _ _ N).
           destruct (0 <? lead (k_ring K) (q_write q) (q_hold q)) eqn:P; [|lia].
           assert (LL : lead (k_ring K) ((q_write q + 1) mod k_ring K) (q_write q) = k_ring K - 1).
           { unfold lead. rewrite Zminus_mod_idemp_r. replace (q_write q - (q_write q + 1)) with (k_ring K - 1 + (-1) * k_ring K) by ring.
             rewrite Z_mod_plus_full. apply Z.mod_small. lia. }
           pose proof (lead_bound (k_ring K) (q_write q) (q_hold q) N).
           rewrite LL, LN in C2.
           destruct (k_ring K - 1 <? lead (k_ring K) (q_write q) (q_hold q) - 1) eqn:X; [lia|]. subst d2. assumption.
        -- destruct (Q6 j e) as (d2 & R2 & C2); [rewrite RL; apply Z.eqb_neq in ND; rewrite ND; assumption|].
           exists d2. split; [assumption|]. rewrite (NX j e J ND), LN in C2.
           destruct (lead (k_ring K) (q_write q) j <? lead (k_ring K) (q_write q) (q_hold q)) eqn:P;
           destruct (lead (k_ring K) (q_write q) j - 1 <? lead (k_ring K) (q_write q) (q_hold q) - 1) eqn:P2;
             try lia; assumption.
Qed.

(* hold_idx_ outside the ring: the loop never ends *)
Lemma recover_loop_div : forall K, 0 < k_ring K -> forall fuel q, in_ring K (q_write q) -> ~ in_ring K (q_hold q) ->
  forall q', recover_loop fuel K q <> Ret q'.
Proof.
  intros K N fuel. induction fuel as [|fuel IH]; intros q W H q'; cbn [recover_loop].
  - destruct (q_write q =? q_hold q) eqn:E; [|discriminate]. apply Z.eqb_eq in E. rewrite E in W. contradiction.
  - destruct (q_write q =? q_hold q) eqn:E; [apply Z.eqb_eq in E; rewrite E in W; contradiction|].
    intros X. apply bind_ret_inv in X. destruct X as (d & _ & X).
    apply bind_ret_inv in X. destruct X as (d' & _ & X).
    apply bind_ret_inv in X. destruct X as (l & _ & X). revert X. apply IH.
    + apply Z.mod_pos_bound. assumption.
    + assumption.
Qed.

Lemma recover_ring_ok : forall K fuel q, 0 < k_ring K -> 20 <= k_log K ->
  in_ring K (q_write q) -> in_ring K (q_hold q) -> in_ring K (q_read q) -> ring_sane K q ->
  lead (k_ring K) (q_write q) (q_hold q) <= Z.of_nat fuel ->
  exists q', recover_ring fuel K q = Ret (0, q') /\ q_write q' = q_hold q /\ q_hold q' = q_hold q /\
    q_read q' = q_read q /\ q_proc q' = q_read q /\ zlen (q_slots q') = k_ring K /\
    forall j d, rd (q_slots q) j = Ret d -> exists d', rd (q_slots q') j = Ret d' /\
      if lead (k_ring K) (q_write q) j <? lead (k_ring K) (q_write q) (q_hold q) then flagged K d d' else d' = d.
Proof.
  intros K fuel q N L W H R S F. unfold recover_ring, in_ring in *.
  destruct ((k_ring K <=? q_write q) || (q_write q <? 0)) eqn:E; [lia|].
  destruct (recover_loop_ok K N L fuel q W H S F) as (q' & -> & A1 & A2 & A3 & A4 & A5 & A6). cbn [bind q_read].
  rewrite A3. destruct ((k_ring K <=? q_read q) || (q_read q <? 0)) eqn:E2; [lia|].
  eexists. split; [reflexivity|]. cbn [q_write q_hold q_read q_proc q_slots]. rewrite A1.
  split; [reflexivity|]. split; [reflexivity|]. split; [reflexivity|]. split; [reflexivity|]. split; assumption.
Qed.

Lemma recover_ring_0 : forall K fuel q q', 0 < k_ring K -> recover_ring fuel K q = Ret (0, q') ->
  in_ring K (q_write q) /\ in_ring K (q_hold q) /\ in_ring K (q_read q).
Proof.
  intros K fuel q q' N H. unfold recover_ring in H.
  destruct ((k_ring K <=? q_write q) || (q_write q <? 0)) eqn:E; [discriminate|].
  assert (W : in_ring K (q_write q)) by (unfold in_ring; lia).
  split; [assumption|]. apply bind_ret_inv in H. destruct H as (q1 & L & H). split.
  - destruct (Z_le_dec 0 (q_hold q)); [destruct (Z_lt_dec (q_hold q) (k_ring K))|];
      try (exfalso; apply (recover_loop_div K N fuel q W) with (q' := q1); [unfold in_ring; lia|assumption]).
    unfold in_ring. lia.
  - assert (RR : forall f p p', recover_loop f K p = Ret p' -> q_read p' = q_read p).
    { induction f as [|f IH]; intros p p' X; cbn [recover_loop] in X; destruct (q_write p =? q_hold p);
        try discriminate; try (injection X as <-; reflexivity).
      apply bind_ret_inv in X. destruct X as (d & _ & X).
      apply bind_ret_inv in X. destruct X as (d' & _ & X).
      apply bind_ret_inv in X. destruct X as (l & _ & X). apply IH in X. exact X. }
    cbn [q_read] in H. rewrite (RR _ _ _ L) in H.
    destruct ((k_ring K <=? q_read q) || (q_read q <? 0)) eqn:E2; [discriminate|]. unfold in_ring. lia.
Qed.

(* the loop over channels *)
Lemma recover_rings_0 : forall K fuel, 0 < k_ring K -> forall l i size r, recover_rings fuel K i size l = Ret (0, r) ->
  0 <= i -> (size <= i \/ size <= k_chan K) /\
  forall j q, i + Z.of_nat j < size -> nth_error l j = Some q ->
    in_ring K (q_write q) /\ in_ring K (q_hold q) /\ in_ring K (q_read q).
Proof.
  intros K fuel N. induction l as [|q l IH]; intros i size r H I; cbn [recover_rings] in H;
    (destruct (size <=? i) eqn:E; [split; [lia|intros; lia]|]);
    (destruct (k_chan K <=? i) eqn:E2; [discriminate|]); [discriminate|].
  apply bind_ret_inv in H. destruct H as ([e q'] & RQ & H).
  destruct (negb (e =? 0)) eqn:E3; [injection H as -> _; discriminate|].
  assert (e = 0) by lia. subst e.
  apply bind_ret_inv in H. destruct H as ([e' r'] & RR & H). injection H as -> <-.
  destruct (IH (i + 1) size r' RR ltac:(lia)) as [A B]. split; [lia|].
  intros [|j] p J P; cbn in P.
  - injection P as <-. eapply recover_ring_0; eassumption.
  - apply (B j p); [lia|assumption].
Qed.

Lemma recover_rings_ok : forall K fuel l i size, 0 < k_ring K -> 20 <= k_log K -> 0 <= i ->
  size <= k_chan K -> size <= i + zlen l -> k_ring K <= Z.of_nat fuel ->
  (forall j q, i + Z.of_nat j < size -> nth_error l j = Some q ->
     in_ring K (q_write q) /\ in_ring K (q_hold q) /\ in_ring K (q_read q) /\ ring_sane K q) ->
  exists r, recover_rings fuel K i size l = Ret (0, r) /\ zlen r = zlen l /\
    forall j q, nth_error l j = Some q -> exists q', nth_error r j = Some q' /\
      (size <= i + Z.of_nat j -> q' = q) /\ (i + Z.of_nat j < size -> recover_ring fuel K q = Ret (0, q')).
Proof.
  intros K fuel l. induction l as [|q l IH]; intros i size N L I C Z F H; cbn [recover_rings];
    destruct (size <=? i) eqn:E.
  - exists []. split; [reflexivity|]. split; [reflexivity|]. intros [|j] q J; discriminate.
  - rewrite zlen_nil in Z. lia.
  - eexists. split; [reflexivity|]. split; [reflexivity|]. intros j p J. exists p. split; [assumption|]. split; [reflexivity|].
    lia.
  - destruct (k_chan K <=? i) eqn:E2; [lia|].
    destruct (H 0%nat q ltac:(lia) eq_refl) as (A1 & A2 & A3 & A4).
    pose proof (lead_bound (k_ring K) (q_write q) (q_hold q) N).
    destruct (recover_ring_ok K fuel q N L A1 A2 A3 A4 ltac:(lia)) as (q' & RQ & _). rewrite RQ. cbn [bind].
    cbn [Z.eqb negb]. rewrite zlen_cons in Z.
    destruct (IH (i + 1) size N L ltac:(lia) C ltac:(lia) F) as (r & -> & ZR & HR).
    { intros j p J P. apply (H (S j) p); [lia|assumption]. }
    cbn [bind]. eexists. split; [reflexivity|]. split; [rewrite !zlen_cons; lia|].
    intros [|j] p J; cbn in J.
    + injection J as <-. exists q'. split; [reflexivity|]. split; [lia|]. intros _. exact RQ.
    + destruct (HR j p J) as (p' & P1 & P2 & P3). exists p'. split; [assumption|]. split; [intros; apply P2; lia|intros; apply P3; lia].
Qed.
