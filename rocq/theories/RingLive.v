(* Nothing gets stuck: when a record could be published, claimed or released,
   some thread is about to do it. *)
From Coq Require Import ZArith List Bool Lia ZifyBool ZifyNat ZifyN.
From Verif Require Import Base BaseFacts LoggerState Ring RingSpec RingInv RingProofs.
Import ListNotations.
Open Scope Z_scope.

(* threads that will look at the current write, read and proc index again *)
Definition pubr (g : ghost) (t : thr) : Prop :=
  match t_pc t with
  | PPrio _ | PLoad | PCount | PWhile => True
  | PHold _ | PReady _ | PCas _ => t_snap t = gW g
  | _ => False
  end.
Definition relr (g : ghost) (t : thr) : Prop :=
  match t_pc t with
  | CCount _ | CBytes _ | RLoad => True
  | RProc _ | RMark _ | RCas _ => t_snap t = gR g
  | _ => False
  end.
Definition conr (g : ghost) (t : thr) : Prop :=
  match t_pc t with
  | PPrio _ | PLoad | PHold _ | PReady _ | PCas _ | PCount | PWhile | PSync
  | CLoad | CRead _ _ _ | CMark _ | CCount _ | CBytes _
  | RLoad | RProc _ | RMark _ | RCas _ => True
  | CWrite _ | CCas _ => t_snap t = gP g
  | _ => False
  end.

Lemma pubr_dec : forall g t, {pubr g t} + {~ pubr g t}.
Proof. intros. unfold pubr. destruct (t_pc t); auto; apply Z.eq_dec. Qed.
Lemma relr_dec : forall g t, {relr g t} + {~ relr g t}.
Proof. intros. unfold relr. destruct (t_pc t); auto; apply Z.eq_dec. Qed.
Lemma conr_dec : forall g t, {conr g t} + {~ conr g t}.
Proof. intros. unfold conr. destruct (t_pc t); auto; apply Z.eq_dec. Qed.

Definition q_pub (c : rcfg) (s : shared) (g : ghost) (l : list thr) : Prop :=
  gW g < gH g -> ready c s g (gW g) -> exists i t, nth_error l i = Some t /\ pubr g t.
Definition q_rel (c : rcfg) (s : shared) (g : ghost) (l : list thr) : Prop :=
  gR g < gP g -> s_mark (at_ c s (gR g)) = MARK_INVALID ->
  exists i t, nth_error l i = Some t /\ relr g t.
Definition q_con (g : ghost) (l : list thr) : Prop :=
  gP g < gW g -> exists i t, nth_error l i = Some t /\ conr g t.
Definition q_res (c : rcfg) (s : shared) (g : ghost) (l : list thr) : Prop :=
  forall a, gW g <= a < gH g ->
    (exists i t, nth_error l i = Some t /\ own t = Some a) \/ ready c s g a.

Lemma ready_put_other : forall c s g a b v, 0 < n_ring c -> a <> b ->
  - n_ring c < a - b < n_ring c ->
  (ready c (put s (ix c a) v) g b <-> ready c s g b).
Proof. intros. unfold ready. rewrite at_put_other by assumption. tauto. Qed.

Lemma ready_put_same : forall c s g a v, 0 < n_ring c -> zlen (x_slots s) = n_ring c ->
  ready c (put s (ix c a) v) g a -> s_mark v = MARK_READY.
Proof. intros c s g a v N L [M _]. rewrite at_put_same in M by assumption. assumption. Qed.

Ltac brk E tac :=
  repeat (match type of E with
          | context [if ?b then _ else _] => destruct b
          | context [match ?r with [] => _ | _ => _ end] => destruct r
          end);
  injection E as <- <- <-; tpc; tac.

Lemma pub_claim : forall c s g l i t s' g' t',
  0 < n_ring c -> inv c s g l -> nth_error l i = Some t -> fresh_thr c g t ->
  running s = true -> tstep c i s g t = Some (s', g', t') ->
  gW g' < gH g' -> ready c s' g' (gW g') -> ~ pubr g' t' ->
  gW g' = gW g /\ gW g < gH g /\ ready c s g (gW g) /\ ~ pubr g t.
Proof.
  intros c s g l i t s' g' t' N IV T F RU E LT RDY NP.
  pose proof (i_thr _ _ _ _ IV i t T) as K.
  pose proof (i_ord _ _ _ _ IV) as OR.
  pose proof (i_len _ _ _ _ IV) as LN.
  destruct t as [p m a]. unfold tstep in E. unfold thr_ok, fresh_thr, owned, pubr in *.
  rewrite RU in E.
  assert (PUT : forall v, s_mark v <> MARK_READY -> gW g <= a < gH g ->
            ready c (put s (ix c a) v) g (gW g) -> ready c s g (gW g)).
  { intros v M L R. destruct (Z.eq_dec a (gW g)) as [Q|Q].
    - exfalso. apply M. rewrite <- Q in R. apply (ready_put_same c s g a); assumption.
    - apply ready_put_other in R; [assumption|assumption|assumption|lia]. }
  assert (M1 : 0 <> MARK_READY) by discriminate. assert (M2 : 1 <> MARK_READY) by discriminate.
  destruct p; tpc; try discriminate;
    try (injection E as <- <- <-; tpc; exfalso; apply NP; exact I);
    try (injection E as <- <- <-; tpc; split; [reflexivity|split; [assumption|split; [exact RDY|tauto]]]).
  - (* HCas *) destruct K as (K1 & K2 & K3). subst old.
    rewrite (i_hold _ _ _ _ IV) in E. destruct (ix c (gH g) =? ix c a) eqn:Q.
    + injection E as <- <- <-. cbn [add_held put_g gW gH] in *. split; [reflexivity|].
      assert (MK : s_mark (at_ c s (gW g)) = MARK_READY) by apply RDY.
      destruct (Z.eq_dec (gW g) (gH g)) as [W|W].
      * exfalso. rewrite W in MK. rewrite (i_free _ _ _ _ IV) in MK by lia. discriminate.
      * split; [lia|]. split; [|tauto]. apply (i_res _ _ _ _ IV); [lia|assumption].
    + injection E as <- <- <-. tpc. split; [reflexivity|split; [assumption|split; [exact RDY|tauto]]].
  - (* HMark *) destruct K as (-> & K1 & K2 & K3). injection E as <- <- <-.
    split; [reflexivity|split; [assumption|split; [|tauto]]]. apply (PUT (mkSlot MARK_HOLD (s_text (at_ c s a)))); assumption.
  - (* FInit *) destruct K as (-> & K1 & K2 & K3). injection E as <- <- <-.
    split; [reflexivity|split; [assumption|split; [|tauto]]].
    refine (PUT _ _ K1 RDY). cbn. change (s_mark (at_ c s a) <> MARK_READY). rewrite K3. assumption.
  - (* Fill *) destruct K as (-> & (K1 & K2 & K3) & K4). destruct rest as [|b rest].
    + injection E as <- <- <-. split; [reflexivity|split; [assumption|split; [exact RDY|tauto]]].
    + injection E as <- <- <-. split; [reflexivity|split; [assumption|split; [|tauto]]].
      refine (PUT _ _ K1 RDY). cbn. change (s_mark (at_ c s a) <> MARK_READY). rewrite K3. assumption.
  - (* PTerm *) destruct K as (-> & (K1 & K2 & K3) & K4). injection E as <- <- <-.
    split; [reflexivity|split; [assumption|split; [|tauto]]].
    refine (PUT _ _ K1 RDY). cbn. change (s_mark (at_ c s a) <> MARK_READY). rewrite K3. assumption.
  - (* PHold *) destruct K as [-> K]. injection E as <- <- <-. rewrite (i_hold _ _ _ _ IV) in NP.
    split; [reflexivity|split; [assumption|split; [exact RDY|]]]. intros ->.
    apply NP. destruct (ix c (gW g) =? ix c (gH g)) eqn:Q; [|reflexivity].
    apply Z.eqb_eq in Q. apply ix_eq in Q; [lia|assumption|lia].
  - (* PReady *) destruct K as (-> & K1 & K2). injection E as <- <- <-.
    split; [reflexivity|split; [assumption|split; [exact RDY|]]]. intros ->.
    apply NP. change (get s (ix c (gW g))) with (at_ c s (gW g)). rewrite (proj1 RDY). reflexivity.
  - (* PCas *) destruct (x_write s =? old); injection E as <- <- <-; tpc; exfalso; apply NP; exact I.
  - (* CCas *) destruct (x_proc s =? old); injection E as <- <- <-; tpc;
      (split; [reflexivity|split; [assumption|split; [exact RDY|tauto]]]).
  - (* CRead *) destruct (k <? zlen (s_text (get s i0))); injection E as <- <- <-; tpc;
      (split; [reflexivity|split; [assumption|split; [exact RDY|tauto]]]).
  - (* CMark *) destruct K as (-> & K1 & K2). injection E as <- <- <-.
    split; [reflexivity|split; [assumption|split; [|tauto]]].
    apply ready_put_other in RDY; [assumption|assumption|lia|lia].
  - (* RCas *) destruct (x_read s =? old); injection E as <- <- <-; tpc;
      (split; [reflexivity|split; [assumption|split; [exact RDY|tauto]]]).
  - (* CNull *) injection E as <- <- <-. tpc.
    split; [reflexivity|split; [assumption|split; [|tauto]]].
    destruct (x_state s =? CHANNEL_STATE_NULL); exact RDY.
Qed.

Lemma q_pub_step : forall c s g l i t s' g' t',
  0 < n_ring c -> inv c s g l -> nth_error l i = Some t -> fresh_thr c g t ->
  running s = true -> tstep c i s g t = Some (s', g', t') ->
  q_pub c s g l -> q_pub c s' g' (upd l i t').
Proof.
  intros c s g l i t s' g' t' N IV T F RU E Q LT RDY.
  destruct (pubr_dec g' t') as [P|P].
  - exists i, t'. split; [apply upd_hit with t; assumption|assumption].
  - destruct (pub_claim c s g l i t s' g' t' N IV T F RU E LT RDY P) as (W & L & R & NP).
    destruct (Q L R) as (j & u & J & PU).
    assert (j <> i) by (intros ->; rewrite T in J; injection J as ->; contradiction).
    exists j, u. split; [rewrite upd_other by lia; assumption|].
    unfold pubr in *. rewrite W. assumption.
Qed.

Lemma rel_claim : forall c s g l i t s' g' t',
  0 < n_ring c -> inv c s g l -> nth_error l i = Some t -> fresh_thr c g t ->
  tstep c i s g t = Some (s', g', t') ->
  gR g' < gP g' -> s_mark (at_ c s' (gR g')) = MARK_INVALID -> ~ relr g' t' ->
  gR g' = gR g /\ gR g < gP g /\ s_mark (at_ c s (gR g)) = MARK_INVALID /\ ~ relr g t.
Proof.
  intros c s g l i t s' g' t' N IV T F E LT M0 NP.
  pose proof (i_thr _ _ _ _ IV i t T) as K.
  pose proof (i_ord _ _ _ _ IV) as OR.
  pose proof (i_len _ _ _ _ IV) as LN.
  destruct t as [p m a]. unfold tstep in E. unfold thr_ok, fresh_thr, owned, relr in *.
  assert (PUT : forall v, gW g <= a < gH g -> gR g < gP g ->
     at_ c (put s (ix c a) v) (gR g) = at_ c s (gR g)).
  { intros. apply at_put_other; lia. }
  Ltac done4 := split; [reflexivity|split; [assumption|split; [assumption|tauto]]].
  destruct p; tpc; try discriminate;
    try (injection E as <- <- <-; tpc; exfalso; apply NP; exact I);
    try (solve [brk E ltac:(exfalso; apply NP; exact I)]);
    try (solve [brk E done4]).
  - (* HMark *) destruct K as (-> & K1 & K2 & K3). injection E as <- <- <-.
    rewrite PUT in M0 by (try assumption; lia). done4.
  - (* FInit *) destruct K as (-> & K1 & K2 & K3). injection E as <- <- <-.
    rewrite PUT in M0 by (try assumption; lia). done4.
  - (* Fill *) destruct K as (-> & (K1 & K2 & K3) & K4). destruct rest as [|b rest];
      injection E as <- <- <-; [done4|]. rewrite PUT in M0 by (try assumption; lia). done4.
  - (* PTerm *) destruct K as (-> & (K1 & K2 & K3) & K4). injection E as <- <- <-.
    rewrite PUT in M0 by (try assumption; lia). done4.
  - (* PMark *) destruct K as (-> & (K1 & K2 & K3) & K4). injection E as <- <- <-.
    rewrite PUT in M0 by (try assumption; lia). done4.
  - (* CCas *) destruct K as (-> & K1 & K2). destruct (x_proc s =? ix c a) eqn:Q;
      injection E as <- <- <-; [|done4].
    cbn [put_g gP gR] in *. split; [reflexivity|].
    change (s_mark (at_ c s (gR g)) = MARK_INVALID) in M0.
    destruct (Z.eq_dec (gR g) (gP g)) as [RP|RP].
    + exfalso. rewrite (i_proc _ _ _ _ IV) in Q. apply Z.eqb_eq in Q.
      apply ix_eq in Q; [|assumption|lia]. subst a.
      destruct (i_pub _ _ _ _ IV (gP g) ltac:(lia)) as [MR _]. rewrite RP, MR in M0. discriminate.
    + split; [lia|split; [assumption|tauto]].
  - (* RProc *) destruct K as [-> K]. injection E as <- <- <-. rewrite (i_proc _ _ _ _ IV) in NP.
    split; [reflexivity|split; [assumption|split; [assumption|]]]. intros ->.
    apply NP. destruct (ix c (gR g) =? ix c (gP g)) eqn:Q; [|reflexivity].
    apply Z.eqb_eq in Q. apply ix_eq in Q; [lia|assumption|lia].
  - (* RMark *) destruct K as (-> & K1 & K2). injection E as <- <- <-.
    split; [reflexivity|split; [assumption|split; [assumption|]]]. intros ->.
    apply NP. change (get s (ix c (gR g))) with (at_ c s (gR g)). rewrite M0. reflexivity.
Qed.

Lemma q_rel_step : forall c s g l i t s' g' t',
  0 < n_ring c -> inv c s g l -> nth_error l i = Some t -> fresh_thr c g t ->
  tstep c i s g t = Some (s', g', t') ->
  q_rel c s g l -> q_rel c s' g' (upd l i t').
Proof.
  intros c s g l i t s' g' t' N IV T F E Q LT M0.
  destruct (relr_dec g' t') as [P|P].
  - exists i, t'. split; [apply upd_hit with t; assumption|assumption].
  - destruct (rel_claim c s g l i t s' g' t' N IV T F E LT M0 P) as (W & L & R & NP).
    destruct (Q L R) as (j & u & J & PU).
    assert (j <> i) by (intros ->; rewrite T in J; injection J as ->; contradiction).
    exists j, u. split; [rewrite upd_other by lia; assumption|].
    unfold relr in *. rewrite W. assumption.
Qed.

Lemma con_claim : forall c s g l i t s' g' t',
  0 < n_ring c -> inv c s g l -> nth_error l i = Some t -> fresh_thr c g t ->
  is_sync c = true -> running s = true ->
  tstep c i s g t = Some (s', g', t') ->
  gP g' < gW g' -> ~ conr g' t' ->
  gP g' = gP g /\ gP g < gW g /\ ~ conr g t.
Proof.
  intros c s g l i t s' g' t' N IV T F SY RU E LT NP.
  pose proof (i_thr _ _ _ _ IV i t T) as K.
  pose proof (i_ord _ _ _ _ IV) as OR.
  destruct t as [p m a]. unfold tstep in E. unfold thr_ok, fresh_thr, owned, conr in *.
  rewrite SY, RU in E. cbn [andb] in E.
  Ltac done3 := split; [reflexivity|split; [assumption|tauto]].
  destruct p; tpc; try discriminate;
    try (injection E as <- <- <-; tpc; exfalso; apply NP; exact I);
    try (solve [brk E ltac:(first [done3 | exfalso; apply NP; exact I])]).
  - destruct K as [-> K]. injection E as <- <- <-. rewrite (i_write _ _ _ _ IV) in NP.
    split; [reflexivity|split; [assumption|]]. intros ->.
    apply NP. destruct (ix c (gP g) =? ix c (gW g)) eqn:Q; [|reflexivity].
    apply Z.eqb_eq in Q. apply ix_eq in Q; [lia|assumption|lia].
  - destruct K as (-> & K1 & K2). rewrite (i_proc _ _ _ _ IV) in E.
    destruct (ix c (gP g) =? ix c a) eqn:Q; injection E as <- <- <-.
    + exfalso. apply NP. exact I.
    + split; [reflexivity|split; [assumption|]]. intros ->. rewrite Z.eqb_refl in Q. discriminate.
Qed.

Lemma q_con_step : forall c s g l i t s' g' t',
  0 < n_ring c -> inv c s g l -> nth_error l i = Some t -> fresh_thr c g t ->
  is_sync c = true -> running s = true ->
  tstep c i s g t = Some (s', g', t') ->
  q_con g l -> q_con g' (upd l i t').
Proof.
  intros c s g l i t s' g' t' N IV T F SY RU E Q LT.
  destruct (conr_dec g' t') as [P|P].
  - exists i, t'. split; [apply upd_hit with t; assumption|assumption].
  - destruct (con_claim c s g l i t s' g' t' N IV T F SY RU E LT P) as (W & L & NP).
    destruct (Q L) as (j & u & J & PU).
    assert (j <> i) by (intros ->; rewrite T in J; injection J as ->; contradiction).
    exists j, u. split; [rewrite upd_other by lia; assumption|].
    unfold conr in *. rewrite W. assumption.
Qed.

Lemma res_claim : forall c s g l i t s' g' t',
  0 < n_ring c -> inv c s g l -> nth_error l i = Some t -> fresh_thr c g t ->
  running s = true -> tstep c i s g t = Some (s', g', t') ->
  forall a, gW g' <= a < gH g' -> own t' <> Some a -> ~ ready c s' g' a ->
  gW g <= a < gH g /\ own t <> Some a /\ ~ ready c s g a.
Proof.
  intros c s g l i t s' g' t' N IV T F RU E b LT NO NP.
  pose proof (i_thr _ _ _ _ IV i t T) as K.
  pose proof (i_ord _ _ _ _ IV) as OR.
  pose proof (i_len _ _ _ _ IV) as LN.
  destruct t as [p m a]. unfold tstep in E. unfold thr_ok, fresh_thr, owned, own in *.
  rewrite RU in E.
  assert (RP : forall v, a <> b -> gW g <= b < gH g -> gW g <= a < gH g ->
     ~ ready c (put s (ix c a) v) g b -> ~ ready c s g b).
  { intros v D L1 L2 R1 R2. apply R1. apply ready_put_other; try assumption; lia. }
  Ltac doner := split; [assumption|split; [discriminate||assumption|assumption]].
  destruct p; tpc; try discriminate;
    try (solve [brk E doner]).
  - destruct K as (K1 & K2 & K3). subst old. rewrite (i_hold _ _ _ _ IV) in E.
    destruct (ix c (gH g) =? ix c a) eqn:Q; injection E as <- <- <-; [|doner].
    cbn [add_held put_g gW gH] in *. tpc.
    assert (b <> gH g) by congruence. split; [lia|]. split; [discriminate|].
    intros [M R]. apply NP. split; [exact M|]. destruct R as (j & n & A & B).
    exists j, n. split; [|exact B]. unfold held_at in *. destruct (b <? 0); [discriminate|].
    cbn [add_held put_g g_held]. rewrite nth_error_app1; [assumption|].
    apply nth_error_Some. rewrite A. discriminate.
  - destruct K as (-> & K1 & K2 & K3). injection E as <- <- <-. tpc.
    split; [assumption|]. split; [assumption|]. refine (RP _ _ LT K1 NP). congruence.
  - destruct K as (-> & K1 & K2 & K3). injection E as <- <- <-. tpc.
    split; [assumption|]. split; [assumption|]. refine (RP _ _ LT K1 NP). congruence.
  - destruct K as (-> & (K1 & K2 & K3) & K4). destruct rest; injection E as <- <- <-; tpc; [doner|].
    split; [assumption|]. split; [assumption|]. refine (RP _ _ LT K1 NP). congruence.
  - destruct K as (-> & (K1 & K2 & K3) & K4). injection E as <- <- <-. tpc.
    split; [assumption|]. split; [assumption|]. refine (RP _ _ LT K1 NP). congruence.
  - destruct K as (-> & (K1 & K2 & K3) & K4). injection E as <- <- <-. tpc.
    split; [assumption|].
    assert (AB : a <> b).
    { intros ->. apply NP. split; [rewrite at_put_same by assumption; reflexivity|].
      exists i, m. split; [assumption|]. rewrite at_put_same by assumption. exact K4. }
    split; [congruence|]. exact (RP _ AB LT K1 NP).
  - destruct (x_write s =? old); injection E as <- <- <-; [|doner].
    cbn [put_g gW gH] in *. split; [lia|]. split; [discriminate|assumption].
  - destruct K as (-> & K1 & K2). injection E as <- <- <-. tpc.
    split; [assumption|]. split; [discriminate|]. intros R. apply NP.
    apply ready_put_other; try assumption; lia.
Qed.

Lemma ready_dec : forall c s g a, {ready c s g a} + {~ ready c s g a}.
Proof.
  intros c s g a. unfold ready.
  destruct (Z.eq_dec (s_mark (at_ c s a)) MARK_READY) as [M|M]; [|right; tauto].
  destruct (held_at g a) as [[i m]|] eqn:H.
  - destruct (list_eq_dec Z.eq_dec (s_text (at_ c s a)) (line c m)) as [E|E].
    + left. split; [assumption|]. exists i, m. auto.
    + right. intros [_ (j & n & A & B)]. injection A as <- <-. contradiction.
  - right. intros [_ (j & n & A & B)]. discriminate.
Qed.

Lemma own_dec : forall t a, {own t = Some a} + {own t <> Some a}.
Proof. intros. destruct (own t) as [b|]; [destruct (Z.eq_dec b a)|]; (left; congruence) || (right; congruence). Qed.

Lemma q_res_step : forall c s g l i t s' g' t',
  0 < n_ring c -> inv c s g l -> nth_error l i = Some t -> fresh_thr c g t ->
  running s = true -> tstep c i s g t = Some (s', g', t') ->
  q_res c s g l -> q_res c s' g' (upd l i t').
Proof.
  intros c s g l i t s' g' t' N IV T F RU E Q a LT.
  destruct (own_dec t' a) as [O|O].
  { left. exists i, t'. split; [apply upd_hit with t; assumption|assumption]. }
  destruct (ready_dec c s' g' a) as [R|R]; [right; assumption|]. left.
  destruct (res_claim c s g l i t s' g' t' N IV T F RU E a LT O R) as (L & NO & NR).
  destruct (Q a L) as [(j & u & J & OU)|X]; [|contradiction].
  assert (j <> i) by (intros ->; rewrite T in J; injection J as ->; contradiction).
  exists j, u. split; [rewrite upd_other by lia; assumption|assumption].
Qed.
