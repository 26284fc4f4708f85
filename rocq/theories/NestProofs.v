(* Proofs about statements made inside another statement (C119). *)
From Coq Require Import ZArith List Bool Lia ZifyBool ZifyNat ZifyN.
From Verif Require Import Base BaseFacts LoggerState Ring RingSpec RingInv RingProofs RingLive RingRun RingQuiet Nest.
Import ListNotations.
Open Scope Z_scope.

(* ---- schedules in two parts ---- *)
Lemma run_app : forall c a b s, run c s (a ++ b) =
  match run c s a with Some s' => run c s' b | None => None end.
Proof.
  intros c a. induction a as [|l a IH]; intros b s; [reflexivity|]. cbn [app run].
  destruct (step c s l); [apply IH|reflexivity].
Qed.

Lemma no_lap_app : forall c a b s s', no_lap c s (a ++ b) -> run c s a = Some s' ->
  no_lap c s a /\ no_lap c s' b.
Proof.
  intros c a. induction a as [|l a IH]; intros b s s' H R.
  - cbn in R. injection R as <-. split; [exact I|exact H].
  - cbn [app no_lap run] in *. destruct H as [F H]. destruct (step c s l) as [s1|] eqn:E; [|discriminate].
    destruct (IH b s1 s' (H s1 eq_refl) R) as [A B]. split; [|assumption]. split; [assumption|].
    intros s2 E2. injection E2 as <-. assumption.
Qed.

Lemma no_lap_join : forall c a b s s', run c s a = Some s' -> no_lap c s a -> no_lap c s' b -> no_lap c s (a ++ b).
Proof.
  intros c a. induction a as [|l a IH]; intros b s s' R A B.
  - cbn in R. injection R as <-. exact B.
  - cbn [app no_lap run] in *. destruct A as [F A]. destruct (step c s l) as [s1|] eqn:E; [|discriminate].
    split; [assumption|]. intros s2 E2. injection E2 as <-. apply (IH b s1 s'); auto.
Qed.

Lemma nested_app : forall par c a b s s', nested par c s (a ++ b) -> run c s a = Some s' ->
  nested par c s a /\ nested par c s' b.
Proof.
  intros par c a. induction a as [|l a IH]; intros b s s' H R.
  - cbn in R. injection R as <-. split; [exact I|exact H].
  - cbn [app nested run] in *. destruct H as [F H]. destruct (step c s l) as [s1|] eqn:E; [|discriminate].
    destruct (IH b s1 s' (H s1 eq_refl) R) as [A B]. split; [|assumption]. split; [assumption|].
    intros s2 E2. injection E2 as <-. assumption.
Qed.

(* ---- reserved records stay ---- *)
Lemma held_tstep : forall c i s g t s' g' t', tstep c i s g t = Some (s', g', t') ->
  is_prefix (g_held g) (g_held g').
Proof.
  intros c i s g t s' g' t' E. unfold tstep in E.
  repeat match type of E with
  | context [match ?x with _ => _ end] => destruct x
  end; try discriminate; injection E as <- <- <-; cbn [g_held add_held add_out put_g];
    try (exists []; rewrite app_nil_r; reflexivity); eexists; reflexivity.
Qed.

Lemma held_step : forall c s l s', step c s l = Some s' -> is_prefix (g_held (gh s)) (g_held (gh s')).
Proof.
  intros c s l s' E. destruct l as [tid msg|tid| | | |].
  - destruct (step_log_inv _ _ _ _ _ E) as (t & T & P & ->). exists []. rewrite app_nil_r. reflexivity.
  - destruct (step_run_inv _ _ _ _ E) as (t & x & g & t' & T & TS & ->). exact (held_tstep _ _ _ _ _ _ _ _ TS).
  - exists []. rewrite app_nil_r. cbn [step] in E. destruct (x_ctl (sh s) =? 0); [|discriminate]. injection E as <-. reflexivity.
  - exists []. rewrite app_nil_r. cbn [step] in E. destruct (x_ctl (sh s) =? 1); [|discriminate].
    destruct (is_sync c); [injection E as <-; reflexivity|].
    destruct (nth_error (ths s) 0) as [t|]; [|discriminate]. destruct (t_pc t); try discriminate. injection E as <-. reflexivity.
  - exists []. rewrite app_nil_r. cbn [step] in E. destruct (x_ctl (sh s) =? 2); [|discriminate]. injection E as <-. reflexivity.
  - exists []. rewrite app_nil_r. cbn [step] in E. destruct (x_ctl (sh s) =? 3); [|discriminate].
    destruct (is_sync c); [injection E as <-; reflexivity|].
    destruct (nth_error (ths s) 0) as [t|]; [|discriminate]. injection E as <-. reflexivity.
Qed.

Lemma held_run : forall c ls s s', run c s ls = Some s' -> is_prefix (g_held (gh s)) (g_held (gh s')).
Proof.
  intros c ls. induction ls as [|l ls IH]; intros s s' R.
  - cbn in R. injection R as <-. exists []. rewrite app_nil_r. reflexivity.
  - cbn [run] in R. destruct (step c s l) as [s1|] eqn:E; [|discriminate].
    destruct (held_step _ _ _ _ E) as [a A]. destruct (IH _ _ R) as [b B].
    exists (a ++ b). rewrite B, A, app_assoc. reflexivity.
Qed.

(* ---- an open statement ---- *)
Lemma open_held : forall c s p t i rest, inv_st c s -> nth_error (ths s) p = Some t -> t_pc t = Fill i rest ->
  i = ix c (t_snap t) /\ gW (gh s) <= t_snap t < gH (gh s) /\
  nth_error (g_held (gh s)) (Z.to_nat (t_snap t)) = Some (p, t_msg t) /\ 0 <= t_snap t.
Proof.
  intros c s p t i rest IV T P. pose proof (i_thr _ _ _ _ IV p t T) as K. unfold thr_ok in K. rewrite P in K.
  destruct K as (A & (B & D & E) & _). unfold held_at in D. destruct (t_snap t <? 0) eqn:Q; [discriminate|].
  repeat split; try assumption; lia.
Qed.

Lemma out_below : forall c s, inv_st c s -> forall a x, In (a, x) (g_out (gh s)) -> a < gP (gh s).
Proof.
  intros c s IV a x H. apply (in_map fst) in H. cbn in H. apply (i_outp _ _ _ _ IV) in H. lia.
Qed.

Lemma outer_first : forall par c slots k ls1 q m ls2 s1 s2 p, cfg_ok c -> blank c slots -> is_sync c = false ->
  reaches c slots k ls1 s1 -> run c s1 (LLog q m :: ls2) = Some s2 ->
  no_lap c (start c slots k) (ls1 ++ LLog q m :: ls2) -> no_restart (ls1 ++ LLog q m :: ls2) ->
  nested par c (start c slots k) (ls1 ++ LLog q m :: ls2) -> par q = Some p ->
  exists t j, nth_error (ths s1) p = Some t /\ nth_error (g_held (gh s1)) j = Some (p, t_msg t) /\
    is_prefix (g_held (gh s1)) (g_held (gh s2)) /\
    (length (g_out (gh s1)) <= j)%nat /\
    forall n x, (length (g_held (gh s1)) <= n)%nat -> nth_error (map snd (g_out (gh s2))) n = Some x ->
      nth_error (map snd (g_out (gh s2))) j = Some (line c (t_msg t)).
Proof.
  intros par c slots k ls1 q m ls2 s1 s2 p C B SY R1 R2 NL NR NE PQ.
  destruct (no_lap_app _ _ _ _ _ NL R1) as [NL1 _].
  destruct (nested_app _ _ _ _ _ _ NE R1) as [_ [CO _]]. cbn [call_ok] in CO. rewrite PQ in CO.
  destruct CO as [(t & i & rest & T & P) _].
  assert (NR1 : no_restart ls1) by (intros X; apply NR; apply in_or_app; left; assumption).
  destruct (reach_one _ _ _ _ _ C B SY R1 NL1 NR1) as [IV1 ON1].
  assert (RE2 : reaches c slots k (ls1 ++ LLog q m :: ls2) s2).
  { unfold reaches in *. rewrite run_app, R1. exact R2. }
  destruct (reach_one _ _ _ _ _ C B SY RE2 NL NR) as [IV2 ON2].
  destruct (open_held _ _ _ _ _ _ IV1 T P) as (_ & RG & H & POS).
  pose proof (held_run _ _ _ _ R2) as PR.
  exists t, (Z.to_nat (t_snap t)). split; [assumption|]. split; [assumption|]. split; [assumption|].
  destruct (o_some _ _ _ _ _ (proj2 ON1)) as [w1 W1]. destruct (o_some _ _ _ _ _ (proj2 ON2)) as [w2 W2].
  pose proof (one_out c 0 s1 w1 IV1 ON1 W1) as O1. pose proof (one_out c 0 s2 w2 IV2 ON2 W2) as O2.
  pose proof (i_ord _ _ _ _ IV1) as OR1.
  split.
  - assert (L : length (map snd (g_out (gh s1))) = length (g_out (gh s1))) by apply map_length.
    rewrite O1, map_length, firstn_length in L.
    assert (0 <= in_read w1) by (unfold in_read; destruct (t_pc w1); lia). lia.
  - intros n x GE N. destruct PR as [r PR]. rewrite O2 in N |- *.
    assert (LT : (n < length (map (fun e => line c (snd e)) (firstn (Z.to_nat (gP (gh s2) - in_read w2)) (g_held (gh s2)))))%nat)
      by (apply nth_error_Some; congruence).
    rewrite map_length, firstn_length in LT.
    assert (J : (Z.to_nat (t_snap t) < length (g_held (gh s1)))%nat) by (apply nth_error_Some; congruence).
    rewrite nth_error_map.
    assert (E : nth_error (firstn (Z.to_nat (gP (gh s2) - in_read w2)) (g_held (gh s2))) (Z.to_nat (t_snap t)) = Some (p, t_msg t)).
    { rewrite <- H, PR. set (d := Z.to_nat (gP (gh s2) - in_read w2)) in *.
      transitivity (nth_error (g_held (gh s1) ++ r) (Z.to_nat (t_snap t))).
      - rewrite <- (firstn_skipn d (g_held (gh s1) ++ r)) at 2. rewrite nth_error_app1; [reflexivity|].
        rewrite firstn_length, <- PR. lia.
      - apply nth_error_app1. assumption. }
    rewrite E. reflexivity.
Qed.

(* nothing behind an open statement is dispatched *)
Lemma open_blocks : forall c slots k ls s p t i rest, cfg_ok c -> blank c slots ->
  reaches c slots k ls s -> no_lap c (start c slots k) ls -> no_restart ls ->
  nth_error (ths s) p = Some t -> t_pc t = Fill i rest ->
  exists j, nth_error (g_held (gh s)) j = Some (p, t_msg t) /\
    forall a x, In (a, x) (g_out (gh s)) -> a < Z.of_nat j.
Proof.
  intros c slots k ls s p t i rest C B RE NL NR T P.
  pose proof (reach_inv _ _ _ _ _ C B RE NL NR) as IV.
  destruct (open_held _ _ _ _ _ _ IV T P) as (_ & RG & H & POS).
  exists (Z.to_nat (t_snap t)). split; [assumption|]. intros a x A.
  pose proof (out_below _ _ IV a x A). pose proof (i_ord _ _ _ _ IV). lia.
Qed.

(* ---- an inner statement that waits for ever ---- *)
Lemma full_tstep : forall c s g l i t s' g' t', 0 < n_ring c -> inv c s g l -> nth_error l i = Some t ->
  fresh_thr c g t -> gH g = gR g + n_ring c - 1 ->
  tstep c i s g t = Some (s', g', t') -> g_held g' = g_held g /\ gH g' = gH g.
Proof.
  intros c s g l i t s' g' t' N IV T F FU E.
  pose proof (i_thr _ _ _ _ IV i t T) as K. pose proof (i_hold _ _ _ _ IV) as XH.
  unfold tstep, thr_ok, fresh_thr in *.
  destruct (t_pc t) as [| | | |old|j|j| |j|j rest|j|j|j|j| |old|old|old| | | | |old|old|j k0 acc|j|j|j| |old|old|old| | | | |] eqn:P;
    try discriminate; try (injection E as <- <- <-; split; reflexivity).
  - destruct K as (K1 & K2 & K3). rewrite XH in E.
    destruct (ix c (gH g) =? old) eqn:Q.
    + exfalso. assert (EQ : ix c (gH g) = ix c (t_snap t)) by lia.
      apply ix_eq in EQ; lia.
    + injection E as <- <- <-. split; reflexivity.
  - destruct rest; injection E as <- <- <-; split; reflexivity.
  - destruct (x_write s =? old); injection E as <- <- <-; split; reflexivity.
  - destruct (x_proc s =? old); injection E as <- <- <-; split; reflexivity.
  - destruct (k0 <? zlen (s_text (get s j))); injection E as <- <- <-; split; reflexivity.
  - destruct (x_read s =? old); injection E as <- <- <-; split; reflexivity.
Qed.

Lemma holding_tstep : forall c i s g t s' g' t', running s = true -> holding t -> g_held g' = g_held g ->
  tstep c i s g t = Some (s', g', t') -> holding t' /\ t_msg t' = t_msg t.
Proof.
  intros c i s g t s' g' t' RU HO HE E. unfold tstep, holding in *.
  destruct (t_pc t) eqn:P; try contradiction; rewrite ?RU in E; try (injection E as <- <- <-; split; [exact I|reflexivity]).
  - injection E as <- <- <-. split; [|reflexivity]. cbn [t_pc go]. destruct (nxt c old =? x_read s); exact I.
  - destruct (x_hold s =? old); injection E as <- <- <-; [|split; [exact I|reflexivity]].
    exfalso. cbn [g_held add_held put_g] in HE. apply (f_equal (@length _)) in HE. rewrite app_length in HE. cbn in HE. lia.
Qed.

Lemma nxt_ix : forall c a, 0 < n_ring c -> nxt c (ix c a) = ix c (a + 1).
Proof. intros c a N. unfold nxt, ix. rewrite Zplus_mod_idemp_l. reflexivity. Qed.

(* ---- a statement waits for those made inside it ---- *)
Definition nest_inv (par : nat -> option nat) (s : st) : Prop :=
  forall q p t, par q = Some p -> nth_error (ths s) q = Some t -> t_pc t <> Idle -> open s p.

Lemma nest_step : forall par c s l s', match l with LLog _ _ | LRun _ => True | _ => False end ->
  call_ok par s l -> nest_inv par s -> step c s l = Some s' -> nest_inv par s'.
Proof.
  intros par c s l s' O CO NI E q p t PQ T NID. destruct l as [tid msg|tid| | | |]; try contradiction.
  - destruct (step_log_inv _ _ _ _ _ E) as (v & V & PV & ->). cbn [ths] in T.
    assert (OP : open s p).
    { destruct (upd_inv _ _ _ _ _ T) as [[-> ->]|[D T']]; [|exact (NI q p t PQ T' NID)].
      cbn [call_ok] in CO. rewrite PQ in CO. apply CO. }
    destruct OP as (u & i & rest & U & P). exists u, i, rest. split; [|assumption].
    apply upd_some with v; try assumption. intros <-. rewrite U in V. injection V as <-. congruence.
  - destruct (step_run_inv _ _ _ _ E) as (v & x & g & v' & V & TS & ->). cbn [ths] in T.
    assert (CA : exists r, nth_error (ths s) q = Some r /\ t_pc r <> Idle).
    { destruct (upd_inv _ _ _ _ _ T) as [[-> ->]|[D T']]; [|exists t; auto].
      exists v. split; [assumption|]. intros P. unfold tstep in TS. rewrite P in TS. discriminate. }
    destruct CA as (r & R & RI). destruct (NI q p r PQ R RI) as (u & i & rest & U & P).
    exists u, i, rest. split; [|assumption]. apply upd_some with v; try assumption.
    intros <-. apply CO. exists q, r. auto.
Qed.

Lemma nest_start : forall par c slots k, calls_ok par c -> nest_inv par (start c slots k).
Proof.
  intros par c slots k CK q p t PQ T NID. exfalso.
  destruct (start_thr _ _ _ _ _ T) as [(-> & SY & ->)| ->]; [|apply NID; reflexivity].
  destruct (CK SY) as [Z _]. congruence.
Qed.

Lemma nest_run : forall par c ls s s', threads_only ls -> nested par c s ls -> nest_inv par s ->
  run c s ls = Some s' -> nest_inv par s'.
Proof.
  intros par c ls. induction ls as [|l ls IH]; intros s s' TO NE NI R.
  - cbn in R. injection R as <-. assumption.
  - cbn [run nested] in *. destruct (step c s l) as [s1|] eqn:E; [|discriminate].
    destruct NE as [CO NE]. apply Forall_cons_iff in TO. destruct TO as [O TO].
    apply (IH s1 s'); try assumption; [apply NE; reflexivity|]. eapply nest_step; eassumption.
Qed.

Lemma inside_calling : forall par s q p, nest_inv par s -> inside par q p ->
  forall u, nth_error (ths s) q = Some u -> t_pc u <> Idle -> calling par s p.
Proof.
  intros par s q p NI IN. induction IN as [q p A|q r p A IN IH]; intros u U UI.
  - exists q, u. auto.
  - destruct (NI q r u A U UI) as (v & i & rest & V & P). apply (IH v V). congruence.
Qed.

Definition stuck (c : rcfg) (held : list (nat * text)) (p q : nat) (t : thr) (m : text) (s : st) : Prop :=
  nth_error (ths s) p = Some t /\ g_held (gh s) = held /\ gH (gh s) = t_snap t + n_ring c - 1 /\
  exists u, nth_error (ths s) q = Some u /\ holding u /\ t_msg u = m.

Lemma stuck_step : forall par c s l s' held p q t m i rest, 0 < n_ring c -> inv_st c s -> live c s -> fresh c s l ->
  match l with LLog _ _ | LRun _ => True | _ => False end -> call_ok par s l -> nest_inv par s -> inside par q p ->
  t_pc t = Fill i rest -> stuck c held p q t m s -> step c s l = Some s' -> stuck c held p q t m s'.
Proof.
  intros par c s l s' held p q t m i rest N IV LV F O CO NI PQ P (T & HE & FU & u & U & HU & MU) E.
  assert (PQD : p <> q).
  { intros ->. rewrite T in U. injection U as <-. unfold holding in HU. rewrite P in HU. exact HU. }
  assert (UI : t_pc u <> Idle) by (unfold holding in HU; destruct (t_pc u); try contradiction; discriminate).
  destruct (open_held _ _ _ _ _ _ IV T P) as (_ & RG & _). pose proof (i_ord _ _ _ _ IV) as OR.
  destruct l as [tid msg|tid| | | |]; try contradiction.
  - destruct (step_log_inv _ _ _ _ _ E) as (v & V & PV & ->). unfold stuck. cbn [sh gh ths].
    assert (tid <> p) by (intros ->; rewrite T in V; injection V as <-; congruence).
    assert (tid <> q) by (intros ->; rewrite U in V; injection V as <-; congruence).
    split; [apply upd_some with v; (assumption || congruence)|]. split; [assumption|]. split; [assumption|].
    exists u. split; [apply upd_some with v; (assumption || congruence)|auto].
  - destruct (step_run_inv _ _ _ _ E) as (v & x & g & v' & V & TS & ->). unfold stuck. cbn [sh gh ths].
    assert (tid <> p).
    { intros ->. apply CO. apply (inside_calling par s q p NI PQ u U UI). }
    destruct (full_tstep c (sh s) (gh s) (ths s) tid v x g v' N IV V (F v V) ltac:(lia) TS) as [HE' HH].
    split; [apply upd_some with v; (assumption || congruence)|]. split; [congruence|]. split; [congruence|].
    destruct (Nat.eq_dec tid q) as [->|D].
    + rewrite U in V. injection V as <-. exists v'. split; [apply upd_hit with u; assumption|].
      destruct (holding_tstep _ _ _ _ _ _ _ _ (l_run _ _ LV) HU HE' TS). split; [assumption|congruence].
    + exists u. split; [apply upd_some with v; (assumption || congruence)|auto].
Qed.

Lemma stuck_run : forall par c ls s s' held p q t m i rest, 0 < n_ring c -> inv_st c s -> live c s ->
  no_lap c s ls -> threads_only ls -> nested par c s ls -> nest_inv par s -> inside par q p ->
  t_pc t = Fill i rest -> stuck c held p q t m s -> run c s ls = Some s' -> stuck c held p q t m s'.
Proof.
  intros par c ls. induction ls as [|l ls IH]; intros s s' held p q t m i rest N IV LV NL TO NE NI PQ P SK R.
  - cbn in R. injection R as <-. assumption.
  - cbn [run no_lap nested] in *. destruct (step c s l) as [s1|] eqn:E; [|discriminate].
    destruct NL as [F NL]. destruct NE as [CO NE]. apply Forall_cons_iff in TO. destruct TO as [O TO].
    assert (C3 : x_ctl (sh s) <> 3) by (rewrite (l_ctl _ _ LV); discriminate).
    destruct (inv_step c s l s1 N IV C3 F ltac:(intros ->; contradiction) E) as [IV1 _].
    apply (IH s1 s' held p q t m i rest); try assumption.
    + exact (live_step c s l s1 N IV LV F O E).
    + apply NL. reflexivity.
    + apply NE. reflexivity.
    + exact (nest_step par c s l s1 O CO NI E).
    + exact (stuck_step par c s l s1 held p q t m i rest N IV LV F O CO NI PQ P SK E).
Qed.

Lemma inner_stuck : forall par c slots k ls s p q t u i rest, cfg_ok c -> blank c slots ->
  reaches c slots k ls s -> no_lap c (start c slots k) ls -> threads_only ls ->
  calls_ok par c -> nested par c (start c slots k) ls ->
  inside par q p -> nth_error (ths s) p = Some t -> t_pc t = Fill i rest ->
  nth_error (ths s) q = Some u -> holding u -> nxt c (x_hold (sh s)) = i ->
  forall ls2 s2, run c s ls2 = Some s2 -> no_lap c s ls2 -> threads_only ls2 -> nested par c s ls2 ->
    nth_error (ths s2) p = Some t /\ g_held (gh s2) = g_held (gh s) /\
    exists v, nth_error (ths s2) q = Some v /\ holding v /\ t_msg v = t_msg u.
Proof.
  intros par c slots k ls s p q t u i rest C B RE NL TO CK NE PQ T P U HU FU ls2 s2 R2 NL2 TO2 NE2.
  assert (N : 0 < n_ring c) by (destruct C; lia).
  destruct (reach_live _ _ _ _ _ C B RE NL TO) as [IV LV].
  destruct (open_held _ _ _ _ _ _ IV T P) as (IX & RG & _). pose proof (i_ord _ _ _ _ IV) as OR.
  assert (FULL : gH (gh s) = t_snap t + n_ring c - 1).
  { rewrite (i_hold _ _ _ _ IV), nxt_ix, IX in FU by assumption.
    destruct (Z_lt_ge_dec (gH (gh s) + 1 - t_snap t) (n_ring c)) as [L|G]; [|lia].
    apply ix_eq in FU; lia. }
  destruct (stuck_run par c ls2 s s2 (g_held (gh s)) p q t (t_msg u) i rest N IV LV NL2 TO2 NE2
    (nest_run par c ls _ s TO NE (nest_start par c slots k CK) RE) PQ P) as (A & D & _ & E);
    [|assumption|split; [assumption|split; assumption]].
  split; [assumption|]. split; [reflexivity|]. split; [assumption|]. exists u. auto.
Qed.

(* ---- room left: the inner statement gets its slot ---- *)
Lemma nested_join : forall par c a b s s', run c s a = Some s' -> nested par c s a -> nested par c s' b ->
  nested par c s (a ++ b).
Proof.
  intros par c a. induction a as [|l a IH]; intros b s s' R A B.
  - cbn in R. injection R as <-. exact B.
  - cbn [app nested run] in *. destruct A as [F A]. destruct (step c s l) as [s1|] eqn:E; [|discriminate].
    split; [assumption|]. intros s2 E2. injection E2 as <-. apply (IH b s1 s'); auto.
Qed.

(* a thread none of whose inner threads is in a statement runs alone *)
Lemma runs_alone : forall par c q n s s', par q <> Some q ->
  (forall r t, par r = Some q -> nth_error (ths s) r = Some t -> t_pc t = Idle) ->
  run c s (repeat (LRun q) n) = Some s' -> nested par c s (repeat (LRun q) n).
Proof.
  intros par c q n. induction n as [|n IH]; intros s s' PQ ID R; [exact I|]. cbn [repeat run nested] in *.
  split; [intros (r & t & A & T & NI); apply NI; exact (ID r t A T)|]. intros s1 E. rewrite E in R.
  apply (IH s1 s'); try assumption. intros r t A T.
  destruct (step_run_inv _ _ _ _ E) as (v & x & g & v' & V & TS & ->). cbn [ths] in T.
  destruct (upd_inv _ _ _ _ _ T) as [[-> ->]|[D T']]; [contradiction|exact (ID r t A T')].
Qed.

Lemma writer_alone : forall par c n s s', (forall q, par q <> Some 0%nat) ->
  run c s (repeat (LRun 0) n) = Some s' -> nested par c s (repeat (LRun 0) n).
Proof.
  intros par c n. induction n as [|n IH]; intros s s' PZ R; [exact I|]. cbn [repeat run nested] in *.
  split; [intros (q & t & Q & _); exact (PZ q Q)|]. intros s1 E. rewrite E in R. eapply IH; eassumption.
Qed.

Lemma one_run : forall c s q u x g u', nth_error (ths s) q = Some u ->
  tstep c q (sh s) (gh s) u = Some (x, g, u') ->
  step c s (LRun q) = Some (mkSt x g (upd (ths s) q u')).
Proof. intros c s q u x g u' U E. cbn [step]. rewrite U, E. reflexivity. Qed.

(* a running channel with a free slot: a thread that wants a slot gets one *)
Lemma hold_alone : forall c s q u, nth_error (ths s) q = Some u -> holding u -> running (sh s) = true ->
  nxt c (x_hold (sh s)) <> x_read (sh s) ->
  exists m s', run c s (repeat (LRun q) m) = Some s' /\
    g_held (gh s') = g_held (gh s) ++ [(q, t_msg u)] /\
    (exists v i, nth_error (ths s') q = Some v /\ t_pc v = HCount i) /\
    forall j, j <> q -> nth_error (ths s') j = nth_error (ths s) j.
Proof.
  intros c s q u U HO RU FR.
  assert (GO : forall (n : nat) s0 u0, nth_error (ths s0) q = Some u0 -> t_msg u0 = t_msg u ->
    sh s0 = sh s -> g_held (gh s0) = g_held (gh s) ->
    (forall j, j <> q -> nth_error (ths s0) j = nth_error (ths s) j) ->
    match n, t_pc u0 with
    | O, HCas old => old = x_hold (sh s)
    | 1%nat, HRead old => old = x_hold (sh s)
    | 2%nat, HLoad | 3%nat, HState | 4%nat, HOut => True
    | _, _ => False
    end ->
    exists s', run c s0 (repeat (LRun q) (S n)) = Some s' /\
      g_held (gh s') = g_held (gh s) ++ [(q, t_msg u)] /\
      (exists v i, nth_error (ths s') q = Some v /\ t_pc v = HCount i) /\
      forall j, j <> q -> nth_error (ths s') j = nth_error (ths s) j).
  { induction n as [|n IH]; intros s0 u0 U0 M0 S0 G0 T0 K.
    - destruct (t_pc u0) eqn:P; try contradiction. subst old.
      cbn [repeat run]. erewrite one_run; [|exact U0|unfold tstep; rewrite P, S0, Z.eqb_refl; reflexivity].
      eexists. split; [reflexivity|]. cbn [sh gh ths]. split; [cbn [g_held add_held put_g]; congruence|].
      split; [eexists _, _; split; [apply upd_hit with u0; assumption|reflexivity]|].
      intros j J. rewrite <- T0 by assumption. apply upd_other. congruence.
    - assert (NEXT : forall g' u', tstep c q (sh s0) (gh s0) u0 = Some (sh s0, g', u') -> t_msg u' = t_msg u ->
        g_held g' = g_held (gh s) ->
        match n, t_pc u' with
        | O, HCas old => old = x_hold (sh s)
        | 1%nat, HRead old => old = x_hold (sh s)
        | 2%nat, HLoad | 3%nat, HState | 4%nat, HOut => True
        | _, _ => False
        end ->
        exists s', run c s0 (repeat (LRun q) (S (S n))) = Some s' /\
          g_held (gh s') = g_held (gh s) ++ [(q, t_msg u)] /\
          (exists v i, nth_error (ths s') q = Some v /\ t_pc v = HCount i) /\
          forall j, j <> q -> nth_error (ths s') j = nth_error (ths s) j).
      { intros g' u' TS M' G' K'. change (repeat (LRun q) (S (S n))) with (LRun q :: repeat (LRun q) (S n)).
        cbn [run]. erewrite one_run by eassumption.
        apply IH with u'; cbn [sh gh ths]; try assumption.
        - apply upd_hit with u0. assumption.
        - intros j J. rewrite <- T0 by assumption. apply upd_other. congruence. }
      destruct n as [|[|[|[|n]]]]; destruct (t_pc u0) eqn:P; try contradiction.
      + subst old. apply NEXT with (gh s0) (go u0 (HCas (x_hold (sh s)))); try assumption; try reflexivity.
        unfold tstep. rewrite P, S0. replace (nxt c (x_hold (sh s)) =? x_read (sh s)) with false by lia. reflexivity.
      + apply NEXT with (gh s0) (go_at u0 (HRead (x_hold (sh s))) (gH (gh s0))); try assumption; try reflexivity.
        unfold tstep. rewrite P, S0. reflexivity.
      + apply NEXT with (gh s0) (go u0 HLoad); try assumption; try reflexivity.
        unfold tstep. rewrite P, S0, RU. reflexivity.
      + apply NEXT with (gh s0) (go u0 HState); try assumption; try reflexivity.
        unfold tstep. rewrite P, S0, RU. reflexivity. }
  unfold holding in HO. destruct (t_pc u) eqn:P; try contradiction.
  - destruct (GO 3%nat s u U eq_refl eq_refl eq_refl ltac:(auto)) as (s' & A); [rewrite P; exact I|]. exists 4%nat, s'. exact A.
  - destruct (GO 2%nat s u U eq_refl eq_refl eq_refl ltac:(auto)) as (s' & A); [rewrite P; exact I|]. exists 3%nat, s'. exact A.
  - (* HRead: the loaded index may be stale *)
    destruct (nxt c old =? x_read (sh s)) eqn:Q.
    + set (s1 := mkSt (sh s) (gh s) (upd (ths s) q (go u HOut))).
      assert (E : step c s (LRun q) = Some s1).
      { eapply one_run; [exact U|]. unfold tstep. rewrite P, Q. reflexivity. }
      destruct (GO 4%nat s1 (go u HOut)) as (s' & A); try reflexivity.
      * apply upd_hit with u. assumption.
      * intros j J. apply upd_other. congruence.
      * exists 6%nat, s'. change (repeat (LRun q) 6) with (LRun q :: repeat (LRun q) 5). cbn [run]. rewrite E. exact A.
    + set (s1 := mkSt (sh s) (gh s) (upd (ths s) q (go u (HCas old)))).
      assert (E : step c s (LRun q) = Some s1).
      { eapply one_run; [exact U|]. unfold tstep. rewrite P, Q. reflexivity. }
      destruct (Z.eq_dec old (x_hold (sh s))) as [EQ|NE].
      * destruct (GO 0%nat s1 (go u (HCas old))) as (s' & A); try reflexivity; try assumption.
        -- apply upd_hit with u. assumption.
        -- intros j J. apply upd_other. congruence.
        -- exists 2%nat, s'. change (repeat (LRun q) 2) with (LRun q :: repeat (LRun q) 1). cbn [run]. rewrite E. exact A.
      * set (s2 := mkSt (sh s) (gh s) (upd (ths s1) q (go (go u (HCas old)) HState))).
        assert (E2 : step c s1 (LRun q) = Some s2).
        { eapply (one_run c s1 q (go u (HCas old))); [apply upd_hit with u; assumption|]. unfold tstep. cbn [t_pc go sh s1].
          replace (x_hold (sh s) =? old) with false by lia. reflexivity. }
        destruct (GO 3%nat s2 (go (go u (HCas old)) HState)) as (s' & A); try reflexivity.
        -- apply upd_hit with (go u (HCas old)). apply upd_hit with u. assumption.
        -- intros j J. cbn [ths s2 s1]. rewrite !upd_other by congruence. reflexivity.
        -- exists 6%nat, s'. change (repeat (LRun q) 6) with (LRun q :: LRun q :: repeat (LRun q) 4). cbn [run]. rewrite E.
           rewrite E2. exact A.
  - destruct (Z.eq_dec old (x_hold (sh s))) as [EQ|NE].
    + destruct (GO 0%nat s u U eq_refl eq_refl eq_refl ltac:(auto)) as (s' & A); [rewrite P; assumption|]. exists 1%nat, s'. exact A.
    + set (s2 := mkSt (sh s) (gh s) (upd (ths s) q (go u HState))).
      assert (E2 : step c s (LRun q) = Some s2).
      { eapply (one_run c s q u); [assumption|]. unfold tstep. rewrite P.
        replace (x_hold (sh s) =? old) with false by lia. reflexivity. }
      destruct (GO 3%nat s2 (go u HState)) as (s' & A); try reflexivity.
      * apply upd_hit with u. assumption.
      * intros j J. cbn [ths s2]. rewrite !upd_other by congruence. reflexivity.
      * exists 5%nat, s'. change (repeat (LRun q) 5) with (LRun q :: repeat (LRun q) 4). cbn [run]. rewrite E2. exact A.
  - destruct (GO 4%nat s u U eq_refl eq_refl eq_refl ltac:(auto)) as (s' & A); [rewrite P; exact I|]. exists 5%nat, s'. exact A.
Qed.

(* every other statement is open in another slot than the next one, or has no
   slot: the writer and this thread alone bring it to its slot *)
Lemma slot_progress : forall c slots k ls s q u, cfg_ok c -> blank c slots -> is_sync c = false ->
  reaches c slots k ls s -> no_lap c (start c slots k) ls -> threads_only ls ->
  nth_error (ths s) q = Some u -> holding u ->
  (forall j t, j <> 0%nat -> j <> q -> nth_error (ths s) j = Some t ->
     t_pc t = Idle \/ holding t \/ exists i rest, t_pc t = Fill i rest /\ i <> nxt c (x_hold (sh s))) ->
  exists n m s1 s2, run c s (repeat (LRun 0) n) = Some s1 /\ run c s1 (repeat (LRun q) m) = Some s2 /\
    (forall j, j <> 0%nat -> nth_error (ths s1) j = nth_error (ths s) j) /\
    (forall j, j <> q -> nth_error (ths s2) j = nth_error (ths s1) j) /\
    (exists v i, nth_error (ths s2) q = Some v /\ t_pc v = HCount i) /\
    g_held (gh s2) = g_held (gh s) ++ [(q, t_msg u)].
Proof.
  intros c slots k ls s q u C B SY RE NL TO U HU OT.
  assert (N : 0 < n_ring c) by (destruct C; lia).
  pose proof (threads_no_restart ls TO) as NR.
  destruct (reach_live _ _ _ _ _ C B RE NL TO) as [IV LV].
  destruct (reach_one _ _ _ _ _ C B SY RE NL NR) as [_ ON].
  pose proof (reach_wr _ _ _ _ _ C B RE NL NR) as WR.
  destruct (WR SY) as (w & T & CP).
  assert (Q0 : q <> 0%nat).
  { intros ->. rewrite T in U. injection U as <-. unfold holding, cons_pc in *. destruct (t_pc w); try discriminate; contradiction. }
  assert (W : wok c s w).
  { constructor; try assumption. pose proof (l_end _ _ LV 0%nat w T) as EN. unfold ended in EN.
    destruct (t_pc w); try exact Logic.I; discriminate. }
  pose proof (weight_pos c s w W) as WP. pose proof (i_ord _ _ _ _ IV) as OR.
  (* the record at write_idx_, if any, belongs to an open statement that leaves room *)
  assert (ROOM : gH (gh s) < gW (gh s) + n_ring c - 1).
  { destruct (Z.eq_dec (gW (gh s)) (gH (gh s))) as [E|D]; [destruct C; lia|].
    destruct (l_res _ _ LV (gW (gh s)) ltac:(lia)) as [(i & t & TI & O)|RD].
    - destruct (Nat.eq_dec i 0) as [->|I0].
      { rewrite T in TI. injection TI as <-. unfold own, cons_pc in *. destruct (t_pc w); discriminate. }
      destruct (Nat.eq_dec i q) as [->|IQ].
      { rewrite U in TI. injection TI as <-. unfold own, holding in *. destruct (t_pc u); try discriminate; contradiction. }
      destruct (OT i t I0 IQ TI) as [P|[P|(a & rest & P & NX)]].
      { unfold own in O. rewrite P in O. discriminate. }
      { unfold own, holding in *. destruct (t_pc t); try discriminate; contradiction. }
      destruct (open_held _ _ _ _ _ _ IV TI P) as (IX & RG & _).
      assert (SN : t_snap t = gW (gh s)) by (unfold own in O; rewrite P in O; congruence).
      destruct (Z.eq_dec (gH (gh s)) (gW (gh s) + n_ring c - 1)) as [E|]; [|lia]. exfalso. apply NX.
      rewrite (i_hold _ _ _ _ IV), nxt_ix, IX, SN by assumption. rewrite E. unfold ix.
      replace (gW (gh s) + n_ring c - 1 + 1) with (gW (gh s) + 1 * n_ring c) by lia. rewrite Z_mod_plus_full. reflexivity.
    - exfalso. destruct (l_pub _ _ LV ltac:(lia) RD) as (i & t & TI & O).
      destruct (Nat.eq_dec i 0) as [->|I0].
      { rewrite T in TI. injection TI as <-. unfold pubr, cons_pc in *. destruct (t_pc w); try discriminate; contradiction. }
      destruct (Nat.eq_dec i q) as [->|IQ].
      { rewrite U in TI. injection TI as <-. unfold pubr, holding in *. destruct (t_pc u); contradiction. }
      destruct (OT i t I0 IQ TI) as [P|[P|(a & rest & P & NX)]].
      + unfold pubr in O. rewrite P in O. contradiction.
      + unfold pubr, holding in *. destruct (t_pc t); contradiction.
      + unfold pubr in O. rewrite P in O. contradiction. }
  destruct (w_drain c N SY (Z.to_nat (gW (gh s) - gP (gh s))) (Z.to_nat (weight c s w)) s w W ltac:(lia) ltac:(lia))
    as (n & s1 & w1 & R1 & W1 & (S1 & S2 & S3 & _ & _ & S6) & D1 & XS).
  destruct (drained_rest c s1 w1 W1 D1) as (D2 & D3 & _). pose proof (w_inv _ _ _ W1) as IV1.
  assert (RU1 : running (sh s1) = true).
  { pose proof (l_run _ _ LV) as RU. unfold running in *. rewrite XS; [assumption|].
    intros Z. rewrite Z in RU. discriminate. }
  destruct (hold_alone c s1 q u) as (m & s2 & R2 & H2 & V2 & O2).
  - rewrite S6; assumption.
  - assumption.
  - assumption.
  - rewrite (i_hold _ _ _ _ IV1), (i_read _ _ _ _ IV1), nxt_ix by assumption. intros E.
    apply ix_eq in E; [|assumption|]; lia.
  - exists n, m, s1, s2. split; [assumption|]. split; [assumption|]. split; [exact S6|]. split; [exact O2|].
    split; [assumption|]. rewrite H2, S3. reflexivity.
Qed.

Lemma inner_progress : forall par c slots k ls s q u, cfg_ok c -> blank c slots -> is_sync c = false ->
  reaches c slots k ls s -> no_lap c (start c slots k) ls -> threads_only ls ->
  calls_ok par c -> nested par c (start c slots k) ls ->
  nth_error (ths s) q = Some u -> holding u ->
  (forall j t, j <> 0%nat -> j <> q -> nth_error (ths s) j = Some t ->
     t_pc t = Idle \/ holding t \/ exists i rest, t_pc t = Fill i rest /\ i <> nxt c (x_hold (sh s))) ->
  exists n m s', run c s (repeat (LRun 0) n ++ repeat (LRun q) m) = Some s' /\
    nested par c s (repeat (LRun 0) n ++ repeat (LRun q) m) /\
    g_held (gh s') = g_held (gh s) ++ [(q, t_msg u)].
Proof.
  intros par c slots k ls s q u C B SY RE NL TO CK NE U HU OT.
  destruct (slot_progress c slots k ls s q u C B SY RE NL TO U HU OT) as (n & m & s1 & s2 & R1 & R2 & S6 & _ & _ & H2).
  exists n, m, s2. split; [rewrite run_app, R1; assumption|]. split; [|assumption].
  destruct (CK SY) as [CK0 CK1].
  pose proof (nest_run par c ls _ s TO NE (nest_start par c slots k CK) RE) as NI.
  assert (NOT : ~ open s q).
  { intros (t & i & rest & TQ & P). rewrite U in TQ. injection TQ as <-. unfold holding in HU. rewrite P in HU. exact HU. }
  assert (UI : t_pc u <> Idle) by (unfold holding in HU; destruct (t_pc u); try contradiction; discriminate).
  apply nested_join with s1; [assumption|eapply writer_alone; eassumption|].
  apply runs_alone with s2; try assumption.
  - intros PQ. exact (NOT (NI q q u PQ U UI)).
  - intros r t PR TR. rewrite S6 in TR by (intros ->; congruence).
    destruct (t_pc t) eqn:PT; try reflexivity; exfalso; apply NOT; apply (NI r q t PR TR); congruence.
Qed.
