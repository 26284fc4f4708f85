(* Whole runs: order on single-consumer channels, counters, per-thread order,
   and what holds when no log statement is in progress. *)
From Coq Require Import ZArith List Bool Lia ZifyBool ZifyNat ZifyN Permutation.
From Verif Require Import Base BaseFacts LoggerState Ring RingSpec RingInv RingProofs RingLive.
Import ListNotations.
Open Scope Z_scope.

(* ---- producers do not touch what the consumer works on ---- *)
Definition cons_pc (t : thr) : bool :=
  match t_pc t with
  | CLoad | CWrite _ | CCas _ | CRead _ _ _ | CMark _ | CCount _ | CBytes _
  | RLoad | RProc _ | RMark _ | RCas _ | CNull | CLoop | CRest | CFin | Done => true
  | _ => false
  end.

Lemma prod_frame : forall c s g l i t s' g' t',
  0 < n_ring c -> inv c s g l -> nth_error l i = Some t -> cons_pc t = false ->
  tstep c i s g t = Some (s', g', t') ->
  gP g' = gP g /\ gR g' = gR g /\ g_out g' = g_out g /\ n_bytes s' = n_bytes s /\
  n_proc s' = n_proc s /\
  (exists e, g_held g' = g_held g ++ e) /\ g_started g' = g_started g /\
  forall a, gR g <= a < gW g -> at_ c s' a = at_ c s a.
Proof.
  intros c s g l i t s' g' t' N IV T CP E.
  pose proof (i_thr _ _ _ _ IV i t T) as K.
  pose proof (i_ord _ _ _ _ IV) as OR.
  destruct t as [p m a]. unfold tstep in E. unfold thr_ok, owned, cons_pc in *.
  assert (Z0 : exists e, g_held g = g_held g ++ e) by (exists []; rewrite app_nil_r; reflexivity).
  assert (PU : forall v b, gW g <= a < gH g -> gR g <= b < gW g ->
    at_ c (put s (ix c a) v) b = at_ c s b) by (intros; apply at_put_other; lia).
  destruct p; tpc; try discriminate;
    try (solve [brk E ltac:(repeat split; solve [assumption | intros; reflexivity
           | exists [(i, m)]; reflexivity])]).
  - destruct K as (-> & K1 & K2 & K3). injection E as <- <- <-. repeat split; auto.
  - destruct K as (-> & K1 & K2 & K3). injection E as <- <- <-. repeat split; auto.
  - destruct K as (-> & (K1 & K2 & K3) & K4). destruct rest; injection E as <- <- <-; repeat split; auto.
  - destruct K as (-> & (K1 & K2 & K3) & K4). injection E as <- <- <-. repeat split; auto.
  - destruct K as (-> & (K1 & K2 & K3) & K4). injection E as <- <- <-. repeat split; auto.
Qed.

(* ---- one consumer ---- *)
Definition seqz (n : Z) : list Z := map Z.of_nat (seq 0 (Z.to_nat n)).

Lemma seqz_snoc : forall n, 0 <= n -> seqz (n + 1) = seqz n ++ [n].
Proof.
  intros n H. unfold seqz. replace (Z.to_nat (n + 1)) with (S (Z.to_nat n)) by lia.
  rewrite seq_S, map_app. cbn. do 2 f_equal. lia.
Qed.

Fixpoint total (c : rcfg) (l : list (nat * text)) : Z :=
  match l with [] => 0 | e :: l' => zlen (line c (snd e)) + total c l' end.

Lemma total_app : forall c a b, total c (a ++ b) = total c a + total c b.
Proof. intros c a b. induction a as [|x a IH]; cbn [app total]; lia. Qed.

Definition in_read (t : thr) : Z := match t_pc t with CRead _ _ _ => 1 | _ => 0 end.
Definition in_proc (t : thr) : Z :=
  match t_pc t with CRead _ _ _ | CMark _ | CCount _ => 1 | _ => 0 end.
Definition in_bytes (t : thr) : Z :=
  match t_pc t with CRead _ _ _ | CMark _ | CCount _ | CBytes _ => 1 | _ => 0 end.

(* What is known about the consumer itself. *)
Definition cons_ok (c : rcfg) (s : shared) (g : ghost) (t : thr) : Prop :=
  match t_pc t with
  | CWrite _ | CCas _ => t_snap t = gP g
  | CRead _ _ _ | CMark _ => t_snap t = gP g - 1
  | CCount i | CBytes i => t_snap t = gP g - 1 /\ gR g = gP g - 1 /\ i = ix c (gP g - 1) /\
      exists j m, held_at g (gP g - 1) = Some (j, m) /\ s_text (at_ c s (gP g - 1)) = line c m
  | RProc _ | RMark _ | RCas _ => t_snap t = gR g
  | _ => True
  end.

Record one (c : rcfg) (k : nat) (s : shared) (g : ghost) (l : list thr) : Prop := mkOne {
  o_only : forall j u, nth_error l j = Some u -> cons_pc u = true -> j = k;
  o_near : gP g <= gR g + 1;
  o_thr : forall t, nth_error l k = Some t ->
     cons_ok c s g t /\
     map fst (g_out g) = seqz (gP g - in_read t) /\
     n_proc s = gP g - in_proc t /\
     n_bytes s = total c (firstn (Z.to_nat (gP g - in_bytes t)) (g_held g));
  o_some : exists t, nth_error l k = Some t
}.

Lemma firstn_app_le : forall {A} n (a b : list A), (n <= length a)%nat -> firstn n (a ++ b) = firstn n a.
Proof.
  intros. rewrite firstn_app. replace (n - length a)%nat with 0%nat by lia.
  rewrite firstn_O, app_nil_r. reflexivity.
Qed.

Lemma firstn_S_nth : forall {A} n (l : list A) x,
  nth_error l n = Some x -> firstn (S n) l = firstn n l ++ [x].
Proof.
  intros A n. induction n as [|n IH]; intros [|y l] x H; try discriminate; cbn in *.
  - congruence.
  - f_equal. apply IH. assumption.
Qed.

(* a consumer that is neither dispatching nor releasing has released everything *)
Lemma one_released : forall c k s g l t,
  inv c s g l -> q_rel c s g l -> one c k s g l -> nth_error l k = Some t ->
  clm t = None -> ~ relr g t -> gR g = gP g.
Proof.
  intros c k s g l t IV QR ON T CT NR.
  pose proof (i_ord _ _ _ _ IV) as OR.
  destruct (Z.eq_dec (gR g) (gP g)) as [E|D]; [assumption|exfalso].
  destruct (i_done _ _ _ _ IV (gR g) ltac:(lia)) as [M|(j & u & J & U)].
  - destruct (QR ltac:(lia) M) as (j & u & J & RU).
    assert (j = k).
    { apply (o_only _ _ _ _ _ ON j u J). unfold relr, cons_pc in *. destruct (t_pc u); try contradiction; reflexivity. }
    subst j. rewrite T in J. injection J as <-. contradiction.
  - assert (j = k).
    { apply (o_only _ _ _ _ _ ON j u J). unfold clm, cons_pc in *. destruct (t_pc u); try discriminate; reflexivity. }
    subst j. rewrite T in J. injection J as <-. congruence.
Qed.

(* a step of another thread *)
Lemma one_other : forall c k s g l i t s' g' t',
  0 < n_ring c -> inv c s g l -> nth_error l i = Some t -> i <> k ->
  tstep c i s g t = Some (s', g', t') -> one c k s g l ->
  cons_pc t' = false -> one c k s' g' (upd l i t').
Proof.
  intros c k s g l i t s' g' t' N IV T D E ON CT.
  assert (CP : cons_pc t = false).
  { destruct (cons_pc t) eqn:Q; [|reflexivity]. exfalso. apply D. apply (o_only _ _ _ _ _ ON i t T Q). }
  destruct (prod_frame c s g l i t s' g' t' N IV T CP E) as (F1 & F2 & F3 & F4 & F5 & (e & F6) & _ & F7).
  pose proof (i_ord _ _ _ _ IV) as OR. pose proof (i_held _ _ _ _ IV) as HL.
  destruct ON as [O1 O2 O3 O4]. constructor.
  - intros j u J C. destruct (upd_inv _ _ _ _ _ J) as [[-> ->]|[_ J']]; [congruence|eauto].
  - lia.
  - intros u U. rewrite upd_other in U by lia. destruct (O3 u U) as (A & B & P & Q).
    rewrite F1, F3, F4, F5, F6. split; [|split; [assumption|split; [assumption|]]].
    + unfold cons_ok in *. rewrite F1, F2. destruct (t_pc u); try assumption.
      * destruct A as (A1 & A2 & A3 & j & m & A4 & A5). repeat split; try assumption.
        exists j, m. split; [|rewrite F7 by lia; assumption].
        unfold held_at in *. destruct (gP g - 1 <? 0); [discriminate|]. rewrite F6.
        rewrite nth_error_app1; [assumption|]. apply nth_error_Some. rewrite A4. discriminate.
      * destruct A as (A1 & A2 & A3 & j & m & A4 & A5). repeat split; try assumption.
        exists j, m. split; [|rewrite F7 by lia; assumption].
        unfold held_at in *. destruct (gP g - 1 <? 0); [discriminate|]. rewrite F6.
        rewrite nth_error_app1; [assumption|]. apply nth_error_Some. rewrite A4. discriminate.
    + rewrite firstn_app_le; [assumption|]. unfold zlen in HL. unfold in_bytes. destruct (t_pc u); lia.
  - destruct O4 as [u U]. exists u. rewrite upd_other by lia. assumption.
Qed.

Lemma in_read_0 : forall t, rdg t = None -> in_read t = 0.
Proof. intros t. unfold rdg, in_read. destruct (t_pc t); congruence. Qed.

(* a step of the consumer *)
Lemma one_self : forall c k s g l t s' g' t',
  0 < n_ring c -> inv c s g l -> q_rel c s g l -> nth_error l k = Some t ->
  tstep c k s g t = Some (s', g', t') -> one c k s g l ->
  one c k s' g' (upd l k t').
Proof.
  intros c k s g l t s' g' t' N IV QR T E ON.
  pose proof (i_thr _ _ _ _ IV k t T) as K.
  pose proof (i_ord _ _ _ _ IV) as OR. pose proof (i_held _ _ _ _ IV) as HL.
  pose proof (i_len _ _ _ _ IV) as LN.
  pose proof (one_released c k s g l t IV QR ON T) as RL.
  pose proof (o_near _ _ _ _ _ ON) as NR.
  destruct (o_thr _ _ _ _ _ ON t T) as (CK & OO & NP & NB).
  assert (GOAL : cons_ok c s' g' t' /\ gP g' <= gR g' + 1 /\
     map fst (g_out g') = seqz (gP g' - in_read t') /\
     n_proc s' = gP g' - in_proc t' /\
     n_bytes s' = total c (firstn (Z.to_nat (gP g' - in_bytes t')) (g_held g'))).
  2:{ destruct GOAL as (G1 & G2 & G3 & G4 & G5). constructor.
      - intros j u J C. destruct (upd_inv _ _ _ _ _ J) as [[-> ->]|[_ J']]; [reflexivity|].
        apply (o_only _ _ _ _ _ ON j u J' C).
      - assumption.
      - intros u U. rewrite (upd_hit l k t t' T) in U. injection U as <-. auto.
      - exists t'. apply upd_hit with t. assumption. }
  destruct t as [p m a]. unfold tstep in E.
  unfold thr_ok, owned, cons_ok, in_read, in_proc, in_bytes, relr, clm in *. tpc.
  assert (HT : forall e, total c (firstn (Z.to_nat (gP g - 0)) (g_held g ++ e)) =
                         total c (firstn (Z.to_nat (gP g - 0)) (g_held g))).
  { intros e. rewrite firstn_app_le; [reflexivity|]. unfold zlen in HL. lia. }
  destruct p; tpc; try discriminate;
    try (solve [brk E ltac:(repeat split; solve [assumption | lia | reflexivity | exact I])]).
  - (* HCas *) destruct (x_hold s =? old); injection E as <- <- <-; tpc;
      (split; [exact I|split; [assumption|split; [assumption|split; [assumption|]]]]);
      [|assumption]. cbn [add_held put_g g_held gP]. rewrite HT. assumption.
  - (* CCas *) destruct K as (-> & K1 & K2). rewrite (i_proc _ _ _ _ IV) in E.
    rewrite CK, Z.eqb_refl in E. injection E as <- <- <-. tpc. cbn [put_g gP gR g_out g_held].
    specialize (RL eq_refl ltac:(tauto)).
    split; [lia|]. split; [lia|]. split; [|split].
    + rewrite OO. f_equal. lia.
    + cbn. lia.
    + cbn [put_idx n_bytes]. rewrite NB. do 2 f_equal. lia.
  - (* CRead *) destruct K as (-> & K1 & K2 & K3 & K4). fold (at_ c s a) in *.
    destruct (k0 <? zlen (s_text (at_ c s a))); injection E as <- <- <-; tpc.
    + auto.
    + cbn [add_out gP gR g_out g_held]. split; [assumption|]. split; [assumption|]. split; [|split; assumption].
      rewrite map_app, OO. cbn [map fst]. rewrite CK.
      replace (gP g - 0) with ((gP g - 1) + 1) by lia. rewrite seqz_snoc by lia. reflexivity.
  - (* CMark *) destruct K as (-> & K1 & K2). injection E as <- <- <-. tpc.
    split; [|split; [assumption|split; [assumption|split; assumption]]].
    rewrite <- CK. split; [reflexivity|]. split; [lia|]. split; [reflexivity|].
    destruct K2 as [_ (j & n & A & B)]. exists j, n. split; [assumption|].
    rewrite at_put_same by assumption. exact B.
  - (* CCount *) injection E as <- <- <-. tpc. cbn [put_n n_proc n_bytes].
    split; [exact CK|]. split; [assumption|]. split; [assumption|]. split; [lia|assumption].
  - (* CBytes *) injection E as <- <- <-. tpc. cbn [put_n n_proc n_bytes].
    destruct CK as (C1 & C2 & -> & j & n & C4 & C5).
    split; [exact I|]. split; [assumption|]. split; [assumption|]. split; [assumption|].
    change (get s (ix c (gP g - 1))) with (at_ c s (gP g - 1)). rewrite C5, NB.
    unfold held_at in C4. destruct (gP g - 1 <? 0) eqn:Q; [discriminate|].
    replace (Z.to_nat (gP g - 0)) with (S (Z.to_nat (gP g - 1))) by lia.
    rewrite (firstn_S_nth _ _ _ C4), total_app. cbn [total snd]. lia.
  - (* RCas *) destruct K as (-> & K1 & K2 & K3). destruct (x_read s =? ix c a);
      injection E as <- <- <-; tpc; cbn [put_g gP gR g_out g_held put_idx n_proc n_bytes];
      repeat split; assumption || lia.
Qed.

(* ---- steps that only touch the control part of the shared state ---- *)
Lemma one_shared : forall c k s g l s', one c k s g l -> same_ring s s' ->
  n_proc s' = n_proc s -> n_bytes s' = n_bytes s -> one c k s' g l.
Proof.
  intros c k s g l s' ON SR E1 E2. destruct ON as [O1 O2 O3 O4]. constructor; try assumption.
  intros t T. destruct (O3 t T) as (A & B & P & Q). rewrite E1, E2. split; [|auto].
  unfold cons_ok in *. rewrite (at_same c s s' _ SR). exact A.
Qed.

Lemma q_rel_shared : forall c s g l s', q_rel c s g l -> same_ring s s' -> q_rel c s' g l.
Proof. intros c s g l s' Q SR. unfold q_rel. rewrite (at_same c s s' _ SR). exact Q. Qed.

(* a log statement starts *)
Lemma one_log : forall c k s g l i t m a e, one c k s g l -> nth_error l i = Some t -> t_pc t = Idle ->
  one c k s (add_started g e) (upd l i (mkThr HState m a)).
Proof.
  intros c k s g l i t m a e ON T P. destruct ON as [O1 O2 O3 O4]. constructor.
  - intros j u J C. destruct (upd_inv _ _ _ _ _ J) as [[-> ->]|[_ J']]; [discriminate|eauto].
  - exact O2.
  - intros u U. destruct (Nat.eq_dec k i) as [->|D].
    + rewrite (upd_hit l i t _ T) in U. injection U as <-. destruct (O3 t T) as (A & B & X & Q).
      split; [exact I|]. unfold in_read, in_proc, in_bytes in *. rewrite P in *. auto.
    + rewrite upd_other in U by lia. apply (O3 u U).
  - destruct O4 as [u U]. destruct (Nat.eq_dec k i) as [->|D].
    + exists (mkThr HState m a). apply upd_hit with t. assumption.
    + exists u. rewrite upd_other by lia. assumption.
Qed.

Lemma upd_some : forall {A} (l : list A) i j x y t, nth_error l i = Some t -> nth_error l j = Some y ->
  j <> i -> nth_error (upd l i x) j = Some y.
Proof. intros. rewrite upd_other by lia. assumption. Qed.

Lemma q_rel_log : forall c s g l i t m a e, q_rel c s g l -> nth_error l i = Some t -> t_pc t = Idle ->
  q_rel c s (add_started g e) (upd l i (mkThr HState m a)).
Proof.
  intros c s g l i t m a e Q T P L M. destruct (Q L M) as (j & u & J & RU).
  exists j, u. split; [|exact RU]. apply upd_some with t; try assumption.
  intros ->. rewrite T in J. injection J as <-. unfold relr in RU. rewrite P in RU. contradiction.
Qed.

(* on an async channel only the writer thread consumes *)
Lemma async_prod : forall c i s g t s' g' t', is_sync c = false -> cons_pc t = false ->
  tstep c i s g t = Some (s', g', t') -> cons_pc t' = false.
Proof.
  intros c i s g t s' g' t' SY CP E. destruct t as [p m a]. unfold tstep, cons_pc in *. tpc.
  destruct p; tpc; try discriminate; try (solve [brk E reflexivity]).
  rewrite SY in E. injection E as <- <- <-. reflexivity.
Qed.

Lemma ctl_ring : forall s v, same_ring s (put_ctl s v).
Proof. intros. repeat split. Qed.
Lemma state_ctl_ring : forall s v w, same_ring s (put_ctl (put_state s v) w).
Proof. intros. repeat split. Qed.

(* what LStop, LJoin do *)
Lemma ctl_step_inv : forall c s l s', l = LStop \/ l = LJoin -> step c s l = Some s' ->
  gh s' = gh s /\ ths s' = ths s /\ same_ring (sh s) (sh s') /\
  n_hold (sh s') = n_hold (sh s) /\ n_push (sh s') = n_push (sh s) /\
  n_proc (sh s') = n_proc (sh s) /\ n_bytes (sh s') = n_bytes (sh s).
Proof.
  intros c s l s' [->| ->] E; cbn [step] in E.
  - destruct (x_ctl (sh s) =? 0); [|discriminate]. injection E as <-. repeat split.
  - destruct (x_ctl (sh s) =? 1); [|discriminate]. destruct (is_sync c); [injection E as <-; repeat split|].
    destruct (nth_error (ths s) 0) as [t|]; [|discriminate]. destruct (t_pc t); try discriminate.
    injection E as <-. repeat split.
Qed.

(* ---- one consumer, over whole schedules ---- *)
Definition only (k : nat) (l : label) : Prop :=
  match l with LLog i _ | LRun i => i = k | LStop | LJoin => True | LClean | LStart => False end.

Definition rel_st (c : rcfg) (s : st) : Prop := q_rel c (sh s) (gh s) (ths s).
Definition one_st (c : rcfg) (k : nat) (s : st) : Prop := rel_st c s /\ one c k (sh s) (gh s) (ths s).

Lemma rel_step : forall c s l s', 0 < n_ring c -> inv_st c s -> x_ctl (sh s) <> 3 -> rel_st c s ->
  fresh c s l -> l <> LClean -> step c s l = Some s' -> rel_st c s'.
Proof.
  intros c s l s' N IV C3 Q F NC E. unfold rel_st in *. destruct l as [tid msg|tid| | | |].
  - destruct (step_log_inv _ _ _ _ _ E) as (t & T & P & ->). cbn [sh gh ths]. eapply q_rel_log; eassumption.
  - destruct (step_run_inv _ _ _ _ E) as (t & x & g & t' & T & TS & ->). cbn [sh gh ths].
    eapply q_rel_step; try eassumption. apply F. assumption.
  - destruct (ctl_step_inv c s LStop s' (or_introl eq_refl) E) as (-> & -> & SR & _).
    eapply q_rel_shared; eassumption.
  - destruct (ctl_step_inv c s LJoin s' (or_intror eq_refl) E) as (-> & -> & SR & _).
    eapply q_rel_shared; eassumption.
  - congruence.
  - cbn [step] in E. destruct (x_ctl (sh s) =? 3) eqn:Q3; [lia|discriminate].
Qed.

Lemma one_step : forall c k s l s', 0 < n_ring c -> inv_st c s -> x_ctl (sh s) <> 3 -> one_st c k s ->
  fresh c s l -> l <> LClean -> (k = 0%nat /\ is_sync c = false) \/ only k l ->
  step c s l = Some s' -> one_st c k s'.
Proof.
  intros c k s l s' N IV C3 [Q ON] F NC KD E. split; [eapply rel_step; eassumption|].
  destruct l as [tid msg|tid| | | |].
  - destruct (step_log_inv _ _ _ _ _ E) as (t & T & P & ->). cbn [sh gh ths]. eapply one_log; eassumption.
  - destruct (step_run_inv _ _ _ _ E) as (t & x & g & t' & T & TS & ->). cbn [sh gh ths].
    destruct (Nat.eq_dec tid k) as [->|D]; [eapply one_self; eassumption|].
    destruct KD as [[K SY]|K]; [|cbn in K; congruence].
    eapply one_other; try eassumption. eapply async_prod; try eassumption.
    destruct (cons_pc t) eqn:C; [|reflexivity]. exfalso. apply D. exact (o_only _ _ _ _ _ ON tid t T C).
  - destruct (ctl_step_inv c s LStop s' (or_introl eq_refl) E) as (-> & -> & SR & _ & _ & E1 & E2).
    eapply one_shared; eassumption.
  - destruct (ctl_step_inv c s LJoin s' (or_intror eq_refl) E) as (-> & -> & SR & _ & _ & E1 & E2).
    eapply one_shared; eassumption.
  - congruence.
  - cbn [step] in E. destruct (x_ctl (sh s) =? 3) eqn:Q3; [lia|discriminate].
Qed.

Lemma rel_start : forall c slots k, rel_st c (start c slots k).
Proof. intros c slots k H. cbn in H. lia. Qed.

Lemma one_start : forall c slots k j, (is_sync c = false /\ j = 0%nat) \/ (is_sync c = true /\ (j < k)%nat) ->
  one_st c j (start c slots k).
Proof.
  intros c slots k j H. split; [apply rel_start|]. constructor.
  - intros i u U C. destruct (start_thr _ _ _ _ _ U) as [(-> & SY & ->)| ->]; [|discriminate].
    destruct H as [[_ ->]|[H _]]; congruence.
  - cbn. lia.
  - intros t T. destruct (start_thr _ _ _ _ _ T) as [(_ & _ & ->)| ->]; cbn; auto.
  - unfold start. cbn [ths]. destruct H as [[-> ->]|[-> H]].
    + eexists. reflexivity.
    + exists (mkThr Idle [] 0). apply nth_error_repeat. assumption.
Qed.

Lemma reach_one : forall c slots k ls s, cfg_ok c -> blank c slots -> is_sync c = false ->
  reaches c slots k ls s -> no_lap c (start c slots k) ls -> no_restart ls ->
  inv_st c s /\ one_st c 0 s.
Proof.
  intros c slots k ls s C B SY R NL NR.
  destruct (run_ind c any_but_clean (one_st c 0) ltac:(destruct C; lia)
    ltac:(intros H; apply H; reflexivity)) with (ls := ls) (s := start c slots k) (s' := s)
    as (A & _ & D); auto.
  - intros s0 l s1 IV C3 Q F NC E _. eapply one_step; try eassumption; [destruct C; lia|auto].
  - apply inv_start; assumption.
  - cbn. discriminate.
  - apply one_start. auto.
  - apply no_restart_forall. assumption.
Qed.

Lemma reach_one_sync : forall c slots k ls s j, cfg_ok c -> blank c slots -> is_sync c = true -> (j < k)%nat ->
  reaches c slots k ls s -> no_lap c (start c slots k) ls -> Forall (only j) ls ->
  inv_st c s /\ one_st c j s.
Proof.
  intros c slots k ls s j C B SY J R NL NR.
  destruct (run_ind c (only j) (one_st c j) ltac:(destruct C; lia)
    ltac:(cbn; auto)) with (ls := ls) (s := start c slots k) (s' := s)
    as (A & _ & D); auto.
  - intros s0 l s1 IV C3 Q F NC E _. eapply one_step; try eassumption; [destruct C; lia| |auto].
    intros ->. contradiction.
  - apply inv_start; assumption.
  - cbn. discriminate.
  - apply one_start. auto.
Qed.

(* what was dispatched, from the positions *)
Lemma outs_eq : forall c (out : list (Z * text)) held n k,
  map fst out = map Z.of_nat (seq k n) ->
  (forall a x, In (a, x) out -> exists i m, (if a <? 0 then None else nth_error held (Z.to_nat a)) = Some (i, m) /\ x = line c m) ->
  map snd out = map (fun e : nat * text => line c (snd e)) (firstn n (skipn k held)).
Proof.
  intros c out. induction out as [|[a x] out IH]; intros held [|n] k E H; try discriminate; [reflexivity|].
  cbn [map seq fst] in E. injection E as -> E.
  destruct (H (Z.of_nat k) x (or_introl eq_refl)) as (i & m & A & ->).
  destruct (Z.of_nat k <? 0) eqn:Q; [lia|]. rewrite Nat2Z.id in A.
  specialize (IH held n (S k) E ltac:(intros; apply H; right; assumption)).
  cbn [map snd]. rewrite IH.
  assert (SK : skipn k held = (i, m) :: skipn (S k) held).
  { clear - A. revert held A. induction k as [|k IH]; intros [|y l] A; try discriminate; cbn in *.
    - congruence.
    - apply IH. assumption. }
  rewrite SK. reflexivity.
Qed.

Lemma one_out : forall c k s t, inv_st c s -> one_st c k s -> nth_error (ths s) k = Some t ->
  map snd (g_out (gh s)) =
    map (fun e => line c (snd e)) (firstn (Z.to_nat (gP (gh s) - in_read t)) (g_held (gh s))).
Proof.
  intros c k s t IV [_ ON] T. destruct (o_thr _ _ _ _ _ ON t T) as (_ & O & _).
  rewrite (outs_eq c (g_out (gh s)) (g_held (gh s)) (Z.to_nat (gP (gh s) - in_read t)) 0 O (i_outs _ _ _ _ IV)).
  reflexivity.
Qed.
