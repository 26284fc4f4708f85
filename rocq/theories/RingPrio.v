(* The byte counter of PushChannel with one logging thread; counters over all
   schedules; single-threaded sync channels; stopped channels. *)
From Coq Require Import ZArith List Bool Lia ZifyBool ZifyNat ZifyN Permutation.
From Verif Require Import Base BaseFacts LoggerState Ring RingSpec RingInv RingProofs RingLive RingRun RingQuiet.
Import ListNotations.
Open Scope Z_scope.

Lemma total_concat : forall c l, total c l = zlen (concat (map (fun e => line c (snd e)) l)).
Proof.
  intros c l. induction l as [|e l IH]; [reflexivity|]. cbn [total map concat].
  unfold zlen in *. rewrite app_length. lia.
Qed.

(* ---- one logging thread ---- *)
Definition prod_pc (t : thr) : bool :=
  match t_pc t with Idle => false | _ => negb (cons_pc t) end.
Definition in_prio (t : thr) : Z :=
  match own t with Some _ => 1 | None => match t_pc t with PPrio _ => 1 | _ => 0 end end.

Definition prod_ok (c : rcfg) (s : shared) (g : ghost) (t : thr) : Prop :=
  (forall a, own t = Some a -> a = gH g - 1) /\
  (forall i, t_pc t = PPrio i -> i = ix c (gH g - 1) /\
     exists j m, held_at g (gH g - 1) = Some (j, m) /\ s_text (at_ c s (gH g - 1)) = line c m) /\
  n_prio s = total c (firstn (Z.to_nat (gH g - in_prio t)) (g_held g)).

Record sole (c : rcfg) (j : nat) (s : shared) (g : ghost) (l : list thr) : Prop := mkSole {
  so_only : forall i t, nth_error l i = Some t -> prod_pc t = true -> i = j;
  so_thr : forall t, nth_error l j = Some t -> prod_ok c s g t
}.

(* a thread that is not inside HoldChannel..PushChannel *)
Lemma rest_frame : forall c s g l i t s' g' t',
  0 < n_ring c -> inv c s g l -> nth_error l i = Some t -> prod_pc t = false ->
  tstep c i s g t = Some (s', g', t') ->
  gH g' = gH g /\ g_held g' = g_held g /\ n_prio s' = n_prio s /\ prod_pc t' = false /\
  forall a, s_text (at_ c s' a) = s_text (at_ c s a).
Proof.
  intros c s g l i t s' g' t' N IV T CP E.
  pose proof (i_thr _ _ _ _ IV i t T) as K. pose proof (i_len _ _ _ _ IV) as LN.
  destruct t as [p m a]. unfold tstep in E. unfold thr_ok, prod_pc, cons_pc in *.
  destruct p; tpc; try discriminate; try (solve [brk E ltac:(repeat split)]).
  - destruct K as (-> & _). injection E as <- <- <-. repeat split. intros b.
    unfold at_. destruct (Z.eq_dec (ix c a) (ix c b)) as [Q|Q].
    + rewrite Q. rewrite get_put_same; [reflexivity|]. pose proof (ix_bound c b N). lia.
    + rewrite get_put_other; [reflexivity| | |congruence]; pose proof (ix_bound c b N); pose proof (ix_bound c a N); lia.
Qed.

Lemma sole_tstep : forall c j s g l i t s' g' t',
  0 < n_ring c -> inv c s g l -> nth_error l i = Some t -> fresh_thr c g t -> running s = true ->
  tstep c i s g t = Some (s', g', t') -> sole c j s g l -> sole c j s' g' (upd l i t').
Proof.
  intros c j s g l i t s' g' t' N IV T F RU E [O1 O2].
  destruct (prod_pc t) eqn:PT.
  - assert (i = j) by (apply (O1 i t); assumption). subst i. constructor.
    { intros i u U C. destruct (upd_inv _ _ _ _ _ U) as [[-> ->]|[_ U']]; [reflexivity|eauto]. }
    intros u U. rewrite (upd_hit l j t t' T) in U. injection U as <-.
    pose proof (i_thr _ _ _ _ IV j t T) as K. pose proof (i_ord _ _ _ _ IV) as OR.
    pose proof (i_held _ _ _ _ IV) as HL. pose proof (i_len _ _ _ _ IV) as LN.
    destruct (O2 t T) as (A & B & C). clear O1 O2.
    destruct t as [p m a]. unfold tstep in E.
    unfold thr_ok, fresh_thr, owned, prod_ok, in_prio, own, prod_pc, cons_pc in *. tpc.
    destruct p; tpc; try discriminate;
      try (solve [brk E ltac:(split; [intros ? X; discriminate X|split; [intros ? X; discriminate X|assumption]])]).
    + (* HCas *) destruct K as (-> & K1 & K2). destruct (x_hold s =? ix c a); injection E as <- <- <-; tpc;
        (split; [intros ? X; first [discriminate X | injection X as <-; cbn [add_held put_g gH]; lia]|]);
        (split; [intros ? X; discriminate X|]); [|assumption].
      cbn [add_held put_g gH g_held put_idx n_prio]. rewrite C. unfold zlen in HL.
      rewrite firstn_app_le by lia. do 2 f_equal. lia.
    + injection E as <- <- <-. tpc. split; [assumption|]. split; [intros ? X; discriminate X|assumption].
    + injection E as <- <- <-. tpc. split; [assumption|]. split; [intros ? X; discriminate X|assumption].
    + injection E as <- <- <-. tpc. split; [assumption|]. split; [intros ? X; discriminate X|assumption].
    + destruct rest; injection E as <- <- <-; tpc; (split; [assumption|]; split; [intros ? X; discriminate X|assumption]).
    + rewrite RU in E. injection E as <- <- <-. tpc. split; [assumption|]. split; [intros ? X; discriminate X|assumption].
    + injection E as <- <- <-. tpc. split; [assumption|]. split; [intros ? X; discriminate X|assumption].
    + (* PMark *) destruct K as (-> & (K1 & K2 & K3) & K4). specialize (A a eq_refl). injection E as <- <- <-. tpc.
      split; [intros ? X; discriminate X|]. split; [|assumption].
      intros i X. injection X as <-. rewrite <- A. split; [reflexivity|]. exists j, m. split; [assumption|].
      rewrite at_put_same by assumption. exact K4.
    + (* PPrio *) destruct (B i eq_refl) as (-> & j' & m' & B1 & B2). injection E as <- <- <-. tpc.
      split; [intros ? X; discriminate X|]. split; [intros ? X; discriminate X|].
      cbn [put_n n_prio]. change (get s (ix c (gH g - 1))) with (at_ c s (gH g - 1)). rewrite B2, C.
      unfold held_at in B1. destruct (gH g - 1 <? 0) eqn:Q; [discriminate|].
      replace (Z.to_nat (gH g - 0)) with (S (Z.to_nat (gH g - 1))) by lia.
      rewrite (firstn_S_nth _ _ _ B1), total_app. cbn [total snd]. lia.
  - destruct (rest_frame c s g l i t s' g' t' N IV T PT E) as (F1 & F2 & F3 & F4 & F5).
    assert (HA : forall a, held_at g' a = held_at g a) by (intros; unfold held_at; rewrite F2; reflexivity).
    assert (KEEP : forall u, prod_ok c s g u -> prod_ok c s' g' u).
    { intros u (A & B & C). split; [rewrite F1; assumption|]. split; [|rewrite F1, F2, F3; assumption].
      intros k X. destruct (B k X) as (B1 & B2). rewrite F1, F5, HA. auto. }
    constructor.
    + intros k u U C. destruct (upd_inv _ _ _ _ _ U) as [[-> ->]|[_ U']]; [congruence|eauto].
    + intros u U. destruct (Nat.eq_dec j i) as [->|D].
      * rewrite (upd_hit l i t t' T) in U. injection U as <-.
        destruct (KEEP t (O2 t T)) as (A & B & C).
        assert (NP : forall v, prod_pc v = false -> own v = None /\ forall k, t_pc v <> PPrio k).
        { intros v V. unfold prod_pc, cons_pc, own in *. destruct (t_pc v); try discriminate; split; congruence. }
        destruct (NP t PT) as [N1 N2]. destruct (NP t' F4) as [N3 N4].
        assert (I0 : forall v, own v = None -> (forall k, t_pc v <> PPrio k) -> in_prio v = 0).
        { intros v V1 V2. unfold in_prio. rewrite V1. destruct (t_pc v); try reflexivity. exfalso. apply (V2 i0). reflexivity. }
        split; [rewrite N3; discriminate|]. split; [intros k X; exfalso; apply (N4 k X)|].
        rewrite (I0 t' N3 N4). rewrite (I0 t N1 N2) in C. assumption.
      * rewrite upd_other in U by lia. apply KEEP. apply O2. assumption.
Qed.

Definition logs_by (j : nat) (l : label) : Prop :=
  match l with LLog i _ => i = j | LRun _ => True | _ => False end.

Definition sole_st (c : rcfg) (j : nat) (s : st) : Prop := live c s /\ sole c j (sh s) (gh s) (ths s).

Lemma sole_step : forall c j s l s', 0 < n_ring c -> inv_st c s -> sole_st c j s ->
  fresh c s l -> logs_by j l -> step c s l = Some s' -> sole_st c j s'.
Proof.
  intros c j s l s' N IV [LV SO] F O E. split.
  { eapply live_step; try eassumption. destruct l; try contradiction; exact I. }
  destruct l as [tid msg|tid| | | |]; try contradiction.
  - destruct (step_log_inv _ _ _ _ _ E) as (t & T & P & ->). cbn in O. subst tid. cbn [sh gh ths].
    destruct SO as [O1 O2]. constructor.
    + intros i u U C. destruct (upd_inv _ _ _ _ _ U) as [[-> ->]|[_ U']]; [reflexivity|eauto].
    + intros u U. rewrite (upd_hit _ _ _ _ T) in U. injection U as <-. destruct (O2 t T) as (A & B & C).
      split; [intros ? X; discriminate X|]. split; [intros ? X; discriminate X|].
      unfold in_prio, own in *. rewrite P in C. exact C.
  - destruct (step_run_inv _ _ _ _ E) as (t & x & g & t' & T & TS & ->). cbn [sh gh ths].
    eapply sole_tstep; try eassumption; [apply F; assumption|apply (l_run _ _ LV)].
Qed.

Lemma reach_sole : forall c slots k ls s j, cfg_ok c -> blank c slots ->
  reaches c slots k ls s -> no_lap c (start c slots k) ls -> Forall (logs_by j) ls ->
  inv_st c s /\ sole_st c j s.
Proof.
  intros c slots k ls s j C B R NL NR.
  destruct (run_ind c (logs_by j) (sole_st c j) ltac:(destruct C; lia) ltac:(cbn; auto))
    with (ls := ls) (s := start c slots k) (s' := s) as (A & _ & D); auto.
  - intros s0 l s1 IV C3 Q F NC E _. eapply sole_step; try eassumption. destruct C; lia.
  - apply inv_start; assumption.
  - cbn. discriminate.
  - split; [apply live_start|]. constructor.
    + intros i t T P. destruct (start_thr _ _ _ _ _ T) as [(_ & _ & ->)| ->]; discriminate.
    + intros t T. destruct (start_thr _ _ _ _ _ T) as [(_ & _ & ->)| ->];
        (split; [intros ? X; discriminate X|split; [intros ? X; discriminate X|reflexivity]]).
Qed.

(* ---- counters over all schedules, restarts included ---- *)
Record tally (c : rcfg) (s : st) : Prop := mkTally {
  ta_n : counts_st s;
  ta_held : zlen (g_held (gh s)) = gH (gh s);
  ta_done : is_sync c = false -> 2 <= x_ctl (sh s) ->
            forall t, nth_error (ths s) 0 = Some t -> t_pc t = Done
}.

Lemma held_tstep : forall c i s g t s' g' t', tstep c i s g t = Some (s', g', t') ->
  zlen (g_held g) = gH g -> zlen (g_held g') = gH g'.
Proof.
  intros c i s g t s' g' t' E H.
  assert (ZA : forall e, zlen (g_held g ++ [e]) = gH g + 1) by (intros; unfold zlen in *; rewrite app_length; cbn; lia).
  destruct t as [p m a]. unfold tstep in E. destruct p; tpc; try discriminate;
    solve [brk E ltac:(assumption || apply ZA)].
Qed.

Lemma tally_step : forall c s l s', tally c s -> step c s l = Some s' -> tally c s'.
Proof.
  intros c s l s' [A B C] E.
  destruct l as [tid msg|tid| | | |].
  - pose proof E as E0. destruct (step_log_inv _ _ _ _ _ E) as (t & T & P & ->). constructor; try assumption.
    + destruct A as [A1 A2 A3 A4]. constructor; cbn [sh gh ths]; rewrite (cnt_upd _ _ _ _ _ T);
        unfold c_hold, c_push, c_proc, c_read in *; rewrite P; cbn [t_pc add_started gH gW gP g_out]; lia.
    + cbn [sh ths]. intros SY X u U. destruct (upd_inv _ _ _ _ _ U) as [[<- ->]|[_ U']]; [|eauto].
      rewrite (C SY X t T) in P. discriminate.
  - destruct (step_run_inv _ _ _ _ E) as (t & x & g & t' & T & TS & ->). constructor; cbn [sh gh ths].
    + unfold counts_st. cbn [sh gh ths]. eapply counts_tstep; eassumption.
    + eapply held_tstep; eassumption.
    + intros SY X u U. rewrite (ctl_tstep _ _ _ _ _ _ _ _ TS) in X.
      destruct (upd_inv _ _ _ _ _ U) as [[<- ->]|[_ U']]; [|eauto].
      unfold tstep in TS. rewrite (C SY X t T) in TS. discriminate.
  - destruct (ctl_step_inv c s LStop s' (or_introl eq_refl) E) as (G & T & _ & E1 & E2 & E3 & _).
    constructor.
    + destruct A as [A1 A2 A3 A4]. constructor; rewrite ?G, ?T, ?E1, ?E2, ?E3; assumption.
    + rewrite G. assumption.
    + cbn [step] in E. destruct (x_ctl (sh s) =? 0); [|discriminate]. injection E as <-. cbn [sh put_ctl x_ctl]. lia.
  - destruct (ctl_step_inv c s LJoin s' (or_intror eq_refl) E) as (G & T & _ & E1 & E2 & E3 & _).
    constructor.
    + destruct A as [A1 A2 A3 A4]. constructor; rewrite ?G, ?T, ?E1, ?E2, ?E3; assumption.
    + rewrite G. assumption.
    + intros SY _ u U. cbn [step] in E. destruct (x_ctl (sh s) =? 1); [|discriminate]. rewrite SY in E.
      rewrite T in U. rewrite U in E. destruct (t_pc u); try discriminate. reflexivity.
  - cbn [step] in E. destruct (x_ctl (sh s) =? 2) eqn:Q; [|discriminate]. injection E as <-.
    assert (W : forall fuel x r, n_hold (wipe fuel c x r) = n_hold x /\ n_push (wipe fuel c x r) = n_push x /\
              n_proc (wipe fuel c x r) = n_proc x).
    { induction fuel as [|fuel IH]; intros x r; [auto|]. cbn [wipe]. destruct (r =? x_write x); [auto|].
      destruct (IH (put x r (mkSlot MARK_INVALID (s_text (get x r)))) (nxt c r)) as (-> & -> & ->). auto. }
    destruct (W (Z.to_nat (n_ring c)) (sh s) (x_read (sh s))) as (W1 & W2 & W3).
    constructor; cbn [sh gh ths]; try assumption.
    + destruct A as [A1 A2 A3 A4]. constructor; cbn [sh gh ths clean put_ctl put_idx n_hold n_push n_proc];
        rewrite ?W1, ?W2, ?W3; assumption.
    + intros SY _. apply C; [assumption|lia].
  - cbn [step] in E. destruct (x_ctl (sh s) =? 3) eqn:Q; [|discriminate]. destruct (is_sync c) eqn:SY.
    + injection E as <-. constructor; cbn [sh gh ths]; try assumption.
      * destruct A as [A1 A2 A3 A4]. constructor; assumption.
      * intros X. congruence.
    + destruct (nth_error (ths s) 0) as [t|] eqn:T; [|discriminate]. injection E as <-.
      specialize (C eq_refl ltac:(lia) t eq_refl).
      constructor; cbn [sh gh ths]; try assumption.
      * destruct A as [A1 A2 A3 A4]. constructor; cbn [sh gh ths put_ctl n_hold n_push n_proc];
          rewrite (cnt_upd _ _ _ _ _ T); unfold c_hold, c_push, c_proc, c_read in *; rewrite C;
          cbn [go t_pc]; lia.
      * intros _ X. cbn in X. lia.
Qed.

Lemma reach_tally : forall c slots k ls s, reaches c slots k ls s -> tally c s.
Proof.
  intros c slots k ls s R.
  assert (G : forall ls s s', tally c s -> run c s ls = Some s' -> tally c s').
  { clear. induction ls as [|l ls IH]; intros s s' T R; cbn [run] in R.
    - injection R as <-. assumption.
    - destruct (step c s l) as [s1|] eqn:E; [|discriminate]. eapply IH; [|eassumption].
      eapply tally_step; eassumption. }
  apply (G ls (start c slots k) s); [|assumption]. constructor.
  - apply counts_start.
  - reflexivity.
  - cbn. lia.
Qed.

(* ---- schedules of one thread ---- *)
Lemma only_others : forall c j ls s s', Forall (only j) ls -> run c s ls = Some s' ->
  forall i, i <> j -> nth_error (ths s') i = nth_error (ths s) i.
Proof.
  intros c j ls. induction ls as [|l ls IH]; intros s s' O R i D; cbn [run] in R.
  - injection R as <-. reflexivity.
  - destruct (step c s l) as [s1|] eqn:E; [|discriminate]. apply Forall_cons_iff in O. destruct O as [OL O].
    rewrite (IH s1 s' O R i D). destruct l as [tid msg|tid| | | |]; cbn in OL; try contradiction.
    + subst tid. destruct (step_log_inv _ _ _ _ _ E) as (t & T & P & ->). cbn [ths]. apply upd_other. lia.
    + subst tid. destruct (step_run_inv _ _ _ _ E) as (t & x & g & t' & T & TS & ->). cbn [ths]. apply upd_other. lia.
    + destruct (ctl_step_inv c s LStop s1 (or_introl eq_refl) E) as (_ & -> & _). reflexivity.
    + destruct (ctl_step_inv c s LJoin s1 (or_intror eq_refl) E) as (_ & -> & _). reflexivity.
Qed.

(* ---- a stopped async channel stays stopped ---- *)
Record off (c : rcfg) (j : nat) (h0 : list text) (s : st) : Prop := mkOff {
  f_state : running (sh s) = false;
  f_null : x_state (sh s) = CHANNEL_STATE_NULL ->
           forall t, nth_error (ths s) 0 = Some t -> t_pc t = Done;
  f_ctl : x_ctl (sh s) = 1 \/ x_ctl (sh s) = 2;
  f_wr : wr_st c s;
  f_others : forall i t, i <> 0%nat -> nth_error (ths s) i = Some t -> cons_pc t = false;
  f_thr : forall t, nth_error (ths s) j = Some t ->
          match t_pc t with Idle | HState | HOut => True | _ => False end;
  f_held : of_thread j (g_held (gh s)) = h0
}.

Lemma off_step : forall c j h0 s l s', is_sync c = false -> off c j h0 s -> l <> LClean ->
  step c s l = Some s' -> off c j h0 s'.
Proof.
  intros c j h0 s l s' SY [A1 A2 A3 A4 A4' A5 A6] NC E.
  pose proof (wr_step c s l s' ltac:(lia) NC A4 E) as WR.
  destruct l as [tid msg|tid| | | |].
  - destruct (step_log_inv _ _ _ _ _ E) as (t & T & P & ->). constructor; cbn [sh gh ths]; try assumption.
    + intros X u U. destruct (upd_inv _ _ _ _ _ U) as [[<- ->]|[_ U']]; [|eauto].
      rewrite (A2 X t T) in P. discriminate.
    + intros i u D U. destruct (upd_inv _ _ _ _ _ U) as [[-> ->]|[_ U']]; [reflexivity|eauto].
    + intros u U. destruct (upd_inv _ _ _ _ _ U) as [[-> ->]|[_ U']]; [exact I|exact (A5 u U')].
  - destruct (step_run_inv _ _ _ _ E) as (t & x & g & t' & T & TS & ->).
    assert (NU : forall i u, i <> 0%nat -> nth_error (upd (ths s) tid t') i = Some u -> cons_pc u = false).
    { intros i u D U. destruct (upd_inv _ _ _ _ _ U) as [[-> ->]|[_ U']]; [|eauto].
      eapply async_prod; try eassumption. eauto. }
    assert (ST : (x_state x = x_state (sh s) \/ x_state x = CHANNEL_STATE_FINISH)).
    { clear - TS A2 A4' T. destruct t as [p m a]. unfold tstep in TS. tpc.
      destruct p; tpc; try discriminate; try (solve [brk TS ltac:(left; reflexivity)]).
      - destruct tid as [|tid]; [|specialize (A4' (S tid) _ ltac:(discriminate) T); discriminate].
        destruct (x_state (sh s) =? CHANNEL_STATE_NULL) eqn:Q; injection TS as <- <- <-; [|auto].
        apply Z.eqb_eq in Q. specialize (A2 Q _ T). discriminate.
      - injection TS as <- <- <-. right. reflexivity. }
    constructor; cbn [sh gh ths]; try assumption.
    + unfold running in *. destruct ST as [-> | ->]; [assumption|reflexivity].
    + intros X u U. destruct ST as [Y|Y]; rewrite Y in X; [|discriminate].
      destruct (upd_inv _ _ _ _ _ U) as [[<- ->]|[_ U']]; [|eauto].
      unfold tstep in TS. rewrite (A2 X t T) in TS. discriminate.
    + rewrite (ctl_tstep _ _ _ _ _ _ _ _ TS). assumption.
    + intros u U. destruct (upd_inv _ _ _ _ _ U) as [[-> ->]|[_ U']]; [|exact (A5 u U')].
      specialize (A5 t T). clear - A5 TS A1. destruct t as [p m a]. unfold tstep in TS. tpc.
      destruct p; try contradiction; try discriminate; tpc; rewrite A1 in TS; injection TS as <- <- <-; exact I.
    + destruct (Nat.eq_dec tid j) as [->|D].
      * specialize (A5 t T). assert (G : g = gh s); [|rewrite G; assumption].
        clear - A5 TS A1. destruct t as [p m a]. unfold tstep in TS. tpc.
        destruct p; try contradiction; try discriminate; tpc; rewrite A1 in TS; injection TS as <- <- <-; reflexivity.
      * destruct (pending_step _ _ _ _ _ _ _ _ TS) as (_ & [(-> & _)|(-> & P1 & P2)]); [assumption|].
        rewrite of_thread_app, of_thread_one. apply Nat.eqb_neq in D. rewrite D, app_nil_r. assumption.
  - cbn [step] in E. destruct (x_ctl (sh s) =? 0) eqn:Q; [lia|discriminate].
  - cbn [step] in E. destruct (x_ctl (sh s) =? 1) eqn:Q; [|discriminate]. rewrite SY in E.
    destruct (nth_error (ths s) 0) as [t0|] eqn:T0; [|discriminate].
    destruct (t_pc t0) eqn:P; try discriminate. injection E as <-.
    constructor; cbn [sh gh ths]; try assumption.
    + reflexivity.
    + intros _ u U. rewrite T0 in U. injection U as <-. assumption.
    + right. reflexivity.
  - congruence.
  - cbn [step] in E. destruct (x_ctl (sh s) =? 3) eqn:Q; [lia|discriminate].
Qed.
