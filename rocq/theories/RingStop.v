(* Stopping an asynchronous channel that no log statement is using. *)
From Coq Require Import ZArith List Bool Lia ZifyBool ZifyNat ZifyN Permutation.
From Verif Require Import Base BaseFacts LoggerState Ring RingSpec RingInv RingProofs RingLive RingRun RingQuiet.
Import ListNotations.
Open Scope Z_scope.

Record halt (c : rcfg) (held0 : list (nat * text)) (s : st) : Prop := mkHalt {
  h_state : running (sh s) = false;
  h_null : x_state (sh s) = CHANNEL_STATE_NULL ->
           forall t, nth_error (ths s) 0 = Some t -> t_pc t = Done;
  h_ctl : x_ctl (sh s) = 1 \/ x_ctl (sh s) = 2;
  h_others : forall i t, i <> 0%nat -> nth_error (ths s) i = Some t ->
             match t_pc t with Idle | HState | HOut => True | _ => False end;
  h_wh : gW (gh s) = gH (gh s);
  h_held : g_held (gh s) = held0;
  h_w : exists t, wok c s t
}.

Lemma halt_step : forall c held0 s l s', 0 < n_ring c -> is_sync c = false -> halt c held0 s ->
  fresh c s l -> l <> LClean -> step c s l = Some s' -> halt c held0 s'.
Proof.
  intros c held0 s l s' N SY [A1 A2 A3 A4 A5 A6 (t0 & W)] F NC E.
  pose proof (w_inv _ _ _ W) as IV. pose proof (w_one _ _ _ W) as ON.
  pose proof (w_thr _ _ _ W) as T0. pose proof (w_cons _ _ _ W) as C0.
  destruct (inv_step c s l s' N IV ltac:(lia) F NC E) as [IV' _].
  pose proof (one_step c 0 s l s' N IV ltac:(lia) ON F NC ltac:(auto) E) as ON'.
  destruct l as [tid msg|tid| | | |].
  - destruct (step_log_inv _ _ _ _ _ E) as (t & T & P & ->).
    assert (D : tid <> 0%nat).
    { intros ->. rewrite T0 in T. injection T as <-. unfold cons_pc in C0. rewrite P in C0. discriminate. }
    assert (T0' : nth_error (upd (ths s) tid (mkThr HState msg (t_snap t))) 0 = Some t0)
      by (apply upd_some with t; auto).
    constructor; cbn [sh gh ths]; try assumption.
    + intros X u U. rewrite T0' in U. injection U as <-. apply A2; assumption.
    + intros i u I U. destruct (upd_inv _ _ _ _ _ U) as [[-> ->]|[_ U']]; [exact Logic.I|exact (A4 i u I U')].
    + exists t0. constructor; try assumption. apply (w_end _ _ _ W).
  - destruct (step_run_inv _ _ _ _ E) as (t & x & g & t' & T & TS & ->).
    destruct (Nat.eq_dec tid 0) as [->|D].
    + rewrite T0 in T. injection T as <-.
      destruct (w_step c s t0 x g t' N SY W TS) as (_ & W' & (S1 & S2 & S3 & S4 & S5 & S6)).
      cbn [sh gh ths] in *.
      assert (NN : t_pc t0 <> Done -> x_state (sh s) <> CHANNEL_STATE_NULL) by (intros X Y; apply X; auto).
      assert (ND : t_pc t0 <> Done) by (intros X; unfold tstep in TS; rewrite X in TS; discriminate).
      specialize (NN ND).
      assert (XS : x_state x = x_state (sh s) \/ x_state x = CHANNEL_STATE_FINISH).
      { clear - TS NN. destruct t0 as [p m a]. unfold tstep in TS. tpc.
        destruct p; tpc; try discriminate; try (solve [brk TS ltac:(left; reflexivity)]).
        - apply Z.eqb_neq in NN. rewrite NN in TS. injection TS as <- <- <-. left. reflexivity.
        - injection TS as <- <- <-. right. reflexivity. }
      constructor; cbn [sh gh ths].
      * unfold running in *. destruct XS as [-> | ->]; [assumption|reflexivity].
      * intros X. destruct XS as [Y|Y]; rewrite Y in X; [contradiction|discriminate].
      * rewrite S5. assumption.
      * intros i u I U. rewrite S6 in U by assumption. exact (A4 i u I U).
      * lia.
      * congruence.
      * exists t'. assumption.
    + pose proof (A4 tid t D T) as P.
      assert (X : x = sh s /\ g = gh s /\ match t_pc t' with Idle | HState | HOut => True | _ => False end).
      { clear - TS P A1. destruct t as [p m a]. unfold tstep in TS. tpc.
        destruct p; try contradiction; try discriminate; tpc; rewrite A1 in TS; injection TS as <- <- <-; auto. }
      destruct X as (-> & -> & P').
      assert (T0' : nth_error (upd (ths s) tid t') 0 = Some t0) by (apply upd_some with t; auto).
      constructor; cbn [sh gh ths]; try assumption.
      * intros X u U. rewrite T0' in U. injection U as <-. apply A2; assumption.
      * intros i u I U. destruct (upd_inv _ _ _ _ _ U) as [[-> ->]|[_ U']]; [exact P'|exact (A4 i u I U')].
      * exists t0. constructor; try assumption. apply (w_end _ _ _ W).
  - cbn [step] in E. destruct (x_ctl (sh s) =? 0) eqn:Q; [lia|discriminate].
  - cbn [step] in E. destruct (x_ctl (sh s) =? 1) eqn:Q; [|discriminate]. rewrite SY, T0 in E.
    destruct (t_pc t0) eqn:P; try discriminate. injection E as <-.
    constructor; cbn [sh gh ths]; try assumption.
    + reflexivity.
    + intros _ u U. rewrite T0 in U. injection U as <-. assumption.
    + right. reflexivity.
    + exists t0. constructor; try assumption. apply (w_end _ _ _ W).
  - congruence.
  - cbn [step] in E. destruct (x_ctl (sh s) =? 3) eqn:Q; [lia|discriminate].
Qed.

Lemma halt_run : forall c held0 ls s s', 0 < n_ring c -> is_sync c = false -> halt c held0 s ->
  no_lap c s ls -> no_restart ls -> run c s ls = Some s' -> halt c held0 s'.
Proof.
  intros c held0 ls. induction ls as [|l ls IH]; intros s s' N SY H NL NR R.
  - cbn in R. injection R as <-. assumption.
  - cbn [run] in R. destruct (step c s l) as [s1|] eqn:E; [|discriminate]. destruct NL as [F NL].
    apply (IH s1 s' N SY); [|exact (NL s1 E)|intros I; apply NR; right; assumption|assumption].
    eapply halt_step; try eassumption. intros ->. apply NR. left. reflexivity.
Qed.

Lemma halt_stop : forall c s s', is_sync c = false -> inv_st c s -> live c s ->
  one_st c 0 s -> wr_st c s -> quiet c s -> step c s LStop = Some s' ->
  halt c (g_held (gh s)) s'.
Proof.
  intros c s s' SY IV LV ON WR QU E.
  pose proof (quiet_published c s IV LV QU WR) as WH.
  destruct (WR SY) as (t0 & T0 & C0).
  cbn [step] in E. rewrite (l_ctl _ _ LV), SY, (l_run _ _ LV) in E. cbn [Z.eqb] in E. injection E as <-.
  constructor; cbn [sh gh ths]; try assumption; try reflexivity.
  - intros X. discriminate.
  - left. reflexivity.
  - intros i t I T. destruct (QU i t T) as [[_ ->]|P]; [contradiction|]. rewrite P. exact Logic.I.
  - exists t0. constructor; cbn [sh gh ths]; try assumption.
    + apply (inv_shared c (sh s)); [assumption|apply state_ctl_ring].
    + split.
      * unfold rel_st. cbn [sh gh ths]. apply (q_rel_shared c (sh s)); [apply ON|apply state_ctl_ring].
      * apply (one_shared c 0 (sh s)); [apply ON|apply state_ctl_ring|reflexivity|reflexivity].
    + pose proof (l_end _ _ LV 0%nat t0 T0) as EN. unfold ended in EN. destruct (t_pc t0); try exact I; discriminate.
Qed.

(* the writer's last steps *)
Definition fin_weight (t : thr) : nat :=
  match t_pc t with
  | CLoad => 6 | CWrite _ => 5 | CNull => 4 | CLoop => 3 | CRest => 2 | CFin => 1 | _ => 0
  end%nat.

Lemma w_finish : forall c, 0 < n_ring c -> is_sync c = false ->
  forall w s t, (fin_weight t <= w)%nat -> wok c s t -> drained s t -> running (sh s) = false ->
  (x_state (sh s) = CHANNEL_STATE_NULL -> t_pc t = Done) ->
  exists n s' t', run c s (repeat (LRun 0) n) = Some s' /\ wok c s' t' /\ same_prod s s' /\ t_pc t' = Done.
Proof.
  intros c N SY w. induction w as [|w IH]; intros s t FW W DR NR NN.
  - exists 0%nat, s, t. split; [reflexivity|]. split; [assumption|]. split; [repeat split; reflexivity|].
    destruct DR as [_ DR]. unfold fin_weight, resting in *. destruct (t_pc t); try discriminate; try lia. reflexivity.
  - destruct (t_pc t) eqn:P; try (destruct DR as [_ DR]; unfold resting in DR; rewrite P in DR; discriminate).
    7:{ exists 0%nat, s, t. split; [reflexivity|]. split; [assumption|]. split; [repeat split; reflexivity|]. assumption. }
    all: assert (XX : exists x g t', tstep c 0 (sh s) (gh s) t = Some (x, g, t') /\
           gP g = gP (gh s) /\ running x = false /\ (x_state x = CHANNEL_STATE_NULL -> t_pc t' = Done) /\
           resting t' = true /\ (fin_weight t' <= w)%nat);
      [| destruct XX as (x & g & t' & E & X1 & X2 & X3 & X4 & X5);
         destruct (w_step c s t x g t' N SY W E) as (ST & W' & SP);
         destruct SP as (S1 & S2 & S3); assert (SP : same_prod s (mkSt x g (upd (ths s) 0 t'))) by (split; [|split]; assumption);
         destruct (IH (mkSt x g (upd (ths s) 0 t')) t' X5 W' ltac:(split; [cbn [gh]; cbn [gh] in S2; destruct DR; lia|assumption]) X2 X3)
           as (n & s2 & t2 & R & W2 & SP2 & D2);
         exists (S n), s2, t2; split; [cbn [repeat run]; rewrite ST; assumption|]; split; [assumption|];
         split; [eapply same_prod_trans; eassumption|assumption] ].
    all: destruct W as [IV ON T CP EN]; pose proof (i_thr _ _ _ _ IV 0%nat t T) as K;
      destruct (o_thr _ _ _ _ _ (proj2 ON) t T) as (CK & _);
      destruct (drained_rest c s t ltac:(constructor; assumption) DR) as (R1 & R2 & _);
      destruct t as [p m a]; tpc; subst p; unfold tstep, thr_ok, cons_ok, fin_weight in *; tpc.
    + do 3 eexists. split; [reflexivity|]. repeat split; try assumption; cbn; lia || auto; try (intros X; specialize (NN X); discriminate).
    + destruct K as [-> K]. rewrite (i_write _ _ _ _ IV), CK, R2, Z.eqb_refl.
      do 3 eexists. split; [reflexivity|]. repeat split; try assumption; cbn; lia || auto; try (intros X; specialize (NN X); discriminate).
    + destruct (x_state (sh s) =? CHANNEL_STATE_NULL) eqn:Q.
      { apply Z.eqb_eq in Q. specialize (NN Q). discriminate. }
      do 3 eexists. split; [reflexivity|]. repeat split; try assumption; cbn; lia || auto; try (intros X; specialize (NN X); discriminate).
    + rewrite SY, NR. do 3 eexists. split; [reflexivity|]. repeat split; try assumption; cbn; lia || auto; try (intros X; specialize (NN X); discriminate).
    + rewrite (i_write _ _ _ _ IV), (i_read _ _ _ _ IV). replace (gR (gh s)) with (gW (gh s)) by lia. rewrite Z.eqb_refl.
      do 3 eexists. split; [reflexivity|]. repeat split; try assumption; cbn; lia || auto; try (intros X; specialize (NN X); discriminate).
    + do 3 eexists. split; [reflexivity|]. repeat split; try assumption; cbn; lia || auto; try (intros X; discriminate).
Qed.

Lemma run_app : forall c a s b, run c s (a ++ b) = match run c s a with Some s' => run c s' b | None => None end.
Proof.
  intros c a. induction a as [|l a IH]; intros s b; [reflexivity|]. cbn [app run].
  destruct (step c s l); [apply IH|reflexivity].
Qed.

Lemma no_lap_app : forall c a s b, no_lap c s (a ++ b) ->
  no_lap c s a /\ (forall s', run c s a = Some s' -> no_lap c s' b).
Proof.
  intros c a. induction a as [|l a IH]; intros s b H.
  - split; [exact I|]. intros s' E. cbn in E. injection E as <-. assumption.
  - cbn [app no_lap] in H. destruct H as [F H]. split.
    + split; [assumption|]. intros s' E. apply (IH s' b (H s' E)).
    + intros s' E. cbn [run] in E. destruct (step c s l) as [s1|] eqn:Q; [|discriminate].
      apply (IH s1 b (H s1 eq_refl)). assumption.
Qed.

(* from any point after the stop the writer, run alone, ends *)
Lemma halt_ends : forall c held0 s, 0 < n_ring c -> is_sync c = false -> halt c held0 s ->
  exists n s' t', run c s (repeat (LRun 0) n) = Some s' /\ nth_error (ths s') 0 = Some t' /\ t_pc t' = Done.
Proof.
  intros c held0 s N SY H. destruct (h_w _ _ _ H) as (t & W).
  destruct (Z.eq_dec (x_state (sh s)) CHANNEL_STATE_NULL) as [X|X].
  { exists 0%nat, s, t. split; [reflexivity|]. split; [apply (w_thr _ _ _ W)|].
    apply (h_null _ _ _ H X). apply (w_thr _ _ _ W). }
  pose proof (weight_pos c s t W) as WP. pose proof (i_ord _ _ _ _ (w_inv _ _ _ W)) as OR.
  destruct (w_drain c N SY (Z.to_nat (gW (gh s) - gP (gh s))) (Z.to_nat (weight c s t)) s t W ltac:(lia) ltac:(lia))
    as (n & s1 & t1 & R1 & W1 & _ & D1 & X1).
  specialize (X1 X).
  destruct (w_finish c N SY (fin_weight t1) s1 t1 (le_n _) W1 D1) as (m & s2 & t2 & R2 & W2 & _ & P2).
  - unfold running. rewrite X1. apply (h_state _ _ _ H).
  - intros Y. congruence.
  - exists (n + m)%nat, s2, t2. split; [|split; [apply (w_thr _ _ _ W2)|assumption]].
    rewrite repeat_app, run_app, R1. assumption.
Qed.

(* when the writer has ended everything is delivered *)
Lemma halt_done : forall c held0 s t, 0 < n_ring c -> is_sync c = false -> halt c held0 s ->
  nth_error (ths s) 0 = Some t -> t_pc t = Done ->
  map snd (g_out (gh s)) = map (fun e => line c (snd e)) held0 /\
  x_read (sh s) = x_hold (sh s) /\ x_proc (sh s) = x_hold (sh s) /\ x_write (sh s) = x_hold (sh s) /\
  blank c (x_slots (sh s)).
Proof.
  intros c held0 s t N SY H T P. destruct (h_w _ _ _ H) as (t0 & W).
  pose proof (w_thr _ _ _ W) as T0. rewrite T in T0. injection T0 as <-.
  pose proof (w_end _ _ _ W) as EN. rewrite P in EN.
  destruct (drained_rest c s t W ltac:(split; [assumption|unfold resting; rewrite P; reflexivity])) as (R1 & R2 & R3).
  pose proof (w_inv _ _ _ W) as IV. pose proof (h_wh _ _ _ H) as WH.
  pose proof (i_held _ _ _ _ IV) as HL. pose proof (i_len _ _ _ _ IV) as LN.
  split; [|split; [|split; [|split; [|split]]]].
  - rewrite R3. rewrite firstn_all2 by (unfold zlen in HL; lia). rewrite (h_held _ _ _ H). reflexivity.
  - rewrite (i_read _ _ _ _ IV), (i_hold _ _ _ _ IV). f_equal. lia.
  - rewrite (i_proc _ _ _ _ IV), (i_hold _ _ _ _ IV). f_equal. lia.
  - rewrite (i_write _ _ _ _ IV), (i_hold _ _ _ _ IV). f_equal. lia.
  - assumption.
  - apply Forall_forall. intros x X. apply In_nth with (d := dslot) in X. destruct X as (n & L & <-).
    (* slot n is the slot of some position in [H, R + N) *)
    set (h := gH (gh s)) in *. set (z := Z.of_nat n).
    assert (ZB : 0 <= z < n_ring c) by (unfold zlen in LN; lia).
    pose (a := h + (z - h) mod n_ring c).
    assert (AB : h <= a < h + n_ring c) by (unfold a; pose proof (Z.mod_pos_bound (z - h) (n_ring c) N); lia).
    assert (IA : ix c a = z).
    { unfold ix, a. rewrite Zplus_mod_idemp_r. replace (h + (z - h)) with z by ring. apply Z.mod_small. assumption. }
    pose proof (i_free _ _ _ _ IV a ltac:(fold h; lia)) as M. unfold at_, get in M. rewrite IA in M.
    unfold z in M. rewrite Nat2Z.id in M. exact M.
Qed.

(* ---- what was published before the stop ---- *)
Record pubd (c : rcfg) (w0 : Z) (h0 : list (nat * text)) (s : st) : Prop := mkPubd {
  pb_one : one_st c 0 s;
  pb_wr : wr_st c s;
  pb_w : w0 <= gW (gh s);
  pb_held : exists e, g_held (gh s) = h0 ++ e;
  pb_end : forall t, nth_error (ths s) 0 = Some t ->
           match t_pc t with CFin | Done => w0 <= gP (gh s) | _ => True end
}.

Lemma tstep_mono : forall c i s g t s' g' t', tstep c i s g t = Some (s', g', t') ->
  gW g <= gW g' /\ gP g <= gP g' /\ exists e, g_held g' = g_held g ++ e.
Proof.
  intros c i s g t s' g' t' E. destruct t as [p m a]. unfold tstep in E. tpc.
  assert (Z0 : exists e, g_held g = g_held g ++ e) by (exists []; rewrite app_nil_r; reflexivity).
  destruct p; tpc; try discriminate;
    solve [brk E ltac:(cbn [add_held add_out put_g gW gP g_held]; split; [lia|split; [lia|solve [assumption | eexists; reflexivity]]])].
Qed.

Lemma pubd_step : forall c w0 h0 s l s', 0 < n_ring c -> is_sync c = false -> inv_st c s -> x_ctl (sh s) <> 3 ->
  pubd c w0 h0 s -> fresh c s l -> any_but_clean l -> step c s l = Some s' -> pubd c w0 h0 s'.
Proof.
  intros c w0 h0 s l s' N SY IV C3 [A1 A2 A3 A4 A5] F NC E.
  pose proof (one_step c 0 s l s' N IV C3 A1 F NC ltac:(auto) E) as ON'.
  pose proof (wr_step c s l s' C3 NC A2 E) as WR'.
  destruct l as [tid msg|tid| | | |].
  - destruct (step_log_inv _ _ _ _ _ E) as (t & T & P & ->). constructor; try assumption.
    cbn [ths gh]. intros u U. destruct (upd_inv _ _ _ _ _ U) as [[_ ->]|[_ U']]; [exact I|apply (A5 u U')].
  - destruct (step_run_inv _ _ _ _ E) as (t & x & g & t' & T & TS & ->).
    destruct (tstep_mono _ _ _ _ _ _ _ _ TS) as (M1 & M2 & (e & M3)). destruct A4 as (e0 & A4).
    constructor; try assumption; cbn [sh gh ths].
    + lia.
    + exists (e0 ++ e). rewrite M3, A4, app_assoc. reflexivity.
    + intros u U. destruct (upd_inv _ _ _ _ _ U) as [[<- ->]|[_ U']].
      * specialize (A5 t T). pose proof (i_ord _ _ _ _ IV) as OR.
        destruct t as [p m a]. unfold tstep in TS. tpc.
        destruct p; tpc; try discriminate; try (solve [brk TS ltac:(exact I || assumption)]).
        rewrite (i_write _ _ _ _ IV), (i_read _ _ _ _ IV) in TS.
        destruct (ix c (gW (gh s)) =? ix c (gR (gh s))) eqn:Q; injection TS as <- <- <-; tpc; [|exact I].
        apply Z.eqb_eq in Q. apply (ix_inj c s) in Q; try assumption; lia.
      * specialize (A5 u U'). destruct (t_pc u); try exact I; lia.
  - destruct (ctl_step_inv c s LStop s' (or_introl eq_refl) E) as (G & T & _).
    constructor; rewrite ?G, ?T; assumption.
  - destruct (ctl_step_inv c s LJoin s' (or_intror eq_refl) E) as (G & T & _).
    constructor; rewrite ?G, ?T; assumption.
  - congruence.
  - cbn [step] in E. destruct (x_ctl (sh s) =? 3) eqn:Q; [lia|discriminate].
Qed.

Lemma pubd_done : forall c w0 h0 s t, inv_st c s -> pubd c w0 h0 s -> 0 <= w0 <= zlen h0 ->
  nth_error (ths s) 0 = Some t -> t_pc t = Done ->
  is_prefix (map (fun e => line c (snd e)) (firstn (Z.to_nat w0) h0)) (map snd (g_out (gh s))).
Proof.
  intros c w0 h0 s t IV [A1 A2 A3 (e & A4) A5] B T P. specialize (A5 t T). rewrite P in A5.
  rewrite (one_out c 0 s t IV A1 T). unfold in_read. rewrite P, Z.sub_0_r, A4.
  exists (map (fun e => line c (snd e)) (firstn (Z.to_nat (gP (gh s)) - Z.to_nat w0) (skipn (Z.to_nat w0) (h0 ++ e)))).
  rewrite <- map_app. f_equal. unfold zlen in B.
  rewrite <- (firstn_app_le (Z.to_nat w0) h0 e) by lia.
  rewrite <- (firstn_skipn (Z.to_nat w0) (h0 ++ e)) at 1.
  rewrite firstn_app, firstn_length, app_length.
  rewrite firstn_firstn. replace (Nat.min (Z.to_nat (gP (gh s))) (Z.to_nat w0)) with (Z.to_nat w0) by lia.
  do 2 f_equal. lia.
Qed.
