(* Runs without stop: per-thread order, counters, quiescence, draining, stopping. *)
From Coq Require Import ZArith List Bool Lia ZifyBool ZifyNat ZifyN Permutation.
From Verif Require Import Base BaseFacts LoggerState Ring RingSpec RingInv RingProofs RingLive RingRun.
Import ListNotations.
Open Scope Z_scope.

(* ---- counting threads ---- *)
Fixpoint cnt (f : thr -> Z) (l : list thr) : Z :=
  match l with [] => 0 | t :: l' => f t + cnt f l' end.

Lemma cnt_upd : forall f l i t t', nth_error l i = Some t -> cnt f (upd l i t') = cnt f l - f t + f t'.
Proof.
  intros f l. induction l as [|x l IH]; intros [|i] t t' H; try discriminate.
  - cbn in H. injection H as ->. unfold upd. cbn. lia.
  - cbn in H. specialize (IH i t t' H). unfold upd in *. cbn [firstn skipn app cnt] in *. lia.
Qed.

Lemma cnt_zero : forall f l, (forall i t, nth_error l i = Some t -> f t = 0) -> cnt f l = 0.
Proof.
  intros f l. induction l as [|x l IH]; intros H; [reflexivity|]. cbn.
  rewrite (H 0%nat x eq_refl), IH; [reflexivity|]. intros i t T. apply (H (S i) t T).
Qed.

Definition c_hold (t : thr) : Z := match t_pc t with HCount _ => 1 | _ => 0 end.
Definition c_push (t : thr) : Z := match t_pc t with PCount => 1 | _ => 0 end.
Definition c_proc (t : thr) : Z := match t_pc t with CRead _ _ _ | CMark _ | CCount _ => 1 | _ => 0 end.
Definition c_read (t : thr) : Z := match t_pc t with CRead _ _ _ => 1 | _ => 0 end.

Record counts (s : shared) (g : ghost) (l : list thr) : Prop := mkCounts {
  n_1 : n_hold s + cnt c_hold l = gH g;
  n_2 : n_push s + cnt c_push l = gW g;
  n_3 : n_proc s + cnt c_proc l = gP g;
  n_4 : zlen (g_out g) + cnt c_read l = gP g
}.

Lemma counts_tstep : forall c s g l i t s' g' t', nth_error l i = Some t ->
  tstep c i s g t = Some (s', g', t') -> counts s g l -> counts s' g' (upd l i t').
Proof.
  intros c s g l i t s' g' t' T E [A B C D].
  assert (ZA : forall e, zlen (g_out g ++ [e]) = zlen (g_out g) + 1) by (intros; unfold zlen; rewrite app_length; cbn; lia).
  destruct t as [p m a]. unfold tstep in E.
  destruct p; tpc; try discriminate;
    (brk E ltac:(constructor; rewrite (cnt_upd _ _ _ _ _ T);
       cbn [c_hold c_push c_proc c_read go go_at t_msg t_snap t_pc put_n put_idx put put_state put_g add_held add_out
            n_hold n_push n_proc gH gW gP g_out]; rewrite ?ZA; lia)).
Qed.

Definition counts_st (s : st) : Prop := counts (sh s) (gh s) (ths s).

Lemma counts_step : forall c s l s', x_ctl (sh s) <> 3 -> l <> LClean -> counts_st s ->
  step c s l = Some s' -> counts_st s'.
Proof.
  intros c s l s' C3 NC Q E. unfold counts_st in *. destruct l as [tid msg|tid| | | |].
  - destruct (step_log_inv _ _ _ _ _ E) as (t & T & P & ->). cbn [sh gh ths].
    destruct Q as [A B C D]. constructor; rewrite (cnt_upd _ _ _ _ _ T);
      unfold c_hold, c_push, c_proc, c_read in *; rewrite P; cbn [t_pc add_started gH gW gP g_out]; lia.
  - destruct (step_run_inv _ _ _ _ E) as (t & x & g & t' & T & TS & ->). cbn [sh gh ths].
    eapply counts_tstep; eassumption.
  - destruct (ctl_step_inv c s LStop s' (or_introl eq_refl) E) as (-> & -> & _ & E1 & E2 & E3 & _).
    destruct Q as [A B C D]. constructor; rewrite ?E1, ?E2, ?E3; assumption.
  - destruct (ctl_step_inv c s LJoin s' (or_intror eq_refl) E) as (-> & -> & _ & E1 & E2 & E3 & _).
    destruct Q as [A B C D]. constructor; rewrite ?E1, ?E2, ?E3; assumption.
  - congruence.
  - cbn [step] in E. destruct (x_ctl (sh s) =? 3) eqn:Q3; [lia|discriminate].
Qed.

Lemma counts_start : forall c slots k, counts_st (start c slots k).
Proof.
  intros. assert (H : forall i t, nth_error (ths (start c slots k)) i = Some t ->
    c_hold t = 0 /\ c_push t = 0 /\ c_proc t = 0 /\ c_read t = 0).
  { intros i t T. destruct (start_thr _ _ _ _ _ T) as [(_ & _ & ->)| ->]; cbn; auto. }
  constructor; rewrite cnt_zero; try reflexivity; intros i t T; apply (H i t T).
Qed.

Lemma reach_counts : forall c slots k ls s, cfg_ok c -> blank c slots ->
  reaches c slots k ls s -> no_lap c (start c slots k) ls -> no_restart ls -> counts_st s.
Proof.
  intros c slots k ls s C B R NL NR.
  destruct (run_ind c any_but_clean counts_st ltac:(destruct C; lia)
    ltac:(intros H; apply H; reflexivity)) with (ls := ls) (s := start c slots k) (s' := s)
    as (_ & _ & D); auto.
  - intros s0 l s1 IV C3 Q F NC E _. eapply counts_step; eassumption.
  - apply inv_start; assumption.
  - cbn. discriminate.
  - apply counts_start.
  - apply no_restart_forall. assumption.
Qed.

(* ---- per-thread order ---- *)
Definition pending (t : thr) : list text :=
  match t_pc t with
  | HState | HLoad | HRead _ | HCas _ | HOut => [t_msg t]
  | _ => []
  end.
Definition pend (l : list thr) (tid : nat) : list text :=
  match nth_error l tid with Some t => pending t | None => [] end.

Definition q_log (g : ghost) (l : list thr) : Prop :=
  forall tid, of_thread tid (g_started g) = of_thread tid (g_held g) ++ pend l tid.
Definition q_sub (g : ghost) (l : list thr) : Prop :=
  forall tid, subseq (of_thread tid (g_held g) ++ pend l tid) (of_thread tid (g_started g)).

Lemma subseq_refl : forall {A} (l : list A), subseq l l.
Proof. intros A l. induction l; constructor; assumption. Qed.
Lemma subseq_nil : forall {A} (l : list A), subseq [] l.
Proof. intros A l. induction l; constructor; assumption. Qed.
Lemma subseq_snoc : forall {A} (a b : list A) x, subseq a b -> subseq (a ++ [x]) (b ++ [x]).
Proof. intros A a b x H. induction H; cbn; constructor; try constructor; try assumption. Qed.
Lemma subseq_more : forall {A} (a b : list A) x, subseq a b -> subseq a (b ++ [x]).
Proof. intros A a b x H. induction H; cbn; constructor; try constructor; try assumption. Qed.
Lemma subseq_drop : forall {A} (a e b : list A), subseq (a ++ e) b -> subseq a b.
Proof.
  intros A a e b H. remember (a ++ e) as w eqn:W. revert a W.
  induction H; intros u W.
  - destruct u; [constructor|discriminate].
  - destruct u as [|y u]; [apply subseq_nil|]. cbn in W. injection W as <- W. constructor. auto.
  - constructor. auto.
Qed.

Lemma of_thread_app : forall tid a b, of_thread tid (a ++ b) = of_thread tid a ++ of_thread tid b.
Proof. intros. unfold of_thread. rewrite filter_app, map_app. reflexivity. Qed.
Lemma of_thread_one : forall tid i m, of_thread tid [(i, m)] = if Nat.eqb i tid then [m] else [].
Proof. intros. unfold of_thread. cbn. destruct (Nat.eqb i tid); reflexivity. Qed.

Lemma pend_upd : forall l i t t' tid, nth_error l i = Some t ->
  pend (upd l i t') tid = if Nat.eqb i tid then pending t' else pend l tid.
Proof.
  intros l i t t' tid T. unfold pend. destruct (Nat.eqb i tid) eqn:E.
  - apply Nat.eqb_eq in E. subst tid. rewrite (upd_hit l i t t' T). reflexivity.
  - apply Nat.eqb_neq in E. rewrite upd_other by lia. reflexivity.
Qed.

(* how one step changes what a thread has started but not reserved *)
Lemma pending_step : forall c s g i t s' g' t', tstep c i s g t = Some (s', g', t') ->
  g_started g' = g_started g /\
  ((g_held g' = g_held g /\ (pending t' = pending t \/ (running s = false /\ pending t' = []))) \/
   (g_held g' = g_held g ++ [(i, t_msg t)] /\ pending t = [t_msg t] /\ pending t' = [])).
Proof.
  intros c s g i t s' g' t' E. destruct t as [p m a]. unfold tstep in E. unfold pending.
  destruct p; tpc; try discriminate;
    try (solve [brk E ltac:(split; [reflexivity|left; split; [reflexivity|left; reflexivity]])]).
  - destruct (x_hold s =? old); injection E as <- <- <-; tpc; split; try reflexivity.
    + right. repeat split.
    + left. split; [reflexivity|left; reflexivity].
  - destruct (running s) eqn:RU; injection E as <- <- <-; tpc; split; try reflexivity;
      left; (split; [reflexivity|]); [left|right]; auto.
Qed.

Lemma q_log_tstep : forall c s g l i t s' g' t', nth_error l i = Some t -> running s = true ->
  tstep c i s g t = Some (s', g', t') -> q_log g l -> q_log g' (upd l i t').
Proof.
  intros c s g l i t s' g' t' T RU E Q tid. specialize (Q tid).
  assert (PT : pend l i = pending t) by (unfold pend; rewrite T; reflexivity).
  destruct (pending_step _ _ _ _ _ _ _ _ E) as (-> & [(-> & [P|[P _]])|(-> & P1 & P2)]); [| congruence|];
    rewrite (pend_upd _ _ _ _ _ T).
  - rewrite P, <- PT. destruct (Nat.eqb i tid) eqn:D; [|assumption]. apply Nat.eqb_eq in D. subst tid. assumption.
  - rewrite P2, of_thread_app, of_thread_one. destruct (Nat.eqb i tid) eqn:D.
    + apply Nat.eqb_eq in D. subst tid. rewrite PT, P1 in Q. rewrite Q, app_nil_r. reflexivity.
    + rewrite app_nil_r. assumption.
Qed.

Lemma q_sub_tstep : forall c s g l i t s' g' t', nth_error l i = Some t ->
  tstep c i s g t = Some (s', g', t') -> q_sub g l -> q_sub g' (upd l i t').
Proof.
  intros c s g l i t s' g' t' T E Q tid. specialize (Q tid).
  assert (PT : pend l i = pending t) by (unfold pend; rewrite T; reflexivity).
  destruct (pending_step _ _ _ _ _ _ _ _ E) as (-> & [(-> & [P|[_ P]])|(-> & P1 & P2)]);
    rewrite (pend_upd _ _ _ _ _ T).
  - rewrite P, <- PT. destruct (Nat.eqb i tid) eqn:D; [|assumption]. apply Nat.eqb_eq in D. subst tid. assumption.
  - rewrite P. destruct (Nat.eqb i tid); [|assumption]. rewrite app_nil_r. eapply subseq_drop. eassumption.
  - rewrite P2, of_thread_app, of_thread_one. destruct (Nat.eqb i tid) eqn:D.
    + apply Nat.eqb_eq in D. subst tid. rewrite PT, P1 in Q. rewrite app_nil_r. assumption.
    + rewrite app_nil_r. assumption.
Qed.

Lemma q_log_log : forall g l i t m a, nth_error l i = Some t -> t_pc t = Idle ->
  q_log g l -> q_log (add_started g (i, m)) (upd l i (mkThr HState m a)).
Proof.
  intros g l i t m a T P Q tid. specialize (Q tid).
  assert (PT : pend l i = []) by (unfold pend, pending; rewrite T, P; reflexivity).
  cbn [add_started g_started g_held]. rewrite of_thread_app, of_thread_one, (pend_upd _ _ _ _ _ T).
  cbn [pending t_pc t_msg]. destruct (Nat.eqb i tid) eqn:D.
  - apply Nat.eqb_eq in D. subst tid. rewrite PT, app_nil_r in Q. rewrite Q. reflexivity.
  - rewrite app_nil_r. assumption.
Qed.

Lemma q_sub_log : forall g l i t m a, nth_error l i = Some t -> t_pc t = Idle ->
  q_sub g l -> q_sub (add_started g (i, m)) (upd l i (mkThr HState m a)).
Proof.
  intros g l i t m a T P Q tid. specialize (Q tid).
  assert (PT : pend l i = []) by (unfold pend, pending; rewrite T, P; reflexivity).
  cbn [add_started g_started g_held]. rewrite of_thread_app, of_thread_one, (pend_upd _ _ _ _ _ T).
  cbn [pending t_pc t_msg]. destruct (Nat.eqb i tid) eqn:D.
  - apply Nat.eqb_eq in D. subst tid. rewrite PT, app_nil_r in Q. apply subseq_snoc. assumption.
  - rewrite app_nil_r. assumption.
Qed.

Definition sub_st (s : st) : Prop := q_sub (gh s) (ths s).

Lemma sub_step : forall c s l s', x_ctl (sh s) <> 3 -> l <> LClean -> sub_st s ->
  step c s l = Some s' -> sub_st s'.
Proof.
  intros c s l s' C3 NC Q E. unfold sub_st in *. destruct l as [tid msg|tid| | | |].
  - destruct (step_log_inv _ _ _ _ _ E) as (t & T & P & ->). cbn [gh ths]. eapply q_sub_log; eassumption.
  - destruct (step_run_inv _ _ _ _ E) as (t & x & g & t' & T & TS & ->). cbn [gh ths].
    eapply q_sub_tstep; eassumption.
  - destruct (ctl_step_inv c s LStop s' (or_introl eq_refl) E) as (-> & -> & _). assumption.
  - destruct (ctl_step_inv c s LJoin s' (or_intror eq_refl) E) as (-> & -> & _). assumption.
  - congruence.
  - cbn [step] in E. destruct (x_ctl (sh s) =? 3) eqn:Q3; [lia|discriminate].
Qed.

Lemma reach_sub : forall c slots k ls s, cfg_ok c -> blank c slots ->
  reaches c slots k ls s -> no_lap c (start c slots k) ls -> no_restart ls -> sub_st s.
Proof.
  intros c slots k ls s C B R NL NR.
  destruct (run_ind c any_but_clean sub_st ltac:(destruct C; lia)
    ltac:(intros H; apply H; reflexivity)) with (ls := ls) (s := start c slots k) (s' := s)
    as (_ & _ & D); auto.
  - intros s0 l s1 IV C3 Q F NC E _. eapply sub_step; eassumption.
  - apply inv_start; assumption.
  - cbn. discriminate.
  - intros tid. unfold pend. destruct (nth_error (ths (start c slots k)) tid) as [t|] eqn:T; [|constructor].
    destruct (start_thr _ _ _ _ _ T) as [(_ & _ & ->)| ->]; constructor.
  - apply no_restart_forall. assumption.
Qed.

(* ---- a channel that has not been stopped ---- *)
Definition ended (t : thr) : bool := match t_pc t with CRest | CFin | Done => true | _ => false end.

Record live (c : rcfg) (s : st) : Prop := mkLive {
  l_run : running (sh s) = true;
  l_ctl : x_ctl (sh s) = 0;
  l_end : forall i t, nth_error (ths s) i = Some t -> ended t = false;
  l_pub : q_pub c (sh s) (gh s) (ths s);
  l_res : q_res c (sh s) (gh s) (ths s);
  l_rel : q_rel c (sh s) (gh s) (ths s);
  l_con : is_sync c = true -> q_con (gh s) (ths s);
  l_log : q_log (gh s) (ths s)
}.

Lemma running_step : forall c s g i t s' g' t', running s = true -> ended t = false ->
  tstep c i s g t = Some (s', g', t') -> running s' = true /\ ended t' = false.
Proof.
  intros c s g i t s' g' t' RU EN E. destruct t as [p m a]. unfold tstep, ended in *.
  destruct p; tpc; try discriminate; rewrite ?RU in E;
    try (solve [brk E ltac:(split; [assumption|reflexivity])]).
  - injection E as <- <- <-. split; [|reflexivity]. destruct (x_state s =? CHANNEL_STATE_NULL); [reflexivity|assumption].
Qed.

Lemma live_step : forall c s l s', 0 < n_ring c -> inv_st c s -> live c s -> fresh c s l ->
  match l with LLog _ _ | LRun _ => True | _ => False end -> step c s l = Some s' -> live c s'.
Proof.
  intros c s l s' N IV [A0 A1 A2 A3 A4 A5 A6 A7] F O E. destruct l as [tid msg|tid| | | |]; try contradiction.
  - destruct (step_log_inv _ _ _ _ _ E) as (t & T & P & ->).
    assert (KEEP : forall (f : thr -> Prop), ~ f t ->
      (exists i u, nth_error (ths s) i = Some u /\ f u) ->
      exists i u, nth_error (upd (ths s) tid (mkThr HState msg (t_snap t))) i = Some u /\ f u).
    { intros f NF (j & u & J & U). exists j, u. split; [|assumption]. apply upd_some with t; try assumption.
      intros ->. rewrite T in J. injection J as <-. contradiction. }
    constructor; cbn [sh gh ths]; try assumption.
    + intros i u U. destruct (upd_inv _ _ _ _ _ U) as [[-> ->]|[_ U']]; [reflexivity|eauto].
    + intros L RD. apply KEEP; [unfold pubr; rewrite P; tauto|]. apply A3; assumption.
    + intros a L. destruct (A4 a L) as [(j & u & J & U)|RD]; [left|right; assumption].
      apply (KEEP (fun u => own u = Some a)); [unfold own; rewrite P; discriminate|]. exists j, u. auto.
    + intros L M. apply KEEP; [unfold relr; rewrite P; tauto|]. apply A5; assumption.
    + intros SY L. apply KEEP; [unfold conr; rewrite P; tauto|]. apply A6; assumption.
    + eapply q_log_log; eassumption.
  - destruct (step_run_inv _ _ _ _ E) as (t & x & g & t' & T & TS & ->).
    specialize (F t T). destruct (running_step _ _ _ _ _ _ _ _ A0 (A2 _ _ T) TS) as [R1 R2].
    constructor; cbn [sh gh ths]; try assumption.
    + rewrite (ctl_tstep _ _ _ _ _ _ _ _ TS). assumption.
    + intros i u U. destruct (upd_inv _ _ _ _ _ U) as [[-> ->]|[_ U']]; [assumption|eauto].
    + eapply q_pub_step; eassumption.
    + eapply q_res_step; eassumption.
    + eapply q_rel_step; eassumption.
    + intros SY. eapply q_con_step; try eassumption. auto.
    + exact (q_log_tstep _ _ _ _ _ _ _ _ _ T A0 TS A7).
Qed.

Lemma live_start : forall c slots k, live c (start c slots k).
Proof.
  intros c slots k. constructor; try reflexivity; try (intros H; cbn in H; lia).
  - intros i t T. destruct (start_thr _ _ _ _ _ T) as [(_ & _ & ->)| ->]; reflexivity.
  - intros a H. cbn in H. lia.
  - intros _ H. cbn in H. lia.
  - intros tid. unfold pend. destruct (nth_error (ths (start c slots k)) tid) as [t|] eqn:T; [|reflexivity].
    destruct (start_thr _ _ _ _ _ T) as [(_ & _ & ->)| ->]; reflexivity.
Qed.

Lemma threads_no_restart : forall ls, threads_only ls -> no_restart ls.
Proof. intros ls H I. unfold threads_only in H. rewrite Forall_forall in H. apply (H _ I). Qed.

Lemma reach_live : forall c slots k ls s, cfg_ok c -> blank c slots ->
  reaches c slots k ls s -> no_lap c (start c slots k) ls -> threads_only ls -> inv_st c s /\ live c s.
Proof.
  intros c slots k ls s C B R NL TO.
  destruct (run_ind c (fun l => match l with LLog _ _ | LRun _ => True | _ => False end) (live c)
    ltac:(destruct C; lia) ltac:(tauto)) with (ls := ls) (s := start c slots k) (s' := s)
    as (A & _ & D); auto.
  - intros s0 l s1 IV C3 Q F O E _. eapply live_step; try eassumption. destruct C; lia.
  - apply inv_start; assumption.
  - cbn. discriminate.
  - apply live_start.
Qed.

(* ---- the writer thread stays the writer thread ---- *)
Definition wr_st (c : rcfg) (s : st) : Prop :=
  is_sync c = false -> exists t, nth_error (ths s) 0 = Some t /\ cons_pc t = true.

Lemma async_cons : forall c i s g t s' g' t', is_sync c = false -> cons_pc t = true ->
  tstep c i s g t = Some (s', g', t') -> cons_pc t' = true.
Proof.
  intros c i s g t s' g' t' SY CP E. destruct t as [p m a]. unfold tstep, cons_pc in *. tpc.
  destruct p; tpc; try discriminate; try (solve [brk E reflexivity]).
  rewrite SY in E. brk E reflexivity.
Qed.

Lemma wr_step : forall c s l s', x_ctl (sh s) <> 3 -> l <> LClean -> wr_st c s ->
  step c s l = Some s' -> wr_st c s'.
Proof.
  intros c s l s' C3 NC Q E SY. destruct (Q SY) as (w & T0 & CW). destruct l as [tid msg|tid| | | |].
  - destruct (step_log_inv _ _ _ _ _ E) as (t & T & P & ->). cbn [ths]. exists w. split; [|assumption].
    apply upd_some with t; try assumption. intros <-. rewrite T0 in T. injection T as <-.
    unfold cons_pc in CW. rewrite P in CW. discriminate.
  - destruct (step_run_inv _ _ _ _ E) as (t & x & g & t' & T & TS & ->). cbn [ths].
    destruct tid as [|tid].
    + exists t'. split; [apply upd_hit with t; assumption|]. rewrite T0 in T. injection T as <-.
      eapply async_cons; eassumption.
    + exists w. split; [|assumption]. apply upd_some with t; try assumption. discriminate.
  - destruct (ctl_step_inv c s LStop s' (or_introl eq_refl) E) as (_ & -> & _). exists w. auto.
  - destruct (ctl_step_inv c s LJoin s' (or_intror eq_refl) E) as (_ & -> & _). exists w. auto.
  - congruence.
  - cbn [step] in E. destruct (x_ctl (sh s) =? 3) eqn:Q3; [lia|discriminate].
Qed.

Lemma wr_start : forall c slots k, wr_st c (start c slots k).
Proof. intros c slots k SY. unfold start. cbn [ths]. rewrite SY. eexists. split; reflexivity. Qed.

Lemma reach_wr : forall c slots k ls s, cfg_ok c -> blank c slots ->
  reaches c slots k ls s -> no_lap c (start c slots k) ls -> no_restart ls -> wr_st c s.
Proof.
  intros c slots k ls s C B R NL NR.
  destruct (run_ind c any_but_clean (wr_st c) ltac:(destruct C; lia)
    ltac:(intros H; apply H; reflexivity)) with (ls := ls) (s := start c slots k) (s' := s)
    as (_ & _ & D); auto.
  - intros s0 l s1 IV C3 Q F NC E _. eapply wr_step; eassumption.
  - apply inv_start; assumption.
  - cbn. discriminate.
  - apply wr_start.
  - apply no_restart_forall. assumption.
Qed.

(* ---- quiescence ---- *)
Lemma quiet_published : forall c s, inv_st c s -> live c s -> quiet c s -> wr_st c s ->
  gW (gh s) = gH (gh s).
Proof.
  intros c s IV LV QU WR.
  pose proof (i_ord _ _ _ _ IV) as OR.
  destruct (Z.eq_dec (gW (gh s)) (gH (gh s))) as [E|D]; [assumption|exfalso].
  assert (NO : forall i t, nth_error (ths s) i = Some t -> own t = None /\ ~ pubr (gh s) t).
  { intros i t T. destruct (QU i t T) as [[SY ->]|P].
    - destruct (WR SY) as (w & T0 & CP). rewrite T in T0. injection T0 as <-.
      unfold own, pubr, cons_pc in *; destruct (t_pc t); try discriminate; auto.
    - unfold own, pubr. rewrite P. auto. }
  destruct (l_res _ _ LV (gW (gh s)) ltac:(lia)) as [(i & t & T & O)|RD].
  - destruct (NO i t T). congruence.
  - destruct (l_pub _ _ LV ltac:(lia) RD) as (i & t & T & O). destruct (NO i t T). contradiction.
Qed.

Lemma quiet_sync : forall c s, is_sync c = true -> inv_st c s -> live c s -> quiet c s -> wr_st c s ->
  gW (gh s) = gH (gh s) /\ gP (gh s) = gW (gh s) /\ gR (gh s) = gP (gh s).
Proof.
  intros c s SY IV LV QU WR.
  pose proof (i_ord _ _ _ _ IV) as OR.
  assert (ID : forall i t, nth_error (ths s) i = Some t -> t_pc t = Idle).
  { intros i t T. destruct (QU i t T) as [[X _]|P]; [congruence|assumption]. }
  split; [apply quiet_published with c; assumption|]. split.
  - destruct (Z.eq_dec (gP (gh s)) (gW (gh s))) as [E|D]; [assumption|exfalso].
    destruct (l_con _ _ LV SY ltac:(lia)) as (i & t & T & O). unfold conr in O. rewrite (ID i t T) in O. contradiction.
  - destruct (Z.eq_dec (gR (gh s)) (gP (gh s))) as [E|D]; [assumption|exfalso].
    destruct (i_done _ _ _ _ IV (gR (gh s)) ltac:(lia)) as [M|(i & t & T & O)].
    + destruct (l_rel _ _ LV ltac:(lia) M) as (i & t & T & O). unfold relr in O. rewrite (ID i t T) in O. contradiction.
    + unfold clm in O. rewrite (ID i t T) in O. discriminate.
Qed.

(* the dispatched records as a list of positions *)
Definition look (c : rcfg) (held : list (nat * text)) (a : Z) : text :=
  line c (snd (nth (Z.to_nat a) held (0%nat, []))).

Lemma outs_look : forall c g, (forall a x, In (a, x) (g_out g) ->
             exists i m, held_at g a = Some (i, m) /\ x = line c m) ->
  map snd (g_out g) = map (look c (g_held g)) (map fst (g_out g)).
Proof.
  intros c g H. induction (g_out g) as [|[a x] l IH]; [reflexivity|]. cbn [map fst snd]. f_equal.
  - destruct (H a x (or_introl eq_refl)) as (i & m & A & ->). unfold held_at in A.
    destruct (a <? 0); [discriminate|]. unfold look.
    erewrite nth_error_nth by exact A. reflexivity.
  - apply IH. intros. apply H. right. assumption.
Qed.

Lemma look_seq : forall c held n k, (k + n <= length held)%nat ->
  map (look c held) (map Z.of_nat (seq k n)) = map (fun e => line c (snd e)) (firstn n (skipn k held)).
Proof.
  intros c held n. induction n as [|n IH]; intros k H; [reflexivity|]. cbn [seq map].
  assert (SK : skipn k held = nth k held (0%nat, []) :: skipn (S k) held).
  { clear - H. revert k H. induction held as [|y l IHl]; intros [|k] H; cbn in *; try lia; [reflexivity|].
    apply IHl. lia. }
  rewrite SK. cbn [firstn map]. f_equal; [unfold look; rewrite Nat2Z.id; reflexivity|].
  apply IH. lia.
Qed.

Lemma seqz_spec : forall n a, In a (seqz n) <-> 0 <= a < n.
Proof.
  intros n a. unfold seqz. rewrite in_map_iff. split.
  - intros (k & <- & H). apply in_seq in H. lia.
  - intros H. exists (Z.to_nat a). split; [lia|]. apply in_seq. lia.
Qed.

Lemma seqz_nodup : forall n, NoDup (seqz n).
Proof.
  intros n. unfold seqz. apply FinFun.Injective_map_NoDup; [intros x y H; lia|apply seq_NoDup].
Qed.

Lemma idle_perm : forall c s, inv_st c s ->
  (forall i t, nth_error (ths s) i = Some t -> rdg t = None) -> gP (gh s) = gH (gh s) ->
  Permutation (map snd (g_out (gh s))) (map (fun e => line c (snd e)) (g_held (gh s))).
Proof.
  intros c s IV ID PH.
  pose proof (i_held _ _ _ _ IV) as HL. pose proof (i_ord _ _ _ _ IV) as OR.
  rewrite (outs_look c _ (i_outs _ _ _ _ IV)).
  assert (P : Permutation (map fst (g_out (gh s))) (seqz (gP (gh s)))).
  { apply NoDup_Permutation; [apply (i_nodup _ _ _ _ IV)|apply seqz_nodup|].
    intros a. rewrite (i_outp _ _ _ _ IV), seqz_spec. split; [tauto|]. intros A. split; [assumption|].
    intros i t T. rewrite (ID i t T). discriminate. }
  apply (Permutation_map (look c (g_held (gh s)))) in P. rewrite P.
  unfold seqz, zlen in *. rewrite look_seq by lia. cbn [skipn].
  rewrite firstn_all2 by lia. reflexivity.
Qed.

(* ---- letting the writer run ---- *)
Record wok (c : rcfg) (s : st) (t : thr) : Prop := mkWok {
  w_inv : inv_st c s;
  w_one : one_st c 0 s;
  w_thr : nth_error (ths s) 0 = Some t;
  w_cons : cons_pc t = true;
  w_end : match t_pc t with CFin | Done => gP (gh s) = gW (gh s) | _ => True end
}.

Definition same_prod (s s' : st) : Prop :=
  gH (gh s') = gH (gh s) /\ gW (gh s') = gW (gh s) /\ g_held (gh s') = g_held (gh s) /\
  g_started (gh s') = g_started (gh s) /\ x_ctl (sh s') = x_ctl (sh s) /\
  (forall i, i <> 0%nat -> nth_error (ths s') i = nth_error (ths s) i).

Lemma same_prod_trans : forall a b d, same_prod a b -> same_prod b d -> same_prod a d.
Proof.
  intros a b d (A1 & A2 & A3 & A4 & A5 & A6) (B1 & B2 & B3 & B4 & B5 & B6).
  repeat split; try congruence. intros i I. rewrite B6, A6 by assumption. reflexivity.
Qed.

Lemma cons_same : forall c i s g t s' g' t', cons_pc t = true ->
  tstep c i s g t = Some (s', g', t') ->
  gH g' = gH g /\ gW g' = gW g /\ g_held g' = g_held g /\ g_started g' = g_started g.
Proof.
  intros c i s g t s' g' t' CP E. destruct t as [p m a]. unfold tstep, cons_pc in *. tpc.
  destruct p; tpc; try discriminate; solve [brk E ltac:(repeat split)].
Qed.

Lemma writer_fresh : forall c s g t, 0 < n_ring c -> cons_pc t = true -> cons_ok c s g t -> fresh_thr c g t.
Proof.
  intros c s g t N CP CK. destruct t as [p m a]. unfold cons_ok, cons_pc, fresh_thr in *. tpc.
  destruct p; try discriminate; try exact I; lia.
Qed.

Lemma ix_inj : forall c s a b, inv_st c s -> 0 < n_ring c ->
  gR (gh s) <= a <= gH (gh s) -> gR (gh s) <= b <= gH (gh s) -> ix c a = ix c b -> a = b.
Proof.
  intros c s a b IV N A B E. pose proof (i_ord _ _ _ _ IV) as OR. apply (ix_eq c a b N E). lia.
Qed.

Lemma w_step : forall c s t x g t', 0 < n_ring c -> is_sync c = false -> wok c s t ->
  tstep c 0 (sh s) (gh s) t = Some (x, g, t') ->
  let s' := mkSt x g (upd (ths s) 0 t') in
  step c s (LRun 0) = Some s' /\ wok c s' t' /\ same_prod s s'.
Proof.
  intros c s t x g t' N SY [IV ON T CP EN] E s'.
  assert (ST : step c s (LRun 0) = Some s') by (cbn [step]; rewrite T, E; reflexivity).
  assert (F : fresh_thr c (gh s) t).
  { apply writer_fresh with (sh s); try assumption. apply (o_thr _ _ _ _ _ (proj2 ON) t T). }
  destruct (cons_same _ _ _ _ _ _ _ _ CP E) as (E1 & E2 & E3 & E4).
  split; [assumption|]. split.
  - constructor.
    + unfold inv_st, s'. cbn [sh gh ths]. eapply inv_tstep; eassumption.
    + split.
      * unfold rel_st, s'. cbn [sh gh ths]. eapply q_rel_step; try eassumption. apply ON.
      * unfold s'. cbn [sh gh ths]. eapply one_self; try eassumption; apply ON.
    + apply upd_hit with t. assumption.
    + eapply async_cons; eassumption.
    + unfold s'. cbn [gh]. destruct t as [p m a]. unfold tstep, cons_pc in *. tpc.
      destruct p; tpc; try discriminate; try (solve [brk E ltac:(exact I || assumption)]).
      destruct (x_write (sh s) =? x_read (sh s)) eqn:Q; injection E as <- <- <-; tpc; [|exact I].
      apply Z.eqb_eq in Q. rewrite (i_write _ _ _ _ IV), (i_read _ _ _ _ IV) in Q.
      pose proof (i_ord _ _ _ _ IV) as OR. apply (ix_inj c s) in Q; try assumption; lia.
  - repeat split; try assumption.
    + unfold s'. cbn [sh]. apply (ctl_tstep _ _ _ _ _ _ _ _ E).
    + intros i I. unfold s'. cbn [ths]. apply upd_other. lia.
Qed.

Definition weight (c : rcfg) (s : st) (t : thr) : Z :=
  let d := 5 * (gP (gh s) - gR (gh s)) in
  match t_pc t with
  | CRead _ k _ => 30 + d + (zlen (s_text (at_ c (sh s) (t_snap t))) - k)
  | CMark _ => 29 + d | CCount _ => 28 + d | CBytes _ => 27 + d
  | RLoad => 14 + d | RProc _ => 13 + d | RMark _ => 12 + d | RCas _ => 11 + d
  | CNull => 6 | CLoop => 5 | CRest => 4 | CLoad => 2 | CWrite _ => 1
  | _ => 0
  end.

Definition resting (t : thr) : bool :=
  match t_pc t with
  | CLoad | CWrite _ | CNull | CLoop | CRest | CFin | Done => true
  | _ => false
  end.

Definition drained (s : st) (t : thr) : Prop := gP (gh s) = gW (gh s) /\ resting t = true.

Lemma weight_pos : forall c s t, wok c s t -> 0 <= weight c s t.
Proof.
  intros c s t [IV ON T CP EN]. pose proof (i_ord _ _ _ _ IV) as OR.
  pose proof (i_thr _ _ _ _ IV 0%nat t T) as K. unfold weight, thr_ok in *.
  destruct (t_pc t); lia.
Qed.

(* until everything is delivered, each step of the writer makes progress *)
Lemma w_progress : forall c s t, 0 < n_ring c -> is_sync c = false -> wok c s t -> ~ drained s t ->
  exists x g t', tstep c 0 (sh s) (gh s) t = Some (x, g, t') /\
    (x_state (sh s) <> CHANNEL_STATE_NULL -> x_state x = x_state (sh s)) /\
    (gP g = gP (gh s) + 1 \/
     gP g = gP (gh s) /\ weight c (mkSt x g (upd (ths s) 0 t')) t' < weight c s t).
Proof.
  intros c s t N SY W ND. destruct W as [IV ON T CP EN].
  pose proof (i_ord _ _ _ _ IV) as OR.
  pose proof (i_thr _ _ _ _ IV 0%nat t T) as K.
  destruct (o_thr _ _ _ _ _ (proj2 ON) t T) as (CK & _).
  pose proof (fun A B => one_released c 0 (sh s) (gh s) (ths s) t IV (proj1 ON) (proj2 ON) T A B) as RL.
  destruct t as [p m a]. unfold thr_ok, cons_ok, cons_pc, drained, resting, weight, relr, clm in *. tpc.
  destruct p; tpc; try discriminate; unfold tstep; tpc.
  - (* CLoad *) do 3 eexists. split; [reflexivity|]. split; [auto|]. right. split; [reflexivity|]. tpc. lia.
  - (* CWrite *) destruct K as [-> K]. rewrite (i_write _ _ _ _ IV).
    destruct (ix c a =? ix c (gW (gh s))) eqn:Q.
    + exfalso. apply ND. split; [|reflexivity]. apply Z.eqb_eq in Q. apply (ix_inj c s) in Q; try assumption; lia.
    + do 3 eexists. split; [reflexivity|]. split; [auto|]. right. split; [reflexivity|]. tpc. lia.
  - (* CCas *) destruct K as (-> & K1 & K2). rewrite (i_proc _ _ _ _ IV), CK, Z.eqb_refl.
    do 3 eexists. split; [reflexivity|]. split; [auto|]. left. reflexivity.
  - (* CRead *) destruct K as (-> & K1 & K2 & K3 & K4). fold (at_ c (sh s) a) in *.
    destruct (k <? zlen (s_text (at_ c (sh s) a))) eqn:Q;
      (do 3 eexists; split; [reflexivity|]; split; [auto|]; right; split; [reflexivity|]; tpc;
       cbn [gh sh add_out gP gR]; lia).
  - do 3 eexists. split; [reflexivity|]. split; [auto|]. right. split; [reflexivity|]. tpc. cbn [gh]. lia.
  - do 3 eexists. split; [reflexivity|]. split; [auto|]. right. split; [reflexivity|]. tpc. cbn [gh]. lia.
  - do 3 eexists. split; [reflexivity|]. split; [auto|]. right. split; [reflexivity|]. tpc. cbn [gh]. lia.
  - do 3 eexists. split; [reflexivity|]. split; [auto|]. right. split; [reflexivity|]. tpc. cbn [gh]. lia.
  - destruct (old =? x_proc (sh s)); do 3 eexists; (split; [reflexivity|]); (split; [auto|]); right;
      (split; [reflexivity|]); tpc; cbn [gh]; lia.
  - destruct (s_mark (get (sh s) old) =? MARK_INVALID); do 3 eexists; (split; [reflexivity|]); (split; [auto|]); right;
      (split; [reflexivity|]); tpc; cbn [gh]; lia.
  - destruct K as (-> & K1 & K2 & K3). rewrite (i_read _ _ _ _ IV), CK, Z.eqb_refl.
    do 3 eexists; (split; [reflexivity|]); (split; [auto|]); right;
      (split; [reflexivity|]); tpc; cbn [gh put_g gP gR]; lia.
  - do 3 eexists. split; [reflexivity|]. split.
    + intros NN. apply Z.eqb_neq in NN. rewrite NN. reflexivity.
    + right. split; [reflexivity|]. tpc. lia.
  - rewrite SY. destruct (running (sh s)); do 3 eexists; (split; [reflexivity|]); (split; [auto|]); right;
      (split; [reflexivity|]); tpc; lia.
  - rewrite (i_write _ _ _ _ IV), (i_read _ _ _ _ IV). destruct (ix c (gW (gh s)) =? ix c (gR (gh s))) eqn:Q.
    + exfalso. apply ND. split; [|reflexivity]. apply Z.eqb_eq in Q. apply (ix_inj c s) in Q; try assumption; lia.
    + do 3 eexists. split; [reflexivity|]. split; [auto|]. right. split; [reflexivity|]. tpc. lia.
  - exfalso. apply ND. auto.
  - exfalso. apply ND. auto.
Qed.

Lemma drained_dec : forall s t, {drained s t} + {~ drained s t}.
Proof.
  intros s t. unfold drained. destruct (Z.eq_dec (gP (gh s)) (gW (gh s))); [|right; tauto].
  destruct (resting t); [left; auto|right; intros [_ H]; discriminate].
Qed.

Lemma w_drain : forall c, 0 < n_ring c -> is_sync c = false ->
  forall (d w : nat) s t, wok c s t -> gW (gh s) - gP (gh s) <= Z.of_nat d -> weight c s t <= Z.of_nat w ->
  exists n s' t', run c s (repeat (LRun 0) n) = Some s' /\ wok c s' t' /\ same_prod s s' /\ drained s' t' /\
    (x_state (sh s) <> CHANNEL_STATE_NULL -> x_state (sh s') = x_state (sh s)).
Proof.
  intros c N SY d. induction d as [d IHd] using lt_wf_ind. intros w. induction w as [w IHw] using lt_wf_ind.
  intros s t W D1 D2.
  destruct (drained_dec s t) as [DR|DR].
  { exists 0%nat, s, t. split; [reflexivity|]. split; [assumption|]. split; [repeat split; reflexivity|].
    split; [assumption|]. auto. }
  destruct (w_progress c s t N SY W DR) as (x & g & t' & E & XS & PR).
  destruct (w_step c s t x g t' N SY W E) as (ST & W' & SP).
  set (s1 := mkSt x g (upd (ths s) 0 t')) in *.
  pose proof (weight_pos c s1 t' W') as WP.
  pose proof (i_ord _ _ _ _ (w_inv _ _ _ W')) as OR'.
  destruct SP as (S1 & S2 & S3). assert (SP : same_prod s s1) by (split; [|split]; assumption).
  assert (GP : gP (gh s1) = gP g) by reflexivity.
  assert (NEXT : exists n s' t'', run c s1 (repeat (LRun 0) n) = Some s' /\ wok c s' t'' /\ same_prod s1 s' /\
    drained s' t'' /\ (x_state (sh s1) <> CHANNEL_STATE_NULL -> x_state (sh s') = x_state (sh s1))).
  { destruct PR as [PR|[PR1 PR2]].
    - apply (IHd (Nat.pred d) ltac:(lia) (Z.to_nat (weight c s1 t')) s1 t' W'); lia.
    - apply (IHw (Nat.pred w) ltac:(lia) s1 t' W'); lia. }
  destruct NEXT as (n & s2 & t2 & R & W2 & SP2 & DR2 & XS2).
  exists (S n), s2, t2. split; [cbn [repeat run]; rewrite ST; assumption|]. split; [assumption|].
  split; [apply same_prod_trans with s1; assumption|]. split; [assumption|].
  intros NN. specialize (XS NN). change (x_state (sh s1)) with (x_state x) in XS2.
  rewrite XS2; [assumption|]. rewrite XS. assumption.
Qed.

Lemma drained_rest : forall c s t, wok c s t -> drained s t ->
  gR (gh s) = gP (gh s) /\ gP (gh s) = gW (gh s) /\
  map snd (g_out (gh s)) = map (fun e => line c (snd e)) (firstn (Z.to_nat (gW (gh s))) (g_held (gh s))).
Proof.
  intros c s t W [D1 D2]. destruct W as [IV ON T CP EN].
  split; [|split; [assumption|]].
  - eapply one_released; try eassumption; try apply ON.
    + unfold resting, clm in *. destruct (t_pc t); try discriminate; reflexivity.
    + unfold resting, relr in *. destruct (t_pc t); try discriminate; tauto.
  - rewrite (one_out c 0 s t IV ON T). rewrite D1.
    replace (in_read t) with 0; [rewrite Z.sub_0_r; reflexivity|].
    unfold resting, in_read in *. destruct (t_pc t); try discriminate; reflexivity.
Qed.
