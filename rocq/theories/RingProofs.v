(* Consequences of the queue invariant for whole schedules. *)
From Coq Require Import ZArith List Bool Lia ZifyBool ZifyNat ZifyN.
From Verif Require Import Base BaseFacts LoggerState Ring RingSpec RingInv.
Import ListNotations.
Open Scope Z_scope.

(* ---- reachability ---- *)
Lemma inv_shared : forall c s g l s', inv c s g l -> same_ring s s' -> inv c s' g l.
Proof.
  intros c s g l s' IV S. pose proof (fun a => at_same c s s' a S) as AT.
  destruct S as (S1 & S2 & S3 & S4 & S5).
  assert (RD : forall a, ready c s' g a <-> ready c s g a).
  { intros a. unfold ready. rewrite AT. tauto. }
  destruct IV. constructor; rewrite ?S1, ?S2, ?S3, ?S4, ?S5; try assumption.
  - intros i t T. apply (thr_keep c s s' g g i t (i_thr i t T)); [lia|lia|lia|lia|lia|trivial|..].
    + intros. rewrite AT. split; [lia|reflexivity].
    + intros. rewrite AT. split; [lia|reflexivity].
    + intros. apply AT.
    + intros. rewrite AT. assumption.
  - intros a A. rewrite AT. auto.
  - intros a A. rewrite AT. auto.
  - intros a A. apply RD. auto.
  - intros a A M. apply RD. rewrite AT in M. auto.
Qed.

Lemma nth_error_repeat_inv : forall {A} (x y : A) k n, nth_error (repeat x k) n = Some y -> y = x.
Proof. intros A x y k n H. apply nth_error_In in H. apply repeat_spec in H. assumption. Qed.

Lemma start_thr : forall c slots k i t, nth_error (ths (start c slots k)) i = Some t ->
  (i = 0%nat /\ is_sync c = false /\ t = mkThr CLoad [] 0) \/ t = mkThr Idle [] 0.
Proof.
  intros c slots k i t H. unfold start in H. cbn [ths] in H. destruct (is_sync c).
  - right. apply nth_error_repeat_inv in H. assumption.
  - destruct i as [|i]; cbn [nth_error] in H.
    + left. injection H as <-. auto.
    + right. apply nth_error_repeat_inv in H. assumption.
Qed.

Lemma blank_at : forall c slots a, 0 < n_ring c -> blank c slots ->
  s_mark (at_ c (start_shared slots) a) = MARK_INVALID.
Proof.
  intros c slots a N [L B]. unfold at_, get. cbn [start_shared x_slots].
  rewrite Forall_forall in B. apply B. apply nth_In.
  pose proof (ix_bound c a N). unfold zlen in L. lia.
Qed.

Lemma inv_start : forall c slots k, cfg_ok c -> blank c slots ->
  inv c (sh (start c slots k)) (gh (start c slots k)) (ths (start c slots k)).
Proof.
  intros c slots k [N _] B.
  assert (I0 : 0 = ix c 0) by reflexivity.
  assert (TH : forall i t, nth_error (ths (start c slots k)) i = Some t ->
             own t = None /\ clm t = None /\ rdg t = None /\
             forall s g, thr_ok c s g i t).
  { intros i t T. destruct (start_thr _ _ _ _ _ T) as [(_ & _ & ->)| ->]; repeat split. }
  constructor; cbn [sh gh start start_shared x_hold x_write x_proc x_read x_slots gH gW gP gR g_held g_out];
    try exact I0; try lia.
  - apply B.
  - intros i t T. apply (TH i t T).
  - intros i j t u a T _ A. rewrite (proj1 (TH i t T)) in A. discriminate.
  - intros i j t u a T _ A. rewrite (proj1 (proj2 (TH i t T))) in A. discriminate.
  - intros a A. apply blank_at; [lia|assumption].
  - intros a x [].
  - constructor.
  - intros a. cbn. split; [intros []|]. intros [A _]. lia.
Qed.

(* How a step of the whole program looks like. *)
Lemma step_run_inv : forall c s tid s', step c s (LRun tid) = Some s' ->
  exists t x g t', nth_error (ths s) tid = Some t /\ tstep c tid (sh s) (gh s) t = Some (x, g, t') /\
    s' = mkSt x g (upd (ths s) tid t').
Proof.
  intros c s tid s' H. cbn [step] in H. destruct (nth_error (ths s) tid) as [t|]; [|discriminate].
  destruct (tstep c tid (sh s) (gh s) t) as [[[x g] t']|] eqn:E; [|discriminate].
  injection H as <-. exists t, x, g, t'. auto.
Qed.

Lemma step_log_inv : forall c s tid msg s', step c s (LLog tid msg) = Some s' ->
  exists t, nth_error (ths s) tid = Some t /\ t_pc t = Idle /\
    s' = mkSt (sh s) (add_started (gh s) (tid, msg))
              (upd (ths s) tid (mkThr HState msg (t_snap t))).
Proof.
  intros c s tid msg s' H. cbn [step] in H. destruct (nth_error (ths s) tid) as [t|]; [|discriminate].
  exists t. destruct (t_pc t) eqn:E; try discriminate. injection H as <-. auto.
Qed.

Definition inv_st (c : rcfg) (s : st) : Prop := inv c (sh s) (gh s) (ths s).

Lemma ctl_tstep : forall c i s g t s' g' t', tstep c i s g t = Some (s', g', t') -> x_ctl s' = x_ctl s.
Proof.
  intros c i s g t s' g' t' H. unfold tstep in H.
  repeat match type of H with
  | context [match ?x with _ => _ end] => destruct x
  end; try discriminate; injection H as <- <- <-; reflexivity.
Qed.

(* stop, join and restart come in this order *)
Lemma inv_step : forall c s l s', 0 < n_ring c -> inv_st c s -> x_ctl (sh s) <> 3 ->
  fresh c s l -> l <> LClean -> step c s l = Some s' -> inv_st c s' /\ x_ctl (sh s') <> 3.
Proof.
  intros c s l s' N IV C3 F NC H. unfold inv_st in *. destruct l as [tid msg|tid| | | |].
  - destruct (step_log_inv _ _ _ _ _ H) as (t & T & P & ->). cbn [sh gh ths]. split; [|assumption].
    apply (inv_local c (sh s) (gh s) (ths s) tid t); try assumption; try (repeat split; reflexivity).
    + right. reflexivity.
    + unfold clm. rewrite P. reflexivity.
    + unfold rdg. rewrite P. reflexivity.
  - destruct (step_run_inv _ _ _ _ H) as (t & x & g & t' & T & E & ->). cbn [sh gh ths].
    split; [|rewrite (ctl_tstep _ _ _ _ _ _ _ _ E); assumption].
    eapply inv_tstep; try eassumption. apply F. assumption.
  - cbn [step] in H. destruct (x_ctl (sh s) =? 0); [|discriminate]. injection H as <-. cbn [sh gh ths].
    split; [|cbn; discriminate]. apply (inv_shared c (sh s)); [assumption|repeat split; reflexivity].
  - cbn [step] in H. destruct (x_ctl (sh s) =? 1); [|discriminate].
    destruct (is_sync c); [injection H as <-; split; [|cbn; discriminate]|].
    + apply (inv_shared c (sh s)); [assumption|repeat split; reflexivity].
    + destruct (nth_error (ths s) 0) as [t|]; [|discriminate].
      destruct (t_pc t); try discriminate. injection H as <-. split; [|cbn; discriminate].
      apply (inv_shared c (sh s)); [assumption|repeat split; reflexivity].
  - congruence.
  - cbn [step] in H. destruct (x_ctl (sh s) =? 3) eqn:E; [lia|discriminate].
Qed.

(* Induction over schedules, keeping the base invariant. *)
Lemma run_ind : forall c (ok : label -> Prop) (Q : st -> Prop),
  0 < n_ring c -> ~ ok LClean ->
  (forall s l s', inv_st c s -> x_ctl (sh s) <> 3 -> Q s -> fresh c s l -> ok l ->
     step c s l = Some s' -> inv_st c s' -> Q s') ->
  forall ls s s', inv_st c s -> x_ctl (sh s) <> 3 -> Q s -> no_lap c s ls -> Forall ok ls ->
    run c s ls = Some s' -> inv_st c s' /\ x_ctl (sh s') <> 3 /\ Q s'.
Proof.
  intros c ok Q N NC ST ls. induction ls as [|l ls IH]; intros s s' IV C3 QS NL OK R.
  - cbn in R. injection R as <-. auto.
  - cbn [run] in R. destruct (step c s l) as [s1|] eqn:E; [|discriminate].
    cbn [no_lap] in NL. destruct NL as [F NL]. apply Forall_cons_iff in OK. destruct OK as [O OK].
    destruct (inv_step c s l s1 N IV C3 F ltac:(intros ->; contradiction) E) as [IV1 C31].
    apply (IH s1 s'); [assumption|assumption| |exact (NL s1 E)|assumption|assumption].
    exact (ST s l s1 IV C3 QS F O E IV1).
Qed.

Definition any_but_clean (l : label) : Prop := l <> LClean.

Lemma no_restart_forall : forall ls, no_restart ls -> Forall any_but_clean ls.
Proof.
  intros ls H. apply Forall_forall. intros l L E. subst l. contradiction.
Qed.

Lemma reach_inv : forall c slots k ls s, cfg_ok c -> blank c slots ->
  reaches c slots k ls s -> no_lap c (start c slots k) ls -> no_restart ls -> inv_st c s.
Proof.
  intros c slots k ls s C B R NL NR.
  destruct (run_ind c any_but_clean (fun _ => True) ltac:(destruct C; lia)
    ltac:(intros H; apply H; reflexivity) ltac:(auto) ls (start c slots k) s) as (A & _ & _); auto.
  - apply inv_start; assumption.
  - cbn. discriminate.
  - apply no_restart_forall. assumption.
Qed.
