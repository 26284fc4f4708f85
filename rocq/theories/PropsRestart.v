(* Properties of a logger that is stopped and started again, any number of
   times, each time while no thread is inside a log statement. *)
From Coq Require Import ZArith List Bool Lia ZifyBool ZifyNat ZifyN Permutation.
From Verif Require Import Base BaseFacts LoggerState Ring RingSpec RingInv RingProofs RingRun RingQuiet RingStop
  Recover RecoverSpec RestartSpec RestartProofs PropsRing PropsRecover.
Import ListNotations.
Open Scope Z_scope.

(* ---- C111 ---- *)
(* In every session the channel is what a new channel would be after the same
   actions; what is new about it is only its history. *)
Theorem C111_as_new : forall c slots k ls s, cfg_ok c -> blank c slots -> lives c slots k ls s ->
  exists slots' s', blank c slots' /\ reaches c slots' k ls s' /\ no_lap c (start c slots' k) ls /\ alike s s' /\
    (exists before, g_held (gh s) = before ++ g_held (gh s')) /\
    (exists before, map snd (g_out (gh s)) = before ++ map snd (g_out (gh s'))) /\
    (exists before, g_started (gh s) = before ++ g_started (gh s')).
Proof.
  intros c slots k ls s C B L. destruct (lives_new c slots k ls s C B L) as (sl' & p & s' & B' & F & R & NL & S).
  exists sl', s'. split; [exact B'|]. split; [exact R|]. split; [exact NL|]. split; [exact (sim_alike p s s' S)|].
  destruct S as (_ & (_ & _ & _ & _ & G5 & G6 & G7) & _). split; [|split]; eexists; eassumption.
Qed.
Print Assumptions C111_as_new.

(* No restart loses or repeats a record: at the beginning of every session what
   has been delivered is exactly what had been reserved. *)
Theorem C111_restart : forall c slots k s, cfg_ok c -> blank c slots -> session c slots k s ->
  Permutation (map snd (g_out (gh s))) (map (fun e => line c (snd e)) (g_held (gh s))) /\
  (is_sync c = false -> map snd (g_out (gh s)) = map (fun e => line c (snd e)) (g_held (gh s))) /\
  x_hold (sh s) = 0 /\ x_write (sh s) = 0 /\ x_proc (sh s) = 0 /\ x_read (sh s) = 0 /\
  x_state (sh s) = CHANNEL_STATE_RUNNING /\ blank c (x_slots (sh s)) /\ quiet c s.
Proof.
  intros c slots k s C B L. destruct (session_new c slots k s C B L) as (sl' & p & B' & F & S & ->).
  split; [exact (f_perm _ _ F)|]. split; [exact (f_out _ _ F)|].
  pose proof (sim_alike _ _ _ S) as AL. pose proof AL as (E1 & E2 & E3 & E4 & E5 & E6 & _).
  rewrite E1, E2, E3, E4, E5, E6. repeat (split; [reflexivity|]). split; [exact B'|].
  intros i t T. destruct (alike_thr s _ i t AL T) as (t' & T' & P). rewrite <- P. unfold start in T'. cbn [ths] in T'.
  destruct (is_sync c) eqn:SY.
  - right. apply nth_error_In, repeat_spec in T'. subst t'. reflexivity.
  - destruct i as [|i]; [left; auto|]. right. cbn in T'. apply nth_error_In, repeat_spec in T'. subst t'. reflexivity.
Qed.
Print Assumptions C111_restart.

(* An async channel, at any moment of any session: the records delivered since
   the first start are, in order, a beginning of the records reserved, and those
   of one thread come in the order of its log statements. *)
Theorem C111_order : forall c slots k ls s, cfg_ok c -> blank c slots -> is_sync c = false ->
  lives c slots k ls s -> no_restart ls ->
  exists d, is_prefix d (g_held (gh s)) /\ map snd (g_out (gh s)) = map (fun e => line c (snd e)) d /\
    forall tid, subseq (of_thread tid d) (of_thread tid (g_started (gh s))).
Proof.
  intros c slots k ls s C B SY L NR. destruct (lives_new c slots k ls s C B L) as (sl' & p & s' & B' & F & R & NL & S).
  destruct (C22_thread_order_partial c sl' k ls s' C B' SY R NL NR) as (d & D1 & D2 & D3).
  destruct S as (_ & (_ & _ & _ & _ & G5 & G6 & G7) & _).
  exists (p_held p ++ d). rewrite G5, G6, G7. split; [apply prefix_after; exact D1|]. split.
  - rewrite map_app, <- (f_out _ _ F SY), D2. reflexivity.
  - intros tid. rewrite !of_thread_app. apply subseq_after; [exact (f_sub _ _ F tid)|exact (proj1 (D3 tid))].
Qed.
Print Assumptions C111_order.

(* and when no thread is inside a log statement the writer, given time, delivers
   everything *)
Theorem C111_drains : forall c slots k ls s, cfg_ok c -> blank c slots -> is_sync c = false ->
  lives c slots k ls s -> threads_only ls -> quiet c s ->
  exists n s', run c s (repeat (LRun 0) n) = Some s' /\
    map snd (g_out (gh s')) = map (fun e => line c (snd e)) (g_held (gh s)) /\
    x_read (sh s') = x_hold (sh s').
Proof.
  intros c slots k ls s C B SY (s0 & SS & NL & R) TO Q.
  destruct (session_new c slots k s0 C B SS) as (sl' & p & B' & F & S0 & _).
  destruct (run_sim p c ls s0 _ s S0 R) as (s' & R' & S).
  destruct (C23_async_partial c sl' k ls s' C B' SY R' (no_lap_sim p c _ _ _ S0 NL) TO (sim_quiet p c s s' S Q))
    as (_ & n & s1 & R1 & O1 & X1 & _).
  assert (ST : forall m u u' v, sim p u u' -> run c u' (repeat (LRun 0) m) = Some v ->
             exists w, run c u (repeat (LRun 0) m) = Some w /\ sim p w v).
  { intros m. induction m as [|m IH]; intros u u' v SI H; cbn [repeat run] in *; [injection H as <-; eauto|].
    destruct (step c u (LRun 0)) as [u1|] eqn:E.
    - destruct (step_sim p c u u' (LRun 0) u1 SI E) as (u2 & E2 & S2). rewrite E2 in H. exact (IH _ _ _ S2 H).
    - rewrite (step_sim_none p c u u' (LRun 0) SI E) in H. discriminate. }
  destruct (ST n s s' s1 S R1) as (s2 & R2 & S2). exists n, s2. split; [exact R2|].
  destruct S as (_ & (_ & _ & _ & _ & G5 & _) & _). pose proof (sim_alike _ _ _ S2) as (E1 & _ & _ & E4 & _).
  destruct S2 as (_ & (_ & _ & _ & _ & _ & G6 & _) & _). split; [|congruence].
  rewrite G6, O1, (f_out _ _ F SY), G5, map_app. reflexivity.
Qed.
Print Assumptions C111_drains.

(* A sync channel: whenever no thread is inside a log statement everything
   reserved since the first start has been delivered, once. *)
Theorem C111_sync : forall c slots k ls s, cfg_ok c -> blank c slots -> is_sync c = true ->
  lives c slots k ls s -> threads_only ls -> quiet c s ->
  Permutation (map snd (g_out (gh s))) (map (fun e => line c (snd e)) (g_held (gh s))).
Proof.
  intros c slots k ls s C B SY L TO Q. destruct (lives_new c slots k ls s C B L) as (sl' & p & s' & B' & F & R & NL & S).
  destruct (C23_sync_partial c sl' k ls s' C B' SY R NL TO (sim_quiet p c s s' S Q)) as (P & _).
  destruct S as (_ & (_ & _ & _ & _ & G5 & G6 & G7) & _). rewrite G5, G6, map_app.
  apply Permutation_app; [exact (f_perm _ _ F)|exact P].
Qed.
Print Assumptions C111_sync.

(* A thread that has returned from its log statements of this session has had
   every one of them accepted. *)
Theorem C111_waits : forall c slots k s0 ls s, cfg_ok c -> blank c slots -> session c slots k s0 ->
  no_lap c s0 ls -> threads_only ls -> run c s0 ls = Some s ->
  forall tid t, nth_error (ths s) tid = Some t -> t_pc t = Idle ->
    exists new, of_thread tid (g_started (gh s)) = of_thread tid (g_started (gh s0)) ++ new /\
                of_thread tid (g_held (gh s)) = of_thread tid (g_held (gh s0)) ++ new.
Proof.
  intros c slots k s0 ls s C B SS NL TO R tid t T P.
  destruct (session_new c slots k s0 C B SS) as (sl' & p & B' & F & S0 & EP).
  destruct (run_sim p c ls s0 _ s S0 R) as (s' & R' & S).
  destruct (alike_thr s s' tid t (sim_alike p s s' S) T) as (t' & T' & P'). rewrite P in P'.
  pose proof (C21_waits_partial c sl' k ls s' C B' R' (no_lap_sim p c _ _ _ S0 NL) TO tid t' T' P') as H.
  destruct S as (_ & (_ & _ & _ & _ & G5 & G6 & G7) & _). rewrite G5, G7, EP. cbn [past_of p_held p_started].
  rewrite !of_thread_app. exists (of_thread tid (g_held (gh s'))). rewrite <- H. split; reflexivity.
Qed.
Print Assumptions C111_waits.

(* No two threads are in the same slot. *)
Theorem C111_slots : forall c slots k ls s, cfg_ok c -> blank c slots -> lives c slots k ls s -> no_restart ls ->
  forall i j t u x, i <> j -> nth_error (ths s) i = Some t -> nth_error (ths s) j = Some u ->
    (filling t = Some x -> filling u <> Some x /\ reading u <> Some x) /\
    (reading t = Some x -> filling u <> Some x /\ reading u <> Some x).
Proof.
  intros c slots k ls s C B L NR i j t u x D T U.
  destruct (lives_new c slots k ls s C B L) as (sl' & p & s' & B' & F & R & NL & S).
  pose proof (sim_alike p s s' S) as AL.
  destruct (alike_thr s s' i t AL T) as (t' & T' & P). destruct (alike_thr s s' j u AL U) as (u' & U' & Q).
  pose proof (C19_slots_partial c sl' k ls s' C B' R NL NR i j t' u' x D T' U') as H.
  unfold filling, reading in *. rewrite P, Q in H. exact H.
Qed.
Print Assumptions C111_slots.

(* The process dies in a later session and a new one attaches to its memory: as
   in C33, the records published and not yet released are delivered again and
   the unfinished ones are flagged. *)
Theorem C111_crash : forall c slots k ls s k', cfg_ok c -> 20 <= log_size c -> blank c slots -> is_sync c = false ->
  lives c slots k ls s -> no_restart ls ->
  exists n s' rec, run c (reborn c (sh s) k') (repeat (LRun 0) n) = Some s' /\
    x_state (sh s') = CHANNEL_STATE_RUNNING /\
    x_hold (sh s') = x_hold (sh s) /\ x_write (sh s') = x_hold (sh s) /\
    x_proc (sh s') = x_hold (sh s) /\ x_read (sh s') = x_hold (sh s) /\
    Forall (fun x => s_mark x = 0) (x_slots (sh s')) /\
    map snd (g_out (gh s')) =
      map (fun e => line c (snd e)) (firstn (Z.to_nat (gW (gh s) - gR (gh s))) (skipn (Z.to_nat (gR (gh s))) (g_held (gh s)))) ++
      map (flag_text c) rec /\
    zlen rec = zlen (g_held (gh s)) - gW (gh s) /\
    (forall j i m x, nth_error (skipn (Z.to_nat (gW (gh s))) (g_held (gh s))) j = Some (i, m) -> nth_error rec j = Some x ->
       unfinished c (nth_error (ths s) i) m x).
Proof. exact crash_live. Qed.
Print Assumptions C111_crash.

(* Two records in the first session, delivered by the stop; a statement between
   the sessions, dropped; one record in the second session. *)
Definition get_st (o : option st) : st := match o with Some s => s | None => start ca sl 2 end.
Definition se_1 : st := get_st (run ca (start ca sl 2) ex_ls).
Definition se_2 : st := get_st (run ca se_1 (LStop :: LLog 1 [90] :: R 2 1 ++ R 31 0)).
Definition se_3 : st := get_st (run ca se_2 (restart ca)).
Definition se_ls : list label := LLog 2 [67] :: R 22 2.
Definition se_4 : st := get_st (run ca se_3 se_ls).
Example C111_async_ex : session ca sl 2 se_3 /\ lives ca sl 2 se_ls se_4 /\ threads_only se_ls /\ quiet ca se_4 /\
  map snd (g_out (gh se_4)) = [[65; 10]; [66; 10]] /\
  g_held (gh se_4) = [(1%nat, [65]); (2%nat, [66]); (2%nat, [67])] /\
  g_started (gh se_4) = [(1%nat, [65]); (2%nat, [66]); (1%nat, [90]); (2%nat, [67])].
Proof.
  assert (S : session ca sl 2 se_3).
  { apply (next_session ca sl 2 (start ca sl 2) ex_ls se_1 (get_st (step ca se_1 LStop))
             (LLog 1 [90] :: R 2 1 ++ R 31 0) se_2 se_3).
    - constructor.
    - apply no_lapb_ok. vm_compute. reflexivity.
    - vm_compute. reflexivity.
    - exact (proj1 (proj2 (proj2 ring_ex))).
    - eapply ca_quiet; vm_compute; reflexivity.
    - vm_compute. reflexivity.
    - vm_compute. reflexivity.
    - unfold threads_only, R. cbn [repeat app]. repeat (constructor; [exact I|]). constructor.
    - eapply ca_quiet; vm_compute; reflexivity.
    - vm_compute. reflexivity. }
  split; [exact S|]. split.
  { exists se_3. split; [exact S|]. split; [apply no_lapb_ok; vm_compute; reflexivity|vm_compute; reflexivity]. }
  split; [unfold threads_only, se_ls, R; cbn [repeat app]; repeat (constructor; [exact I|]); constructor|].
  split; [eapply ca_quiet; vm_compute; reflexivity|].
  split; [vm_compute; reflexivity|]. split; vm_compute; reflexivity.
Qed.

(* the same on a sync channel, where the thread that logs delivers *)
Definition ss_ls : list label := LLog 0 [65] :: R 41 0.
Definition ss_1 : st := get_st (run cs (start cs sl 2) ss_ls).
Definition ss_2 : st := get_st (run cs ss_1 [LStop; LLog 1 [90]; LRun 1; LRun 1]).
Definition ss_3 : st := get_st (run cs ss_2 (restart cs)).
Definition ss_4 : st := get_st (run cs ss_3 ss_ls).
Lemma cs_quiet : forall s a b, ths s = [a; b] -> t_pc a = Idle -> t_pc b = Idle -> quiet cs s.
Proof.
  intros s a b E P Q i t T. right. rewrite E in T. destruct i as [|[|i]]; cbn in T; try congruence. destruct i; discriminate.
Qed.
Example C111_sync_ex : session cs sl 2 ss_3 /\ lives cs sl 2 ss_ls ss_4 /\ threads_only ss_ls /\ quiet cs ss_4 /\
  map snd (g_out (gh ss_4)) = [[65; 10]; [65; 10]] /\
  of_thread 1 (g_started (gh ss_4)) = [[90]] /\ of_thread 1 (g_held (gh ss_4)) = [].
Proof.
  assert (TO : threads_only ss_ls) by (unfold threads_only, ss_ls, R; cbn [repeat app]; repeat (constructor; [exact I|]); constructor).
  assert (S : session cs sl 2 ss_3).
  { apply (next_session cs sl 2 (start cs sl 2) ss_ls ss_1 (get_st (step cs ss_1 LStop)) [LLog 1 [90]; LRun 1; LRun 1] ss_2 ss_3).
    - constructor.
    - apply no_lapb_ok. vm_compute. reflexivity.
    - vm_compute. reflexivity.
    - exact TO.
    - eapply cs_quiet; vm_compute; reflexivity.
    - vm_compute. reflexivity.
    - vm_compute. reflexivity.
    - repeat constructor.
    - eapply cs_quiet; vm_compute; reflexivity.
    - vm_compute. reflexivity. }
  split; [exact S|]. split.
  { exists ss_3. split; [exact S|]. split; [apply no_lapb_ok; vm_compute; reflexivity|vm_compute; reflexivity]. }
  split; [exact TO|]. split; [eapply cs_quiet; vm_compute; reflexivity|].
  split; [vm_compute; reflexivity|]. split; vm_compute; reflexivity.
Qed.
