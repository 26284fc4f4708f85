(* Properties C32-C34: attaching to the shared memory of a crashed process. *)
From Coq Require Import String ZArith List Bool Lia ZifyBool ZifyNat ZifyN.
From Verif Require Import Base BaseFacts LoggerState Ring RingSpec RingInv RingProofs RingLive RingRun RingQuiet
  RingStop PropsRing Recover RecoverSpec RecoverProofs RecoverRing.
Import ListNotations.
Open Scope Z_scope.

(* ---- C32 ---- *)
(* On any segment with the right size and id and indices in range. *)
Theorem C32_segment : forall fuel K id m, 0 < k_ring K -> 20 <= k_log K -> k_ring K <= Z.of_nat fuel ->
  m_size m = k_size K -> m_id m = id -> m_channels m <= k_chan K -> m_channels m <= zlen (m_rings m) ->
  (forall j q, Z.of_nat j < m_channels m -> nth_error (m_rings m) j = Some q ->
     in_ring K (q_write q) /\ in_ring K (q_hold q) /\ in_ring K (q_read q) /\
     zlen (q_slots q) = k_ring K /\ forall i d, rd (q_slots q) i = Ret d -> sane K d) ->
  exists m', load_shm fuel K id m = Ret (0, m', true) /\
    m_size m' = m_size m /\ m_id m' = m_id m /\ m_channels m' = m_channels m /\ zlen (m_rings m') = zlen (m_rings m) /\
    forall j q, nth_error (m_rings m) j = Some q -> exists q', nth_error (m_rings m') j = Some q' /\
      (m_channels m <= Z.of_nat j -> q' = q) /\
      (Z.of_nat j < m_channels m ->
         q_write q' = q_hold q /\ q_hold q' = q_hold q /\ q_read q' = q_read q /\ q_proc q' = q_read q /\
         zlen (q_slots q') = k_ring K /\
         forall i d, rd (q_slots q) i = Ret d -> exists d', rd (q_slots q') i = Ret d' /\
           (* [i] is between write_idx_ and hold_idx_ *)
           (lead (k_ring K) (q_write q) i < lead (k_ring K) (q_write q) (q_hold q) -> flagged K d d') /\
           (lead (k_ring K) (q_write q) (q_hold q) <= lead (k_ring K) (q_write q) i -> d' = d)).
Proof.
  intros fuel K id m N L F S I C Z H. unfold load_shm. rewrite S, I, !Z.eqb_refl. cbn [negb orb].
  destruct (recover_rings_ok K fuel (m_rings m) 0 (m_channels m) N L ltac:(lia) C ltac:(lia) F) as (r & R1 & R2 & R3).
  { intros j q J Q. destruct (H j q ltac:(lia) Q) as (A1 & A2 & A3 & A4 & A5).
    split; [assumption|]. split; [assumption|]. split; [assumption|]. split; [assumption|]. intros i d _. apply A5. }
  rewrite R1. cbn [bind]. eexists. split; [reflexivity|]. cbn [m_size m_id m_channels m_rings].
  split; [congruence|]. split; [congruence|]. split; [reflexivity|]. split; [assumption|].
  intros j q Q. destruct (R3 j q Q) as (q' & Q1 & Q2 & Q3). exists q'. split; [assumption|]. split; [intros; apply Q2; lia|].
  intros J. specialize (Q3 ltac:(lia)). destruct (H j q J Q) as (A1 & A2 & A3 & A4 & A5).
  destruct (recover_ring_ok K fuel q N L A1 A2 A3) as (p & P0 & P1 & P2 & P3 & P4 & P5 & P6).
  - split; [assumption|]. intros i d _. apply A5.
  - pose proof (lead_bound (k_ring K) (q_write q) (q_hold q) N). lia.
  - rewrite P0 in Q3. injection Q3 as ->.
    split; [assumption|]. split; [assumption|]. split; [assumption|]. split; [assumption|]. split; [assumption|].
    intros i d D. destruct (P6 i d D) as (d' & D1 & D2). exists d'. split; [assumption|].
    destruct (lead (k_ring K) (q_write q) i <? lead (k_ring K) (q_write q) (q_hold q)) eqn:E; split; intros X; try lia; assumption.
Qed.
Print Assumptions C32_segment.

Definition K0 : rlim := mkLim 11 100 2 77.
Definition dat (mk len : Z) (t : text) : rdata := mkData mk 2 len (t ++ repeat 0 (100 - length t)).
(* slot 0 published, slot 1 half written, slot 2 reserved *)
Definition q0 : rring := mkRing 1 3 0 1 (dat 2 3 [65; 66; 10] :: dat 1 2 [67; 68; 69] :: repeat (dat 0 0 []) 9).
Definition m0 : shm := mkShm 77 5 1 [q0; q0].
Example C32_ex : exists q', load_shm 11 K0 5 m0 = Ret (0, mkShm 77 5 1 [q'; q0], true) /\
  (q_write q', q_hold q', q_read q', q_proc q') = (3, 3, 0, 0) /\
  map shown (firstn 3 (q_slots q')) =
    [[65; 66; 10]; s2z "CD!!!core recover!!!" ++ [10]; s2z "!!!core recover!!!" ++ [10]].
Proof. eexists. split; [vm_compute; reflexivity|]. vm_compute. split; reflexivity. Qed.
Example C32_hyp : forall i d, rd (q_slots q0) i = Ret d -> sane K0 d.
Proof.
  intros i d H. apply rd_inv in H. destruct H as [_ H]. apply nth_error_In in H. cbn in H.
  repeat (destruct H as [<-|H]; [split; vm_compute; intuition discriminate|]). contradiction.
Qed.

(* For every state the queue of a running, stopping or stopped channel can be in
   when the process dies; [q] is the ring as it lies in memory. *)
Theorem C32_reachable_partial : forall c slots k ls s K q fuel, cfg_ok c -> 20 <= log_size c -> blank c slots ->
  reaches c slots k ls s -> no_lap c (start c slots k) ls -> no_restart ls ->
  abs_ring c K q (sh s) -> (forall i d, rd (q_slots q) i = Ret d -> sane K d) -> n_ring c <= Z.of_nat fuel ->
  exists q', recover_ring fuel K q = Ret (0, q') /\
    q_write q' = x_hold (sh s) /\ q_hold q' = x_hold (sh s) /\ q_read q' = x_read (sh s) /\ q_proc q' = x_read (sh s) /\
    (* published and not released: unchanged *)
    (forall a, gR (gh s) <= a < gW (gh s) -> exists d i m, rd (q_slots q) (a mod n_ring c) = Ret d /\
       rd (q_slots q') (a mod n_ring c) = Ret d /\
       nth_error (g_held (gh s)) (Z.to_nat a) = Some (i, m) /\ shown d = line c m) /\
    (* reserved and not published: flagged *)
    (forall a, gW (gh s) <= a < zlen (g_held (gh s)) -> exists d d' i m, rd (q_slots q) (a mod n_ring c) = Ret d /\
       rd (q_slots q') (a mod n_ring c) = Ret d' /\ flagged K d d' /\
       nth_error (g_held (gh s)) (Z.to_nat a) = Some (i, m) /\ unfinished c (nth_error (ths s) i) m (shown d)).
Proof.
  intros c slots k ls s K q fuel C L B RE NL NR AB SA F.
  pose proof (reach_inv _ _ _ _ _ C B RE NL NR) as IV.
  pose proof (reach_part _ _ _ _ _ C B RE NL NR) as LV.
  pose proof (reach_txt _ _ _ _ _ C B RE NL NR) as QT.
  assert (N : 0 < n_ring c) by (destruct C; lia).
  pose proof (i_ord _ _ _ _ IV) as OR. pose proof (i_held _ _ _ _ IV) as HL.
  destruct AB as (A0 & A1 & A2 & A3 & A4 & A5).
  rewrite (i_write _ _ _ _ IV) in A2. rewrite (i_hold _ _ _ _ IV) in A3. rewrite (i_read _ _ _ _ IV) in A4.
  assert (LD : forall a b, 0 <= b - a < n_ring c -> lead (k_ring K) (ix c a) (ix c b) = b - a).
  { intros a b D. unfold lead, ix. rewrite A0. rewrite <- Zminus_mod. apply Z.mod_small. lia. }
  assert (LEN : zlen (q_slots q) = k_ring K).
  { rewrite A0, <- (i_len _ _ _ _ IV), A5. unfold zlen. rewrite map_length. reflexivity. }
  assert (RD : forall a, exists d, rd (q_slots q) (ix c a) = Ret d /\ at_ c (sh s) a = abs_slot d).
  { intros a. pose proof (ix_bound c a N) as IB. destruct (nth_error (q_slots q) (Z.to_nat (ix c a))) as [d|] eqn:E.
    - exists d. split.
      + unfold rd. rewrite E. replace (ix c a <? 0) with false by lia. reflexivity.
      + unfold at_, get. rewrite A5. apply nth_of_error. rewrite nth_error_map, E. reflexivity.
    - apply nth_error_None in E. unfold zlen in LEN. lia. }
  assert (HA : forall a i m, held_at (gh s) a = Some (i, m) -> nth_error (g_held (gh s)) (Z.to_nat a) = Some (i, m)).
  { intros a i m. unfold held_at. destruct (a <? 0); [discriminate|]. tauto. }
  destruct (recover_ring_ok K fuel q) as (q' & P0 & P1 & P2 & P3 & P4 & P5 & P6).
  - lia.
  - lia.
  - unfold in_ring. rewrite A2, A0. apply ix_bound. assumption.
  - unfold in_ring. rewrite A3, A0. apply ix_bound. assumption.
  - unfold in_ring. rewrite A4, A0. apply ix_bound. assumption.
  - split; [assumption|]. intros j d _. apply SA.
  - rewrite A2, A3, LD by lia. lia.
  - exists q'. split; [assumption|]. rewrite (i_hold _ _ _ _ IV), (i_read _ _ _ _ IV).
    split; [congruence|]. split; [congruence|]. split; [congruence|]. split; [congruence|]. split.
    + intros a A. change (a mod n_ring c) with (ix c a). destruct (RD a) as (d & D1 & D2).
      destruct (P6 _ _ D1) as (d' & D3 & D4).
      assert (LA : lead (k_ring K) (q_write q) (ix c a) = a + n_ring c - gW (gh s)).
      { rewrite A2, <- (ix_lap c a). apply LD. lia. }
      rewrite LA in D4. rewrite A2, A3, LD in D4 by lia.
      destruct (a + n_ring c - gW (gh s) <? gH (gh s) - gW (gh s)) eqn:E; [lia|]. subst d'.
      assert (X : exists i m, held_at (gh s) a = Some (i, m) /\ s_text (at_ c (sh s) a) = line c m).
      { destruct (Z_lt_dec a (gP (gh s))); [apply QT; lia|]. destruct (i_pub _ _ _ _ IV a ltac:(lia)) as [_ X]. exact X. }
      destruct X as (i & m & X1 & X2). exists d, i, m. split; [assumption|]. split; [assumption|]. split; [auto|].
      rewrite D2 in X2. exact X2.
    + intros a A. change (a mod n_ring c) with (ix c a). destruct (RD a) as (d & D1 & D2).
      destruct (P6 _ _ D1) as (d' & D3 & D4).
      rewrite A2, A3, !LD in D4 by lia.
      destruct (a - gW (gh s) <? gH (gh s) - gW (gh s)) eqn:E; [|lia].
      assert (X : exists e, nth_error (g_held (gh s)) (Z.to_nat a) = Some e).
      { destruct (nth_error (g_held (gh s)) (Z.to_nat a)) eqn:Y; [eauto|]. apply nth_error_None in Y. unfold zlen in *. lia. }
      destruct X as ([i m] & X). exists d, d', i, m. split; [assumption|]. split; [assumption|]. split; [assumption|].
      split; [assumption|]. change (shown d) with (s_text (abs_slot d)). rewrite <- D2.
      apply unfinished_at; try assumption; [lia|]. unfold held_at. replace (a <? 0) with false by lia. assumption.
Qed.
Print Assumptions C32_reachable_partial.

(* "A" is published, "BC" half written *)
Definition crash_ls : list label := LLog 1 [65] :: R 22 1 ++ LLog 2 [66; 67] :: R 8 2.
Definition crash_st : st := match run ca (start ca sl 2) crash_ls with Some s => s | None => start ca sl 2 end.
Definition Kc : rlim := mkLim 11 100 2 77.
Definition qc : rring := mkRing 1 2 0 0 (dat 2 2 [65; 10] :: dat 1 1 [66] :: repeat (dat 0 0 []) 9).
Lemma crash_ex : reaches ca sl 2 crash_ls crash_st /\ no_lap ca (start ca sl 2) crash_ls /\ threads_only crash_ls.
Proof.
  split; [vm_compute; reflexivity|]. split; [apply no_lapb_ok; vm_compute; reflexivity|].
  unfold threads_only, crash_ls, R. cbn [repeat app]. repeat (constructor; [exact I|]). constructor.
Qed.
Example C32_reach_ex : abs_ring ca Kc qc (sh crash_st) /\ gR (gh crash_st) = 0 /\ gW (gh crash_st) = 1 /\
  zlen (g_held (gh crash_st)) = 2.
Proof. vm_compute. repeat split. Qed.

(* "CD" is written when the channel is stopped; its slot is given up *)
Definition halt_ls : list label := LLog 1 [65] :: R 22 1 ++ LLog 2 [67; 68] :: R 8 2 ++ [LStop] ++ R 3 2.
Example C32_stop_ex : exists s t, reaches ca sl 2 halt_ls s /\ no_lapb ca (start ca sl 2) halt_ls = true /\ no_restart halt_ls /\
  nth_error (ths s) 2 = Some t /\ t_pc t = Idle /\ gW (gh s) = 1 /\ zlen (g_held (gh s)) = 2 /\ s_text (get (sh s) 1) = [67; 68].
Proof.
  do 2 eexists. split; [vm_compute; reflexivity|]. split; [vm_compute; reflexivity|].
  split; [intros H; unfold halt_ls, R in H; cbn [repeat app] in H; repeat destruct H as [H|H]; discriminate || exact H|].
  vm_compute. repeat split.
Qed.

(* ---- C33 ---- *)
(* [k'] logging threads in the new process.  The writer thread alone delivers,
   in order, every published record that was not released and then one flagged
   record for every reserved one; every other record had been delivered
   before. *)
Theorem C33_async_partial : forall c slots k ls s k', cfg_ok c -> 20 <= log_size c -> blank c slots -> is_sync c = false ->
  reaches c slots k ls s -> no_lap c (start c slots k) ls -> no_restart ls ->
  (forall a i m, 0 <= a < gR (gh s) -> nth_error (g_held (gh s)) (Z.to_nat a) = Some (i, m) ->
     In (a, line c m) (g_out (gh s))) /\
  exists n s' rec, run c (reborn c (sh s) k') (repeat (LRun 0) n) = Some s' /\
    x_state (sh s') = CHANNEL_STATE_RUNNING /\
    x_hold (sh s') = x_hold (sh s) /\ x_write (sh s') = x_hold (sh s) /\
    x_proc (sh s') = x_hold (sh s) /\ x_read (sh s') = x_hold (sh s) /\
    Forall (fun x => s_mark x = 0) (x_slots (sh s')) /\
    map snd (g_out (gh s')) =
      map (fun e => line c (snd e)) (firstn (Z.to_nat (gW (gh s) - gR (gh s))) (skipn (Z.to_nat (gR (gh s))) (g_held (gh s)))) ++
      map (flag_text c) rec /\
    zlen rec = zlen (g_held (gh s)) - gW (gh s) /\
    (forall j i m x, nth_error (skipn (Z.to_nat (gW (gh s))) (g_held (gh s))) j = Some (i, m) -> nth_error rec j = Some x ->
       unfinished c (nth_error (ths s) i) m x).
Proof.
  intros c slots k ls s k' C L B SY RE NL TO. split; [|eapply crash_recover; eassumption].
  pose proof (reach_inv _ _ _ _ _ C B RE NL TO) as IV.
  pose proof (i_ord _ _ _ _ IV) as OR. intros a i m A H.
  assert (X : In a (map fst (g_out (gh s)))).
  { apply (i_outp _ _ _ _ IV). split; [lia|]. intros j t T E.
    pose proof (i_thr _ _ _ _ IV j t T) as K. unfold rdg, thr_ok in *. destruct (t_pc t); try discriminate.
    injection E as E. lia. }
  apply in_map_iff in X. destruct X as ([a' x] & E & X). cbn in E. subst a'.
  destruct (i_outs _ _ _ _ IV a x X) as (j & m' & H1 & ->).
  unfold held_at in H1. replace (a <? 0) with false in H1 by lia. congruence.
Qed.
Print Assumptions C33_async_partial.
Example C33_ex : exists s', run ca (reborn ca (sh crash_st) 1) (R 51 0) = Some s' /\
  map snd (g_out (gh s')) = [[65; 10]; s2z "B!!!core recover!!!" ++ [10]] /\ x_state (sh s') = CHANNEL_STATE_RUNNING.
Proof. eexists. split; [vm_compute; reflexivity|]. vm_compute. split; reflexivity. Qed.

(* [reborn] is what LoadSharedMemory makes of the memory the process left: the
   recovered segment [q'] shows the indices, marks and texts the new process
   starts with. *)
Theorem C33_memory : forall c slots k ls s k' K q, cfg_ok c -> 20 <= log_size c -> blank c slots ->
  reaches c slots k ls s -> no_lap c (start c slots k) ls -> no_restart ls ->
  abs_ring c K q (sh s) -> (forall i d, rd (q_slots q) i = Ret d -> sane K d) ->
  exists q', recover_ring (Z.to_nat (n_ring c)) K q = Ret (0, q') /\
    abs_ring c K q' (sh (reborn c (sh s) k')) /\ q_proc q' = x_proc (sh (reborn c (sh s) k')).
Proof.
  intros c slots k ls s k' K q C L B RE NL NR AB SA.
  pose proof (reach_inv _ _ _ _ _ C B RE NL NR) as IV. assert (N : 0 < n_ring c) by (destruct C; lia).
  pose proof (i_ord _ _ _ _ IV) as OR. pose proof AB as (A0 & A1 & A2 & A3 & A4 & A5).
  rewrite (i_write _ _ _ _ IV) in A2. rewrite (i_hold _ _ _ _ IV) in A3. rewrite (i_read _ _ _ _ IV) in A4.
  assert (LD : lead (k_ring K) (ix c (gW (gh s))) (ix c (gH (gh s))) = gH (gh s) - gW (gh s)).
  { unfold lead, ix. rewrite A0, <- Zminus_mod. apply Z.mod_small. lia. }
  assert (LEN : zlen (q_slots q) = k_ring K).
  { rewrite A0, <- (i_len _ _ _ _ IV), A5. unfold zlen. rewrite map_length. reflexivity. }
  destruct (recover_ring_ok K (Z.to_nat (n_ring c)) q) as (q' & P0 & P1 & P2 & P3 & P4 & P5 & P6).
  { lia. }
  { lia. }
  { unfold in_ring. rewrite A2, A0. apply ix_bound. assumption. }
  { unfold in_ring. rewrite A3, A0. apply ix_bound. assumption. }
  { unfold in_ring. rewrite A4, A0. apply ix_bound. assumption. }
  { split; [assumption|]. intros j d _. apply SA. }
  { rewrite A2, A3, LD. lia. }
  exists q'. split; [exact P0|]. unfold recover_ring in P0.
  destruct ((k_ring K <=? q_write q) || (q_write q <? 0)); [discriminate|].
  apply bind_ret_inv in P0. destruct P0 as (p & RL & P0). cbn [q_read] in P0.
  destruct ((k_ring K <=? q_read p) || (q_read p <? 0)); [discriminate|]. injection P0 as <-.
  pose proof (revive_abs c K _ q (sh s) p ltac:(lia) SA AB RL) as (B0 & B1 & B2 & B3 & B4 & B5).
  unfold reborn, abs_ring. cbn [sh q_write q_hold q_read q_proc q_slots put_ctl put_state put_idx x_write x_hold x_read x_proc x_slots].
  rewrite <- ?B2, <- ?B4, B5. repeat split; assumption.
Qed.
Print Assumptions C33_memory.
Example C33_memory_hypotheses : reaches ca sl 2 crash_ls crash_st /\ no_lap ca (start ca sl 2) crash_ls /\ no_restart crash_ls /\
  abs_ring ca Kc qc (sh crash_st) /\ (forall i d, rd (q_slots qc) i = Ret d -> sane Kc d) /\ 20 <= log_size ca.
Proof.
  destruct crash_ex as (A & B & C). split; [exact A|]. split; [exact B|].
  split; [intros H; unfold threads_only in C; rewrite Forall_forall in C; exact (C _ H)|].
  split; [vm_compute; repeat split|]. split; [|vm_compute; discriminate]. clear A B C.
  intros i d H. apply rd_inv in H. destruct H as [_ H]. apply nth_error_In in H. cbn in H.
  repeat (destruct H as [<-|H]; [split; vm_compute; intuition discriminate|]). contradiction.
Qed.

(* A thread that has reserved its slot but not begun to fill it leaves the slot's
   old record there: after the crash "A", delivered eleven records ago, comes
   out again, flagged, and nothing of the new record "B" does. *)
Definition stale_ls : list label :=
  (LLog 1 [65] :: R 22 1) ++ R 19 0 ++ concat (repeat ((LLog 1 [67] :: R 22 1) ++ R 19 0) 10) ++ LLog 2 [66] :: R 4 2.
Definition stale_st : st := match run ca (start ca sl 2) stale_ls with Some s => s | None => start ca sl 2 end.
Theorem C33_unfinished_refuted : exists c slots k ls s k', cfg_ok c /\ 20 <= log_size c /\ blank c slots /\ is_sync c = false /\
  reaches c slots k ls s /\ no_lap c (start c slots k) ls /\ threads_only ls /\
  In (2%nat, [66]) (g_held (gh s)) /\ ~ In (line c [66]) (map snd (g_out (gh s))) /\
  In (line c [65]) (map snd (g_out (gh s))) /\
  exists n s', run c (reborn c (sh s) k') (repeat (LRun 0) n) = Some s' /\
    x_state (sh s') = CHANNEL_STATE_RUNNING /\ x_read (sh s') = x_hold (sh s') /\
    map snd (g_out (gh s')) = [flag_text c (line c [65])].
Proof.
  exists ca, sl, 2%nat, stale_ls, stale_st, 1%nat. split; [exact ca_ok|]. split; [cbn; lia|]. split; [apply sl_blank|].
  split; [reflexivity|]. split; [vm_compute; reflexivity|]. split; [apply no_lapb_ok; vm_compute; reflexivity|].
  split; [unfold threads_only, stale_ls, R; cbn [repeat app concat]; repeat (constructor; [exact I|]); constructor|].
  split; [vm_compute; intuition|]. split; [vm_compute; intuition discriminate|]. split; [vm_compute; intuition|].
  exists 37%nat. eexists. split; [vm_compute; reflexivity|]. vm_compute. repeat split.
Qed.
Print Assumptions C33_unfinished_refuted.

(* Sync channel.  The process dies after a thread delivered "AAAA" and cleared
   the mark, before the slot was released.  Recovery makes the slot be delivered
   again, but with its mark still cleared: while thread 0 of the new process
   reads it, thread 1 releases it, and after one round of the ring fills it with
   "BBBB".  The device gets "AABB". *)
Definition mix_ls : list label := LLog 0 [65; 65; 65; 65] :: R 35 0.
Definition mix_st : st := match run cs (start cs sl 1) mix_ls with Some s => s | None => start cs sl 1 end.
Definition mix_ls' : list label :=
  LLog 0 [88] :: R 27 0 ++ (LLog 1 [66; 66; 66; 66] :: R 66 1) ++
  concat (repeat (LLog 1 [66; 66; 66; 66] :: R 47 1) 9) ++ R 4 0.
Theorem C33_sync_refuted : exists c slots k ls s k' ls' s', cfg_ok c /\ 20 <= log_size c /\ blank c slots /\ is_sync c = true /\
  reaches c slots k ls s /\ no_lap c (start c slots k) ls /\ threads_only ls /\
  (* nothing was unpublished at the crash *)
  zlen (g_held (gh s)) = gW (gh s) /\
  run c (reborn c (sh s) k') ls' = Some s' /\ no_lap c (reborn c (sh s) k') ls' /\ threads_only ls' /\
  exists x, In x (map snd (g_out (gh s'))) /\
    forall i m, In (i, m) (g_held (gh s) ++ g_held (gh s')) -> x <> line c m.
Proof.
  exists cs, sl, 1%nat, mix_ls, mix_st, 2%nat, mix_ls'. eexists. split; [exact cs_ok|]. split; [cbn; lia|]. split; [apply sl_blank|].
  split; [reflexivity|]. split; [vm_compute; reflexivity|]. split; [apply no_lapb_ok; vm_compute; reflexivity|].
  split; [unfold threads_only, mix_ls, R; cbn [repeat app]; repeat (constructor; [exact I|]); constructor|].
  split; [vm_compute; reflexivity|]. split; [vm_compute; reflexivity|].
  split; [apply no_lapb_ok; vm_compute; reflexivity|].
  split; [unfold threads_only, mix_ls', R; cbn [repeat app concat]; repeat (constructor; [exact I|]); constructor|].
  exists [65; 65; 66; 66; 10]. split; [vm_compute; intuition|].
  intros i m H. vm_compute in H. repeat (destruct H as [H|H]; [injection H as <- <-; discriminate|]). contradiction.
Qed.
Print Assumptions C33_sync_refuted.

(* Sync channel, ring full of unfinished records at the crash: only a log
   statement delivers records and no log statement gets a slot, so nothing is
   ever delivered. *)
Definition stuck_ls : list label := concat (map (fun i => LLog i [65] :: R 4 i) (seq 0 10)).
Definition stuck_st : st := match run cs (start cs sl 10) stuck_ls with Some s => s | None => start cs sl 10 end.

Definition waits (t : thr) : Prop :=
  match t_pc t with Idle | HState | HLoad | HOut => True | HRead old => old = 10 | _ => False end.
Lemma stuck_run : forall x, running x = true -> x_hold x = 10 -> x_read x = 0 -> forall ls s s', threads_only ls ->
  sh s = x -> g_out (gh s) = [] -> (forall i t, nth_error (ths s) i = Some t -> waits t) ->
  run cs s ls = Some s' -> g_out (gh s') = [].
Proof.
  intros x RX HX RDX ls. induction ls as [|l ls IH]; intros s s' TO S O W RU.
  - injection RU as <-. exact O.
  - inversion TO as [|? ? L TO']; subst. cbn [run] in RU. destruct (step cs s l) as [s1|] eqn:E; [|discriminate].
    assert (X : sh s1 = sh s /\ g_out (gh s1) = [] /\ forall i t, nth_error (ths s1) i = Some t -> waits t).
    { destruct l as [tid m|tid| | | |]; try contradiction.
      - destruct (step_log_inv _ _ _ _ _ E) as (t & T & P & ->). cbn [sh gh ths]. split; [reflexivity|]. split; [exact O|].
        intros i u U. apply upd_inv in U. destruct U as [[-> ->]|[_ U]]; [exact I|eauto].
      - destruct (step_run_inv _ _ _ _ E) as (t & y & g & t' & T & TS & ->). cbn [sh gh ths].
        pose proof (W tid t T) as WT. destruct t as [p m b]. unfold waits in WT. unfold tstep in TS. cbn [t_pc] in *.
        assert (Y : y = sh s /\ g = gh s /\ waits t').
        { destruct p; try contradiction; try discriminate TS; injection TS as <- <- <-; (split; [reflexivity|]; split; [reflexivity|]).
          - rewrite RX. exact I.
          - cbn. exact HX.
          - subst old. rewrite RDX. exact I.
          - rewrite RX. exact I. }
        destruct Y as (-> & -> & WT'). split; [reflexivity|]. split; [exact O|].
        intros i u U. apply upd_inv in U. destruct U as [[-> ->]|[_ U]]; [exact WT'|eauto]. }
    destruct X as (X1 & X2 & X3). eapply IH; try eassumption.
Qed.

Theorem C33_sync_stuck_refuted : exists c slots k ls s, cfg_ok c /\ 20 <= log_size c /\ blank c slots /\ is_sync c = true /\
  reaches c slots k ls s /\ no_lap c (start c slots k) ls /\ threads_only ls /\
  g_held (gh s) <> [] /\ g_out (gh s) = [] /\
  forall k' ls' s', threads_only ls' -> run c (reborn c (sh s) k') ls' = Some s' -> g_out (gh s') = [].
Proof.
  exists cs, sl, 10%nat, stuck_ls, stuck_st. split; [exact cs_ok|]. split; [cbn; lia|]. split; [apply sl_blank|].
  split; [reflexivity|]. split; [vm_compute; reflexivity|]. split; [apply no_lapb_ok; vm_compute; reflexivity|].
  split; [unfold threads_only, stuck_ls, R; cbn [repeat app concat map seq]; repeat (constructor; [exact I|]); constructor|].
  split; [vm_compute; discriminate|]. split; [vm_compute; reflexivity|].
  intros k' ls' s' TO RU. apply (stuck_run (sh (reborn cs (sh stuck_st) k'))) with (ls := ls') (s := reborn cs (sh stuck_st) k');
    [vm_compute; reflexivity|vm_compute; reflexivity|vm_compute; reflexivity|assumption|reflexivity|reflexivity| |assumption].
  intros i t T. unfold reborn in T. cbn [is_sync cs ths] in T. apply nth_error_In in T. apply repeat_spec in T. subst t. exact I.
Qed.
Print Assumptions C33_sync_stuck_refuted.

(* ---- C34 ---- *)
Theorem C34_header : forall fuel K id m, m_size m <> k_size K \/ m_id m <> id ->
  load_shm fuel K id m = Ret (15, m, false).
Proof.
  intros fuel K id m H. unfold load_shm.
  destruct (negb (m_size m =? k_size K) || negb (m_id m =? id)) eqn:E; [reflexivity|lia].
Qed.
Print Assumptions C34_header.
Example C34_header_ex : load_shm 11 K0 6 m0 = Ret (15, m0, false).
Proof. vm_compute. reflexivity. Qed.

(* Attached means accepted, and accepted means all indices of the channels in
   use are in range. *)
Theorem C34_attached : forall fuel K id m e m' b, 0 < k_ring K -> load_shm fuel K id m = Ret (e, m', b) ->
  (b = true <-> e = 0) /\
  (b = true -> m_size m = k_size K /\ m_id m = id /\ (m_channels m <= 0 \/ m_channels m <= k_chan K) /\
     forall j q, Z.of_nat j < m_channels m -> nth_error (m_rings m) j = Some q ->
       in_ring K (q_write q) /\ in_ring K (q_hold q) /\ in_ring K (q_read q)).
Proof.
  intros fuel K id m e m' b N H. unfold load_shm in H.
  destruct (negb (m_size m =? k_size K) || negb (m_id m =? id)) eqn:E.
  - injection H as <- <- <-. split; [split; discriminate|discriminate].
  - apply bind_ret_inv in H. destruct H as ([e' l] & R1 & H). injection H as -> <- <-.
    split; [apply Z.eqb_eq|]. intros X. apply Z.eqb_eq in X. subst e.
    destruct (recover_rings_0 K fuel N _ _ _ _ R1 ltac:(lia)) as [A B].
    split; [lia|]. split; [lia|]. split; [assumption|]. intros j q J Q. apply (B j q); [lia|assumption].
Qed.
Print Assumptions C34_attached.
Example C34_attached_ex : exists m', load_shm 11 K0 5 m0 = Ret (0, m', true).
Proof. eexists. vm_compute. reflexivity. Qed.

(* It returns if every hold_idx_ is in range and the records between write_idx_
   and hold_idx_ have their lengths within the buffer; write_idx_, read_idx_,
   proc_idx_ and the channel count may be anything. *)
Theorem C34_returns_partial : forall fuel K id m, 0 < k_ring K -> 20 <= k_log K -> k_ring K <= Z.of_nat fuel ->
  zlen (m_rings m) = k_chan K ->
  (forall q, In q (m_rings m) -> in_ring K (q_hold q) /\ zlen (q_slots q) = k_ring K /\
     forall i d, rd (q_slots q) i = Ret d -> sane K d) ->
  exists e m' b, load_shm fuel K id m = Ret (e, m', b) /\
    (e = 0 \/ e = 15 \/ e = -10) /\
    (e <> 0 -> b = false) /\
    ((exists j q, Z.of_nat j < m_channels m /\ nth_error (m_rings m) j = Some q /\
        (~ in_ring K (q_write q) \/ ~ in_ring K (q_read q))) -> e <> 0).
Proof.
  intros fuel K id m N L F LR H.
  assert (X : exists e m' b, load_shm fuel K id m = Ret (e, m', b) /\ (e = 0 \/ e = 15 \/ e = -10)).
  { unfold load_shm. destruct (negb (m_size m =? k_size K) || negb (m_id m =? id)); [do 3 eexists; split; [reflexivity|auto]|].
    assert (Y : forall l i, 0 <= i -> i + zlen l = k_chan K -> (forall q, In q l -> In q (m_rings m)) ->
      exists e r, recover_rings fuel K i (m_channels m) l = Ret (e, r) /\ (e = 0 \/ e = 15 \/ e = -10)).
    { induction l as [|q l IH]; intros i I0 LI S; cbn [recover_rings];
        (destruct (m_channels m <=? i); [do 2 eexists; split; [reflexivity|auto]|]);
        (destruct (k_chan K <=? i) eqn:E2; [do 2 eexists; split; [reflexivity|auto]|]).
      - rewrite zlen_nil in LI. lia.
      - rewrite zlen_cons in LI. destruct (H q (S q (or_introl eq_refl))) as (A1 & A2 & A3).
        assert (RR : exists e q', recover_ring fuel K q = Ret (e, q') /\ (e = 0 \/ e = 15 \/ e = -10)).
        { unfold recover_ring. destruct ((k_ring K <=? q_write q) || (q_write q <? 0)) eqn:E; [do 2 eexists; split; [reflexivity|auto]|].
          destruct (recover_loop_ok K N L fuel q) as (q' & -> & _).
          - unfold in_ring. lia.
          - assumption.
          - split; [assumption|]. intros j d _. apply A3.
          - pose proof (lead_bound (k_ring K) (q_write q) (q_hold q) N). lia.
          - cbn [bind]. match goal with |- context [if ?b then _ else _] => destruct b end; do 2 eexists; (split; [reflexivity|auto]). }
        destruct RR as (e & q' & -> & EE). cbn [bind]. destruct (negb (e =? 0)); [do 2 eexists; split; [reflexivity|auto]|].
        destruct (IH (i + 1) ltac:(lia) ltac:(lia)) as (e' & r & -> & EE').
        { intros p P. apply S. right. exact P. }
        cbn [bind]. do 2 eexists. split; [reflexivity|assumption]. }
    destruct (Y (m_rings m) 0 ltac:(lia) ltac:(lia) (fun q Q => Q)) as (e & r & -> & EE). cbn [bind].
    do 3 eexists. split; [reflexivity|assumption]. }
  destruct X as (e & m' & b & E & EE). exists e, m', b. split; [assumption|]. split; [assumption|].
  destruct (C34_attached fuel K id m e m' b N E) as [T A]. split.
  - intros NE. destruct b; [|reflexivity]. exfalso. apply NE. apply T. reflexivity.
  - intros (j & q & J & Q & O) ->. destruct (A (proj2 T eq_refl)) as (_ & _ & _ & B).
    destruct (B j q J Q) as (B1 & _ & B3). tauto.
Qed.
Print Assumptions C34_returns_partial.
Example C34_returns_ex : load_shm 11 K0 5 (mkShm 77 5 1 [mkRing 11 3 0 1 (q_slots q0); q0]) =
  Ret (15, mkShm 77 5 1 [mkRing 11 3 0 1 (q_slots q0); q0], false).
Proof. vm_compute. reflexivity. Qed.

(* hold_idx_ is not checked: out of range, the flagging loop never ends. *)
Theorem C34_hold_refuted : exists K id m, 0 < k_ring K /\ 20 <= k_log K /\ m_size m = k_size K /\ m_id m = id /\
  m_channels m <= k_chan K /\ zlen (m_rings m) = k_chan K /\
  (forall q, In q (m_rings m) -> in_ring K (q_write q) /\ in_ring K (q_read q) /\ zlen (q_slots q) = k_ring K /\
     forall i d, rd (q_slots q) i = Ret d -> sane K d) /\
  forall fuel r, load_shm fuel K id m <> Ret r.
Proof.
  exists K0, 5, (mkShm 77 5 1 [mkRing 1 11 0 1 (q_slots q0); q0]).
  split; [reflexivity|]. split; [vm_compute; discriminate|]. split; [reflexivity|]. split; [reflexivity|].
  split; [vm_compute; discriminate|]. split; [reflexivity|]. split.
  - intros q Q. assert (S : q_slots q = q_slots q0) by (destruct Q as [<-|[<-|[]]]; reflexivity).
    assert (X : q_read q = 0 /\ q_write q = 1) by (destruct Q as [<-|[<-|[]]]; split; reflexivity).
    destruct X as [X1 X2]. unfold in_ring. rewrite X1, X2, S. cbn [k_ring K0]. split; [lia|]. split; [lia|].
    split; [reflexivity|]. exact C32_hyp.
  - intros fuel r H. unfold load_shm in H. cbn [m_size m_id k_size K0 Z.eqb Pos.eqb negb orb m_channels m_rings] in H.
    apply bind_ret_inv in H. destruct H as ([e l] & H & _). cbn [recover_rings] in H.
    change (1 <=? 0) with false in H. change (k_chan K0 <=? 0) with false in H. cbv iota in H.
    apply bind_ret_inv in H. destruct H as ([e' q'] & H & _). unfold recover_ring in H.
    cbn [q_write k_ring K0] in H. change ((11 <=? 1) || (1 <? 0)) with false in H. cbv iota in H.
    apply bind_ret_inv in H. destruct H as (q2 & H & _). revert H. apply recover_loop_div.
    + reflexivity.
    + unfold in_ring. cbn. lia.
    + unfold in_ring. cbn. lia.
Qed.
Print Assumptions C34_hold_refuted.

(* Nor is content_len_: a negative one makes the copy write before the buffer. *)
Theorem C34_length_refuted : exists K id m, 0 < k_ring K /\ 20 <= k_log K /\ m_size m = k_size K /\ m_id m = id /\
  m_channels m <= k_chan K /\ zlen (m_rings m) = k_chan K /\
  (forall q, In q (m_rings m) -> in_ring K (q_write q) /\ in_ring K (q_hold q) /\ in_ring K (q_read q) /\
     zlen (q_slots q) = k_ring K) /\
  forall fuel, (2 <= fuel)%nat -> load_shm fuel K id m = Ub.
Proof.
  exists K0, 5, (mkShm 77 5 1 [mkRing 0 1 0 0 (dat 1 (-1) [] :: repeat (dat 0 0 []) 10); q0]).
  split; [reflexivity|]. split; [vm_compute; discriminate|]. split; [reflexivity|]. split; [reflexivity|].
  split; [vm_compute; discriminate|]. split; [reflexivity|]. split.
  - intros q [<-|[<-|[]]]; unfold in_ring; cbn [q_write q_hold q_read q_slots k_ring K0 q0];
      (split; [lia|]; split; [lia|]; split; [lia|reflexivity]).
  - intros [|fuel] H; [lia|]. vm_compute. reflexivity.
Qed.
Print Assumptions C34_length_refuted.
