(* Properties C19-C29, C64, C65: the queue of one channel under every schedule.

   [reaches c slots k ls s]: from a started channel with k logging threads and
   unmarked slots, the schedule ls leads to s.  [no_lap]: no index makes a full
   lap between a thread's load of it and the compare-exchange that uses the
   loaded value.  [no_restart]: CleanChannels is not called.  [threads_only]:
   neither stop nor start.  In the history, [g_started] lists the log
   statements, [g_held] the records in the order their slots were reserved,
   [g_out] what was dispatched to the devices. *)
From Coq Require Import ZArith List Bool Lia ZifyBool ZifyNat ZifyN Permutation.
From Verif Require Import Base BaseFacts LoggerState Ring RingSpec RingInv RingProofs RingLive RingRun RingQuiet
  RingStop RingPrio.
Import ListNotations.
Open Scope Z_scope.

(* ---- concrete schedules ---- *)
Fixpoint no_lapb (c : rcfg) (s : st) (ls : list label) : bool :=
  match ls with
  | [] => true
  | l :: ls' =>
      match l with
      | LRun tid =>
          match nth_error (ths s) tid with
          | Some t =>
              match t_pc t with
              | HCas _ => gH (gh s) - t_snap t <? n_ring c
              | PCas _ => gW (gh s) - t_snap t <? n_ring c
              | CCas _ => gP (gh s) - t_snap t <? n_ring c
              | RCas _ => gR (gh s) - t_snap t <? n_ring c
              | _ => true
              end
          | None => true
          end
      | _ => true
      end &&
      match step c s l with Some s' => no_lapb c s' ls' | None => true end
  end.

Lemma no_lapb_ok : forall c ls s, no_lapb c s ls = true -> no_lap c s ls.
Proof.
  intros c ls. induction ls as [|l ls IH]; intros s H; [exact I|]. cbn [no_lapb] in H.
  apply andb_prop in H. destruct H as [H1 H2]. split.
  - destruct l; try exact I. cbn [fresh]. intros t T. rewrite T in H1. unfold fresh_thr.
    destruct (t_pc t); try exact I; lia.
  - intros s' E. rewrite E in H2. apply IH. assumption.
Qed.

Definition ca : rcfg := mkCfg 11 100 false.
Definition cs : rcfg := mkCfg 11 100 true.
Definition sl : list slot := repeat (mkSlot 0 []) 11.
Definition R (n i : nat) : list label := repeat (LRun i) n.
Lemma ca_ok : cfg_ok ca. Proof. split; reflexivity || (cbn; lia). Qed.
Lemma cs_ok : cfg_ok cs. Proof. split; reflexivity || (cbn; lia). Qed.
Lemma sl_blank : forall b, blank (mkCfg 11 100 b) sl.
Proof. intros b. split; [reflexivity|]. apply Forall_forall. intros x X. apply repeat_spec in X. subst x. reflexivity. Qed.

(* two threads log "A" and "B" at the same time, the writer thread delivers one *)
Definition ex_ls : list label :=
  LLog 1 [65] :: R 5 1 ++ LLog 2 [66] :: R 17 2 ++ R 23 1 ++ R 5 0.
Definition ex_st : st := match run ca (start ca sl 2) ex_ls with Some s => s | None => start ca sl 2 end.
Example ring_ex : reaches ca sl 2 ex_ls ex_st /\ no_lap ca (start ca sl 2) ex_ls /\
  threads_only ex_ls /\ no_restart ex_ls.
Proof.
  split; [vm_compute; reflexivity|]. split; [apply no_lapb_ok; vm_compute; reflexivity|].
  assert (T : threads_only ex_ls).
  { unfold threads_only, ex_ls, R. cbn [repeat app]. repeat (constructor; [exact I|]). constructor. }
  split; [exact T|apply threads_no_restart; exact T].
Qed.

(* ---- C19 ---- *)
Theorem C19_slots_partial : forall c slots k ls s, cfg_ok c -> blank c slots ->
  reaches c slots k ls s -> no_lap c (start c slots k) ls -> no_restart ls ->
  forall i j t u x, i <> j -> nth_error (ths s) i = Some t -> nth_error (ths s) j = Some u ->
    (filling t = Some x -> filling u <> Some x /\ reading u <> Some x) /\
    (reading t = Some x -> filling u <> Some x /\ reading u <> Some x).
Proof.
  intros c slots k ls s C B RE NL NR i j t u x D T U.
  pose proof (reach_inv _ _ _ _ _ C B RE NL NR) as IV.
  assert (N : 0 < n_ring c) by (destruct C; lia).
  pose proof (i_ord _ _ _ _ IV) as OR.
  assert (FI : forall n v y, nth_error (ths s) n = Some v -> filling v = Some y ->
    exists a, own v = Some a /\ y = ix c a /\ gW (gh s) <= a < gH (gh s)).
  { intros n v y V F. pose proof (i_thr _ _ _ _ IV n v V) as K. unfold filling, own, thr_ok, owned in *.
    destruct (t_pc v); try discriminate; injection F as <-; exists (t_snap v); intuition. }
  assert (RD : forall n v y, nth_error (ths s) n = Some v -> reading v = Some y ->
    exists a, clm v = Some a /\ y = ix c a /\ gR (gh s) <= a < gP (gh s)).
  { intros n v y V F. pose proof (i_thr _ _ _ _ IV n v V) as K. unfold reading, clm, thr_ok in *.
    destruct (t_pc v); try discriminate; injection F as <-; exists (t_snap v); intuition. }
  split; intros F; (split; intros G).
  - destruct (FI i t x T F) as (a & A1 & A2 & A3). destruct (FI j u x U G) as (b & B1 & B2 & B3).
    assert (a = b) by (apply (ix_eq c); [assumption|congruence|lia]). subst b.
    apply D. apply (i_own _ _ _ _ IV i j t u a); assumption.
  - destruct (FI i t x T F) as (a & A1 & A2 & A3). destruct (RD j u x U G) as (b & B1 & B2 & B3).
    assert (a = b) by (apply (ix_eq c); [assumption|congruence|lia]). lia.
  - destruct (RD i t x T F) as (a & A1 & A2 & A3). destruct (FI j u x U G) as (b & B1 & B2 & B3).
    assert (a = b) by (apply (ix_eq c); [assumption|congruence|lia]). lia.
  - destruct (RD i t x T F) as (a & A1 & A2 & A3). destruct (RD j u x U G) as (b & B1 & B2 & B3).
    assert (a = b) by (apply (ix_eq c); [assumption|congruence|lia]). subst b.
    apply D. apply (i_clm _ _ _ _ IV i j t u a); assumption.
Qed.
Print Assumptions C19_slots_partial.
(* both threads are filling, and later the writer reads while thread 1 fills *)
Definition ex19_ls : list label := LLog 1 [65] :: R 5 1 ++ LLog 2 [66] :: R 6 2.
Example C19_ex : exists s t u, reaches ca sl 2 ex19_ls s /\ no_lapb ca (start ca sl 2) ex19_ls = true /\
  nth_error (ths s) 1 = Some t /\ nth_error (ths s) 2 = Some u /\ filling t = Some 0 /\ filling u = Some 1.
Proof. do 3 eexists. split; [vm_compute; reflexivity|]. vm_compute. repeat split. Qed.

(* A thread that slept between reading hold_idx_ and its compare-exchange while
   the index made a full lap gets a slot although the queue is full; the next
   thread then gets the slot another thread is still filling. *)
Definition lap_head : list label :=
  LLog 1 [65] :: R 3 1 ++ (LLog 2 [66] :: R 22 2) ++ R 30 0 ++ (LLog 4 [67; 67; 67] :: R 8 4) ++
  concat (repeat (LLog 2 [68] :: R 17 2) 9) ++ R 5 1 ++ (LLog 3 [69] :: R 7 3).
Theorem C19_slots_refuted : exists c slots k ls s, cfg_ok c /\ blank c slots /\
  reaches c slots k ls s /\ threads_only ls /\
  exists i j t u x, i <> j /\ nth_error (ths s) i = Some t /\ nth_error (ths s) j = Some u /\
    filling t = Some x /\ filling u = Some x.
Proof.
  exists ca, sl, 4%nat, lap_head. eexists. split; [exact ca_ok|]. split; [apply sl_blank|].
  split; [vm_compute; reflexivity|].
  split; [unfold threads_only, lap_head, R; cbn [repeat app concat]; repeat (constructor; [exact I|]); constructor|].
  exists 3%nat, 4%nat. do 2 eexists. exists 1. split; [discriminate|]. split; [reflexivity|]. split; [reflexivity|].
  split; reflexivity.
Qed.
Print Assumptions C19_slots_refuted.

(* ---- C20 ---- *)
Theorem C20_async_partial : forall c slots k ls s, cfg_ok c -> blank c slots -> is_sync c = false ->
  reaches c slots k ls s -> no_lap c (start c slots k) ls -> no_restart ls ->
  is_prefix (map snd (g_out (gh s))) (map (fun e => line c (snd e)) (g_held (gh s))).
Proof.
  intros c slots k ls s C B SY RE NL NR.
  destruct (reach_one _ _ _ _ _ C B SY RE NL NR) as [IV ON].
  destruct (o_some _ _ _ _ _ (proj2 ON)) as [t T].
  rewrite (one_out c 0 s t IV ON T).
  exists (map (fun e => line c (snd e)) (skipn (Z.to_nat (gP (gh s) - in_read t)) (g_held (gh s)))).
  rewrite <- map_app, firstn_skipn. reflexivity.
Qed.
Print Assumptions C20_async_partial.
(* thread 1 reserved first and finished last *)
Example C20_ex : is_sync ca = false /\ g_held (gh ex_st) = [(1%nat, [65]); (2%nat, [66])] /\
  (exists s, run ca ex_st (R 60 0) = Some s /\ map snd (g_out (gh s)) = [[65; 10]; [66; 10]]).
Proof. split; [reflexivity|]. split; [vm_compute; reflexivity|]. eexists. split; vm_compute; reflexivity. Qed.

(* The same lap: the record "CCC" is delivered as "CC". *)
Theorem C20_async_refuted : exists c slots k ls s, cfg_ok c /\ blank c slots /\ is_sync c = false /\
  reaches c slots k ls s /\ threads_only ls /\
  ~ is_prefix (map snd (g_out (gh s))) (map (fun e => line c (snd e)) (g_held (gh s))).
Proof.
  exists ca, sl, 4%nat, (lap_head ++ R 16 4 ++ R 20 0). eexists. split; [exact ca_ok|]. split; [apply sl_blank|].
  split; [reflexivity|]. split; [vm_compute; reflexivity|].
  split; [unfold threads_only, lap_head, R; cbn [repeat app concat]; repeat (constructor; [exact I|]); constructor|].
  intros [r H]. vm_compute in H. discriminate H.
Qed.
Print Assumptions C20_async_refuted.

(* ---- C21 ---- *)
(* [gR]: how often read_idx_ has advanced, i.e. the number of released slots *)
Theorem C21_capacity_partial : forall c slots k ls s, cfg_ok c -> blank c slots ->
  reaches c slots k ls s -> no_lap c (start c slots k) ls -> no_restart ls ->
  0 <= zlen (g_held (gh s)) - gR (gh s) <= n_ring c - 1 /\
  (x_hold (sh s) - x_read (sh s)) mod n_ring c = zlen (g_held (gh s)) - gR (gh s).
Proof.
  intros c slots k ls s C B RE NL NR.
  pose proof (reach_inv _ _ _ _ _ C B RE NL NR) as IV.
  pose proof (i_ord _ _ _ _ IV) as OR. rewrite (i_held _ _ _ _ IV).
  split; [lia|]. rewrite (i_hold _ _ _ _ IV), (i_read _ _ _ _ IV). unfold ix.
  rewrite <- Zminus_mod. apply Z.mod_small. lia.
Qed.
Print Assumptions C21_capacity_partial.
Example C21_ex : zlen (g_held (gh ex_st)) = 2 /\ gR (gh ex_st) = 0.
Proof. vm_compute. split; reflexivity. Qed.

(* A full queue makes the caller wait: on a running channel nothing a thread
   logged is dropped, and the statement has not returned before its slot was
   reserved. *)
Theorem C21_waits_partial : forall c slots k ls s, cfg_ok c -> blank c slots ->
  reaches c slots k ls s -> no_lap c (start c slots k) ls -> threads_only ls ->
  forall tid t, nth_error (ths s) tid = Some t -> t_pc t = Idle ->
    of_thread tid (g_held (gh s)) = of_thread tid (g_started (gh s)).
Proof.
  intros c slots k ls s C B RE NL TO tid t T P.
  destruct (reach_live _ _ _ _ _ C B RE NL TO) as [IV LV].
  rewrite (l_log _ _ LV tid). unfold pend, pending. rewrite T, P, app_nil_r. reflexivity.
Qed.
Print Assumptions C21_waits_partial.
(* thread 1 finds the queue full and waits *)
Definition full_ls : list label := concat (repeat (LLog 2 [68] :: R 22 2) 10) ++ LLog 1 [65] :: R 30 1.
Example C21_full_ex : exists s t, reaches ca sl 2 full_ls s /\ no_lapb ca (start ca sl 2) full_ls = true /\
  zlen (g_held (gh s)) = 10 /\ nth_error (ths s) 1 = Some t /\ t_pc t <> Idle /\
  of_thread 1 (g_started (gh s)) = [[65]] /\ of_thread 1 (g_held (gh s)) = [].
Proof. do 2 eexists. split; [vm_compute; reflexivity|]. vm_compute. repeat split. discriminate. Qed.

Theorem C21_capacity_refuted : exists c slots k ls s, cfg_ok c /\ blank c slots /\
  reaches c slots k ls s /\ threads_only ls /\ zlen (g_held (gh s)) - gR (gh s) > n_ring c.
Proof.
  exists ca, sl, 4%nat, lap_head. eexists. split; [exact ca_ok|]. split; [apply sl_blank|].
  split; [vm_compute; reflexivity|].
  split; [unfold threads_only, lap_head, R; cbn [repeat app concat]; repeat (constructor; [exact I|]); constructor|].
  vm_compute. reflexivity.
Qed.
Print Assumptions C21_capacity_refuted.

(* ---- C22 ---- *)
Lemma of_thread_prefix : forall tid a b, is_prefix a b -> is_prefix (of_thread tid a) (of_thread tid b).
Proof. intros tid a b [r ->]. exists (of_thread tid r). apply of_thread_app. Qed.

Theorem C22_thread_order_partial : forall c slots k ls s, cfg_ok c -> blank c slots -> is_sync c = false ->
  reaches c slots k ls s -> no_lap c (start c slots k) ls -> no_restart ls ->
  exists d, is_prefix d (g_held (gh s)) /\
    map snd (g_out (gh s)) = map (fun e => line c (snd e)) d /\
    forall tid, subseq (of_thread tid d) (of_thread tid (g_started (gh s))) /\
      (threads_only ls -> is_prefix (of_thread tid d) (of_thread tid (g_started (gh s)))).
Proof.
  intros c slots k ls s C B SY RE NL NR.
  destruct (reach_one _ _ _ _ _ C B SY RE NL NR) as [IV ON].
  destruct (o_some _ _ _ _ _ (proj2 ON)) as [t T].
  pose proof (reach_sub _ _ _ _ _ C B RE NL NR) as SU.
  exists (firstn (Z.to_nat (gP (gh s) - in_read t)) (g_held (gh s))).
  assert (PR : is_prefix (firstn (Z.to_nat (gP (gh s) - in_read t)) (g_held (gh s))) (g_held (gh s))).
  { exists (skipn (Z.to_nat (gP (gh s) - in_read t)) (g_held (gh s))). rewrite firstn_skipn. reflexivity. }
  split; [exact PR|]. split; [apply (one_out c 0 s t IV ON T)|].
  intros tid. apply (of_thread_prefix tid) in PR. destruct PR as [r PR]. split.
  - specialize (SU tid). rewrite PR, <- app_assoc in SU. apply subseq_drop in SU. exact SU.
  - intros TO. destruct (reach_live _ _ _ _ _ C B RE NL TO) as [_ LV].
    rewrite (l_log _ _ LV tid), PR, <- app_assoc. eexists. reflexivity.
Qed.
Print Assumptions C22_thread_order_partial.
Definition ex22_ls : list label := LLog 1 [65] :: R 22 1 ++ LLog 2 [66] :: R 22 2 ++ LLog 1 [67] :: R 22 1 ++ R 60 0.
Example C22_ex : exists s, reaches ca sl 2 ex22_ls s /\ no_lapb ca (start ca sl 2) ex22_ls = true /\
  map snd (g_out (gh s)) = [[65; 10]; [66; 10]; [67; 10]] /\ of_thread 1 (g_started (gh s)) = [[65]; [67]].
Proof. eexists. split; [vm_compute; reflexivity|]. vm_compute. repeat split. Qed.

(* ---- C23 ---- *)
Theorem C23_async_partial : forall c slots k ls s, cfg_ok c -> blank c slots -> is_sync c = false ->
  reaches c slots k ls s -> no_lap c (start c slots k) ls -> threads_only ls -> quiet c s ->
  x_write (sh s) = x_hold (sh s) /\
  exists n s', run c s (repeat (LRun 0) n) = Some s' /\
    map snd (g_out (gh s')) = map (fun e => line c (snd e)) (g_held (gh s)) /\
    x_read (sh s') = x_hold (sh s') /\ x_proc (sh s') = x_hold (sh s') /\ x_write (sh s') = x_hold (sh s').
Proof.
  intros c slots k ls s C B SY RE NL TO QU.
  pose proof (threads_no_restart ls TO) as NR.
  destruct (reach_live _ _ _ _ _ C B RE NL TO) as [IV LV].
  destruct (reach_one _ _ _ _ _ C B SY RE NL NR) as [_ ON].
  pose proof (reach_wr _ _ _ _ _ C B RE NL NR) as WR.
  assert (N : 0 < n_ring c) by (destruct C; lia).
  pose proof (quiet_published c s IV LV QU WR) as WH.
  split; [rewrite (i_write _ _ _ _ IV), (i_hold _ _ _ _ IV); f_equal; assumption|].
  destruct (WR SY) as (t & T & CP).
  assert (W : wok c s t).
  { constructor; try assumption. pose proof (l_end _ _ LV 0%nat t T) as EN. unfold ended in EN.
    destruct (t_pc t); try exact I; discriminate. }
  pose proof (weight_pos c s t W) as WP. pose proof (i_ord _ _ _ _ IV) as OR.
  destruct (w_drain c N SY (Z.to_nat (gW (gh s) - gP (gh s))) (Z.to_nat (weight c s t)) s t W ltac:(lia) ltac:(lia))
    as (n & s' & t' & RU & W' & (S1 & S2 & S3 & _) & D' & _).
  exists n, s'. split; [assumption|].
  destruct (drained_rest c s' t' W' D') as (R1 & R2 & R3).
  pose proof (w_inv _ _ _ W') as IV'. pose proof (i_held _ _ _ _ IV) as HL.
  split; [rewrite R3, S3, S2, firstn_all2 by (unfold zlen in HL; lia); reflexivity|].
  rewrite (i_read _ _ _ _ IV'), (i_proc _ _ _ _ IV'), (i_write _ _ _ _ IV'), (i_hold _ _ _ _ IV').
  repeat split; f_equal; lia.
Qed.
Print Assumptions C23_async_partial.
Lemma ca_quiet : forall s a b, nth_error (ths s) 1 = Some a -> nth_error (ths s) 2 = Some b -> length (ths s) = 3%nat ->
  t_pc a = Idle -> t_pc b = Idle -> quiet ca s.
Proof.
  intros s a b A B L P Q tid t T. destruct tid as [|[|[|tid]]].
  - left. split; reflexivity.
  - right. congruence.
  - right. congruence.
  - assert (nth_error (ths s) (S (S (S tid))) <> None) as X by congruence. apply nth_error_Some in X. lia.
Qed.
Example C23_ex : exists s, reaches ca sl 2 ex_ls s /\ threads_only ex_ls /\ quiet ca s /\
  g_held (gh s) = [(1%nat, [65]); (2%nat, [66])] /\ g_out (gh s) = [].
Proof.
  exists ex_st. split; [apply ring_ex|]. split; [apply ring_ex|].
  split; [eapply ca_quiet; vm_compute; reflexivity|]. vm_compute. split; reflexivity.
Qed.

(* On a sync channel the logging threads themselves have delivered everything. *)
Theorem C23_sync_partial : forall c slots k ls s, cfg_ok c -> blank c slots -> is_sync c = true ->
  reaches c slots k ls s -> no_lap c (start c slots k) ls -> threads_only ls -> quiet c s ->
  Permutation (map snd (g_out (gh s))) (map (fun e => line c (snd e)) (g_held (gh s))) /\
  x_read (sh s) = x_hold (sh s) /\ x_proc (sh s) = x_hold (sh s) /\ x_write (sh s) = x_hold (sh s).
Proof.
  intros c slots k ls s C B SY RE NL TO QU.
  pose proof (threads_no_restart ls TO) as NR.
  destruct (reach_live _ _ _ _ _ C B RE NL TO) as [IV LV].
  pose proof (reach_wr _ _ _ _ _ C B RE NL NR) as WR.
  destruct (quiet_sync c s SY IV LV QU WR) as (Q1 & Q2 & Q3).
  split.
  - apply idle_perm; [assumption| |lia]. intros i t T. destruct (QU i t T) as [[X _]|P]; [congruence|].
    unfold rdg. rewrite P. reflexivity.
  - rewrite (i_read _ _ _ _ IV), (i_proc _ _ _ _ IV), (i_write _ _ _ _ IV), (i_hold _ _ _ _ IV).
    repeat split; f_equal; lia.
Qed.
Print Assumptions C23_sync_partial.
(* thread 0 reserves first, thread 1 finishes first *)
Definition ex27_ls : list label := LLog 0 [65] :: R 5 0 ++ LLog 1 [66] :: R 21 1 ++ R 57 0.
Example C23_sync_ex : exists s, reaches cs sl 2 ex27_ls s /\ no_lapb cs (start cs sl 2) ex27_ls = true /\
  map t_pc (ths s) = [Idle; Idle] /\ map snd (g_out (gh s)) = [[65; 10]; [66; 10]].
Proof. eexists. split; [vm_compute; reflexivity|]. vm_compute. repeat split. Qed.

(* ---- C24 ---- *)
Theorem C24_stop_partial : forall c slots k ls1 s1 s2 ls2 s3, cfg_ok c -> blank c slots -> is_sync c = false ->
  reaches c slots k ls1 s1 -> threads_only ls1 -> quiet c s1 ->
  step c s1 LStop = Some s2 -> run c s2 ls2 = Some s3 ->
  no_lap c (start c slots k) (ls1 ++ LStop :: ls2) -> no_restart ls2 ->
  (* the writer thread, given time, ends *)
  (exists n s4 t, run c s3 (repeat (LRun 0) n) = Some s4 /\ nth_error (ths s4) 0 = Some t /\ t_pc t = Done) /\
  (* and when it has ended everything is delivered and the queue is empty *)
  forall t, nth_error (ths s3) 0 = Some t -> t_pc t = Done ->
    map snd (g_out (gh s3)) = map (fun e => line c (snd e)) (g_held (gh s1)) /\
    x_read (sh s3) = x_hold (sh s3) /\ x_proc (sh s3) = x_hold (sh s3) /\ x_write (sh s3) = x_hold (sh s3) /\
    Forall (fun x => s_mark x = 0) (x_slots (sh s3)).
Proof.
  intros c slots k ls1 s1 s2 ls2 s3 C B SY RE TO QU ST RU NL NR.
  assert (N : 0 < n_ring c) by (destruct C; lia).
  destruct (no_lap_app _ _ _ _ NL) as [NL1 NL2]. specialize (NL2 s1 RE). destruct NL2 as [_ NL2].
  specialize (NL2 s2 ST).
  pose proof (threads_no_restart ls1 TO) as NR1.
  destruct (reach_live _ _ _ _ _ C B RE NL1 TO) as [IV LV].
  destruct (reach_one _ _ _ _ _ C B SY RE NL1 NR1) as [_ ON].
  pose proof (reach_wr _ _ _ _ _ C B RE NL1 NR1) as WR.
  pose proof (halt_stop c s1 s2 SY IV LV ON WR QU ST) as H2.
  pose proof (halt_run c _ ls2 s2 s3 N SY H2 NL2 NR RU) as H3.
  split; [exact (halt_ends c _ s3 N SY H3)|].
  intros t T P. destruct (halt_done c _ s3 t N SY H3 T P) as (A & A1 & A2 & A3 & [_ A4]). auto.
Qed.
Print Assumptions C24_stop_partial.
Example C24_ex : exists s2 s3 t, step ca ex_st LStop = Some s2 /\ run ca s2 (R 31 0) = Some s3 /\
  nth_error (ths s3) 0 = Some t /\ t_pc t = Done /\ g_out (gh ex_st) = [] /\
  map snd (g_out (gh s3)) = [[65; 10]; [66; 10]] /\ no_lapb ca (start ca sl 2) (ex_ls ++ LStop :: R 31 0) = true.
Proof. do 3 eexists. split; [vm_compute; reflexivity|]. split; [vm_compute; reflexivity|]. vm_compute. repeat split. Qed.

(* ---- C25 ---- *)
(* What had been published (write_idx_ moved past it, [gW] times) is delivered
   whatever the other threads are doing. *)
Theorem C25_published_partial : forall c slots k ls1 s1 s2 ls2 s3 t, cfg_ok c -> blank c slots -> is_sync c = false ->
  reaches c slots k ls1 s1 -> threads_only ls1 ->
  step c s1 LStop = Some s2 -> run c s2 ls2 = Some s3 ->
  no_lap c (start c slots k) (ls1 ++ LStop :: ls2) -> no_restart ls2 ->
  nth_error (ths s3) 0 = Some t -> t_pc t = Done ->
  is_prefix (map (fun e => line c (snd e)) (firstn (Z.to_nat (gW (gh s1))) (g_held (gh s1))))
            (map snd (g_out (gh s3))).
Proof.
  intros c slots k ls1 s1 s2 ls2 s3 t C B SY RE TO ST RU NL NR T P.
  assert (N : 0 < n_ring c) by (destruct C; lia).
  destruct (no_lap_app _ _ _ _ NL) as [NL1 NL2]. specialize (NL2 s1 RE).
  pose proof (threads_no_restart ls1 TO) as NR1.
  destruct (reach_live _ _ _ _ _ C B RE NL1 TO) as [IV LV].
  destruct (reach_one _ _ _ _ _ C B SY RE NL1 NR1) as [_ ON].
  pose proof (reach_wr _ _ _ _ _ C B RE NL1 NR1) as WR.
  pose proof (i_ord _ _ _ _ IV) as OR. pose proof (i_held _ _ _ _ IV) as HL.
  destruct (run_ind c any_but_clean (pubd c (gW (gh s1)) (g_held (gh s1))) N ltac:(intros X; apply X; reflexivity))
    with (ls := LStop :: ls2) (s := s1) (s' := s3) as (IV3 & _ & PB).
  - intros s0 l s0' I0 C3 Q F O E _. eapply pubd_step; eassumption.
  - assumption.
  - rewrite (l_ctl _ _ LV). discriminate.
  - constructor; try assumption; [lia|exists []; rewrite app_nil_r; reflexivity|].
    intros u U. pose proof (l_end _ _ LV 0%nat u U) as EN. unfold ended in EN. destruct (t_pc u); try exact I; discriminate.
  - assumption.
  - constructor; [discriminate|apply no_restart_forall; assumption].
  - cbn [run]. rewrite ST. assumption.
  - apply (pubd_done c _ _ s3 t); try assumption. lia.
Qed.
Print Assumptions C25_published_partial.
(* thread 1 has logged, thread 2 is filling its slot when stop is called *)
Definition ex25_ls : list label := LLog 1 [65] :: R 22 1 ++ LLog 2 [66] :: R 6 2.
Example C25_published_ex : exists s1 s2 s3 t, reaches ca sl 2 ex25_ls s1 /\ gW (gh s1) = 1 /\
  step ca s1 LStop = Some s2 /\ run ca s2 (R 21 0 ++ R 4 2) = Some s3 /\ nth_error (ths s3) 0 = Some t /\ t_pc t = Done /\
  map snd (g_out (gh s3)) = [[65; 10]] /\ no_lapb ca (start ca sl 2) (ex25_ls ++ LStop :: R 21 0 ++ R 4 2) = true.
Proof.
  do 4 eexists. split; [vm_compute; reflexivity|]. split; [reflexivity|]. split; [vm_compute; reflexivity|].
  split; [vm_compute; reflexivity|]. vm_compute. repeat split.
Qed.

(* Thread 2's log statement returned before stop, but thread 1 had reserved an
   earlier slot and was still filling it: the record of thread 2 is lost. *)
Definition lost_ls : list label := LLog 1 [65] :: R 6 1 ++ LLog 2 [66] :: R 17 2.
Theorem C25_completed_refuted : exists c slots k ls1 s1 ls2 s3 t, cfg_ok c /\ blank c slots /\ is_sync c = false /\
  reaches c slots k ls1 s1 /\ threads_only ls1 /\
  nth_error (ths s1) 2 = Some t /\ t_pc t = Idle /\ of_thread 2 (g_held (gh s1)) = [[66]] /\
  run c s1 (LStop :: ls2) = Some s3 /\ no_lap c (start c slots k) (ls1 ++ LStop :: ls2) /\ no_restart ls2 /\
  (* the logger is stopped, the writer has ended, no thread has anything to do *)
  In LJoin ls2 /\ (forall i u, nth_error (ths s3) i = Some u -> tstep c i (sh s3) (gh s3) u = None) /\
  g_out (gh s3) = [].
Proof.
  exists ca, sl, 2%nat, lost_ls. eexists. exists (R 6 0 ++ [LJoin] ++ R 4 1). do 2 eexists.
  split; [exact ca_ok|]. split; [apply sl_blank|]. split; [reflexivity|]. split; [vm_compute; reflexivity|].
  split; [unfold threads_only, lost_ls, R; cbn [repeat app]; repeat (constructor; [exact I|]); constructor|].
  split; [reflexivity|]. split; [reflexivity|]. split; [reflexivity|]. split; [vm_compute; reflexivity|].
  split; [apply no_lapb_ok; vm_compute; reflexivity|].
  split; [intros X; cbn in X; intuition discriminate|]. split; [cbn; tauto|].
  split; [|reflexivity]. intros [|[|[|i]]] u U; cbn in U; try (injection U as <-; reflexivity).
  destruct i; discriminate.
Qed.
Print Assumptions C25_completed_refuted.

(* ---- C26 ---- *)
(* Restarting after a stop during which no log statement was in progress gives a
   queue as [start] describes it. *)
Theorem C26_quiet_partial : forall c slots k ls1 s1 s2 ls2 s3 t, cfg_ok c -> blank c slots -> is_sync c = false ->
  reaches c slots k ls1 s1 -> threads_only ls1 -> quiet c s1 ->
  step c s1 LStop = Some s2 -> run c s2 ls2 = Some s3 ->
  no_lap c (start c slots k) (ls1 ++ LStop :: ls2) -> no_restart ls2 ->
  nth_error (ths s3) 0 = Some t -> t_pc t = Done -> x_ctl (sh s3) = 1 -> quiet c s3 ->
  exists s4, run c s3 ([LJoin; LClean; LStart] ++ repeat (LRun 0) 4) = Some s4 /\
    x_hold (sh s4) = 0 /\ x_write (sh s4) = 0 /\ x_proc (sh s4) = 0 /\ x_read (sh s4) = 0 /\
    x_state (sh s4) = CHANNEL_STATE_RUNNING /\ x_ctl (sh s4) = 0 /\ blank c (x_slots (sh s4)) /\
    forall i u, nth_error (ths s4) i = Some u -> t_pc u = if Nat.eqb i 0 then CLoad else Idle.
Proof.
  intros c slots k ls1 s1 s2 ls2 s3 t C B SY RE TO QU ST RU NL NR T P C1 QU3.
  assert (N : 0 < n_ring c) by (destruct C; lia).
  destruct (no_lap_app _ _ _ _ NL) as [NL1 NL2]. specialize (NL2 s1 RE). destruct NL2 as [_ NL2].
  specialize (NL2 s2 ST).
  pose proof (threads_no_restart ls1 TO) as NR1.
  destruct (reach_live _ _ _ _ _ C B RE NL1 TO) as [IV LV].
  destruct (reach_one _ _ _ _ _ C B SY RE NL1 NR1) as [_ ON].
  pose proof (reach_wr _ _ _ _ _ C B RE NL1 NR1) as WR.
  pose proof (halt_stop c s1 s2 SY IV LV ON WR QU ST) as H2.
  pose proof (halt_run c _ ls2 s2 s3 N SY H2 NL2 NR RU) as H3.
  destruct (halt_done c _ s3 t N SY H3 T P) as (_ & A1 & A2 & A3 & BL).
  destruct s3 as [x g l]. cbn [sh gh ths] in *. destruct l as [|t0 l]; [discriminate|]. cbn in T. injection T as ->.
  destruct t as [p m a]. cbn in P. subst p.
  assert (W : forall y, x_write y = x_read y -> wipe (Z.to_nat (n_ring c)) c y (x_read y) = y).
  { intros y E. destruct (Z.to_nat (n_ring c)) eqn:Q; [lia|]. cbn [wipe]. rewrite E, Z.eqb_refl. reflexivity. }
  eexists. cbn [app repeat run step sh ths nth_error t_pc]. rewrite C1, SY.
  cbn [Z.eqb Pos.eqb sh gh ths x_ctl put_ctl put_state nth_error].
  unfold clean. rewrite W by (cbn [put_ctl put_state x_write x_read]; congruence).
  cbn [Z.eqb Pos.eqb sh gh ths x_ctl put_ctl put_state put_idx nth_error].
  unfold tstep, upd, go, go_at, running. rewrite SY.
  cbn [Z.eqb Pos.eqb sh gh ths x_ctl put_ctl put_state put_idx nth_error firstn skipn app t_pc t_msg t_snap
       x_hold x_write x_proc x_read x_state x_slots CHANNEL_STATE_NULL CHANNEL_STATE_RUNNING].
  split; [reflexivity|]. cbn [sh ths x_hold x_write x_proc x_read x_state x_ctl x_slots].
  repeat (split; [reflexivity|]). split; [exact BL|].
  intros [|i] u U; cbn in U; [injection U as <-; reflexivity|].
  destruct (QU3 (S i) u U) as [[_ X]|X]; [discriminate|exact X].
Qed.
Print Assumptions C26_quiet_partial.
Example C26_quiet_ex : exists s2 s3 t, step ca ex_st LStop = Some s2 /\ run ca s2 (R 31 0) = Some s3 /\
  nth_error (ths s3) 0 = Some t /\ t_pc t = Done /\ x_ctl (sh s3) = 1 /\ quiet ca s3.
Proof.
  do 3 eexists. split; [vm_compute; reflexivity|]. split; [vm_compute; reflexivity|]. split; [reflexivity|].
  split; [reflexivity|]. split; [reflexivity|]. eapply ca_quiet; vm_compute; reflexivity.
Qed.

(* A thread keeps filling the slot it had reserved before the restart while
   another thread is given the same slot: a mixture is delivered. *)
Definition restart_ls : list label :=
  LLog 1 [65; 65] :: R 8 1 ++ [LStop] ++ R 6 0 ++ [LJoin; LClean; LStart] ++ R 3 0 ++
  LLog 2 [66; 66] :: R 8 2 ++ R 1 1 ++ R 15 2 ++ R 20 0.
Theorem C26_restart_refuted : exists c slots k ls s x, cfg_ok c /\ blank c slots /\ is_sync c = false /\
  reaches c slots k ls s /\ In x (map snd (g_out (gh s))) /\
  ~ In x (map (fun e => line c (snd e)) (g_started (gh s))).
Proof.
  exists ca, sl, 2%nat, restart_ls. eexists. exists [66; 65; 66; 10]. split; [exact ca_ok|]. split; [apply sl_blank|].
  split; [reflexivity|]. split; [vm_compute; reflexivity|]. split; [cbn; tauto|].
  vm_compute. intuition discriminate.
Qed.
Print Assumptions C26_restart_refuted.

(* ---- C27 ---- *)
(* [ps]: the queue positions dispatched, without repetition *)
Theorem C27_once_partial : forall c slots k ls s, cfg_ok c -> blank c slots ->
  reaches c slots k ls s -> no_lap c (start c slots k) ls -> no_restart ls ->
  exists ps, NoDup ps /\ Forall (fun n => (n < length (g_held (gh s)))%nat) ps /\
    map snd (g_out (gh s)) = map (fun n => line c (snd (nth n (g_held (gh s)) (0%nat, [])))) ps.
Proof.
  intros c slots k ls s C B RE NL NR.
  pose proof (reach_inv _ _ _ _ _ C B RE NL NR) as IV.
  assert (BD : forall a, In a (map fst (g_out (gh s))) -> 0 <= a < zlen (g_held (gh s))).
  { intros a A. apply (i_outp _ _ _ _ IV) in A. rewrite (i_held _ _ _ _ IV). pose proof (i_ord _ _ _ _ IV). lia. }
  exists (map Z.to_nat (map fst (g_out (gh s)))). split; [|split].
  - pose proof (i_nodup _ _ _ _ IV) as ND. induction (map fst (g_out (gh s))) as [|a l IH]; [constructor|].
    apply NoDup_cons_iff in ND. destruct ND as [NI ND]. cbn [map]. constructor.
    + intros X. apply in_map_iff in X. destruct X as (b & E & X). apply NI.
      pose proof (BD a (or_introl eq_refl)). pose proof (BD b (or_intror X)). replace a with b by lia. assumption.
    + apply IH; [|assumption]. intros b Y. apply BD. right. assumption.
  - apply Forall_forall. intros n X. apply in_map_iff in X. destruct X as (a & <- & X). specialize (BD a X).
    unfold zlen in BD. lia.
  - rewrite (outs_look c _ (i_outs _ _ _ _ IV)), !map_map. reflexivity.
Qed.
Print Assumptions C27_once_partial.
Example C27_ex : exists s, reaches cs sl 2 ex27_ls s /\ no_lapb cs (start cs sl 2) ex27_ls = true /\
  map fst (g_out (gh s)) = [0; 1] /\ length (g_held (gh s)) = 2%nat.
Proof. eexists. split; [vm_compute; reflexivity|]. vm_compute. repeat split. Qed.

Definition lap_sync : list label :=
  LLog 0 [65] :: R 3 0 ++ (LLog 1 [66] :: R 41 1) ++ (LLog 3 [67; 67; 67] :: R 8 3) ++
  concat (repeat (LLog 1 [68] :: R 21 1) 9) ++ R 5 0 ++ (LLog 2 [69] :: R 7 2) ++ R 31 3.
Theorem C27_once_refuted : exists c slots k ls s x, cfg_ok c /\ blank c slots /\ is_sync c = true /\
  reaches c slots k ls s /\ threads_only ls /\ In x (map snd (g_out (gh s))) /\
  ~ In x (map (fun e => line c (snd e)) (g_started (gh s))).
Proof.
  exists cs, sl, 4%nat, lap_sync. eexists. exists [67; 67; 10]. split; [exact cs_ok|]. split; [apply sl_blank|].
  split; [reflexivity|]. split; [vm_compute; reflexivity|].
  split; [unfold threads_only, lap_sync, R; cbn [repeat app concat]; repeat (constructor; [exact I|]); constructor|].
  split; [cbn; tauto|]. vm_compute. intuition discriminate.
Qed.
Print Assumptions C27_once_refuted.

(* ---- C28 ---- *)
(* single-threaded use of a sync channel: [only j ls], thread j alone logs *)
Theorem C28_single_partial : forall c slots k ls s j t, cfg_ok c -> blank c slots -> is_sync c = true ->
  (j < k)%nat -> reaches c slots k ls s -> no_lap c (start c slots k) ls -> threads_only ls -> Forall (only j) ls ->
  nth_error (ths s) j = Some t -> t_pc t = Idle ->
  map snd (g_out (gh s)) = map (line c) (of_thread j (g_started (gh s))).
Proof.
  intros c slots k ls s j t C B SY J RE NL TO OJ T P.
  destruct (reach_live _ _ _ _ _ C B RE NL TO) as [IV LV].
  destruct (reach_one_sync _ _ _ _ _ _ C B SY J RE NL OJ) as [_ ON].
  pose proof (reach_wr _ _ _ _ _ C B RE NL (threads_no_restart ls TO)) as WR.
  assert (IDS : forall i u, i <> j -> nth_error (ths s) i = Some u -> u = mkThr Idle [] 0).
  { intros i u D U. rewrite (only_others c j ls (start c slots k) s OJ RE i D) in U.
    destruct (start_thr _ _ _ _ _ U) as [(_ & X & _)|X]; [congruence|assumption]. }
  assert (QU : quiet c s).
  { intros i u U. right. destruct (Nat.eq_dec i j) as [->|D]; [congruence|]. rewrite (IDS i u D U). reflexivity. }
  destruct (quiet_sync c s SY IV LV QU WR) as (Q1 & Q2 & Q3).
  rewrite (one_out c j s t IV ON T). unfold in_read. rewrite P, Z.sub_0_r.
  pose proof (i_held _ _ _ _ IV) as HL. rewrite firstn_all2 by (unfold zlen in HL; lia).
  pose proof (l_log _ _ LV j) as LG. unfold pend, pending in LG. rewrite T, P, app_nil_r in LG. rewrite LG.
  (* every record is thread j's *)
  assert (AL : forall e, In e (g_held (gh s)) -> fst e = j).
  { intros e E. destruct (Nat.eq_dec (fst e) j) as [X|X]; [assumption|exfalso].
    assert (IS : In (snd e) (of_thread (fst e) (g_held (gh s)))).
    { unfold of_thread. apply in_map. apply filter_In. split; [assumption|apply Nat.eqb_refl]. }
    pose proof (l_log _ _ LV (fst e)) as LE.
    assert (ST : forall ls0 s0 s1, Forall (only j) ls0 -> run c s0 ls0 = Some s1 ->
       of_thread (fst e) (g_started (gh s1)) = of_thread (fst e) (g_started (gh s0))).
    { clear - X. induction ls0 as [|l ls0 IH]; intros s0 s1 O RU; cbn [run] in RU.
      - injection RU as <-. reflexivity.
      - destruct (step c s0 l) as [s2|] eqn:E; [|discriminate]. apply Forall_cons_iff in O. destruct O as [OL O].
        rewrite (IH s2 s1 O RU). destruct l as [tid msg|tid| | | |]; cbn in OL; try contradiction.
        + destruct (step_log_inv _ _ _ _ _ E) as (t & T & P & ->). cbn [gh add_started g_started].
          rewrite of_thread_app, of_thread_one. subst tid. destruct (Nat.eqb j (fst e)) eqn:Q.
          * apply Nat.eqb_eq in Q. congruence.
          * apply app_nil_r.
        + destruct (step_run_inv _ _ _ _ E) as (t & x & g & t' & T & TS & ->). cbn [gh].
          destruct (pending_step _ _ _ _ _ _ _ _ TS) as (-> & _). reflexivity.
        + destruct (ctl_step_inv c s0 LStop s2 (or_introl eq_refl) E) as (-> & _). reflexivity.
        + destruct (ctl_step_inv c s0 LJoin s2 (or_intror eq_refl) E) as (-> & _). reflexivity. }
    rewrite (ST ls _ s OJ RE) in LE. cbn in LE. symmetry in LE. apply app_eq_nil in LE. destruct LE as [LE _].
    rewrite LE in IS. contradiction. }
  unfold of_thread. rewrite map_map. clear - AL.
  induction (g_held (gh s)) as [|e l IH]; [reflexivity|]. cbn [filter map].
  rewrite (AL e (or_introl eq_refl)), Nat.eqb_refl. cbn [map]. f_equal. apply IH. intros; apply AL; right; assumption.
Qed.
Print Assumptions C28_single_partial.
Definition ex28_ls : list label := LLog 0 [65] :: R 41 0 ++ LLog 0 [66] :: R 41 0.
Example C28_ex : exists s t, reaches cs sl 2 ex28_ls s /\ no_lapb cs (start cs sl 2) ex28_ls = true /\
  nth_error (ths s) 0 = Some t /\ t_pc t = Idle /\ map snd (g_out (gh s)) = [[65; 10]; [66; 10]].
Proof. do 2 eexists. split; [vm_compute; reflexivity|]. vm_compute. repeat split. Qed.

(* With two threads a log statement can return before its record is written ... *)
Theorem C28_returned_refuted : exists c slots k ls s t, cfg_ok c /\ blank c slots /\ is_sync c = true /\
  reaches c slots k ls s /\ no_lap c (start c slots k) ls /\ threads_only ls /\
  nth_error (ths s) 1 = Some t /\ t_pc t = Idle /\ of_thread 1 (g_started (gh s)) = [[66]] /\ g_out (gh s) = [].
Proof.
  exists cs, sl, 2%nat, (LLog 0 [65] :: R 5 0 ++ LLog 1 [66] :: R 21 1). do 2 eexists.
  split; [exact cs_ok|]. split; [apply sl_blank|]. split; [reflexivity|]. split; [vm_compute; reflexivity|].
  split; [apply no_lapb_ok; vm_compute; reflexivity|].
  split; [unfold threads_only, R; cbn [repeat app]; repeat (constructor; [exact I|]); constructor|].
  split; [reflexivity|]. repeat split.
Qed.
Print Assumptions C28_returned_refuted.
(* ... and records can be written out of order. *)
Theorem C28_order_refuted : exists c slots k ls s, cfg_ok c /\ blank c slots /\ is_sync c = true /\
  reaches c slots k ls s /\ no_lap c (start c slots k) ls /\ threads_only ls /\
  map snd (g_held (gh s)) = [[65]; [66]] /\ map snd (g_out (gh s)) = [[66; 10]; [65; 10]].
Proof.
  exists cs, sl, 2%nat, (LLog 0 [65] :: R 26 0 ++ LLog 1 [66] :: R 38 1 ++ R 10 0). eexists.
  split; [exact cs_ok|]. split; [apply sl_blank|]. split; [reflexivity|]. split; [vm_compute; reflexivity|].
  split; [apply no_lapb_ok; vm_compute; reflexivity|].
  split; [unfold threads_only, R; cbn [repeat app]; repeat (constructor; [exact I|]); constructor|].
  split; reflexivity.
Qed.
Print Assumptions C28_order_refuted.

(* ---- C29 ---- *)
(* Every schedule, restarts included: whenever no thread stands between an
   action and the increment that counts it, the counters equal the number of
   reserved, published ([gW] advances of write_idx_) and dispatched records. *)
Theorem C29_counters : forall c slots k ls s, reaches c slots k ls s ->
  ((forall i t x, nth_error (ths s) i = Some t -> t_pc t <> HCount x) ->
     n_hold (sh s) = zlen (g_held (gh s))) /\
  ((forall i t, nth_error (ths s) i = Some t -> t_pc t <> PCount) ->
     n_push (sh s) = gW (gh s)) /\
  ((forall i t, nth_error (ths s) i = Some t ->
      match t_pc t with CMark _ | CCount _ => False | _ => True end) ->
     n_proc (sh s) = zlen (g_out (gh s))).
Proof.
  intros c slots k ls s RE. destruct (reach_tally c slots k ls s RE) as [[A1 A2 A3 A4] B _].
  split; [|split]; intros H.
  - rewrite B, <- A1. rewrite cnt_zero; [lia|]. intros i t T. unfold c_hold. specialize (H i t).
    destruct (t_pc t) eqn:P; try reflexivity. exfalso. apply (H i0 T). reflexivity.
  - rewrite <- A2. rewrite cnt_zero; [lia|]. intros i t T. unfold c_push. specialize (H i t T).
    destruct (t_pc t); congruence.
  - assert (cnt c_proc (ths s) = cnt c_read (ths s)); [|lia].
    clear - H. induction (ths s) as [|t l IH]; [reflexivity|]. cbn [cnt]. rewrite IH.
    + specialize (H 0%nat t eq_refl). unfold c_proc, c_read. destruct (t_pc t); try contradiction; reflexivity.
    + intros i u U. apply (H (S i) u U).
Qed.
Print Assumptions C29_counters.
Example C29_ex : n_hold (sh ex_st) = 2 /\ n_push (sh ex_st) = 2 /\ n_proc (sh ex_st) = 0 /\
  (forall i t x, nth_error (ths ex_st) i = Some t -> t_pc t <> HCount x).
Proof.
  split; [vm_compute; reflexivity|]. split; [vm_compute; reflexivity|]. split; [vm_compute; reflexivity|].
  intros [|[|[|i]]] t x T; vm_compute in T; try (injection T as <-; discriminate). destruct i; discriminate.
Qed.

Theorem C29_bytes_partial : forall c slots k ls s t, cfg_ok c -> blank c slots -> is_sync c = false ->
  reaches c slots k ls s -> no_lap c (start c slots k) ls -> no_restart ls ->
  nth_error (ths s) 0 = Some t ->
  match t_pc t with CMark _ | CCount _ | CBytes _ => False | _ => True end ->
  n_bytes (sh s) = zlen (concat (map snd (g_out (gh s)))).
Proof.
  intros c slots k ls s t C B SY RE NL NR T P.
  destruct (reach_one _ _ _ _ _ C B SY RE NL NR) as [IV ON].
  destruct (o_thr _ _ _ _ _ (proj2 ON) t T) as (_ & _ & _ & NB).
  rewrite NB, (one_out c 0 s t IV ON T), total_concat. do 3 f_equal. f_equal. f_equal.
  unfold in_read, in_bytes. destruct (t_pc t); try contradiction; reflexivity.
Qed.
Print Assumptions C29_bytes_partial.
Example C29_bytes_ex : exists s t, run ca ex_st (R 60 0) = Some s /\ nth_error (ths s) 0 = Some t /\
  match t_pc t with CMark _ | CCount _ | CBytes _ => False | _ => True end /\ n_bytes (sh s) = 4.
Proof. do 2 eexists. split; [vm_compute; reflexivity|]. vm_compute. repeat split. Qed.

(* On a sync channel the length is read after the slot has been given back
   (fn_channel.h:125-127): another thread may have refilled it. *)
Definition bytes_ls : list label :=
  LLog 0 [65] :: R 30 0 ++ (LLog 1 [66; 66; 66] :: R 49 1) ++
  concat (repeat (LLog 1 [66; 66; 66] :: R 45 1) 10) ++ R 7 0.
Theorem C29_sync_bytes_refuted : exists c slots k ls s, cfg_ok c /\ blank c slots /\ is_sync c = true /\
  reaches c slots k ls s /\ no_lap c (start c slots k) ls /\ threads_only ls /\ quiet c s /\
  n_bytes (sh s) <> zlen (concat (map snd (g_out (gh s)))).
Proof.
  exists cs, sl, 2%nat, bytes_ls. eexists.
  split; [exact cs_ok|]. split; [apply sl_blank|]. split; [reflexivity|]. split; [vm_compute; reflexivity|].
  split; [apply no_lapb_ok; vm_compute; reflexivity|].
  split; [unfold threads_only, bytes_ls, R; cbn [repeat app concat]; repeat (constructor; [exact I|]); constructor|].
  split; [|vm_compute; discriminate].
  intros [|[|i]] t T; vm_compute in T; try (injection T as <-; right; reflexivity). destruct i; discriminate.
Qed.
Print Assumptions C29_sync_bytes_refuted.

(* ---- C64 ---- *)
(* CHANNEL_LOG_PRIORITY: bytes pushed.  [logs_by j]: only thread j logs. *)
Theorem C64_single_partial : forall c slots k ls s j t, cfg_ok c -> blank c slots ->
  reaches c slots k ls s -> no_lap c (start c slots k) ls -> Forall (logs_by j) ls ->
  nth_error (ths s) j = Some t -> t_pc t = Idle ->
  n_prio (sh s) = zlen (concat (map (fun e => line c (snd e)) (g_held (gh s)))).
Proof.
  intros c slots k ls s j t C B RE NL LB T P.
  destruct (reach_sole _ _ _ _ _ j C B RE NL LB) as [IV [_ SO]].
  destruct (so_thr _ _ _ _ _ SO t T) as (_ & _ & NP).
  rewrite NP, total_concat. unfold in_prio, own. rewrite P. pose proof (i_held _ _ _ _ IV) as HL.
  rewrite firstn_all2 by (unfold zlen in HL; lia). reflexivity.
Qed.
Print Assumptions C64_single_partial.
Definition ex64_ls : list label := LLog 1 [65] :: R 22 1 ++ R 9 0 ++ LLog 1 [66; 67] :: R 23 1.
Example C64_ex : exists s t, reaches ca sl 2 ex64_ls s /\ no_lapb ca (start ca sl 2) ex64_ls = true /\
  Forall (logs_by 1) ex64_ls /\ nth_error (ths s) 1 = Some t /\ t_pc t = Idle /\ n_prio (sh s) = 5.
Proof.
  do 2 eexists. split; [vm_compute; reflexivity|]. split; [vm_compute; reflexivity|].
  split; [unfold ex64_ls, R; cbn [repeat app]; repeat (constructor; [exact I || reflexivity|]); constructor|].
  split; [reflexivity|]. split; reflexivity.
Qed.

(* With two threads: the length is read after the record was marked ready
   (fn_channel.h:499-500), so the slot may already hold another record. *)
Definition prio_ls : list label :=
  LLog 1 [65] :: R 12 1 ++ (LLog 2 [66; 66; 66] :: R 30 2) ++ R 40 0 ++
  concat (repeat ((LLog 2 [66; 66; 66] :: R 24 2) ++ R 40 0) 10) ++ R 4 1.
Theorem C64_refuted : exists c slots k ls s, cfg_ok c /\ blank c slots /\ is_sync c = false /\
  reaches c slots k ls s /\ no_lap c (start c slots k) ls /\ threads_only ls /\ quiet c s /\
  n_prio (sh s) <> zlen (concat (map (fun e => line c (snd e)) (g_held (gh s)))).
Proof.
  exists ca, sl, 2%nat, prio_ls. eexists.
  split; [exact ca_ok|]. split; [apply sl_blank|]. split; [reflexivity|]. split; [vm_compute; reflexivity|].
  split; [apply no_lapb_ok; vm_compute; reflexivity|].
  split; [unfold threads_only, prio_ls, R; cbn [repeat app concat]; repeat (constructor; [exact I|]); constructor|].
  split; [|vm_compute; discriminate].
  eapply ca_quiet; vm_compute; reflexivity.
Qed.
Print Assumptions C64_refuted.

(* ---- C65 ---- *)
Theorem C65_async_stopped_partial : forall c slots k ls1 s1 s2 ls2 s3 j t,
  cfg_ok c -> blank c slots -> is_sync c = false -> j <> 0%nat ->
  reaches c slots k ls1 s1 -> no_lap c (start c slots k) ls1 -> threads_only ls1 ->
  nth_error (ths s1) j = Some t -> t_pc t = Idle ->
  step c s1 LStop = Some s2 -> run c s2 ls2 = Some s3 -> no_restart ls2 ->
  of_thread j (g_held (gh s3)) = of_thread j (g_held (gh s1)).
Proof.
  intros c slots k ls1 s1 s2 ls2 s3 j t C B SY J RE NL TO T P ST RU NR.
  destruct (reach_live _ _ _ _ _ C B RE NL TO) as [IV LV].
  destruct (reach_one _ _ _ _ _ C B SY RE NL (threads_no_restart _ TO)) as [_ ON].
  pose proof (reach_wr _ _ _ _ _ C B RE NL (threads_no_restart _ TO)) as WR.
  assert (O2 : off c j (of_thread j (g_held (gh s1))) s2).
  { cbn [step] in ST. destruct (x_ctl (sh s1) =? 0) eqn:Q; [|discriminate]. injection ST as <-.
    rewrite SY, (l_run _ _ LV). constructor; cbn [sh gh ths put_ctl put_state x_state x_ctl running].
    - reflexivity.
    - discriminate.
    - left. reflexivity.
    - exact WR.
    - intros i u D U. destruct (cons_pc u) eqn:CP; [|reflexivity]. exfalso. apply D.
      apply (o_only _ _ _ _ _ (proj2 ON) i u); assumption.
    - intros u U. rewrite T in U. injection U as <-. rewrite P. exact I.
    - reflexivity. }
  apply (f_held c j _ s3).
  assert (G : forall ls s s', off c j (of_thread j (g_held (gh s1))) s -> ~ In LClean ls -> run c s ls = Some s' ->
    off c j (of_thread j (g_held (gh s1))) s').
  { clear - SY. induction ls as [|l ls IH]; intros s s' O N RU; cbn [run] in RU; [injection RU as <-; exact O|].
    destruct (step c s l) as [sa|] eqn:E; [|discriminate]. apply (IH sa s'); [|intros X; apply N; right; exact X|exact RU].
    eapply off_step; try eassumption. intros ->. apply N. left. reflexivity. }
  apply (G ls2 s2 s3 O2 NR RU).
Qed.
Print Assumptions C65_async_stopped_partial.
Example C65_ex : exists s2 s3, step ca ex_st LStop = Some s2 /\
  run ca s2 (LLog 1 [65] :: R 2 1 ++ R 31 0 ++ LJoin :: LLog 1 [66] :: R 2 1) = Some s3 /\
  map t_pc (ths s3) = [Done; Idle; Idle] /\ of_thread 1 (g_held (gh s3)) = [[65]].
Proof. do 2 eexists. split; [vm_compute; reflexivity|]. split; [vm_compute; reflexivity|]. vm_compute. split; reflexivity. Qed.

(* A logging thread of a sync channel that is at line 187 when the logger is
   stopped sets the channel running again (the line is meant for a starting
   channel): after the stop another thread logs as if nothing had happened. *)
Definition revive_ls : list label := LLog 0 [65] :: R 39 0.
Theorem C65_sync_refuted : exists c slots k ls1 s1 ls2 s3 t, cfg_ok c /\ blank c slots /\ is_sync c = true /\
  reaches c slots k ls1 s1 /\ threads_only ls1 /\ nth_error (ths s1) 1 = Some t /\ t_pc t = Idle /\
  run c s1 ([LStop; LJoin] ++ ls2) = Some s3 /\ threads_only ls2 /\
  no_lap c (start c slots k) (ls1 ++ [LStop; LJoin] ++ ls2) /\
  In (LLog 1 [66]) ls2 /\ of_thread 1 (g_held (gh s1)) = [] /\ of_thread 1 (g_held (gh s3)) = [[66]] /\
  In [66; 10] (map snd (g_out (gh s3))).
Proof.
  exists cs, sl, 2%nat, revive_ls. eexists. exists (R 2 0 ++ LLog 1 [66] :: R 41 1). do 2 eexists.
  split; [exact cs_ok|]. split; [apply sl_blank|]. split; [reflexivity|]. split; [vm_compute; reflexivity|].
  split; [unfold threads_only, revive_ls, R; cbn [repeat app concat]; repeat (constructor; [exact I|]); constructor|].
  split; [reflexivity|]. split; [reflexivity|]. split; [vm_compute; reflexivity|].
  split; [unfold threads_only, R; cbn [repeat app concat]; repeat (constructor; [exact I|]); constructor|].
  split; [apply no_lapb_ok; vm_compute; reflexivity|].
  split; [cbn; tauto|]. split; [reflexivity|]. split; [reflexivity|]. cbn; tauto.
Qed.
Print Assumptions C65_sync_refuted.
