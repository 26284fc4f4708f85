(* Property C112: shared memory segments over the lives of many processes. *)
From Coq Require Import String ZArith List Bool Lia ZifyBool.
From Verif Require Import Base BaseFacts LoggerState Ring Recover Shm ShmSpec ShmProofs.
Import ListNotations.
Open Scope Z_scope.

(* The first process with a key gets a new segment with a valid header, no
   channels and empty rings, attached once.  No other segment changes. *)
Theorem C112_new : forall fuel K y p, seen fuel K y -> In p (y_ps y) -> 0 < p_key p ->
  p_key p mod 2 ^ 32 <> 0 -> (forall s, In s (v_segs (y_k y)) -> e_key s <> p_key p mod 2 ^ 32) ->
  exists v' p' s, load_shared fuel K all_well (y_k y) p = Ret (0, v', p') /\
    p_shm p' = Seg (e_id s) /\ p_key p' = p_key p /\ p_maps p' = e_id s :: p_maps p /\
    In s (v_segs v') /\ e_key s = p_key p mod 2 ^ 32 /\ e_at s = 1 /\ e_gone s = false /\
    m_size (e_mem s) = k_size K /\ m_id (e_mem s) = e_id s /\ m_channels (e_mem s) = 0 /\
    zlen (m_rings (e_mem s)) = Z.max 0 (k_chan K) /\
    Forall (fun q => empty_ring q /\ zlen (q_slots q) = Z.max 0 (k_ring K) /\ Forall (fun d => d_mark d = 0) (q_slots q)) (m_rings (e_mem s)) /\
    (forall t, In t (v_segs (y_k y)) -> e_id t <> e_id s) /\ others_kept (e_id s) (y_k y) v'.
Proof.
  intros fuel K y p SE P KP NZ NK. pose proof (seen_ok _ _ _ SE) as SO. pose proof (so_k _ SO) as KO.
  rewrite (load_new fuel K (y_k y) p KO KP NZ NK).
  do 2 eexists. exists (mkSegment (v_next (y_k y)) (p_key p mod 2 ^ 32) 1 false (new_mem K (v_next (y_k y)))). split; [reflexivity|]. cbn [p_shm p_key p_maps v_segs].
  split; [reflexivity|]. split; [reflexivity|]. split; [reflexivity|]. split; [left; reflexivity|].
  cbn [e_key e_at e_gone e_id e_mem]. split; [reflexivity|]. split; [reflexivity|]. split; [reflexivity|].
  destruct (new_mem_empty K (v_next (y_k y))) as (E1 & E2 & E3 & E4 & E5).
  split; [exact E1|]. split; [exact E2|]. split; [exact E3|]. split; [exact E4|]. split; [exact E5|].
  split; [intros t T E; pose proof (ko_next _ KO t T); lia|].
  intros t D. cbn [v_segs]. split; [|intros T; right; exact T]. intros [<-|T]; [cbn in D; contradiction|exact T].
Qed.
Print Assumptions C112_new.

(* A process whose key has a segment attaches to it: the answer and the memory are
   what the recovery makes of the memory found, and nothing else changes. *)
Theorem C112_attach : forall fuel K y p s e m ok, seen fuel K y -> In p (y_ps y) -> 0 < p_key p ->
  In s (v_segs (y_k y)) -> e_key s = p_key p mod 2 ^ 32 -> e_key s <> 0 ->
  load_shm fuel K (e_id s) (e_mem s) = Ret (e, m, ok) ->
  exists v' p', load_shared fuel K all_well (y_k y) p = Ret (e, v', p') /\
    In (mkSegment (e_id s) (e_key s) (e_at s + 1) false m) (v_segs v') /\ others_kept (e_id s) (y_k y) v' /\
    p_shm p' = (if ok : bool then Seg (e_id s) else p_shm p) /\ p_maps p' = e_id s :: p_maps p /\ p_key p' = p_key p.
Proof.
  intros fuel K y p s e m ok SE P KP S E NZ L. pose proof (so_k _ (seen_ok _ _ _ SE)) as KO.
  destruct (attach_ok fuel K (y_k y) p s e m ok KO S KP E NZ L) as (v' & p' & H & I & OK & _ & R).
  exists v', p'. split; [exact H|]. split; [|split; [exact OK|exact R]].
  replace (e_gone s) with false in I; [exact I|]. destruct (e_gone s) eqn:G; [|reflexivity].
  pose proof (ko_gone _ KO s S G). lia.
Qed.
Print Assumptions C112_attach.

(* The memory that a logger uses exists as long as it uses it, whatever the other
   processes do, and says which segment it is. *)
Theorem C112_alive : forall fuel K y p i, seen fuel K y -> In p (y_ps y) -> p_shm p = Seg i ->
  exists s, In s (v_segs (y_k y)) /\ e_id s = i /\ m_id (e_mem s) = i /\ 0 < e_at s.
Proof.
  intros fuel K y p i SE P PS. pose proof (seen_ok _ _ _ SE) as SO. destruct (so_shm _ SO p i P PS) as (I & M).
  destruct (so_maps _ SO p i P I) as (s & S & E). exists s. split; [exact S|]. split; [exact E|]. split; [exact (M s S E)|].
  rewrite (so_at _ SO s S), E. pose proof (held_in (y_ps y) p i P). pose proof (cnt_pos _ _ I). lia.
Qed.
Print Assumptions C112_alive.

(* One segment for each key and one for each id; the attachments are those of the
   processes; a segment that was removed exists only while attached. *)
Theorem C112_count : forall fuel K y, seen fuel K y ->
  (forall s t, In s (v_segs (y_k y)) -> In t (v_segs (y_k y)) -> e_id s = e_id t -> s = t) /\
  (forall s t, In s (v_segs (y_k y)) -> In t (v_segs (y_k y)) -> e_key s = e_key t -> e_key s <> 0 -> s = t) /\
  (forall s, In s (v_segs (y_k y)) -> e_at s = attached (e_id s) (y_ps y)) /\
  (forall s, In s (v_segs (y_k y)) -> e_gone s = true -> e_key s = 0 /\ 0 < e_at s).
Proof.
  intros fuel K y SE. pose proof (seen_ok _ _ _ SE) as SO. pose proof (so_k _ SO) as KO. split; [|split; [|split]].
  - intros s t S T E. exact (ids_inj _ s t (ko_ids _ KO) S T E).
  - intros s t S T E NZ. apply (ids_inj _ s t (ko_ids _ KO) S T). exact (ko_keys _ KO s t S T E NZ).
  - intros s S. rewrite attached_held. exact (so_at _ SO s S).
  - exact (ko_gone _ KO).
Qed.
Print Assumptions C112_count.

(* A process that ends in whatever way leaves every segment that still has its key,
   with its memory. *)
Theorem C112_crash : forall fuel K y n y' s, seen fuel K y -> sys_step fuel K y (EExit n) = Some y' ->
  In s (v_segs (y_k y)) -> e_gone s = false ->
  exists t, In t (v_segs (y_k y')) /\ e_id t = e_id s /\ e_key t = e_key s /\ e_gone t = false /\ e_mem t = e_mem s /\
    e_at t = attached (e_id s) (y_ps y').
Proof.
  intros fuel K y n y' s SE H S G. pose proof (sys_step_ok _ _ _ _ _ (seen_ok _ _ _ SE) H) as SO'.
  cbn [sys_step] in H. destruct (nth_error (y_ps y) n) as [p|]; [|discriminate]. injection H as <-.
  destruct (stays_leave (e_id s) (e_key s) (e_mem s) (y_k y) p) as (t & T & E1 & E2 & E3 & E4); [exists s; auto|].
  exists t. cbn [y_k]. split; [exact T|]. split; [exact E1|]. split; [exact E2|]. split; [exact E3|]. split; [exact E4|].
  rewrite attached_held, <- E1. exact (so_at _ SO' t T).
Qed.
Print Assumptions C112_crash.

(* A logger that is destroyed gives its segment up: the key is free, and the segment
   goes with the last process that has it attached. *)
Theorem C112_shutdown : forall fuel K y p s, seen fuel K y -> In p (y_ps y) -> 0 < p_key p ->
  In s (v_segs (y_k y)) -> p_shm p = Seg (e_id s) ->
  exists v' p', unload_shared (y_k y) p = Ret (v', p') /\ p_shm p' = Nowhere /\ others_kept (e_id s) (y_k y) v' /\
    (forall t, In t (v_segs v') -> e_id t = e_id s -> e_key t = 0 /\ e_gone t = true /\ e_at t = e_at s - 1 /\ 0 < e_at t) /\
    (e_key s <> 0 -> forall t, In t (v_segs v') -> e_key t <> e_key s).
Proof.
  intros fuel K y p s SE P KP S PS. pose proof (seen_ok _ _ _ SE) as SO.
  destruct (C112_alive fuel K y p (e_id s) SE P PS) as (s1 & S1 & E1 & M1 & A1).
  assert (s1 = s) by (apply (ids_inj _ s1 s (ko_ids _ (so_k _ SO)) S1 S); exact E1). subst s1.
  destruct (unload_ok (y_k y) p s (so_k _ SO) KP S PS M1 A1) as (v' & p' & H & H1 & H2 & _ & H3 & H4).
  exists v', p'. auto.
Qed.
Print Assumptions C112_shutdown.

(* What a process does changes only segments that it has attached or that have its
   key (mod 2^32). *)
Theorem C112_apart : forall fuel K y n p ev y' t, seen fuel K y -> sys_step fuel K y ev = Some y' -> by_proc n ev ->
  nth_error (y_ps y) n = Some p -> In t (v_segs (y_k y)) -> ~ In (e_id t) (p_maps p) -> e_key t <> p_key p mod 2 ^ 32 ->
  (p_shm p = Heap -> p_key p <= 0) -> In t (v_segs (y_k y')).
Proof. intros fuel K y n p ev y' t SE. exact (step_keep fuel K y n p ev y' t (seen_ok _ _ _ SE)). Qed.
Print Assumptions C112_apart.

(* Without a positive key there is no segment at all. *)
Theorem C112_private : forall fuel K f v p, p_key p <= 0 ->
  load_shared fuel K f v p = Ret (0, v, mkProc (p_key p) Heap (p_maps p)) /\
  unload_shared v (mkProc (p_key p) Heap (p_maps p)) = Ret (v, mkProc (p_key p) Nowhere (p_maps p)).
Proof.
  intros fuel K f v p H. unfold load_shared, unload_shared. cbn [p_shm p_key p_maps].
  replace (p_key p <=? 0) with true by lia. replace (0 <? p_key p) with false by lia. auto.
Qed.
Print Assumptions C112_private.

(* A call that the system refuses changes nothing, apart from the shmat of a segment
   just made. *)
Theorem C112_refused : forall fuel K y p f, seen fuel K y -> In p (y_ps y) -> 0 < p_key p -> p_key p mod 2 ^ 32 <> 0 ->
  (forall s, In s (v_segs (y_k y)) -> e_key s = p_key p mod 2 ^ 32 ->
     (f_access f = true -> load_shared fuel K f (y_k y) p = Ret (12, y_k y, p)) /\
     (f_access f = false -> f_attach f = true -> load_shared fuel K f (y_k y) p = Ret (14, y_k y, p))) /\
  ((forall s, In s (v_segs (y_k y)) -> e_key s <> p_key p mod 2 ^ 32) ->
     (f_room f = true -> load_shared fuel K f (y_k y) p = Ret (13, y_k y, p)) /\
     (f_room f = false -> f_attach f = true -> exists s, load_shared fuel K f (y_k y) p =
        Ret (14, mkKern (s :: v_segs (y_k y)) (e_id s + 1), p) /\ e_key s = p_key p mod 2 ^ 32 /\ e_at s = 0 /\ e_gone s = false)).
Proof.
  intros fuel K y p f SE P KP NZ. pose proof (so_k _ (seen_ok _ _ _ SE)) as KO. unfold load_shared.
  fold (key32 (p_key p)) in *. replace (p_key p <=? 0) with false by lia. replace (key32 (p_key p) =? 0) with false by lia. split.
  - intros s S E. rewrite <- E, (with_key _ s KO S ltac:(congruence)). destruct (f_access f), (f_attach f); split; intros; reflexivity || discriminate.
  - intros NK. rewrite (no_key _ _ NK). split; [intros ->; reflexivity|intros -> ->].
    exists (mkSegment (v_next (y_k y)) (key32 (p_key p)) 0 false (zero_mem K)). split; [reflexivity|]. cbn. auto.
Qed.
Print Assumptions C112_refused.

(* If shmat fails for a segment just made, that segment has no header.  From then
   on no process can use the key, whatever processes do, until somebody removes
   the segment by other means. *)
Theorem C112_stuck : forall fuel K y n p f es y', seen fuel K y -> nth_error (y_ps y) n = Some p -> p_shm p = Nowhere ->
  0 < p_key p -> p_key p mod 2 ^ 32 <> 0 -> (forall s, In s (v_segs (y_k y)) -> e_key s <> p_key p mod 2 ^ 32) ->
  f_room f = false -> f_attach f = true -> 0 < v_next (y_k y) -> 0 < k_size K ->
  sys_run fuel K y (ELoad n f :: es) = Some y' ->
  forall q g, In q (y_ps y') -> 0 < p_key q -> p_key q mod 2 ^ 32 = p_key p mod 2 ^ 32 ->
    p_shm q <> Seg (v_next (y_k y)) /\
    exists v' q', load_shared fuel K g (y_k y') q = Ret ((if f_access g then 12 else if f_attach g then 14 else 15), v', q') /\
      p_shm q' = p_shm q.
Proof.
  intros fuel K y n p f es y' SE N PS KP NZ NK FR FA V0 KS H q g Q KQ E.
  cbn [sys_run] in H. destruct (sys_step fuel K y (ELoad n f)) as [y1|] eqn:S1; [|discriminate].
  pose proof (stuck_new fuel K y n p f y1 (seen_ok _ _ _ SE) N PS KP NZ NK FR FA S1) as ST.
  apply (stuck_run fuel K _ _ _ es y1 y') in ST; [|exact V0|exact NZ|cbn; lia|exact H].
  split; [exact (st_who _ _ _ _ _ ST q Q)|].
  destruct (load_stuck fuel K _ _ (zero_mem K) (y_k y') q g (so_k _ (st_ok _ _ _ _ _ ST)) (st_in _ _ _ _ _ ST) ltac:(cbn; lia) KQ E NZ) as (e & v' & L & -> & _).
  do 2 eexists. split; [exact L|reflexivity].
Qed.
Print Assumptions C112_stuck.

(* ---- examples ---- *)
Definition Ks : rlim := mkLim 3 60 2 77.
Definition no_at : fails := mkFails false false true.
Definition run_s (es : list event) : sys := match sys_run 11 Ks boot es with Some y => y | None => boot end.
Lemma run_seen : forall es y, sys_run 11 Ks boot es = Some y -> seen 11 Ks (run_s es).
Proof. intros es y H. exists es. unfold run_s. rewrite H. reflexivity. Qed.
(* the memory of segment [i] with one channel and a statement half written *)
Definition busy (i : Z) : shm :=
  mkShm 77 i 1 [mkRing 0 1 0 0 (mkData 1 0 2 ([65; 66] ++ repeat 0 58) :: repeat (mkData 0 0 0 (repeat 0 60)) 2); zero_ring Ks].

(* process 0 makes the segment and logs, dies; process 1 finds the memory *)
Definition life : list event :=
  [EStart 5; ELoad 0 all_well; EStore 0 (busy 0); EExit 0; EStart 5].
Example C112_life : seen 11 Ks (run_s life) /\ map p_key (y_ps (run_s life)) = [5; 5] /\
  map (fun s => (e_id s, e_key s, e_at s, e_gone s)) (v_segs (y_k (run_s life))) = [(0, 5, 0, false)] /\
  map e_mem (v_segs (y_k (run_s life))) = [busy 0].
Proof. split; [exists life; vm_compute; reflexivity|]. vm_compute. auto. Qed.
Example C112_life_attach : exists v' p' m, load_shared 11 Ks all_well (y_k (run_s life)) (new_proc 5) = Ret (0, v', p') /\
  p_shm p' = Seg 0 /\ map e_mem (v_segs v') = [m] /\
  map (fun q => (q_write q, q_hold q)) (m_rings m) = [(1, 1); (0, 0)] /\
  map (fun q => firstn 21 (d_buf (nth 0 (q_slots q) (mkData 0 0 0 [])))) (firstn 1 (m_rings m)) = [[65; 66] ++ s2z "!!!core recover!!!" ++ [10]].
Proof. do 3 eexists. split; [vm_compute; reflexivity|]. split; [reflexivity|]. split; [reflexivity|]. vm_compute. auto. Qed.
(* two processes share a segment; the first goes, then the second *)
Definition pair : list event := [EStart 5; EStart 5; EStart 6; ELoad 0 all_well; ELoad 1 all_well; ELoad 2 all_well].
Example C112_pair : seen 11 Ks (run_s pair) /\
  map (fun s => (e_id s, e_key s, e_at s, e_gone s)) (v_segs (y_k (run_s pair))) = [(1, 6, 1, false); (0, 5, 2, false)] /\
  map (fun s => (e_id s, e_key s, e_at s, e_gone s)) (v_segs (y_k (run_s (pair ++ [EUnload 0])))) = [(1, 6, 1, false); (0, 0, 1, true)] /\
  map (fun s => (e_id s, e_key s, e_at s, e_gone s)) (v_segs (y_k (run_s (pair ++ [EUnload 0; EUnload 1])))) = [(1, 6, 1, false)].
Proof. split; [exists pair; vm_compute; reflexivity|]. vm_compute. auto. Qed.
(* after the first has gone, a third process with that key gets another segment
   than the second still uses *)
Example C112_split : 
  map (fun s => (e_id s, e_key s, e_at s, e_gone s)) (v_segs (y_k (run_s (pair ++ [EUnload 0; EStart 5; ELoad 3 all_well])))) =
  [(2, 5, 1, false); (1, 6, 1, false); (0, 0, 1, true)].
Proof. vm_compute. reflexivity. Qed.
Definition leak : list event := [EStart 6; ELoad 0 all_well; EStart 5; EStart 5].
Example C112_stuck_ex : seen 11 Ks (run_s leak) /\ nth_error (y_ps (run_s leak)) 1 = Some (new_proc 5) /\
  v_next (y_k (run_s leak)) = 1 /\ map e_key (v_segs (y_k (run_s leak))) = [6] /\
  exists y', sys_run 11 Ks (run_s leak) [ELoad 1 no_at; EExit 1; ELoad 2 all_well] = Some y' /\
    map p_shm (y_ps y') = [Seg 0; Nowhere; Nowhere] /\ map p_maps (y_ps y') = [[0]; []; [1]].
Proof.
  split; [exists leak; vm_compute; reflexivity|]. split; [vm_compute; reflexivity|]. split; [vm_compute; reflexivity|].
  split; [vm_compute; reflexivity|]. eexists. split; [vm_compute; reflexivity|]. vm_compute. auto.
Qed.

(* ---- what does not hold ---- *)
(* Different keys give different segments: no, only 32 bits count. *)
Theorem C112_keys_refuted : exists y p q, seen 11 Ks y /\ In p (y_ps y) /\ In q (y_ps y) /\ 0 < p_key p /\ 0 < p_key q /\
  p_key p <> p_key q /\ p_shm p = Seg 0 /\ p_shm q = Seg 0.
Proof.
  exists (run_s [EStart 1; EStart (2 ^ 32 + 1); ELoad 0 all_well; ELoad 1 all_well]), (mkProc 1 (Seg 0) [0]), (mkProc (2 ^ 32 + 1) (Seg 0) [0]).
  split; [eapply run_seen; vm_compute; reflexivity|]. vm_compute. intuition congruence.
Qed.
Print Assumptions C112_keys_refuted.
(* Every positive key can be used: no, a multiple of 2^32 is always refused. *)
Theorem C112_multiple_refuted : exists k, 0 < k /\ forall fuel K f v shm maps,
  load_shared fuel K f v (mkProc k shm maps) = Ret (12, v, mkProc k shm maps).
Proof. exists (2 ^ 32). split; [reflexivity|]. intros. reflexivity. Qed.
Print Assumptions C112_multiple_refuted.
(* A process that is refused has nothing attached: no. *)
Theorem C112_version_refuted : exists v' p', load_shared 11 Ks all_well (y_k (run_s (leak ++ [ELoad 1 no_at]))) (new_proc 5) = Ret (15, v', p') /\
  seen 11 Ks (run_s (leak ++ [ELoad 1 no_at])) /\ p_shm p' = Nowhere /\ p_maps p' = [1].
Proof.
  do 2 eexists. split; [vm_compute; reflexivity|]. split; [exists (leak ++ [ELoad 1 no_at]); vm_compute; reflexivity|]. split; reflexivity.
Qed.
Print Assumptions C112_version_refuted.
(* After a failure that is over the key can be used: no. *)
Theorem C112_retry_refuted : exists y n f y' v' p', seen 11 Ks y /\ sys_step 11 Ks y (ELoad n f) = Some y' /\
  load_shared 11 Ks all_well (y_k y) (new_proc 5) = Ret (0, v', p') /\
  exists v2 p2, load_shared 11 Ks all_well (y_k y') (new_proc 5) = Ret (15, v2, p2).
Proof.
  exists (run_s leak), 1%nat, no_at. do 3 eexists. split; [exists leak; vm_compute; reflexivity|].
  split; [vm_compute; reflexivity|]. split; [vm_compute; reflexivity|]. do 2 eexists. vm_compute. reflexivity.
Qed.
Print Assumptions C112_retry_refuted.
(* Attaching leaves the memory of a running process alone: no, its statement is
   finished and published for it. *)
Theorem C112_live_refuted : exists y y' p s s', seen 11 Ks y /\ sys_step 11 Ks y (ELoad 1 all_well) = Some y' /\
  nth_error (y_ps y) 0 = Some p /\ p_shm p = Seg (e_id s) /\ In s (v_segs (y_k y)) /\ In s' (v_segs (y_k y')) /\ e_id s' = e_id s /\
  map (fun q => (q_write q, q_hold q)) (m_rings (e_mem s)) = [(0, 1); (0, 0)] /\
  map (fun q => (q_write q, q_hold q)) (m_rings (e_mem s')) = [(1, 1); (0, 0)].
Proof.
  set (es := [EStart 5; ELoad 0 all_well; EStore 0 (busy 0); EStart 5]).
  exists (run_s es), (run_s (es ++ [ELoad 1 all_well])), (mkProc 5 (Seg 0) [0]),
    (hd (mkSegment 0 0 0 false (zero_mem Ks)) (v_segs (y_k (run_s es)))),
    (hd (mkSegment 0 0 0 false (zero_mem Ks)) (v_segs (y_k (run_s (es ++ [ELoad 1 all_well]))))).
  split; [eapply run_seen; vm_compute; reflexivity|]. split; [vm_compute; reflexivity|]. split; [vm_compute; reflexivity|].
  split; [vm_compute; reflexivity|]. split; [left; vm_compute; reflexivity|]. split; [left; vm_compute; reflexivity|].
  split; [vm_compute; reflexivity|]. split; vm_compute; reflexivity.
Qed.
Print Assumptions C112_live_refuted.
(* Destroying a logger touches its own segment only: no, one that began without a
   key and then read a configuration with a key removes the segment with the id 0. *)
Theorem C112_foreign_refuted : exists y n p ev y' t, seen 11 Ks y /\ sys_step 11 Ks y ev = Some y' /\ by_proc n ev /\
  nth_error (y_ps y) n = Some p /\ In t (v_segs (y_k y)) /\ ~ In (e_id t) (p_maps p) /\ e_key t <> p_key p mod 2 ^ 32 /\
  ~ (exists t', In t' (v_segs (y_k y')) /\ e_key t' = e_key t).
Proof.
  set (es := [EStart 5; ELoad 0 all_well; EStart 0; ELoad 1 all_well; ERekey 1 9]).
  exists (run_s es), 1%nat, (mkProc 9 Heap []), (EUnload 1), (run_s (es ++ [EUnload 1])),
    (hd (mkSegment 0 0 0 false (zero_mem Ks)) (v_segs (y_k (run_s es)))).
  split; [eapply run_seen; vm_compute; reflexivity|]. split; [vm_compute; reflexivity|]. split; [reflexivity|].
  split; [vm_compute; reflexivity|]. split; [left; vm_compute; reflexivity|].
  split; [intros []|]. split; [vm_compute; discriminate|].
  intros (t' & T & E). vm_compute in T. destruct T as [<-|[]]. vm_compute in E. discriminate.
Qed.
Print Assumptions C112_foreign_refuted.
(* Destroying a logger is defined: not if it read a configuration without a key
   while attached. *)
Theorem C112_rekey_refuted : exists y p, seen 11 Ks y /\ In p (y_ps y) /\ unload_shared (y_k y) p = Ub.
Proof.
  exists (run_s [EStart 5; ELoad 0 all_well; ERekey 0 0]), (mkProc 0 (Seg 0) [0]).
  split; [eapply run_seen; vm_compute; reflexivity|]. split; [left; vm_compute; reflexivity|reflexivity].
Qed.
Print Assumptions C112_rekey_refuted.
