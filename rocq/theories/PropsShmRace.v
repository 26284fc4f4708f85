(* Property C115: processes that load the shared memory of one key at the same time. *)
From Coq Require Import String ZArith List Bool Lia ZifyBool ZifyNat ZifyN.
From Verif Require Import Base BaseFacts Ring Recover Shm ShmSpec ShmProofs PropsShm ShmRace ShmRaceSpec ShmRaceProofs.
Import ListNotations.
Open Scope Z_scope.

(* A call that nothing interrupts does what C112 says of it. *)
Theorem C115_alone : forall fuel K z n p o f e v' p', 0 < k_size K -> raced fuel K z ->
  nth_error (z_ps z) n = Some p -> nth_error (z_at z) n = Some (Idle o) -> p_shm p = Nowhere ->
  load_shared fuel K f (z_k z) p = Ret (e, v', p') ->
  exists z', race_run fuel K z (MCall n :: repeat (MStep n f) 7) = Some z' /\ z_k z' = v' /\
    nth_error (z_ps z') n = Some p' /\ nth_error (z_at z') n = Some (Idle (Some e)) /\
    forall m, m <> n -> nth_error (z_ps z') m = nth_error (z_ps z) m /\ nth_error (z_at z') m = nth_error (z_at z) m.
Proof.
  intros fuel K z n p o f e v' p' KS RD N L SH H. pose proof (raced_ok _ _ _ KS RD) as R.
  pose proof (alone fuel K f (z_k z) p e v' p' (so_k _ (ro_sys _ _ R)) H) as AL.
  exists (mkRace (mkSys v' (upd (z_ps z) n p')) (upd (upd (z_at z) n LProbe) n (Idle (Some e)))).
  split; [|split; [reflexivity|split; [exact (upd_get _ _ _ _ _ N)|split; [exact (upd_get _ _ _ _ _ (upd_get _ _ _ _ _ L))|]]]].
  - cbn [race_run]. unfold race_step at 1. rewrite N, L, SH.
    exact (lines_run 7 fuel K f (mkRace (z_s z) (upd (z_at z) n LProbe)) n p LProbe v' p' _ N (upd_get _ _ _ _ _ L) AL).
  - intros m NE. unfold z_ps at 1. cbn [z_s z_at y_ps]. rewrite upd_upd, !nth_upd by (eapply nth_lt; eassumption).
    destruct (Nat.eqb_spec m n); [contradiction|auto].
Qed.
Print Assumptions C115_alone.

(* At every moment: a logger's segment exists, is attached, has its header, and has
   the logger's key unless it was removed; two loggers with the same key whose
   segments were not removed have the same segment. *)
Theorem C115_one : forall fuel K z p i, 0 < k_size K -> raced fuel K z -> In p (z_ps z) -> p_shm p = Seg i ->
  exists s, In s (v_segs (z_k z)) /\ e_id s = i /\ 0 < e_at s /\ m_size (e_mem s) = k_size K /\ m_id (e_mem s) = i /\
    (e_key s = p_key p mod 2 ^ 32 \/ e_key s = 0) /\
    forall q t, In q (z_ps z) -> In t (v_segs (z_k z)) -> p_shm q = Seg (e_id t) -> p_key q mod 2 ^ 32 = p_key p mod 2 ^ 32 ->
      e_key s <> 0 -> e_key t <> 0 -> e_id t = i.
Proof.
  intros fuel K z p i KS RD P E. pose proof (raced_ok _ _ _ KS RD) as R. pose proof (ro_sys _ _ R) as SO.
  destruct (so_shm _ SO p i P E) as (M & MI). destruct (so_maps _ SO p i P M) as (s & S & SE). exists s. split; [exact S|]. split; [exact SE|].
  assert (KS1 : e_key s = p_key p mod 2 ^ 32 \/ e_key s = 0) by exact (ro_key _ _ R p i P M s S SE).
  split; [|split; [|split; [|split; [exact KS1|]]]].
  - rewrite (so_at _ SO s S), SE. pose proof (held_in (z_ps z) p i P). pose proof (cnt_pos _ _ M). unfold z_ps in *. lia.
  - apply (ro_size _ _ R p s P S). congruence.
  - exact (MI s S SE).
  - intros q t Q T QE KK NS NT. rewrite <- SE. destruct (so_shm _ SO q _ Q QE) as (M' & _).
    assert (KT : e_key t = p_key q mod 2 ^ 32 \/ e_key t = 0) by exact (ro_key _ _ R q _ Q M' t T eq_refl).
    apply (ko_keys _ (so_k _ SO)); [exact T|exact S|destruct KS1, KT; congruence|exact NT].
Qed.
Print Assumptions C115_one.

(* What a process does before line 86 leaves the memory of every running logger as
   it is: a segment is used by nobody else until it has its header. *)
Theorem C115_untouched : forall fuel K z n f l q s z', 0 < k_size K -> raced fuel K z -> nth_error (z_at z) n = Some l ->
  (forall i, l <> LCheck i) -> In q (z_ps z) -> In s (v_segs (z_k z)) -> p_shm q = Seg (e_id s) ->
  race_step fuel K z (MStep n f) = Some z' -> exists t, In t (v_segs (z_k z')) /\ e_id t = e_id s /\ e_mem t = e_mem s.
Proof.
  intros fuel K z n f l q s z' KS RD L NC Q S E H. pose proof (raced_ok _ _ _ KS RD) as R. cbn [race_step] in H. rewrite L in H.
  destruct (nth_error (z_ps z) n) as [p|] eqn:N; [|discriminate].
  destruct (line_step fuel K f (z_k z) p l) as [[[v p'] l']| |] eqn:LS; try discriminate. injection H as <-.
  exact (untouched fuel K f z n p l v p' l' q s KS R N L LS NC Q S E).
Qed.
Print Assumptions C115_untouched.

(* As long as nobody logs every logger has empty queues, however many processes
   load, are killed and destroy their loggers. *)
Theorem C115_fresh : forall fuel K l z p s, 0 < k_size K -> race_run fuel K race_boot l = Some z -> Forall no_store l ->
  In p (z_ps z) -> In s (v_segs (z_k z)) -> p_shm p = Seg (e_id s) ->
  m_channels (e_mem s) = 0 /\ zlen (m_rings (e_mem s)) = Z.max 0 (k_chan K) /\
  Forall (fun q => empty_ring q /\ zlen (q_slots q) = Z.max 0 (k_ring K) /\ Forall (fun d => d_mark d = 0) (q_slots q)) (m_rings (e_mem s)).
Proof.
  intros fuel K l z p s KS H NS P S E. rewrite (quiet_seg K z p s KS (quiet_run _ _ _ _ _ KS (quiet_boot K) NS H) P S E).
  destruct (new_mem_empty K (e_id s)) as (_ & _ & A & B & C). auto.
Qed.
Print Assumptions C115_fresh.

(* Processes with the same key that start at the same time, nothing failing: when
   all calls have returned there is one segment, somebody has it, and everybody
   whose call returned 0 has it. *)
Theorem C115_together : forall fuel K k l z, 0 < k_size K -> k <> 0 -> race_run fuel K race_boot l = Some z -> Forall (calm k) l ->
  all_back z -> z_at z <> [] ->
  exists s, v_segs (z_k z) = [s] /\ e_key s = k /\
    (exists n p, nth_error (z_ps z) n = Some p /\ nth_error (z_at z) n = Some (Idle (Some 0)) /\ p_shm p = Seg (e_id s)) /\
    (forall n p, nth_error (z_ps z) n = Some p -> nth_error (z_at z) n = Some (Idle (Some 0)) -> p_shm p = Seg (e_id s)).
Proof.
  intros fuel K k l z KS NZ H F AB NE. exact (calm_back K k z NZ (calm_run _ _ _ _ _ _ KS NZ (calm_boot K k) F H) AB NE).
Qed.
Print Assumptions C115_together.

(* The others were told 13 or 15, and get it when they ask again. *)
Theorem C115_retry : forall fuel K k l z n p e, 0 < k_size K -> k <> 0 -> race_run fuel K race_boot l = Some z -> Forall (calm k) l -> Forall no_store l ->
  all_back z -> nth_error (z_ps z) n = Some p -> nth_error (z_at z) n = Some (Idle (Some e)) ->
  e = 0 \/ ((e = 13 \/ e = 15) /\
    exists z' s p', race_run fuel K z (MCall n :: repeat (MStep n all_well) 7) = Some z' /\ In s (v_segs (z_k z)) /\ e_key s = k /\
      nth_error (z_at z') n = Some (Idle (Some 0)) /\ nth_error (z_ps z') n = Some p' /\ p_shm p' = Seg (e_id s)).
Proof.
  intros fuel K k l z n p e KS NZ H F G AB N L.
  pose proof (calm_run _ _ _ _ _ _ KS NZ (calm_boot K k) F H) as C. pose proof (quiet_run _ _ _ _ _ KS (quiet_boot K) G H) as Q.
  assert (CD : codes_ok z) by (apply (codes_run fuel K k l race_boot z KS NZ (calm_boot K k) (quiet_boot K)); [intros x []|exact F|exact G|exact H]).
  pose proof (CD _ (nth_error_In _ _ L)) as CE. cbn in CE. destruct CE as [CE|CE]; [left; exact CE|right]. split; [exact CE|].
  pose proof (co_race _ _ _ C) as R.
  assert (NE : z_at z <> []) by (intros X; rewrite X in L; destruct n; discriminate).
  destruct (calm_back K k z NZ C AB NE) as (s & V & SK & (n0 & p0 & N0 & _ & P0) & _).
  assert (S : In s (v_segs (z_k z))) by (rewrite V; left; reflexivity).
  assert (SH : p_shm p = Nowhere).
  { pose proof (ro_line _ _ R n p _ N L) as (A & _). cbn in A. destruct (p_shm p); [reflexivity|exfalso|exfalso]; (assert (e = 0) by (apply A; discriminate); lia). }
  destruct (co_key _ _ _ C p (nth_error_In _ _ N)) as [KP KK].
  pose proof (quiet_seg K z p0 s KS Q (nth_error_In _ _ N0) S P0) as ME.
  assert (LS : load_shm fuel K (e_id s) (e_mem s) = Ret (0, e_mem s, true)) by (rewrite ME; apply load_empty).
  pose proof (load_found fuel K (z_k z) p s _ _ _ (so_k _ (ro_sys _ _ R)) S KP ltac:(congruence) ltac:(congruence) LS) as LF.
  destruct (C115_alone fuel K z n p (Some e) all_well _ _ _ KS (ex_intro _ l H) N L SH LF) as (z' & Z1 & _ & Z2 & Z3 & _).
  exists z', s, (mkProc (p_key p) (Seg (e_id s)) (e_id s :: p_maps p)).
  split; [exact Z1|]. split; [exact S|]. split; [exact SK|]. split; [exact Z3|]. split; [exact Z2|reflexivity].
Qed.
Print Assumptions C115_retry.

(* If the process that was making a segment is gone before line 73, the key is of no
   use to anybody from then on, whatever happens. *)
Theorem C115_stuck : forall fuel K z s l z' p f, 0 < k_size K -> raced fuel K z -> In s (v_segs (z_k z)) -> e_key s <> 0 ->
  m_size (e_mem s) <> k_size K \/ m_id (e_mem s) <> e_id s -> (forall x, In x (z_at z) -> ~ making x (e_id s)) ->
  race_run fuel K z l = Some z' -> 0 < p_key p -> p_key p mod 2 ^ 32 = e_key s ->
  (forall q, In q (z_ps z') -> p_shm q <> Seg (e_id s)) /\
  exists v' p', load_shared fuel K f (z_k z') p = Ret ((if f_access f then 12 else if f_attach f then 14 else 15), v', p') /\ p_shm p' = p_shm p.
Proof.
  intros fuel K z s l z' p f KS RD S NZ BAD WHO H KP KK. pose proof (raced_ok _ _ _ KS RD) as R. pose proof (so_k _ (ro_sys _ _ R)) as KO.
  assert (D : dead K (e_id s) (e_key s) (e_mem s) z).
  { constructor; [exact R| |].
    - exists s. split; [exact S|]. split; [reflexivity|]. split; [reflexivity|]. split; [|reflexivity].
      destruct (e_gone s) eqn:G; [|reflexivity]. pose proof (ko_gone _ KO s S G). lia.
    - intros x X W. apply (WHO x X). unfold making. destruct x; cbn in W; try discriminate; injection W as ->; auto. }
  pose proof (dead_run _ _ _ _ _ _ _ _ KS BAD D H) as D'. split; [intros q Q; exact (dead_free _ _ _ _ _ _ BAD D' Q)|].
  destruct (de_stays _ _ _ _ _ D') as (t & T & TI & TK & _ & TM). pose proof (so_k _ (ro_sys _ _ (de_race _ _ _ _ _ D'))) as KO'.
  unfold load_shared. fold (key32 (p_key p)) in KK. replace (p_key p <=? 0) with false by lia. replace (key32 (p_key p) =? 0) with false by lia.
  rewrite KK, <- TK. fold (z_k z') in KO'. rewrite (with_key _ t KO' T ltac:(congruence)).
  destruct (f_access f); [eauto|]. destruct (f_attach f); [eauto|].
  unfold use_seg. cbn [v_segs]. unfold sys_at. rewrite (map_with_id _ (fun s => mkSegment (e_id s) (e_key s) (e_at s + 1) (e_gone s) (e_mem s)) t (ko_ids _ KO') (fun _ => eq_refl) T). cbn [e_mem].
  unfold load_shm. rewrite TM, TI. replace (negb (m_size (e_mem s) =? k_size K) || negb (m_id (e_mem s) =? e_id s)) with true by lia. cbn [bind]. eauto.
Qed.
Print Assumptions C115_stuck.

Definition run_r (l : list move) : race := match race_run 11 Ks race_boot l with Some z => z | None => race_boot end.
Definition steps (n c : nat) : list move := repeat (MStep n all_well) c.
(* three processes: 0 creates, 1 finds no segment but cannot create one, 2 finds it without header *)
Definition crowd : list move :=
  [MStart 5; MStart 5; MStart (2 ^ 32 + 5); MCall 0; MCall 1; MCall 2] ++ steps 0 1 ++ steps 1 1 ++ steps 0 2 ++ steps 2 2 ++ steps 1 1 ++ steps 0 1 ++ steps 2 1 ++ steps 0 3.
Example C115_together_ex : race_run 11 Ks race_boot crowd = Some (run_r crowd) /\ Forall (calm 5) crowd /\ Forall no_store crowd /\ all_back (run_r crowd) /\
  z_at (run_r crowd) = [Idle (Some 0); Idle (Some 13); Idle (Some 15)].
Proof.
  split; [vm_compute; reflexivity|]. split; [unfold crowd, steps; repeat constructor|]. split; [unfold crowd, steps; repeat constructor|].
  assert (Z : z_at (run_r crowd) = [Idle (Some 0); Idle (Some 13); Idle (Some 15)]) by (vm_compute; reflexivity). split; [|exact Z].
  intros l L. rewrite Z in L. destruct L as [<-|[<-|[<-|[]]]]; eauto.
Qed.
(* while 0 is at line 71 nobody uses the new segment; later 1 uses it while 2 builds another *)
Example C115_untouched_ex : exists z, race_run 11 Ks race_boot ([MStart 5; MStart 6; MCall 0] ++ steps 0 7 ++ [MCall 1] ++ steps 1 3) = Some z /\
  nth_error (z_at z) 1 = Some (LReset 1) /\ map p_shm (z_ps z) = [Seg 0; Nowhere].
Proof. exists (run_r ([MStart 5; MStart 6; MCall 0] ++ steps 0 7 ++ [MCall 1] ++ steps 1 3)). split; [vm_compute; reflexivity|]. split; vm_compute; reflexivity. Qed.

(* killed at line 64: the segment 0 without header stays *)
Example C115_stuck_ex : exists z s, race_run 11 Ks race_boot ([MStart 5; MCall 0] ++ steps 0 2 ++ [MKill 0]) = Some z /\ In s (v_segs (z_k z)) /\ e_key s = 5 /\
  m_size (e_mem s) <> k_size Ks /\ z_at z = [Idle None].
Proof.
  exists (run_r ([MStart 5; MCall 0] ++ steps 0 2 ++ [MKill 0])), (mkSegment 0 5 0 false (zero_mem Ks)).
  split; [vm_compute; reflexivity|]. split; [left; vm_compute; reflexivity|]. split; [reflexivity|]. split; [cbn; discriminate|vm_compute; reflexivity].
Qed.

(* Everybody who starts with a key gets memory: no. *)
Theorem C115_all_refuted : exists l z, race_run 11 Ks race_boot l = Some z /\ Forall (calm 5) l /\ all_back z /\
  In (Idle (Some 13)) (z_at z) /\ In (Idle (Some 15)) (z_at z).
Proof.
  exists crowd, (run_r crowd). destruct C115_together_ex as (A & B & _ & D & E). rewrite E.
  split; [exact A|]. split; [exact B|]. split; [exact D|]. split; [right; left; reflexivity|right; right; left; reflexivity].
Qed.
Print Assumptions C115_all_refuted.
(* A process that was refused has nothing attached: no. *)
Theorem C115_leak_refuted : exists z n p, raced 11 Ks z /\ nth_error (z_ps z) n = Some p /\ nth_error (z_at z) n = Some (Idle (Some 15)) /\ p_shm p = Nowhere /\ p_maps p = [0].
Proof. exists (run_r crowd), 2%nat, (mkProc (2 ^ 32 + 5) Nowhere [0]). split; [exists crowd; vm_compute; reflexivity|]. split; [vm_compute; reflexivity|]. split; [vm_compute; reflexivity|]. split; reflexivity. Qed.
Print Assumptions C115_leak_refuted.
(* A process that is killed leaves a key that can be used: no, not if it is killed
   between lines 58 and 73. *)
Theorem C115_killed_refuted : exists l c z, race_run 11 Ks race_boot (l ++ steps 1 c ++ [MKill 1; MCall 0] ++ steps 0 7) = Some z /\ (c <= 6)%nat /\
  nth_error (z_at z) 0 = Some (Idle (Some 15)) /\ z_at (run_r l) = [Idle None; LProbe] /\ v_segs (z_k (run_r l)) = [].
Proof.
  set (l := [MStart 5; MStart 5; MCall 1]). exists l, 2%nat, (run_r (l ++ steps 1 2 ++ [MKill 1; MCall 0] ++ steps 0 7)).
  split; [vm_compute; reflexivity|]. split; [lia|]. split; [vm_compute; reflexivity|]. split; vm_compute; reflexivity.
Qed.
Print Assumptions C115_killed_refuted.
