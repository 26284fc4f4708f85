(* What a full lap of hold_idx_ does to C22, C23, C24 and C32: finished records hidden and lost. *)
From Coq Require Import ZArith List Bool Lia.
From Verif Require Import Base LoggerState Ring RingSpec Recover RecoverSpec RecoverRing PropsRing.
From Verif Require PropsRecover.
Import ListNotations.
Open Scope Z_scope.

(* Thread 1 sleeps between reading hold_idx_ and its compare-exchange while the
   index makes a full lap; its record is the eleventh in a ring of eleven.  All
   indices are equal then and the full queue looks empty: ten finished records
   of thread 2 and one of thread 1 are hidden. *)
Definition hide_ls : list label :=
  LLog 1 [65] :: R 3 1 ++ (LLog 2 [66] :: R 22 2) ++ R 30 0 ++
  concat (map (fun b => LLog 2 [b] :: R 22 2) [70; 71; 72; 73; 74; 75; 76; 77; 78; 79]) ++ R 19 1.
Definition hide_st : st := match run ca (start ca sl 2) hide_ls with Some s => s | None => start ca sl 2 end.
Lemma hide_reaches : reaches ca sl 2 hide_ls hide_st.
Proof. vm_compute. reflexivity. Qed.
Lemma hide_threads : threads_only hide_ls.
Proof. unfold threads_only, hide_ls, R; cbn [repeat app concat map]; repeat (constructor; [exact I|]); constructor. Qed.
Lemma hide_quiet : quiet ca hide_st.
Proof. eapply ca_quiet; vm_compute; reflexivity. Qed.

(* ---- C22 ---- *)
(* Thread 2 finishes one record, then writes another; the second is delivered,
   the first never: it is not even in the queue any more. *)
Theorem C22_order_refuted : exists c slots k ls1 s1 tid m1 m2 ls2 s2, cfg_ok c /\ blank c slots /\ is_sync c = false /\
  reaches c slots k ls1 s1 /\ threads_only ls1 /\ quiet c s1 /\ In (tid, m1) (g_held (gh s1)) /\
  run c s1 (LLog tid m2 :: ls2) = Some s2 /\ threads_only ls2 /\
  In (line c m2) (map snd (g_out (gh s2))) /\ ~ In (line c m1) (map snd (g_out (gh s2))) /\
  ~ In (line c m1) (map s_text (x_slots (sh s2))).
Proof.
  exists ca, sl, 2%nat, hide_ls, hide_st, 2%nat, [70], [80], (R 22 2 ++ R 14 0). eexists.
  split; [exact ca_ok|]. split; [apply sl_blank|]. split; [reflexivity|]. split; [exact hide_reaches|]. split; [exact hide_threads|].
  split; [exact hide_quiet|]. split; [vm_compute; tauto|]. split; [vm_compute; reflexivity|].
  split; [unfold threads_only, R; cbn [repeat app]; repeat (constructor; [exact I|]); constructor|].
  split; [vm_compute; tauto|].
  split; vm_compute; intros H; repeat destruct H as [H|H]; discriminate || exact H.
Qed.
Print Assumptions C22_order_refuted.

(* ---- C23 ---- *)
Lemma run_app : forall c a b s s', run c s a = Some s' -> run c s (a ++ b) = run c s' b.
Proof.
  intros c a. induction a as [|l a IH]; intros b s s' H; cbn [run app] in *; [congruence|].
  destruct (step c s l); [apply IH; exact H|discriminate].
Qed.
(* the writer thread goes round in four steps *)
Lemma hide_round : forall n, run ca hide_st (repeat (LRun 0) n) = run ca hide_st (repeat (LRun 0) (n mod 4)).
Proof.
  intros n. rewrite (PeanoNat.Nat.div_mod n 4) at 1 by lia.
  generalize (n mod 4)%nat as r. generalize (n / 4)%nat as q. clear n. intros q r.
  induction q as [|q IH]; [reflexivity|].
  replace (4 * S q + r)%nat with (4 + (4 * q + r))%nat by lia. rewrite repeat_app.
  rewrite (run_app ca (repeat (LRun 0) 4) _ hide_st hide_st) by (vm_compute; reflexivity). exact IH.
Qed.
(* No thread is in a log statement and records wait, but however long the
   writer thread runs it delivers none of them. *)
Theorem C23_hidden_refuted : exists c slots k ls s, cfg_ok c /\ blank c slots /\ is_sync c = false /\
  reaches c slots k ls s /\ threads_only ls /\ quiet c s /\ zlen (g_held (gh s)) = 12 /\ zlen (g_out (gh s)) = 1 /\
  forall n s', run c s (repeat (LRun 0) n) = Some s' -> g_out (gh s') = g_out (gh s).
Proof.
  exists ca, sl, 2%nat, hide_ls, hide_st.
  split; [exact ca_ok|]. split; [apply sl_blank|]. split; [reflexivity|]. split; [exact hide_reaches|]. split; [exact hide_threads|].
  split; [exact hide_quiet|]. split; [vm_compute; reflexivity|]. split; [vm_compute; reflexivity|].
  intros n s' H. rewrite hide_round in H. pose proof (PeanoNat.Nat.mod_upper_bound n 4 ltac:(lia)) as B.
  destruct (n mod 4)%nat as [|[|[|[|m]]]]; [| | | |lia]; vm_compute in H; injection H as <-; vm_compute; reflexivity.
Qed.
Print Assumptions C23_hidden_refuted.

(* ---- C24 ---- *)
(* Stopped in that state the writer thread ends at once; eleven of the twelve
   records are lost. *)
Theorem C24_lost_refuted : exists c slots k ls1 s1 s2 ls2 s3 t, cfg_ok c /\ blank c slots /\ is_sync c = false /\
  reaches c slots k ls1 s1 /\ threads_only ls1 /\ quiet c s1 /\ step c s1 LStop = Some s2 /\ run c s2 ls2 = Some s3 /\ no_restart ls2 /\
  nth_error (ths s3) 0 = Some t /\ t_pc t = Done /\ zlen (g_held (gh s1)) = 12 /\ g_out (gh s3) = [(0, [66; 10])].
Proof.
  exists ca, sl, 2%nat, hide_ls, hide_st. do 1 eexists. exists (R 3 0). do 2 eexists.
  split; [exact ca_ok|]. split; [apply sl_blank|]. split; [reflexivity|]. split; [exact hide_reaches|]. split; [exact hide_threads|].
  split; [exact hide_quiet|]. split; [vm_compute; reflexivity|]. split; [vm_compute; reflexivity|].
  split; [intros H; repeat destruct H as [H|H]; discriminate || exact H|].
  split; [vm_compute; reflexivity|]. split; [reflexivity|]. split; vm_compute; reflexivity.
Qed.
Print Assumptions C24_lost_refuted.

(* ---- C32 ---- *)
(* The record at position 1 is published and not released; after the crash the
   recovered ring shows another record in its place. *)
Definition over_ls : list label := hide_ls ++ LLog 2 [80] :: R 22 2.
Definition over_st : st := match run ca (start ca sl 2) over_ls with Some s => s | None => start ca sl 2 end.
Definition over_ring : rring :=
  mkRing 2 2 1 1 (PropsRecover.dat 2 2 [65; 10] :: PropsRecover.dat 2 2 [80; 10] ::
    map (fun b => PropsRecover.dat 2 2 [b; 10]) [71; 72; 73; 74; 75; 76; 77; 78; 79]).
Theorem C32_lap_refuted : exists c slots k ls s K q fuel a i m d, cfg_ok c /\ 20 <= log_size c /\ blank c slots /\
  reaches c slots k ls s /\ threads_only ls /\ abs_ring c K q (sh s) /\ n_ring c <= Z.of_nat fuel /\
  gR (gh s) <= a < gW (gh s) /\ nth_error (g_held (gh s)) (Z.to_nat a) = Some (i, m) /\
  (exists q', recover_ring fuel K q = Ret (0, q') /\ rd (q_slots q') (a mod n_ring c) = Ret d) /\ shown d <> line c m.
Proof.
  exists ca, sl, 2%nat, over_ls, over_st, PropsRecover.Kc, over_ring, 11%nat, 1, 2%nat, [70]. eexists.
  split; [exact ca_ok|]. split; [cbn; lia|]. split; [apply sl_blank|]. split; [vm_compute; reflexivity|].
  split; [unfold threads_only, over_ls; apply Forall_app; split; [exact hide_threads|]; unfold R; cbn [repeat]; repeat (constructor; [exact I|]); constructor|].
  split; [vm_compute; repeat split|]. split; [cbn; lia|]. split; [vm_compute; split; congruence|]. split; [vm_compute; reflexivity|].
  split; [eexists; split; vm_compute; reflexivity|]. vm_compute. congruence.
Qed.
Print Assumptions C32_lap_refuted.
