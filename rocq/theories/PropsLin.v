(* Property C108: threads logging at the same time write what the same statements
   write one after the other. *)
From Coq Require Import String ZArith List Bool Lia ZifyBool ZifyNat ZifyN Permutation.
From Verif Require Import Base BaseFacts DateFmt LoggerState Ring RingSpec FilterSpec Stream StreamSpec StreamProofs World WorldSpec WorldProofs WorldSeq MixSpec MixProofs LinSpec LinProofs.
From Verif Require PropsRing PropsMix PropsWorld PropsStream.
Import ListNotations.
Open Scope Z_scope.

(* C108, asynchronous.  The queue as in C19-C25, under any schedule without laps;
   once nobody is inside a statement and the writer thread has had time, what
   went to the devices is, byte for byte, what file device j of channel kc gets
   in the model of whole statements (C81-C107) when the calls are made one after
   the other, in an order that respects the time of the calls. *)
Theorem C108_async_partial : forall W o w kc j i0 calls c slots k ls s, cfg_ok c -> blank c slots -> is_sync c = false -> log_size c = e_cap (W_env W) ->
  reaches c slots k ls s -> no_lap c (start c slots k) ls -> threads_only ls -> quiet c s ->
  Forall2 (is_call W o) calls (logs_of ls) -> shape W w -> relaxed W w (fun _ => []) ->
  Forall (fun a => fine W o w (ALog (fst (snd a)) (snd (snd a))) /\ goes_to w kc j (fst (snd a))) calls -> fine W o w (AProc kc i0) ->
  exists order n s' w', in_real_time c slots k ls calls order /\ run c s (repeat (LRun 0) n) = Some s' /\
    acts W w (one_by_one kc i0 order) = Ret w' /\ filed kc j (w_ev w') = filed kc j (w_ev w) ++ concat (map snd (g_out (gh s'))).
Proof.
  intros W o w kc j i0 calls c slots k ls s C B SY LS RE NL TO QU F SH RX FI FP.
  destruct (order_exists W o c slots k ls s calls C B RE NL TO QU F) as (order & RT & FO).
  destruct (PropsRing.C23_async_partial c slots k ls s C B SY RE NL TO QU) as (_ & n & s' & RU & OUT & _).
  destruct (one_filed W o w kc j i0 order (g_held (gh s)) SH RX) as (w' & AC & FD).
  { eapply Permutation_Forall; [exact (proj1 RT)|exact FI]. }
  { exact FP. } { exact FO. }
  exists order, n, s', w'. split; [exact RT|]. split; [exact RU|]. split; [exact AC|]. rewrite FD, OUT. unfold RingSpec.line, WorldSpec.line. rewrite LS. reflexivity.
Qed.
Print Assumptions C108_async_partial.

(* Synchronous: the logging threads have written everything themselves, in some
   order of the calls, not always the order of each thread (refuted below). *)
Theorem C108_sync_partial : forall W o w kc j calls c slots k ls s ch, cfg_ok c -> blank c slots -> is_sync c = true -> log_size c = e_cap (W_env W) ->
  reaches c slots k ls s -> no_lap c (start c slots k) ls -> threads_only ls -> quiet c s ->
  Forall2 (is_call W o) calls (logs_of ls) -> shape W w -> relaxed W w (fun _ => []) -> chan_at w kc ch -> c_type ch = 1 ->
  Forall (fun a => fine W o w (ALog (fst (snd a)) (snd (snd a))) /\ goes_to w kc j (fst (snd a))) calls ->
  exists order w', Permutation calls order /\ acts W w (map (fun a => ALog (fst (snd a)) (snd (snd a))) order) = Ret w' /\
    filed kc j (w_ev w') = filed kc j (w_ev w) ++ concat (map snd (g_out (gh s))).
Proof. exact sync_order. Qed.
Print Assumptions C108_sync_partial.

(* Thread 1 begins "A", thread 2 logs "B" from begin to end, thread 1 finishes. *)
Definition lx_c (b : bool) : rcfg := mkCfg 11 400 b.
Definition lx_stmt (k : Z) (m : text) : stmt := PropsWorld.wx_stmt k 4 0 [SStr m].
Definition lx_calls (k : Z) (a b : nat) : list call := [(a, (lx_stmt k [65], PropsWorld.wx_io)); (b, (lx_stmt k [66], PropsWorld.wx_io))].
Definition lx_ls : list label := LLog 1 [65] :: PropsRing.R 3 1 ++ LLog 2 [66] :: PropsRing.R 22 2 ++ PropsRing.R 23 1.
Definition lx_st : st := match run (lx_c false) (start (lx_c false) PropsRing.sl 2) lx_ls with Some s => s | None => start (lx_c false) PropsRing.sl 2 end.
Lemma lx_is_call : forall k a b, Forall2 (is_call PropsMix.mx_cfg 28800) (lx_calls k a b) [(a, [65]); (b, [66])].
Proof.
  intros k a b. repeat (apply Forall2_cons; [split; [reflexivity|]; exists []; eexists; split; [reflexivity|]; split; [intros X; exfalso; apply X; reflexivity|]; split; [repeat constructor|reflexivity]|]). constructor.
Qed.
Lemma lx_fine : forall k m, zlen m <= 10 -> fine PropsMix.mx_cfg 28800 PropsMix.mx_world (ALog (lx_stmt k m) PropsWorld.wx_io).
Proof.
  intros k m M. split; [apply PropsWorld.wx_sense|]. split; [|split; [cbn; lia|intros; reflexivity]].
  split; [apply (PropsStream.ex_settled 400)|]. split; [intros X; exfalso; apply X; reflexivity|]. split; [repeat constructor; unfold INT_MAX; lia|]. split; [apply cache_init_fine|cbn; lia].
Qed.
Lemma lx_goes : forall k m, 0 <= k <= 1 -> goes_to PropsMix.mx_world k 0 (lx_stmt k m).
Proof.
  intros k m K. split; [reflexivity|]. split; [apply PropsWorld.wx_admitted; exact K|].
  assert (k = 0 \/ k = 1) as [-> | ->] by lia; do 2 eexists; (split; [split; [vm_compute; split; congruence|reflexivity]|]);
    (split; [split; [vm_compute; split; congruence|reflexivity]|]); (split; [split; vm_compute; congruence|]); (split; [|reflexivity]);
    unfold device_accepts, accepts, in_window, in_mask; cbn; repeat split; try lia; left; reflexivity.
Qed.
Example C108_hypotheses : cfg_ok (lx_c false) /\ blank (lx_c false) PropsRing.sl /\ log_size (lx_c false) = e_cap (W_env PropsMix.mx_cfg) /\
  reaches (lx_c false) PropsRing.sl 2 lx_ls lx_st /\ no_lap (lx_c false) (start (lx_c false) PropsRing.sl 2) lx_ls /\ threads_only lx_ls /\ quiet (lx_c false) lx_st /\
  Forall2 (is_call PropsMix.mx_cfg 28800) (lx_calls 1 1 2) (logs_of lx_ls) /\ shape PropsMix.mx_cfg PropsMix.mx_world /\ relaxed PropsMix.mx_cfg PropsMix.mx_world (fun _ => []) /\
  Forall (fun a => fine PropsMix.mx_cfg 28800 PropsMix.mx_world (ALog (fst (snd a)) (snd (snd a))) /\ goes_to PropsMix.mx_world 1 0 (fst (snd a))) (lx_calls 1 1 2) /\
  fine PropsMix.mx_cfg 28800 PropsMix.mx_world (AProc 1 PropsWorld.wx_io).
Proof.
  destruct PropsMix.C106_hypotheses as (SH & RX & _).
  split; [split; cbn; lia|]. split; [split; [reflexivity|apply (PropsRing.sl_blank false)]|]. split; [reflexivity|].
  split; [vm_compute; reflexivity|]. split; [apply PropsRing.no_lapb_ok; vm_compute; reflexivity|].
  split; [unfold threads_only, lx_ls, PropsRing.R; cbn [repeat app]; repeat (constructor; [exact I|]); constructor|].
  split; [intros [|[|[|tid]]] t T; [left; split; reflexivity|right; vm_compute in T; injection T as <-; reflexivity|right; vm_compute in T; injection T as <-; reflexivity|vm_compute in T; destruct tid; discriminate]|].
  split; [apply lx_is_call|]. split; [exact SH|]. split; [exact RX|].
  split; [repeat (constructor; [split; [apply lx_fine; vm_compute; congruence|apply lx_goes; lia]|]); constructor|].
  split; [|intros; reflexivity]. eexists. split; [split; [vm_compute; split; congruence|reflexivity]|vm_compute; congruence].
Qed.
(* "B" is first in the file although "A" was begun first *)
Example C108_result : exists s w, run (lx_c false) lx_st (PropsRing.R 40 0) = Some s /\ map snd (g_out (gh s)) = [[66; 10]; [65; 10]] /\
  acts PropsMix.mx_cfg PropsMix.mx_world (one_by_one 1 PropsWorld.wx_io (rev (lx_calls 1 1 2))) = Ret w /\ filed 1 0 (w_ev w) = [66; 10; 65; 10].
Proof. do 2 eexists. split; [vm_compute; reflexivity|]. split; [vm_compute; reflexivity|]. split; [vm_compute; reflexivity|]. vm_compute. reflexivity. Qed.

(* Synchronous: thread 0 takes over the first record of thread 1, which returns
   and logs again; its second record is written before its first. *)
Definition lxs_ls : list label := LLog 0 [88] :: PropsRing.R 37 0 ++ LLog 1 [65] :: PropsRing.R 22 1 ++ PropsRing.R 3 0 ++ PropsRing.R 4 1 ++
  LLog 1 [67] :: PropsRing.R 38 1 ++ PropsRing.R 20 0.
Definition lxs_st : st := match run (lx_c true) (start (lx_c true) PropsRing.sl 2) lxs_ls with Some s => s | None => start (lx_c true) PropsRing.sl 2 end.
Theorem C108_thread_order_refuted : exists c slots k ls s tid, cfg_ok c /\ blank c slots /\ is_sync c = true /\
  reaches c slots k ls s /\ no_lap c (start c slots k) ls /\ threads_only ls /\ quiet c s /\
  of_thread tid (logs_of ls) = [[65]; [67]] /\ map snd (g_out (gh s)) = [[88; 10]; [67; 10]; [65; 10]].
Proof.
  exists (lx_c true), PropsRing.sl, 2%nat, lxs_ls, lxs_st, 1%nat. split; [split; cbn; lia|]. split; [split; [reflexivity|apply (PropsRing.sl_blank true)]|].
  split; [reflexivity|]. split; [vm_compute; reflexivity|]. split; [apply PropsRing.no_lapb_ok; vm_compute; reflexivity|].
  split; [unfold threads_only, lxs_ls, PropsRing.R; cbn [repeat app]; repeat (constructor; [exact I|]); constructor|].
  split; [intros [|[|tid]] t T; right; vm_compute in T; [injection T as <-; reflexivity|injection T as <-; reflexivity|destruct tid; discriminate]|].
  split; vm_compute; reflexivity.
Qed.
Print Assumptions C108_thread_order_refuted.
(* that schedule meets the hypotheses of C108_sync_partial *)
Definition lxs_calls : list call := [(0%nat, (lx_stmt 0 [88], PropsWorld.wx_io)); (1%nat, (lx_stmt 0 [65], PropsWorld.wx_io)); (1%nat, (lx_stmt 0 [67], PropsWorld.wx_io))].
Example C108_sync_hypotheses : exists ch, Forall2 (is_call PropsMix.mx_cfg 28800) lxs_calls (logs_of lxs_ls) /\ chan_at PropsMix.mx_world 0 ch /\ c_type ch = 1 /\
  Forall (fun a => fine PropsMix.mx_cfg 28800 PropsMix.mx_world (ALog (fst (snd a)) (snd (snd a))) /\ goes_to PropsMix.mx_world 0 0 (fst (snd a))) lxs_calls.
Proof.
  eexists. split; [|split; [split; [vm_compute; split; congruence|reflexivity]|split; [reflexivity|]]].
  - repeat (apply Forall2_cons; [split; [reflexivity|]; exists []; eexists; split; [reflexivity|]; split; [intros X; exfalso; apply X; reflexivity|]; split; [repeat constructor|reflexivity]|]). constructor.
  - repeat (constructor; [split; [apply lx_fine; vm_compute; congruence|apply lx_goes; lia]|]); constructor.
Qed.
