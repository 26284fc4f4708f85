(* Properties C87-C89: statements with a user hook, and PushChannel in any state of
   the queue. *)
From Coq Require Import String ZArith List Bool Lia ZifyBool ZifyNat ZifyN.
From Verif Require Import Base BaseFacts DateFmt DblFmt LoggerState FilterSpec Stream StreamSpec StreamProofs RenderProofs PrefixProofs
  World WorldSpec WorldProofs WorldUdp WorldSeq PropsStream PropsWorld HookSpec HookProofs PushProofs.
Import ListNotations.
Open Scope Z_scope.

(* ---- an example: channel 0 synchronous with a file and a virtual device, channel 1
   asynchronous with a file, channel 2 synchronous with a file ---- *)
Definition hx_ch (type virt : Z) (devs : list device) : channel :=
  mkChannel type virt (zlen devs) 1 (repeat 0 9) devs (repeat 0 25) (repeat (repeat 0 18) (length devs)).
Definition hx_chs (t p : Z) : list channel := [hx_ch t 1 [wx_dev 2 0; wx_dev 4 p]; hx_ch 0 (-1) [wx_dev 2 0]; hx_ch 1 (-1) [wx_dev 2 0]].
Definition hx_hook (log : ldata) : list (Z * Z * Z) := [(0, 0, 0); (1, 0, 0); (2, 0, 0); (1, 0, 0)].
Definition hx_world (t p : Z) : world := wx_world 400 (hx_chs t p).
Lemma hx_ok : forall t p, Forall chan_ok (hx_chs t p).
Proof. intros. repeat constructor; vm_compute; congruence. Qed.
Lemma hx_sense : forall t p k, in_sense (hx_world t p) k 0 0.
Proof.
  intros t p k ch H. unfold hx_world in H. cbn [wx_world w_lg g_chs] in H. apply nth_error_In in H.
  assert (D: forall o p, device_scope (wx_dev o p) 0 0) by (intros; unfold device_scope, in_scope; cbn; lia).
  cbn in H. destruct H as [<- | [<- | [<- | []]]]; (split; [unfold channel_scope, in_scope; cbn; lia|]); intros j d (J & N); apply nth_error_In in N; cbn in N; intuition (subst; apply D).
Qed.
Lemma hx_admitted : forall t p, admitted (w_lg (hx_world t p)) 0 4 0 0.
Proof.
  intros t p. split; [reflexivity|]. split; [reflexivity|]. split; [change (g_size (w_lg (hx_world t p))) with 3; lia|].
  eexists; (split; [reflexivity|]); (split; [reflexivity|]); (split; [unfold channel_accepts, accepts, in_window, in_mask; cbn; repeat split; try lia; left; reflexivity|]);
    exists 0; eexists; (split; [split; [vm_compute; split; congruence|reflexivity]|]); (split; [split; vm_compute; congruence|]); unfold device_accepts, accepts, in_window, in_mask; cbn; repeat split; try lia; left; reflexivity.
Qed.
Lemma hx_target : forall t p log x, In x (hx_hook log) -> target (wx_cfg 400 (Some hx_hook)) (hx_world t p) 0 (hx_hook log) x.
Proof.
  intros t p log x H. cbn in H. destruct H as [<- | [<- | [<- | [<- | []]]]]; cbn [target]; [left; reflexivity|right; split; [apply hx_sense|]..];
    intros ch r (_ & C) (_ & R); cbn in C; injection C as <-; cbn in R; injection R as <-.
  - right. split; [cbn; lia|]. split; [repeat split|]. exists []. split; [|vm_compute; reflexivity]. repeat split. intros m l E. destruct m; discriminate.
  - left. split; [reflexivity|]. split; [repeat split|]. intros d. reflexivity.
  - right. split; [cbn; lia|]. split; [repeat split|]. exists []. split; [|vm_compute; reflexivity]. repeat split. intros m l E. destruct m; discriminate.
Qed.

(* C87.  A statement on a channel whose virtual device accepts it, with a hook set.
   [target]: each channel the hook transmits to is the own channel, or one at rest
   with room for the records it is sent. *)
Theorem C87_sync : forall W o i w s ch r h d, shape W w -> in_sense w (t_chan s) (t_cat s) (t_ident s) ->
  chan_at w (t_chan s) ch -> ring_at w (t_chan s) r -> empty r ->
  admitted (w_lg w) (t_chan s) (t_prio s) (t_cat s) (t_ident s) -> well_formed W o i s -> -3 <= t_prio s <= 10 ->
  c_type ch = 1 -> no_datagrams w (t_chan s) -> W_hook W = Some h ->
  0 <= c_virtual ch -> nth_error (c_devs ch) (Z.to_nat (c_virtual ch)) = Some d ->
  device_scope d (t_cat s) (t_ident s) -> device_accepts d (t_prio s) (t_cat s) (t_ident s) ->
  (forall T log x, record_of W o i s T log -> In x (h log) -> target W w (t_chan s) (h log) x) ->
  exists w', log_stmt W i w s = Ret (w', 0) /\ hooked_sync W o i s h w w'.
Proof. exact log_hook_sync. Qed.
Print Assumptions C87_sync.
Theorem C87_async : forall W o i w s ch r q h d, shape W w -> in_sense w (t_chan s) (t_cat s) (t_ident s) -> at_rest W w (t_chan s) ch r q ->
  admitted (w_lg w) (t_chan s) (t_prio s) (t_cat s) (t_ident s) -> well_formed W o i s -> -3 <= t_prio s <= 10 ->
  c_type ch <> 1 -> W_hook W = Some h ->
  0 <= c_virtual ch -> nth_error (c_devs ch) (Z.to_nat (c_virtual ch)) = Some d ->
  device_scope d (t_cat s) (t_ident s) -> device_accepts d (t_prio s) (t_cat s) (t_ident s) ->
  (forall T log x, record_of W o i s T log -> In x (h log) -> target W w (t_chan s) (h log) x) ->
  exists w', log_stmt W i w s = Ret (w', 0) /\ hooked_async W o i s h q w w'.
Proof. exact log_hook_async. Qed.
Print Assumptions C87_async.
(* The virtual device refuses: the hook is not called. *)
Theorem C87_quiet_sync : forall W o i w s ch r d, shape W w -> in_sense w (t_chan s) (t_cat s) (t_ident s) ->
  chan_at w (t_chan s) ch -> ring_at w (t_chan s) r -> empty r ->
  admitted (w_lg w) (t_chan s) (t_prio s) (t_cat s) (t_ident s) -> well_formed W o i s -> -3 <= t_prio s <= 10 ->
  c_type ch = 1 -> no_datagrams w (t_chan s) ->
  0 <= c_virtual ch -> nth_error (c_devs ch) (Z.to_nat (c_virtual ch)) = Some d ->
  device_scope d (t_cat s) (t_ident s) -> ~ device_accepts d (t_prio s) (t_cat s) (t_ident s) ->
  exists w' T, log_stmt W i w s = Ret (w', 0) /\ statement_text W o i s T /\
    written_through W i (t_chan s) (t_prio s) (t_cat s) (t_ident s) (line W T) w w'.
Proof. exact log_quiet_sync. Qed.
Print Assumptions C87_quiet_sync.
Theorem C87_quiet_async : forall W o i w s ch r q d, shape W w -> in_sense w (t_chan s) (t_cat s) (t_ident s) -> at_rest W w (t_chan s) ch r q ->
  admitted (w_lg w) (t_chan s) (t_prio s) (t_cat s) (t_ident s) -> well_formed W o i s -> -3 <= t_prio s <= 10 ->
  c_type ch <> 1 ->
  0 <= c_virtual ch -> nth_error (c_devs ch) (Z.to_nat (c_virtual ch)) = Some d ->
  device_scope d (t_cat s) (t_ident s) -> ~ device_accepts d (t_prio s) (t_cat s) (t_ident s) ->
  exists w' T, log_stmt W i w s = Ret (w', 0) /\ statement_text W o i s T /\
    queued W (t_chan s) (t_prio s) (t_cat s) (t_ident s) (line W T) q w w'.
Proof. exact log_quiet_async. Qed.
Print Assumptions C87_quiet_async.
Example C87_hypotheses : forall p, (p = 0 \/ p = 5) -> exists ch d, shape (wx_cfg 400 (Some hx_hook)) (hx_world 1 p) /\ in_sense (hx_world 1 p) 0 0 0 /\
  chan_at (hx_world 1 p) 0 ch /\ ring_at (hx_world 1 p) 0 (wx_ring 400) /\ empty (wx_ring 400) /\
  admitted (w_lg (hx_world 1 p)) 0 4 0 0 /\ well_formed (wx_cfg 400 (Some hx_hook)) 28800 wx_io (wx_stmt 0 4 127 wx_vals) /\
  c_type ch = 1 /\ no_datagrams (hx_world 1 p) 0 /\ 0 <= c_virtual ch /\ nth_error (c_devs ch) (Z.to_nat (c_virtual ch)) = Some d /\
  device_scope d 0 0 /\ (p = 0 -> device_accepts d 4 0 0) /\ (p = 5 -> ~ device_accepts d 4 0 0) /\
  forall T log x, record_of (wx_cfg 400 (Some hx_hook)) 28800 wx_io (wx_stmt 0 4 127 wx_vals) T log -> In x (hx_hook log) ->
    target (wx_cfg 400 (Some hx_hook)) (hx_world 1 p) 0 (hx_hook log) x.
Proof.
  intros p P. eexists. eexists. split; [apply (wx_shape 400); [lia|apply hx_ok]|]. split; [apply hx_sense|].
  split; [split; [change (g_size (w_lg (hx_world 1 p))) with 3; lia|reflexivity]|]. split; [split; [change (g_size (w_lg (hx_world 1 p))) with 3; lia|reflexivity]|].
  split; [repeat split|]. split; [apply hx_admitted|]. split; [apply wx_well_formed, wx_vals_ok|]. split; [reflexivity|]. split; [intros d; reflexivity|].
  split; [cbn; lia|]. split; [reflexivity|]. split; [unfold device_scope, in_scope; cbn; lia|].
  split; [intros ->; unfold device_accepts, accepts, in_window, in_mask; cbn; repeat split; try lia; left; reflexivity|].
  split; [intros ->; unfold device_accepts, accepts; cbn; lia|]. intros T log x _. apply hx_target.
Qed.
Example C87_result : exists w log, log_stmt (wx_cfg 400 (Some hx_hook)) wx_io (hx_world 1 0) (wx_stmt 0 4 0 wx_vals) = Ret (w, 0) /\
  w_ev w = [EHook log; EFile 2 0 (s2z "x=5" ++ [10]); EFile 0 0 (s2z "x=5" ++ [10])] /\ content log = Ret (s2z "x=5") /\
  map (fun r => (rg_write r, rg_hold r, rg_read r, rg_proc r)) (w_rings w) = [(4, 4, 4, 4); (5, 5, 3, 3); (4, 4, 4, 4)] /\
  dcnt (nth 0 (g_chs (w_lg w)) (hx_ch 0 0 [])) 1 15 = 1 /\ dcnt (nth 0 (g_chs (w_lg w)) (hx_ch 0 0 [])) 1 16 = 3.
Proof. eexists. eexists. split; [vm_compute; reflexivity|]. repeat split; vm_compute; reflexivity. Qed.
Example C87_quiet_result : exists w, log_stmt (wx_cfg 400 (Some hx_hook)) wx_io (hx_world 1 5) (wx_stmt 0 4 0 wx_vals) = Ret (w, 0) /\
  w_ev w = [EFile 0 0 (s2z "x=5" ++ [10])].
Proof. eexists. split; vm_compute; reflexivity. Qed.

(* C88.  PushChannel on slot idx, whatever other slots are being filled: the line is
   ended, only this slot changes, and exactly the m ready slots at the front are
   published ([marked W r a j 2]: slot j behind slot a is ready).  On a synchronous
   channel the waiting records are then written out (C83_round). *)
Theorem C88_push : forall W i w k ch r idx cl T, shape W w -> chan_at w k ch -> ring_at w k r -> c_state ch = 1 -> 0 <= idx < W_ring W ->
  nth_error (rg_cells r) (Z.to_nat idx) = Some cl -> filled W (ce_log cl) T -> -3 <= ld_prio (ce_log cl) < 22 ->
  exists w1 ch1 r1 log1 m,
    push W i w k idx = (if c_type ch =? 1 then bind (enter_proc W i w1 k) (fun w => Ret (w, 0)) else Ret (w1, 0)) /\
    only_at k w w1 /\ shape W w1 /\ w_ev w1 = w_ev w /\ chan_at w1 k ch1 /\ ring_at w1 k r1 /\
    counts ch ch1 (fun x => hit x (3 + ld_prio (ce_log cl)) (zlen (line W T)) + hit x 2 m) /\
    rg_hold r1 = rg_hold r /\ rg_read r1 = rg_read r /\ rg_proc r1 = rg_proc r /\ rg_write r1 = (rg_write r + m) mod W_ring W /\
    0 <= m <= (rg_hold r - rg_write r) mod W_ring W /\
    (forall j, 0 <= j < m -> marked W r1 (rg_write r) j 2) /\ (m = (rg_hold r - rg_write r) mod W_ring W \/ ~ marked W r1 (rg_write r) m 2) /\
    nth_error (rg_cells r1) (Z.to_nat idx) = Some (mkCell 2 log1) /\
    (forall j, 0 <= j -> j <> idx -> nth_error (rg_cells r1) (Z.to_nat j) = nth_error (rg_cells r) (Z.to_nat j)) /\
    (exists buf, log1 = set_text (ce_log cl) (ld_plen (ce_log cl)) (zlen (line W T)) buf /\ exists rest, buf = line W T ++ 0 :: rest).
Proof.
  intros W i w k ch r idx cl T SH CA RA CS IX CL HT PR.
  destruct (push_gen W i w k ch r idx cl T SH CA RA CS IX CL HT PR) as (w1 & ch1 & r1 & log1 & m & A1 & A2 & A3 & A4 & A5 & A6 & (G1 & _ & G3 & G4) & A8).
  exists w1, ch1, r1, log1, m. repeat (split; [assumption|]). split; [split; [exact G1|split; [exact G3|exact G4]]|exact A8].
Qed.
Print Assumptions C88_push.
(* Two slots held: the later one is pushed first. *)
Theorem C88_gap : forall W i w k ch r idx cl T c0, shape W w -> chan_at w k ch -> ring_at w k r -> c_state ch = 1 -> c_type ch <> 1 -> 0 <= idx < W_ring W ->
  nth_error (rg_cells r) (Z.to_nat idx) = Some cl -> filled W (ce_log cl) T -> -3 <= ld_prio (ce_log cl) < 22 ->
  idx <> rg_write r -> nth_error (rg_cells r) (Z.to_nat (rg_write r)) = Some c0 -> ce_mark c0 = 1 ->
  exists w1 ch1 r1, push W i w k idx = Ret (w1, 0) /\ w_ev w1 = w_ev w /\ chan_at w1 k ch1 /\ ring_at w1 k r1 /\
    rg_write r1 = rg_write r /\ counts ch ch1 (fun x => hit x (3 + ld_prio (ce_log cl)) (zlen (line W T))).
Proof.
  intros W i w k ch r idx cl T c0 SH CA RA CS TY IX CL HT PR NE C0 M0.
  destruct (C88_push W i w k ch r idx cl T SH CA RA CS IX CL HT PR) as (w1 & ch1 & r1 & log1 & m & P & O1 & SH1 & EV & CA1 & RA1 & G & _ & _ & _ & WR & MM & MA & MB & _ & OT & _).
  assert (RB: 0 <= rg_write r < W_ring W) by (destruct (shape_at _ _ _ _ _ SH CA RA) as (_ & (_ & _ & _ & B & _)); exact B).
  assert (m = 0) as ->.
  { destruct (Z.eq_dec m 0) as [|X]; [assumption|]. destruct (MA 0 ltac:(lia)) as (c & A & B). rewrite Z.add_0_r, Z.mod_small, OT in A by lia. assert (c = c0) by congruence. subst c. lia. }
  exists w1, ch1, r1. replace (c_type ch =? 1) with false in P by lia. split; [exact P|]. repeat (split; [assumption|]). split; [rewrite WR, Z.add_0_r, Z.mod_small; lia|].
  destruct G as (G1 & G2 & G3). split; [exact G1|]. split; [exact G2|]. intros x X X1 X2. rewrite G3 by assumption. unfold hit. destruct (x =? 2); lia.
Qed.
Print Assumptions C88_gap.

(* slots 3 and 4 of an asynchronous channel are held, with different texts; slot 4 is
   pushed, then slot 3 *)
Definition gx_log (t : text) : ldata := mkLd 0 4 0 0 0 0 0 None None 0 0 0 0 (zlen t) (t ++ repeat 0 (400 - length t)).
Definition gx_ring : ring :=
  mkRing 3 5 3 3 (repeat (mkCell 0 (wx_log 400)) 3 ++ [mkCell 1 (gx_log (s2z "first")); mkCell 1 (gx_log (s2z "second"))] ++ repeat (mkCell 0 (wx_log 400)) 7) (wx_log 400).
Definition gx_world (t : Z) : world := mkWorld (mkLogger true 2 1 [wx_ch t [wx_dev 2 0]]) [gx_ring] (fun _ _ => []) [].
Example C88_hypotheses : forall t, shape (wx_cfg 400 None) (gx_world t) /\ chan_at (gx_world t) 0 (wx_ch t [wx_dev 2 0]) /\ ring_at (gx_world t) 0 gx_ring /\
  nth_error (rg_cells gx_ring) (Z.to_nat 4) = Some (mkCell 1 (gx_log (s2z "second"))) /\ filled (wx_cfg 400 None) (gx_log (s2z "second")) (s2z "second") /\
  nth_error (rg_cells gx_ring) (Z.to_nat (rg_write gx_ring)) = Some (mkCell 1 (gx_log (s2z "first"))).
Proof.
  intros t. split.
  { split; [cbn; lia|]. split; [cbn; lia|]. split; [vm_compute; split; congruence|]. split; [reflexivity|]. split; [repeat constructor; vm_compute; congruence|].
    constructor; [|constructor]. split; [reflexivity|]. split; [repeat constructor|]. split; [repeat constructor|]. cbn. lia. }
  split; [split; [vm_compute; split; congruence|reflexivity]|]. split; [split; [vm_compute; split; congruence|reflexivity]|]. split; [reflexivity|]. split; [|reflexivity].
  eexists. split; [reflexivity|]. split; reflexivity.
Qed.
Example C88_result : exists w1 w2, push (wx_cfg 400 None) wx_io (gx_world 0) 0 4 = Ret (w1, 0) /\ push (wx_cfg 400 None) wx_io w1 0 3 = Ret (w2, 0) /\
  map rg_write (w_rings w1) = [3] /\ map rg_write (w_rings w2) = [5] /\
  map (fun ch => firstn 8 (c_log ch)) (g_chs (w_lg w2)) = [[0; 0; 2; 0; 0; 0; 0; 13]] /\
  exists w3, enter_proc (wx_cfg 400 None) wx_io w2 0 = Ret w3 /\ w_ev w3 = [EFile 0 0 (s2z "first" ++ [10]); EFile 0 0 (s2z "second" ++ [10])].
Proof. do 2 eexists. split; [vm_compute; reflexivity|]. split; [vm_compute; reflexivity|]. split; [reflexivity|]. split; [reflexivity|]. split; [reflexivity|]. eexists. split; vm_compute; reflexivity. Qed.

(* C89.  What PushChannel refuses, with its error numbers; the logger is unchanged. *)
Theorem C89_refused : forall W i w k idx, shape W w ->
  (~ 0 <= k < g_size (w_lg w) -> push W i w k idx = Ret (w, 5)) /\
  (0 <= k < g_size (w_lg w) -> ~ 0 <= idx < W_ring W -> push W i w k idx = Ret (w, 20)) /\
  (forall ch, chan_at w k ch -> 0 <= idx < W_ring W -> c_state ch <> 1 -> push W i w k idx = Ret (w, 3)).
Proof. exact push_refused. Qed.
Print Assumptions C89_refused.
Example C89_results : push (wx_cfg 400 None) wx_io (gx_world 0) 1 3 = Ret (gx_world 0, 5) /\ push (wx_cfg 400 None) wx_io (gx_world 0) (-1) 3 = Ret (gx_world 0, 5) /\
  push (wx_cfg 400 None) wx_io (gx_world 0) 0 12 = Ret (gx_world 0, 20) /\ push (wx_cfg 400 None) wx_io (gx_world 0) 0 (-1) = Ret (gx_world 0, 20) /\
  push (wx_cfg 400 None) wx_io (wx_world 400 [set_state (wx_ch 1 []) 3]) 0 3 = Ret (wx_world 400 [set_state (wx_ch 1 []) 3], 3).
Proof. repeat split. Qed.
