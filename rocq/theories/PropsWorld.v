(* Properties C30, C31, C57, C58, C81-C86: log statements from the call to the
   devices, forwarded records and forwarded datagrams. *)
From Coq Require Import String ZArith List Bool Lia ZifyBool ZifyNat ZifyN.
From Verif Require Import Base BaseFacts DateFmt DblFmt LoggerState FilterSpec Stream StreamSpec StreamProofs RenderProofs PrefixProofs StreamUnique
  World WorldSpec WorldProofs WorldUdp WorldSeq PropsStream.
Import ListNotations.
Open Scope Z_scope.

(* [shape]: memory as allocated.  [in_sense]: the filters of the channel have a
   meaning for this category and identify (FilterSpec.v).  [unhooked]: no hook
   applies to the channel.  [well_formed]: constant offset from UTC, gcvt at most
   23 bytes, operands and prefix as in C13_stream_partial and C15_prefix. *)

(* ---- an example: two channels, the first synchronous with a file and a screen,
   the second asynchronous with a file ---- *)
Definition wx_dev (out prio : Z) : device := mkDevice 0 out (1 :: prio :: repeat 0 18).
Definition wx_ch (type : Z) (devs : list device) : channel :=
  mkChannel type (-1) (zlen devs) 1 (repeat 0 9) devs (repeat 0 25) (repeat (repeat 0 18) (length devs)).
Definition wx_log (cap : nat) : ldata := mkLd 0 0 0 0 0 0 0 None None 0 0 0 0 0 (repeat 0 cap).
Definition wx_ring (cap : nat) : ring := mkRing 3 3 3 3 (repeat (mkCell 0 (wx_log cap)) 12) (wx_log cap).
Definition wx_world (cap : nat) (chs : list channel) : world :=
  mkWorld (mkLogger true 2 (zlen chs) chs) (repeat (wx_ring cap) (length chs)) (fun _ _ => []) [].
Definition wx_chs : list channel := [wx_ch 1 [wx_dev 2 0; wx_dev 1 4; wx_dev 2 5]; wx_ch 0 [wx_dev 2 0]].
Definition wx_cfg (cap : Z) (hook : option (ldata -> list (Z * Z * Z))) : wcfg :=
  mkWcfg (ex_env cap) 12 (s2z "app????") 3 (s2z "d") 1 hook.
Definition wx_io : io := mkIo (fun _ _ _ => true) (fun _ _ _ => true) (fun _ _ _ => 1) 1709164799 5 77.
Definition wx_stmt (k p prefix : Z) (vs : list sval) : stmt :=
  mkStmt k p 0 0 (Some (s2z "/a/b/c/d.cpp")) 12 42 (Some (s2z "main")) 4 prefix vs cache_init.

Lemma wx_shape : forall cap hook chs, 2 <= Z.of_nat cap -> Forall chan_ok chs -> shape (wx_cfg (Z.of_nat cap) hook) (wx_world cap chs).
Proof.
  intros cap hook chs C F. pose proof (zlen_nonneg _ chs). unfold shape. cbn [wx_cfg W_env W_ring ex_env e_cap wx_world w_lg w_rings g_size g_chs].
  split; [exact C|]. split; [lia|]. split; [lia|]. split; [unfold zlen; rewrite repeat_length; reflexivity|]. split; [exact F|].
  apply Forall_forall. intros r R. apply repeat_spec in R as ->. assert (L: log_ok (wx_cfg (Z.of_nat cap) hook) (wx_log cap)).
  { unfold log_ok. cbn [wx_log ld_buf wx_cfg W_env ex_env e_cap]. unfold zlen. rewrite repeat_length. reflexivity. }
  unfold ring_ok. cbn [wx_ring rg_cells rg_udp rg_write rg_hold rg_read rg_proc wx_cfg W_ring]. split; [reflexivity|]. split; [|split; [|lia]].
  - apply Forall_forall. intros c H0. apply repeat_spec in H0 as ->. exact L.
  - split; [exact L|]. cbn [wx_log ld_buf wx_cfg W_env ex_env e_cap]. apply nth_error_repeat. lia.
Qed.
Lemma wx_chs_ok : Forall chan_ok wx_chs.
Proof. repeat constructor; vm_compute; congruence. Qed.
Lemma wx_sense : forall k, in_sense (wx_world 400 wx_chs) k 0 0.
Proof.
  intros k ch H. cbn [wx_world w_lg g_chs] in H. apply nth_error_In in H. assert (ch = wx_ch 1 [wx_dev 2 0; wx_dev 1 4; wx_dev 2 5] \/ ch = wx_ch 0 [wx_dev 2 0]) as E by (cbn in H; intuition).
  assert (D: forall o p, device_scope (wx_dev o p) 0 0) by (intros o p; unfold device_scope, in_scope; cbn; lia).
  destruct E as [-> | ->]; (split; [unfold channel_scope, in_scope; cbn; lia|]); intros j d (J & N); apply nth_error_In in N; cbn in N; intuition (subst; apply D).
Qed.
Lemma wx_well_formed : forall k hook vs, Forall (val_ok 28800) vs -> well_formed (wx_cfg 400 hook) 28800 wx_io (wx_stmt k 4 127 vs).
Proof.
  intros k hook vs V. split; [apply (ex_settled 400)|]. split; [intros _; exact C15_hypotheses|]. split; [exact V|]. split; [apply cache_init_fine|cbn; lia].
Qed.
Definition wx_vals : list sval := [SStr (s2z "x="); SULL 5].
Lemma wx_vals_ok : Forall (val_ok 28800) wx_vals.
Proof. unfold wx_vals. repeat first [apply Forall_nil | apply Forall_cons | apply vo_str | apply vo_ull]; vm_compute; repeat split; congruence. Qed.
Lemma wx_admitted : forall k, 0 <= k <= 1 -> admitted (w_lg (wx_world 400 wx_chs)) k 4 0 0.
Proof.
  intros k K. split; [reflexivity|]. split; [reflexivity|]. split; [change (g_size (w_lg (wx_world 400 wx_chs))) with 2; lia|].
  assert (k = 0 \/ k = 1) as [-> | ->] by lia; eexists; (split; [reflexivity|]); (split; [reflexivity|]); (split; [unfold channel_accepts, accepts, in_window, in_mask; cbn; repeat split; try lia; left; reflexivity|]);
    exists 0; eexists; (split; [split; [vm_compute; split; congruence|reflexivity]|]); (split; [split; vm_compute; congruence|]); unfold device_accepts, accepts, in_window, in_mask; cbn; repeat split; try lia; left; reflexivity.
Qed.
Lemma wx_at_rest : forall k, 0 <= k <= 1 -> exists ch, chan_at (wx_world 400 wx_chs) k ch /\ ring_at (wx_world 400 wx_chs) k (wx_ring 400) /\ empty (wx_ring 400) /\ c_type ch = 1 - k /\ c_virtual ch = -1.
Proof.
  intros k K. unfold chan_at, ring_at. change (g_size (w_lg (wx_world 400 wx_chs))) with 2. assert (k = 0 \/ k = 1) as [-> | ->] by lia; eexists; (split; [split; [lia|reflexivity]|]); (split; [split; [lia|reflexivity]|]); (split; [repeat split|]); split; reflexivity.
Qed.

(* C81.  A statement on a synchronous channel.  [written_through] says what left
   the logger (the line, cut to the record and ended by a newline, to exactly the
   devices that accept it, in order), how every counter changed, that the queue is
   empty again, and that nothing else changed. *)
Theorem C81_sync : forall W o i w s ch r, shape W w -> in_sense w (t_chan s) (t_cat s) (t_ident s) ->
  chan_at w (t_chan s) ch -> ring_at w (t_chan s) r -> empty r -> unhooked W ch ->
  admitted (w_lg w) (t_chan s) (t_prio s) (t_cat s) (t_ident s) -> well_formed W o i s -> -3 <= t_prio s <= 10 ->
  c_type ch = 1 -> no_datagrams w (t_chan s) ->
  exists w' T, log_stmt W i w s = Ret (w', 0) /\ statement_text W o i s T /\
    written_through W i (t_chan s) (t_prio s) (t_cat s) (t_ident s) (line W T) w w'.
Proof. exact log_sync. Qed.
Print Assumptions C81_sync.
(* There is only one such T. *)
Theorem C81_determined : forall W o i s T T', statement_text W o i s T -> statement_text W o i s T' -> T = T'.
Proof.
  intros W o i s T T' (t & pss & P0 & P1 & F & ->) (t' & pss' & P0' & P1' & F' & ->).
  rewrite (shows_all_unique _ _ _ _ _ F F'). f_equal. destruct (Z.eq_dec (t_prefix s) 0) as [E|E].
  - rewrite (P0 E), (P0' E). reflexivity.
  - exact (prefix_text_unique _ _ _ _ (P1 E) (P1' E)).
Qed.
Print Assumptions C81_determined.
Example C81_hypotheses : exists ch, shape (wx_cfg 400 None) (wx_world 400 wx_chs) /\ in_sense (wx_world 400 wx_chs) 0 0 0 /\
  chan_at (wx_world 400 wx_chs) 0 ch /\ ring_at (wx_world 400 wx_chs) 0 (wx_ring 400) /\ empty (wx_ring 400) /\ unhooked (wx_cfg 400 None) ch /\
  admitted (w_lg (wx_world 400 wx_chs)) 0 4 0 0 /\ well_formed (wx_cfg 400 None) 28800 wx_io (wx_stmt 0 4 127 wx_vals) /\ c_type ch = 1 /\ no_datagrams (wx_world 400 wx_chs) 0.
Proof.
  destruct (wx_at_rest 0 ltac:(lia)) as (ch & C & R & E & T & V). exists ch. split; [apply (wx_shape 400); [lia|exact wx_chs_ok]|]. split; [apply wx_sense|].
  repeat (split; [assumption|]). split; [left; reflexivity|]. split; [apply wx_admitted; lia|]. split; [apply wx_well_formed, wx_vals_ok|]. split; [exact T|]. intros d. reflexivity.
Qed.
Example C81_result : exists w, log_stmt (wx_cfg 400 None) wx_io (wx_world 400 wx_chs) (wx_stmt 0 4 127 wx_vals) = Ret (w, 0) /\
  w_ev w = [EFile 0 0 (s2z "[20240229 07:59:59.005][ERROR][77][app][d][b/c/d.cpp:42](main) x=5" ++ [10]);
            EScreen (27 :: s2z "[31m" ++ s2z "[20240229 07:59:59.005][ERROR][77][app][d][b/c/d.cpp:42](main) x=5" ++ [10] ++ 27 :: s2z "[0m")] /\
  map (fun ch => c_log ch) (firstn 1 (g_chs (w_lg w))) = [[0; 1; 1; 0; 0; 0; 0; 67; 0; 0; 0; 0; 0; 0; 0; 0; 0; 0; 0; 1; 67; 1; 0; 0; 0]].
Proof. eexists. split; [vm_compute; reflexivity|]. split; vm_compute; reflexivity. Qed.

(* C82.  [calm]: every channel is synchronous, at rest, without hook and without
   datagrams.  Whatever the order and the channels of the statements. *)
Theorem C82_file : forall W o l w, shape W w -> calm W w ->
  Forall (fun a => in_sense w (t_chan (fst a)) (t_cat (fst a)) (t_ident (fst a)) /\ well_formed W o (snd a) (fst a) /\
                   -3 <= t_prio (fst a) <= 10 /\ forall e x y, io_file (snd a) e x y = true) l ->
  exists w' Ts, acts W w (map (fun a => ALog (fst a) (snd a)) l) = Ret w' /\
    Forall2 (fun a T => statement_text W o (snd a) (fst a) T) l Ts /\
    forall k j, exists us, picked (fun a => goes_to w k j (fst a)) l (map (line W) Ts) us /\
                           filed k j (w_ev w') = filed k j (w_ev w) ++ concat us.
Proof. intros W o l w SH CM F. destruct (seq_filed W o l w SH CM F) as (w' & Ts & A & _ & _ & _ & B & C). exists w', Ts. tauto. Qed.
Print Assumptions C82_file.
Definition wx_sync : list channel := [wx_ch 1 [wx_dev 2 0; wx_dev 1 4; wx_dev 2 5]].
Example C82_hypotheses : shape (wx_cfg 400 None) (wx_world 400 wx_sync) /\ calm (wx_cfg 400 None) (wx_world 400 wx_sync) /\
  goes_to (wx_world 400 wx_sync) 0 0 (wx_stmt 0 4 127 wx_vals) /\ ~ goes_to (wx_world 400 wx_sync) 0 2 (wx_stmt 0 4 127 wx_vals).
Proof.
  split; [apply (wx_shape 400); [lia|repeat constructor; vm_compute; congruence]|]. split.
  { intros k ch r (K & C) (_ & R). change (g_size (w_lg (wx_world 400 wx_sync))) with 1 in K. assert (k = 0) as -> by lia. injection C as <-. injection R as <-.
    split; [reflexivity|]. split; [repeat split|]. split; [intros d; reflexivity|left; reflexivity]. }
  split.
  - split; [reflexivity|]. split.
    + split; [reflexivity|]. split; [reflexivity|]. split; [vm_compute; split; congruence|]. eexists. split; [reflexivity|]. split; [reflexivity|]. split; [unfold channel_accepts, accepts, in_window, in_mask; cbn; repeat split; try lia; left; reflexivity|].
      exists 0. eexists. split; [split; [vm_compute; split; congruence|reflexivity]|]. split; [split; vm_compute; congruence|]. unfold device_accepts, accepts, in_window, in_mask; cbn; repeat split; try lia; left; reflexivity.
    + eexists. eexists. split; [split; [vm_compute; split; congruence|reflexivity]|]. split; [split; [vm_compute; split; congruence|reflexivity]|]. split; [split; vm_compute; congruence|]. split; [|reflexivity].
      unfold device_accepts, accepts, in_window, in_mask; cbn; repeat split; try lia; left; reflexivity.
  - intros (_ & _ & ch & d & (_ & C) & (_ & D) & _ & A & _). cbn in C. injection C as <-. cbn in D. injection D as <-. unfold device_accepts, accepts in A. cbn in A. lia.
Qed.
Example C82_result : exists w, acts (wx_cfg 400 None) (wx_world 400 wx_sync)
    (map (fun a => ALog (fst a) (snd a)) [(wx_stmt 0 4 0 wx_vals, wx_io); (wx_stmt 0 (-1) 0 wx_vals, wx_io); (wx_stmt 0 6 0 [SStr (s2z "bye")], wx_io)]) = Ret w /\
  filed 0 0 (w_ev w) = s2z "x=5" ++ [10] ++ s2z "bye" ++ [10] /\ filed 0 2 (w_ev w) = s2z "bye" ++ [10].
Proof. eexists. split; [vm_compute; reflexivity|]. split; vm_compute; reflexivity. Qed.

(* C83.  A statement on an asynchronous channel is put behind the waiting lines;
   a round of the writer thread writes all of them, in order. *)
Theorem C83_queued : forall W o i w s ch r q, shape W w -> in_sense w (t_chan s) (t_cat s) (t_ident s) -> at_rest W w (t_chan s) ch r q -> unhooked W ch ->
  admitted (w_lg w) (t_chan s) (t_prio s) (t_cat s) (t_ident s) -> well_formed W o i s -> -3 <= t_prio s < 22 -> c_type ch <> 1 ->
  exists w' T, log_stmt W i w s = Ret (w', 0) /\ statement_text W o i s T /\
    queued W (t_chan s) (t_prio s) (t_cat s) (t_ident s) (line W T) q w w'.
Proof. exact log_async. Qed.
Print Assumptions C83_queued.
Theorem C83_round : forall W i w k ch r q, shape W w -> chan_at w k ch -> ring_at w k r -> c_state ch <> 0 -> settled_ring r -> waiting W r q ->
  Forall (fun l => -7 <= i_prio l <= 10 /\ devices_scope ch (i_cat l) (i_ident l)) q -> no_datagrams w k ->
  exists w' ch' r' f, enter_proc W i w k = Ret w' /\ only_at k w w' /\ shape W w' /\
    delivered_all i k (firstn (Z.to_nat (c_size ch)) (c_devs ch)) q (w_ev w) (w_ev w') f /\
    chan_at w' k ch' /\ same_setup ch ch' /\ (forall j x, 0 <= j -> 0 <= x -> dcnt ch' j x = dcnt ch j x + f j x) /\
    ring_at w' k r' /\ empty r' /\ rg_write r' = rg_write r.
Proof.
  intros W i w k ch r q SH CA RA CS ST WT F ND. destruct (enter_proc_ok W i w k ch r q SH CA RA CS WT F ND) as (w' & ch' & r' & f & A1 & A2 & A3 & (G1 & _ & G3 & _) & A5 & A6 & A7 & A8 & A9).
  destruct (becomes_at _ _ _ _ _ _ _ SH CA A2) as (CA' & RA'). exists w', ch', r', f. split; [exact A1|]. split; [apply A2|]. repeat (split; [assumption|]). split; [|exact A6].
  unfold empty, settled_ring in *. repeat split; congruence.
Qed.
Print Assumptions C83_round.
Example C83_hypotheses : exists ch, at_rest (wx_cfg 400 None) (wx_world 400 wx_chs) 1 ch (wx_ring 400) [] /\ unhooked (wx_cfg 400 None) ch /\ c_type ch <> 1 /\
  in_sense (wx_world 400 wx_chs) 1 0 0 /\ admitted (w_lg (wx_world 400 wx_chs)) 1 4 0 0 /\ well_formed (wx_cfg 400 None) 28800 wx_io (wx_stmt 1 4 127 wx_vals).
Proof.
  destruct (wx_at_rest 1 ltac:(lia)) as (ch & C & R & E & T & V). exists ch. split; [apply empty_rest; try assumption; apply (wx_shape 400); [lia|exact wx_chs_ok]|].
  split; [left; reflexivity|]. split; [lia|]. split; [apply wx_sense|]. split; [apply wx_admitted; lia|apply wx_well_formed, wx_vals_ok].
Qed.
Example C83_result : exists w w', acts (wx_cfg 400 None) (wx_world 400 wx_chs)
    [ALog (wx_stmt 1 4 0 wx_vals) wx_io; ALog (wx_stmt 0 4 0 [SStr (s2z "now")]) wx_io; ALog (wx_stmt 1 6 0 [SStr (s2z "bye")]) wx_io] = Ret w /\
  filed 1 0 (w_ev w) = [] /\ filed 0 0 (w_ev w) = s2z "now" ++ [10] /\ enter_proc (wx_cfg 400 None) wx_io w 1 = Ret w' /\ filed 1 0 (w_ev w') = s2z "x=5" ++ [10] ++ s2z "bye" ++ [10].
Proof. eexists. eexists. split; [vm_compute; reflexivity|]. split; [vm_compute; reflexivity|]. split; [vm_compute; reflexivity|]. split; vm_compute; reflexivity. Qed.

(* C84.  A statement that the filters reject changes nothing at all. *)
Theorem C84_rejected : forall W i w s, shape W w -> in_sense w (t_chan s) (t_cat s) (t_ident s) ->
  ~ admitted (w_lg w) (t_chan s) (t_prio s) (t_cat s) (t_ident s) -> log_stmt W i w s = Ret (w, -1).
Proof. exact log_blocked. Qed.
Print Assumptions C84_rejected.
Example C84_hypotheses : ~ admitted (w_lg (wx_world 400 wx_chs)) 1 (-1) 0 0 /\ ~ admitted (w_lg (wx_world 400 wx_chs)) 2 4 0 0.
Proof.
  split.
  - intros (_ & _ & _ & ch & C & _ & A & _). cbn in C. injection C as <-. unfold channel_accepts, accepts in A. cbn in A. lia.
  - intros (_ & _ & K & _). change (g_size (w_lg (wx_world 400 wx_chs))) with 2 in K. lia.
Qed.

(* C86.  A statement of one of the seven priorities adds to exactly the counters
   it belongs to: HOLD, PUSH, the bytes of its priority, PROCESSED and
   PROCESSED_BYTES of the channel, and lines, bytes and the bytes of its priority of
   each device that took it (plus file size, or a lost line).  21 and 22 are maxima. *)
Theorem C86_counters : forall W o i w s ch r, shape W w -> in_sense w (t_chan s) (t_cat s) (t_ident s) ->
  chan_at w (t_chan s) ch -> ring_at w (t_chan s) r -> empty r -> unhooked W ch ->
  admitted (w_lg w) (t_chan s) (t_prio s) (t_cat s) (t_ident s) -> well_formed W o i s -> 0 <= t_prio s <= 6 ->
  c_type ch = 1 -> no_datagrams w (t_chan s) ->
  exists w' T ch', log_stmt W i w s = Ret (w', 0) /\ statement_text W o i s T /\ chan_at w' (t_chan s) ch' /\
    let n := zlen (line W T) in
    let p := t_prio s in
    cnt (c_log ch') 1 = cnt (c_log ch) 1 + 1 /\ cnt (c_log ch') 2 = cnt (c_log ch) 2 + 1 /\
    cnt (c_log ch') (3 + p) = cnt (c_log ch) (3 + p) + n /\
    cnt (c_log ch') 19 = cnt (c_log ch) 19 + 1 /\ cnt (c_log ch') 20 = cnt (c_log ch) 20 + n /\
    (forall x, 0 <= x -> ~ In x [1; 2; 3 + p; 19; 20; 21; 22] -> cnt (c_log ch') x = cnt (c_log ch) x) /\
    forall j, 0 <= j -> exists took,
      (took = 0 \/ took = 1) /\ dcnt ch' j 15 = dcnt ch j 15 + took /\ dcnt ch' j 16 = dcnt ch j 16 + took * n /\
      dcnt ch' j (7 + p) = dcnt ch j (7 + p) + took * n /\
      (dcnt ch' j 0 = dcnt ch j 0 \/ dcnt ch' j 0 = dcnt ch j 0 + n) /\
      (dcnt ch' j 17 = dcnt ch j 17 \/ dcnt ch' j 17 = dcnt ch j 17 + 1) /\
      (forall x, 0 <= x -> ~ In x [0; 15; 16; 17; 7 + p] -> dcnt ch' j x = dcnt ch j x).
Proof.
  intros W o i w s ch r SH M CA RA EM U AD WF P TY ND. destruct (log_sync W o i w s ch r SH M CA RA EM U AD WF ltac:(lia) TY ND) as (w' & T & E & TX & WT).
  destruct WT as (_ & _ & ch0 & ch' & r0 & r' & f & CA0 & CA' & SS & DL & DC & CC & _). rewrite (chan_at_fun _ _ _ _ CA0 CA) in *. clear CA0.
  exists w', T, ch'. split; [exact E|]. split; [exact TX|]. split; [exact CA'|]. cbv zeta.
  assert (HT: forall x, channel_delta (t_prio s) (zlen (line W T)) x = (if x =? 1 then 1 else 0) + (if x =? 2 then 1 else 0) + (if x =? 3 + t_prio s then zlen (line W T) else 0) + (if x =? 19 then 1 else 0) + (if x =? 20 then zlen (line W T) else 0)) by reflexivity.
  repeat (split; [rewrite CC, HT by lia; repeat match goal with |- context [?a =? ?b] => destruct (a =? b) eqn:? end; lia|]). split.
  { intros x X NI. cbn [In] in NI. rewrite CC, HT by lia. repeat match goal with |- context [?a =? ?b] => destruct (a =? b) eqn:? end; lia. }
  intros j J. destruct (delivered_counts _ _ _ _ _ _ _ _ _ _ _ DL P j) as (D1 & D2 & D3 & D4 & D5 & D6). exists (f j 15). split; [exact D1|]. rewrite !DC by lia. rewrite D2, D3.
  repeat (split; [reflexivity|]). split; [lia|]. split; [lia|]. intros x X NI. cbn [In] in NI. rewrite DC by lia. rewrite D6 by lia. lia.
Qed.
Print Assumptions C86_counters.
(* hypotheses: C81_hypotheses; a concrete case: C81_result *)
Example C86_result : exists w, log_stmt (wx_cfg 400 None) wx_io (wx_world 400 wx_chs) (wx_stmt 0 4 0 wx_vals) = Ret (w, 0) /\
  map c_dlog (firstn 1 (g_chs (w_lg w))) =
  [[[4; 0; 0; 0; 0; 0; 0; 0; 0; 0; 0; 4; 0; 0; 0; 1; 4; 0]; [0; 0; 0; 0; 0; 0; 0; 0; 0; 0; 0; 4; 0; 0; 0; 1; 4; 0]; repeat 0 18]].
Proof. eexists. split; vm_compute; reflexivity. Qed.

(* C31.  Outside 0..6 the bytes of the line are added to the counter 3+p of the
   channel and 7+p of the device, whatever these count. *)
Theorem C31_sums_partial : forall W o i w s ch r, shape W w -> in_sense w (t_chan s) (t_cat s) (t_ident s) ->
  chan_at w (t_chan s) ch -> ring_at w (t_chan s) r -> empty r -> unhooked W ch ->
  admitted (w_lg w) (t_chan s) (t_prio s) (t_cat s) (t_ident s) -> well_formed W o i s -> -3 <= t_prio s <= 10 ->
  c_type ch = 1 -> no_datagrams w (t_chan s) ->
  exists w' T ch', log_stmt W i w s = Ret (w', 0) /\ statement_text W o i s T /\ chan_at w' (t_chan s) ch' /\
    forall x, 0 <= x -> x <> 21 -> x <> 22 -> cnt (c_log ch') x = cnt (c_log ch) x + channel_delta (t_prio s) (zlen (line W T)) x.
Proof.
  intros W o i w s ch r SH M CA RA EM U AD WF P TY ND. destruct (log_sync W o i w s ch r SH M CA RA EM U AD WF P TY ND) as (w' & T & E & TX & WT).
  destruct WT as (_ & _ & ch0 & ch' & r0 & r' & f & CA0 & CA' & SS & DL & DC & CC & _). rewrite (chan_at_fun _ _ _ _ CA0 CA) in *. exists w', T, ch'. tauto.
Qed.
Print Assumptions C31_sums_partial.
(* Priority 8: the device counts five lines for one.  Priority -1: the channel
   counts five records published for one.  Priorities 11 and 22: a counter outside
   the array is changed (one device, or already in PushChannel). *)
Theorem C31_counters_refuted :
  (exists W i w s w', shape W w /\ t_prio s = 8 /\ admitted (w_lg w) (t_chan s) (t_prio s) (t_cat s) (t_ident s) /\ log_stmt W i w s = Ret (w', 0) /\
     w_ev w' = [EFile 0 0 (s2z "x=5" ++ [10])] /\ map (fun ch => dcnt ch 0 15) (g_chs (w_lg w')) = [5]) /\
  (exists W i w s w', shape W w /\ t_prio s = -1 /\ admitted (w_lg w) (t_chan s) (t_prio s) (t_cat s) (t_ident s) /\ log_stmt W i w s = Ret (w', 0) /\
     w_ev w' = [EFile 0 0 (s2z "x=5" ++ [10])] /\ map (fun ch => cnt (c_log ch) 2) (g_chs (w_lg w')) = [5]) /\
  (forall p, p = 11 \/ p = 22 -> exists W i w s, shape W w /\ t_prio s = p /\ admitted (w_lg w) (t_chan s) (t_prio s) (t_cat s) (t_ident s) /\ log_stmt W i w s = Ub).
Proof.
  assert (SH: shape (wx_cfg 40 None) (wx_world 40 [wx_ch 1 [wx_dev 2 (-5)]])) by (apply (wx_shape 40); [lia|repeat constructor; vm_compute; congruence]).
  assert (AD: forall p, 0 <= p -> admitted (w_lg (wx_world 40 [wx_ch 1 [wx_dev 2 (-5)]])) 0 p 0 0).
  { intros p P. split; [reflexivity|]. split; [reflexivity|]. split; [vm_compute; split; congruence|]. eexists. split; [reflexivity|]. split; [reflexivity|]. split; [unfold channel_accepts, accepts, in_window, in_mask; cbn; repeat split; try lia; left; reflexivity|].
    exists 0. eexists. split; [split; [vm_compute; split; congruence|reflexivity]|]. split; [split; vm_compute; congruence|]. unfold device_accepts, accepts, in_window, in_mask; cbn; repeat split; try lia; left; reflexivity. }
  split; [|split].
  - exists (wx_cfg 40 None), wx_io, (wx_world 40 [wx_ch 1 [wx_dev 2 (-5)]]), (wx_stmt 0 8 0 wx_vals). eexists. split; [exact SH|]. split; [reflexivity|]. split; [apply (AD 8); lia|]. split; [vm_compute; reflexivity|]. split; vm_compute; reflexivity.
  - set (ch := mkChannel 1 (-1) 1 1 ((-5) :: repeat 0 8) [wx_dev 2 (-5)] (repeat 0 25) [repeat 0 18]).
    exists (wx_cfg 40 None), wx_io, (wx_world 40 [ch]), (wx_stmt 0 (-1) 0 wx_vals). eexists. split; [apply (wx_shape 40); [lia|repeat constructor; vm_compute; congruence]|]. split; [reflexivity|]. split.
    + split; [reflexivity|]. split; [reflexivity|]. split; [vm_compute; split; congruence|]. eexists. split; [reflexivity|]. split; [reflexivity|]. split; [unfold channel_accepts, accepts, in_window, in_mask; cbn; repeat split; try lia; left; reflexivity|].
      exists 0. eexists. split; [split; [vm_compute; split; congruence|reflexivity]|]. split; [split; vm_compute; congruence|]. unfold device_accepts, accepts, in_window, in_mask; cbn; repeat split; try lia; left; reflexivity.
    + split; [vm_compute; reflexivity|]. split; vm_compute; reflexivity.
  - intros p P. exists (wx_cfg 40 None), wx_io, (wx_world 40 [wx_ch 1 [wx_dev 2 (-5)]]), (wx_stmt 0 p 0 wx_vals). split; [exact SH|]. split; [reflexivity|]. split; [apply (AD p); lia|].
    destruct P as [-> | ->]; vm_compute; reflexivity.
Qed.
Print Assumptions C31_counters_refuted.

(* C57.  A record that holds the line t (followed by the NUL that PushChannel
   writes); a line without NUL is shown completely. *)
Theorem C57_screen : forall i evs k ch d log t dev, chan_ok ch -> 0 <= d -> nth_error (c_devs ch) (Z.to_nat d) = Some dev -> d_out dev = 1 ->
  ld_len log = zlen t -> (exists rest, ld_buf log = t ++ 0 :: rest) -> Forall (fun c => c <> 0) t -> 0 <= ld_prio log <= 6 ->
  exists ch', out_device i evs k ch d log = Ret (ch', [EScreen (painted (ld_prio log) t)]).
Proof.
  intros i evs k ch d log t dev K D N O L B NZ P. destruct (out_device_ok i evs k ch d log t dev K D N (conj L B) ltac:(lia)) as (ch' & E & _). exists ch'. rewrite E. unfold outputs. rewrite O.
  assert (before_nul t = t) as ->; [|reflexivity]. clear -NZ. induction NZ as [|c t C NZ IH]; [reflexivity|]. cbn [before_nul]. destruct (c =? 0) eqn:E; [lia|]. rewrite IH. reflexivity.
Qed.
Print Assumptions C57_screen.
(* a statement on a channel with a screen as its only device *)
Theorem C57_statement : forall W o i w s ch r d, shape W w -> in_sense w (t_chan s) (t_cat s) (t_ident s) ->
  chan_at w (t_chan s) ch -> ring_at w (t_chan s) r -> empty r -> unhooked W ch ->
  admitted (w_lg w) (t_chan s) (t_prio s) (t_cat s) (t_ident s) -> well_formed W o i s -> 0 <= t_prio s <= 6 ->
  c_type ch = 1 -> no_datagrams w (t_chan s) -> c_size ch = 1 -> nth_error (c_devs ch) 0 = Some d -> d_out d = 1 ->
  exists w' T, log_stmt W i w s = Ret (w', 0) /\ statement_text W o i s T /\
    (Forall (fun c => c <> 0) T -> w_ev w' = w_ev w ++ [EScreen (painted (t_prio s) (line W T))]).
Proof.
  intros W o i w s ch r d SH M CA RA EM U AD WF P TY ND SZ D0 DO. destruct (log_sync W o i w s ch r SH M CA RA EM U AD WF ltac:(lia) TY ND) as (w' & T & E & TX & WT).
  destruct WT as (_ & _ & ch0 & ch' & r0 & r' & f & CA0 & CA' & SS & DL & DC & CC & _). rewrite (chan_at_fun _ _ _ _ CA0 CA) in *. clear CA0. exists w', T. split; [exact E|]. split; [exact TX|]. intros NZ.
  rewrite SZ in DL. destruct (c_devs ch) as [|d' ds] eqn:DV; [discriminate|]. injection D0 as ->. cbn [Z.to_nat Pos.to_nat Pos.iter_op firstn] in DL. change (Pos.to_nat 1) with 1%nat in DL. cbn [firstn] in DL.
  assert (NL: before_nul (line W T) = line W T).
  { assert (Forall (fun c => c <> 0) (line W T)) as F. { unfold line. apply Forall_app. split; [|repeat constructor; lia]. apply Forall_forall. intros x X. rewrite Forall_forall in NZ. apply NZ. match type of X with In _ (firstn ?n ?l) => rewrite <- (firstn_skipn n l) end. apply in_or_app. left. exact X. }
    clear -F. induction F as [|c t C NZ IH]; [reflexivity|]. cbn [before_nul]. destruct (c =? 0) eqn:E; [lia|]. rewrite IH. reflexivity. }
  inversion DL as [|? ? ? ? ? ? NO DL' |? ? ? ? ? ? ON AC DL']; subst.
  - exfalso. destruct AD as (_ & _ & _ & ch1 & C1 & _ & _ & j & d1 & (J & N1) & ON & AC). destruct CA as (_ & C). assert (ch1 = ch) as -> by congruence. rewrite SZ in J. assert (j = 0) as -> by lia. rewrite DV in N1. cbn in N1. injection N1 as <-.
    apply NO. split; [exact ON|]. replace (Z.min (t_prio s) 6) with (t_prio s) in AC by lia. exact AC.
  - inversion DL'; subst. unfold outputs. rewrite DO, NL. reflexivity.
Qed.
Print Assumptions C57_statement.
Definition wx_screen : list channel := [wx_ch 1 [wx_dev 1 0]].
Example C57_hypotheses : shape (wx_cfg 400 None) (wx_world 400 wx_screen) /\ admitted (w_lg (wx_world 400 wx_screen)) 0 3 0 0 /\
  chan_at (wx_world 400 wx_screen) 0 (wx_ch 1 [wx_dev 1 0]).
Proof.
  split; [apply (wx_shape 400); [lia|repeat constructor; vm_compute; congruence]|]. split; [|split; [vm_compute; split; congruence|reflexivity]].
  split; [reflexivity|]. split; [reflexivity|]. split; [vm_compute; split; congruence|]. eexists. split; [reflexivity|]. split; [reflexivity|]. split; [unfold channel_accepts, accepts, in_window, in_mask; cbn; repeat split; try lia; left; reflexivity|].
  exists 0. eexists. split; [split; [vm_compute; split; congruence|reflexivity]|]. split; [split; vm_compute; congruence|]. unfold device_accepts, accepts, in_window, in_mask; cbn; repeat split; try lia; left; reflexivity.
Qed.
Example C57_result : exists w, acts (wx_cfg 400 None) (wx_world 400 wx_screen) [ALog (wx_stmt 0 3 0 wx_vals) wx_io; ALog (wx_stmt 0 1 0 wx_vals) wx_io] = Ret w /\
  w_ev w = [EScreen (27 :: s2z "[33m" ++ s2z "x=5" ++ [10] ++ 27 :: s2z "[0m"); EScreen (s2z "x=5" ++ [10])].
Proof. eexists. split; vm_compute; reflexivity. Qed.

(* C30.  [has_text W log T]: the record holds the text T, as it does when the hook
   is called; [copied]: same priority, time, thread, source location and prefix
   length, given category and identify, and the text t with its NUL. *)
Theorem C30_queued : forall W i w k c n log T ch r q, shape W w -> in_sense w k c n -> at_rest W w k ch r q -> ld_chan log <> k ->
  admitted (w_lg w) k (ld_prio log) c n -> has_text W log T -> 0 <= ld_prio log <= 6 -> c_type ch <> 1 ->
  exists w' r' log', transmit W i w k c n log = Ret (w', 0) /\ queued W k (ld_prio log) c n (line W T) q w w' /\
    ring_at w' k r' /\ nth_error (rg_cells r') (Z.to_nat (rg_write r)) = Some (mkCell 2 log') /\ copied log log' k c n (line W T).
Proof. intros. eapply transmit_async; try eassumption. lia. Qed.
Print Assumptions C30_queued.
Theorem C30_written : forall W i w k c n log T ch r, shape W w -> in_sense w k c n -> chan_at w k ch -> ring_at w k r -> empty r -> ld_chan log <> k ->
  admitted (w_lg w) k (ld_prio log) c n -> has_text W log T -> 0 <= ld_prio log <= 6 -> c_type ch = 1 -> no_datagrams w k ->
  exists w', transmit W i w k c n log = Ret (w', 0) /\ written_through W i k (ld_prio log) c n (line W T) w w'.
Proof. intros. eapply transmit_sync; try eassumption. lia. Qed.
Print Assumptions C30_written.
Theorem C30_rejected : forall W i w k c n log, shape W w -> in_sense w k c n ->
  ~ admitted (w_lg w) k (ld_prio log) c n -> transmit W i w k c n log = Ret (w, 0).
Proof. exact transmit_blocked. Qed.
Print Assumptions C30_rejected.
Theorem C30_own : forall W i w c n log, transmit W i w (ld_chan log) c n log = Ret (w, 0).
Proof. exact transmit_own. Qed.
Print Assumptions C30_own.
Definition wx_rec (k : Z) : ldata := mkLd k 4 9 8 42 4 3 (Some (s2z "main")) (Some (s2z "a.c")) 1000 5 77 2 5 (s2z "hello" ++ repeat 0 395).
Example C30_hypotheses : has_text (wx_cfg 400 None) (wx_rec 0) (s2z "hello") /\ admitted (w_lg (wx_world 400 wx_chs)) 1 (ld_prio (wx_rec 0)) 0 0 /\ ld_chan (wx_rec 0) <> 1.
Proof. split; [exists (repeat 0 395); repeat split|]. split; [apply (wx_admitted 1); lia|vm_compute; congruence]. Qed.
Example C30_result : exists w w', transmit (wx_cfg 400 None) wx_io (wx_world 400 wx_chs) 1 0 0 (wx_rec 0) = Ret (w, 0) /\ enter_proc (wx_cfg 400 None) wx_io w 1 = Ret w' /\
  w_ev w' = [EFile 1 0 (s2z "hello" ++ [10])].
Proof. eexists. eexists. split; [vm_compute; reflexivity|]. split; vm_compute; reflexivity. Qed.

(* C85.  A round of the writer thread with any datagrams, of any length and
   content: no access outside a buffer, the queue is written in order and emptied,
   the memory stays as allocated.  No assumption on what the sockets return. *)
Theorem C85_datagrams : forall W i w k ch r q, shape W w -> chan_at w k ch -> ring_at w k r -> c_state ch <> 0 -> waiting W r q ->
  Forall (fun l => -7 <= i_prio l <= 10 /\ devices_scope ch (i_cat l) (i_ident l)) q ->
  exists w' ch' r' evs f, enter_proc W i w k = Ret w' /\ only_at' k w w' /\ shape W w' /\ chan_at w' k ch' /\ same_setup ch ch' /\
    delivered_all i k (firstn (Z.to_nat (c_size ch)) (c_devs ch)) q (w_ev w) evs f /\
    ring_at w' k r' /\ rg_read r' = rg_write r' /\ rg_proc r' = rg_write r' /\
    (Forall (fun d => d_in d = 1 -> d_out d <> 1) (firstn (Z.to_nat (c_size ch)) (c_devs ch)) ->
     w_ev w' = snd (receive W i k 0 (firstn (Z.to_nat (c_size ch)) (c_devs ch)) (w_in w k) evs) /\
     forall d, w_in w' k d = fst (receive W i k 0 (firstn (Z.to_nat (c_size ch)) (c_devs ch)) (w_in w k) evs) d).
Proof.
  intros W i w k ch r q SH CA RA CS WT F. destruct (enter_proc_udp W i w k ch r q SH CA RA CS WT F) as (w' & ch' & r' & evs & f & g & A1 & A2 & A3 & A4 & A5 & (G1 & _) & A7 & A8 & A9 & A10 & A11 & A12).
  exists w', ch', r', evs, f. repeat (split; [assumption|]). split; [congruence|]. split; [congruence|]. exact A8.
Qed.
Print Assumptions C85_datagrams.
(* two datagrams in a 40 byte record, one of them longer than it *)
Definition wx_udp (out : Z) (ms : list text) : world :=
  let w := wx_world 40 [wx_ch 1 [mkDevice 1 out (1 :: 0 :: repeat 0 18)]] in
  mkWorld (w_lg w) (w_rings w) (fun k d => if (k =? 0) && (d =? 0) then ms else []) (w_ev w).
Lemma wx_udp_shape : forall out ms, shape (wx_cfg 40 None) (wx_udp out ms).
Proof. intros out ms. change (shape (wx_cfg 40 None) (wx_world 40 [wx_ch 1 [mkDevice 1 out (1 :: 0 :: repeat 0 18)]])). apply (wx_shape 40); [lia|]. repeat constructor; vm_compute; congruence. Qed.
Lemma wx_udp_rest : forall out ms, chan_at (wx_udp out ms) 0 (wx_ch 1 [mkDevice 1 out (1 :: 0 :: repeat 0 18)]) /\ ring_at (wx_udp out ms) 0 (wx_ring 40) /\ empty (wx_ring 40) /\ waiting (wx_cfg 40 None) (wx_ring 40) [].
Proof.
  intros out ms. split; [split; [vm_compute; split; congruence|reflexivity]|]. split; [split; [vm_compute; split; congruence|reflexivity]|]. split; [repeat split|]. split; [reflexivity|]. split; [reflexivity|]. split; [reflexivity|].
  intros m l H. destruct m; discriminate.
Qed.
Example C85_result : exists w, enter_proc (wx_cfg 40 None) wx_io (wx_udp 2 [repeat 65 41; [66; 0; 67]]) 0 = Ret w /\
  w_ev w = [EFile 0 0 (repeat 65 38 ++ [10; 0]); EFile 0 0 [66; 0; 67]] /\ w_in w 0 0 = [].
Proof. eexists. split; [vm_compute; reflexivity|]. split; vm_compute; reflexivity. Qed.

(* C58.  File j, the output of an input device, gets the bytes of the datagrams
   that are waiting, in order: at most 1000, none empty, none filling the record,
   the channel without an input device that prints to the screen. *)
Theorem C58_file_partial : forall W i w k ch r j d, shape W w -> chan_at w k ch -> ring_at w k r -> c_state ch <> 0 -> empty r ->
  (forall e x y, io_file i e x y = true) -> (forall e x y, io_sock i e x y = true) ->
  Forall (fun d => d_in d = 1 -> d_out d <> 1) (firstn (Z.to_nat (c_size ch)) (c_devs ch)) ->
  has_device ch j d -> d_in d = 1 -> d_out d = 2 -> nth 0 (d_cfg d) 0 <> 0 ->
  zlen (w_in w k j) <= 1000 -> Forall (fun m => 0 < zlen m < e_cap (W_env W)) (w_in w k j) ->
  exists w', enter_proc W i w k = Ret w' /\ filed k j (w_ev w') = filed k j (w_ev w) ++ concat (w_in w k j) /\ w_in w' k j = [].
Proof.
  intros W i w k ch r j d SH CA RA CS EM IO SO NS (J & N) DI DO AB L F.
  assert (WT: waiting W r []).
  { destruct EM as (E1 & E2 & E3). destruct (shape_at _ _ _ _ _ SH CA RA) as (_ & RO). pose proof SH as (_ & S2 & _). unfold ring_ok in RO. split; [change (zlen (@nil item)) with 0; lia|]. split; [congruence|]. split; [|intros m l H; destruct m; discriminate].
    change (zlen (@nil item)) with 0. rewrite Z.add_0_r, Z.mod_small by lia. congruence. }
  destruct (enter_proc_udp W i w k ch r [] SH CA RA CS WT ltac:(constructor)) as (w' & ch' & r' & evs & f & g & A1 & _ & _ & _ & _ & _ & A7 & A8 & _). inversion A7; subst.
  destruct (A8 NS) as (B1 & B2). exists w'. split; [exact A1|].
  destruct (receive_filed W i k j d IO SO DI DO AB (firstn (Z.to_nat (c_size ch)) (c_devs ch)) 0 (w_in w k) (w_ev w) ltac:(lia)) as (C1 & C2).
  { rewrite Z.sub_0_r. rewrite nth_error_firstn_lt by lia. exact N. }
  assert (RN: round 1000 (w_in w k j) = (w_in w k j, [])).
  { apply round_all; [apply Nat2Z.inj_le; exact L|]. eapply Forall_impl; [|exact F]. intros m M. destruct m; [change (zlen (@nil Z)) with 0 in M; lia|discriminate]. }
  rewrite RN in C1, C2. cbn [fst snd] in *. rewrite kept_short in C1 by (eapply Forall_impl; [|exact F]; cbn; lia). rewrite B1, B2. split; assumption.
Qed.
Print Assumptions C58_file_partial.
Example C58_result : exists w, enter_proc (wx_cfg 40 None) wx_io (wx_udp 2 [s2z "hello"; [7; 0; 255]]) 0 = Ret w /\ filed 0 0 (w_ev w) = s2z "hello" ++ [7; 0; 255].
Proof. eexists. split; vm_compute; reflexivity. Qed.

(* The screen shows the rest of an earlier datagram; a datagram as long as the
   record loses its end; an empty one is swallowed and the ones behind it wait. *)
Theorem C58_forwarded_refuted :
  (exists W i w k, shape W w /\ w_in w k 0 = [s2z "longer one"; s2z "short"] /\
     exists w', enter_proc W i w k = Ret w' /\ w_ev w' = [EScreen (painted 2 (s2z "longer one")); EScreen (painted 2 (s2z "shortr one"))]) /\
  (exists W i w k, shape W w /\ e_cap (W_env W) = 40 /\ w_in w k 0 = [repeat 65 40] /\
     exists w', enter_proc W i w k = Ret w' /\ w_ev w' = [EFile k 0 (repeat 65 38 ++ [10; 0])]) /\
  (exists W i w k, shape W w /\ w_in w k 0 = [[]; s2z "later"] /\
     exists w', enter_proc W i w k = Ret w' /\ w_ev w' = [] /\ w_in w' k 0 = [s2z "later"]).
Proof.
  split; [|split].
  - exists (wx_cfg 40 None), wx_io, (wx_udp 1 [s2z "longer one"; s2z "short"]), 0. split; [apply wx_udp_shape|]. split; [reflexivity|]. eexists. split; vm_compute; reflexivity.
  - exists (wx_cfg 40 None), wx_io, (wx_udp 2 [repeat 65 40]), 0. split; [apply wx_udp_shape|]. split; [reflexivity|]. split; [reflexivity|]. eexists. split; vm_compute; reflexivity.
  - exists (wx_cfg 40 None), wx_io, (wx_udp 2 [[]; s2z "later"]), 0. split; [apply wx_udp_shape|]. split; [reflexivity|]. eexists. split; [vm_compute; reflexivity|]. split; vm_compute; reflexivity.
Qed.
Print Assumptions C58_forwarded_refuted.
