(* Properties of statements and writer rounds in any order (C106, C107). *)
From Coq Require Import String ZArith List Bool Lia ZifyBool ZifyNat ZifyN.
From Verif Require Import Base BaseFacts LoggerState FilterSpec Stream World WorldSpec WorldProofs WorldSeq MixSpec MixProofs.
From Verif Require PropsWorld.
Import ListNotations.
Open Scope Z_scope.

(* C106.  Synchronous and asynchronous channels together, statements and rounds
   of the writer threads in any order.  For each file device what is in the file
   plus what waits for it is what was there before plus the lines of the accepted
   statements, in order. *)
Theorem C106_conserved : forall W o l w qs w', shape W w -> relaxed W w qs -> Forall (fine W o w) l -> acts W w l = Ret w' ->
  exists qs' Ts, relaxed W w' qs' /\ Forall2 (fun a T => statement_text W o (snd a) (fst a) T) (said l) Ts /\
    forall k j us, pending w k j (qs k) us -> exists us' ns, pending w k j (qs' k) us' /\
      picked (fun a => goes_to w k j (fst a)) (said l) (map (line W) Ts) ns /\
      filed k j (w_ev w') ++ concat us' = filed k j (w_ev w) ++ concat us ++ concat ns.
Proof.
  intros W o l w qs w' SH RX F R. destruct (mix_run W o l w qs w' SH RX F R) as (qs' & Ts & _ & _ & RX' & F2 & _ & FI). exists qs', Ts. tauto.
Qed.
Print Assumptions C106_conserved.

(* After a last round, or on a synchronous channel, everything is in the file. *)
Theorem C106_written : forall W o l w qs w' k, shape W w -> relaxed W w qs -> Forall (fine W o w) l -> acts W w l = Ret w' ->
  drained k l \/ (exists ch, chan_at w k ch /\ c_type ch = 1) ->
  exists Ts, Forall2 (fun a T => statement_text W o (snd a) (fst a) T) (said l) Ts /\
    forall j us, pending w k j (qs k) us -> exists ns, picked (fun a => goes_to w k j (fst a)) (said l) (map (line W) Ts) ns /\
      filed k j (w_ev w') = filed k j (w_ev w) ++ concat us ++ concat ns.
Proof.
  intros W o l w qs w' k SH RX F R D. destruct (mix_run W o l w qs w' SH RX F R) as (qs' & Ts & SH' & AL & RX' & F2 & DR & FI). exists Ts. split; [exact F2|].
  assert (Q : qs' k = []).
  { destruct D as [D|(ch & CA & TY)]; [apply DR; right; exact D|].
    destruct (chan_alike w' w k ch (alike_sym _ _ AL) CA) as (ch' & CA' & S1 & _). destruct (ring_exists W w' k ch' SH' CA') as (r & RA).
    destruct (RX' k ch' r CA' RA) as (_ & _ & X & _). apply X. congruence. }
  intros j us PE. destruct (FI k j us PE) as (us' & ns & PE' & PK & E). exists ns. split; [exact PK|].
  rewrite Q in PE'. inversion PE'; subst. cbn [concat] in E. rewrite app_nil_r in E. exact E.
Qed.
Print Assumptions C106_written.

(* C107.  As long as no asynchronous queue fills up no call waits. *)
Theorem C107_returns : forall W o l w qs, shape W w -> relaxed W w qs -> Forall (fine W o w) l -> roomy W w (fun k => zlen (qs k)) l ->
  exists w', acts W w l = Ret w'.
Proof. exact mix_returns. Qed.
Print Assumptions C107_returns.
(* With all slots but one in use the statement waits. *)
Theorem C107_waits : forall W i w s ch r q, shape W w -> in_sense w (t_chan s) (t_cat s) (t_ident s) -> chan_at w (t_chan s) ch -> ring_at w (t_chan s) r ->
  admitted (w_lg w) (t_chan s) (t_prio s) (t_cat s) (t_ident s) -> settled_ring r -> waiting W r q -> zlen q + 1 = W_ring W -> log_stmt W i w s = Fuel.
Proof. exact log_full. Qed.
Print Assumptions C107_waits.

Definition mx_cfg : wcfg := PropsWorld.wx_cfg 400 None.
Definition mx_world : world := PropsWorld.wx_world 400 PropsWorld.wx_chs.
Definition mx_log (k p : Z) : action := ALog (PropsWorld.wx_stmt k p 127 PropsWorld.wx_vals) PropsWorld.wx_io.
Definition mx_acts : list action := [mx_log 1 4; mx_log 0 4; AProc 1 PropsWorld.wx_io; mx_log 1 4; mx_log 1 4; AProc 1 PropsWorld.wx_io; mx_log 0 4].
Example C106_hypotheses : shape mx_cfg mx_world /\ relaxed mx_cfg mx_world (fun _ => []) /\ Forall (fine mx_cfg 28800 mx_world) mx_acts /\
  roomy mx_cfg mx_world (fun k => zlen (@nil item)) mx_acts /\ drained 1 mx_acts /\ (exists ch, chan_at mx_world 0 ch /\ c_type ch = 1) /\
  pending mx_world 1 0 [] [].
Proof.
  assert (SH : shape mx_cfg mx_world) by (apply (PropsWorld.wx_shape 400); [lia|exact PropsWorld.wx_chs_ok]).
  split; [exact SH|]. split.
  { intros k ch r CA RA. assert (K : 0 <= k <= 1) by (destruct CA as (K & _); change (g_size (w_lg mx_world)) with 2 in K; lia).
    destruct (PropsWorld.wx_at_rest k K) as (ch0 & CA0 & RA0 & EM & _ & V). rewrite (chan_at_fun _ _ _ _ CA CA0).
    assert (r = PropsWorld.wx_ring 400) as -> by (destruct RA as (_ & X), RA0 as (_ & Y); unfold mx_world in X; congruence).
    destruct (empty_rest mx_cfg mx_world k ch0 _ SH CA0 RA0 EM) as (_ & _ & X1 & X2 & _). split; [exact X1|]. split; [exact X2|]. split; [reflexivity|]. split; [intros d; reflexivity|]. split; [left; reflexivity|constructor]. }
  assert (LG : forall k, fine mx_cfg 28800 mx_world (mx_log k 4)).
  { intros k. split; [apply PropsWorld.wx_sense|]. split; [apply PropsWorld.wx_well_formed, PropsWorld.wx_vals_ok|]. split; [cbn; lia|]. intros; reflexivity. }
  assert (PR : fine mx_cfg 28800 mx_world (AProc 1 PropsWorld.wx_io)).
  { split; [|intros; reflexivity]. eexists. split; [split; [vm_compute; split; congruence|reflexivity]|vm_compute; congruence]. }
  split; [unfold mx_acts; repeat (apply Forall_cons; [first [exact PR|apply LG]|]); apply Forall_nil|].
  split; [cbn [mx_acts roomy mx_log]; cbn; repeat split; right; reflexivity|].
  split; [exists [mx_log 1 4; mx_log 0 4; AProc 1 PropsWorld.wx_io; mx_log 1 4; mx_log 1 4], [mx_log 0 4], PropsWorld.wx_io; split; [reflexivity|]; intros s x [E|[]]; injection E as <- <-; cbn; lia|].
  split; [|constructor]. eexists. split; [split; [vm_compute; split; congruence|reflexivity]|reflexivity].
Qed.
(* three statements on channel 1, one of them after the last round *)
Example C106_result : exists w, acts mx_cfg mx_world
    [ALog (PropsWorld.wx_stmt 1 4 0 PropsWorld.wx_vals) PropsWorld.wx_io; ALog (PropsWorld.wx_stmt 0 4 0 [SStr (s2z "now")]) PropsWorld.wx_io; AProc 1 PropsWorld.wx_io;
     ALog (PropsWorld.wx_stmt 1 4 0 [SStr (s2z "b")]) PropsWorld.wx_io; AProc 1 PropsWorld.wx_io; ALog (PropsWorld.wx_stmt 1 6 0 [SStr (s2z "bye")]) PropsWorld.wx_io] = Ret w /\
  filed 1 0 (w_ev w) = s2z "x=5" ++ [10] ++ s2z "b" ++ [10] /\ filed 0 0 (w_ev w) = s2z "now" ++ [10].
Proof. eexists. split; [vm_compute; reflexivity|]. split; vm_compute; reflexivity. Qed.
(* a ring of 12 slots takes 11 records; the next statement waits *)
Example C107_result : acts mx_cfg mx_world (repeat (mx_log 1 4) 12) = Fuel /\ exists w, acts mx_cfg mx_world (repeat (mx_log 1 4) 11) = Ret w.
Proof. split; [vm_compute; reflexivity|]. eexists. vm_compute. reflexivity. Qed.
