(* What loading, hot update and the life cycle of a logger are to do. *)
From Coq Require Import String ZArith List Bool.
From Verif Require Import Base LoggerState ParseVal Lexer ParseCfg ParseSpec Load.
Import ListNotations.
Open Scope Z_scope.

(* counters have their arrays *)
Definition log_wf (maxdev : Z) (c : lchan) : Prop :=
  zlen (lc_log c) = 25 /\ zlen (lc_dlog c) = maxdev /\ Forall (fun l => zlen l = 18) (lc_dlog c).
(* the surroundings: at least one channel may be used, names resolve to addresses
   and an attached segment has its arrays *)
Record lenv_ok (e : lenv) : Prop := mkLenvOk {
  lo_arith : x_arith (y_pe e) = Ub \/ (exists z, x_arith (y_pe e) = Ret z /\ LLONG_MIN <= z <= LLONG_MAX);
  lo_dns : dns_wf (y_pe e);
  lo_maxch : 1 <= x_maxch (y_pe e);
  lo_maxdev : 0 <= x_maxdev (y_pe e);
  lo_code : forall key m, y_attach e key = (0, m) -> m <> None;
  lo_attach : forall key z m, y_attach e key = (z, Some m) ->
    zlen (sm_chans m) = x_maxch (y_pe e) /\ Forall (log_wf (x_maxdev (y_pe e))) (sm_chans m)
}.

(* the channels in use *)
Definition chans (g : lg) : list lchan :=
  match lg_shm g with Some m => firstn (Z.to_nat (sm_size m)) (sm_chans m) | None => [] end.
Definition chan_at (g : lg) (i : nat) : option lchan := nth_error (chans g) i.

(* device i after a hot update: an old device takes the new file's settings and
   keeps its kind, file name and path; a new one is as in the file *)
Definition merged (old new : option pdev) : option pdev :=
  match old, new with
  | Some d, Some n => Some (mkPdev (pd_id d) (pd_in d) (pd_out d) (pd_cfg n) (pd_file d) (pd_path d))
  | Some d, None => Some d
  | None, n => n
  end.
(* only the statistics of the hot update itself may differ *)
Definition same_counters (c c' : lchan) : Prop :=
  lc_dlog c' = lc_dlog c /\
  forall i, i <> 23%nat -> i <> 24%nat -> nth_error (lc_log c') i = nth_error (lc_log c) i.
(* channel [c] with the settings of [p] in a new file *)
Definition updated (maxdev : Z) (c : lchan) (p : pchan) (c' : lchan) : Prop :=
  pc_cfg (lc_p c') = pc_cfg p /\
  (forall i, nth_error (pc_devs (lc_p c')) i = merged (nth_error (pc_devs (lc_p c)) i) (nth_error (pc_devs p) i)) /\
  zlen (pc_devs (lc_p c')) <= maxdev /\
  pc_id (lc_p c') = pc_id (lc_p c) /\ pc_type (lc_p c') = pc_type (lc_p c) /\
  lc_state c' = lc_state c /\ same_counters c c'.
(* everything of a logger but its memory and the hot update switch *)
Definition same_logger (g g' : lg) : Prop :=
  lg_state g' = lg_state g /\ lg_path g' = lg_path g /\ lg_name g' = lg_name g /\ lg_desc g' = lg_desc g /\ lg_key g' = lg_key g.
(* the periodic checks of the channels, in the order in which they happen: the
   channel and the time *)
Fixpoint checks (e : lenv) (g : lg) (file : option (Z * text)) (l : list (nat * Z)) : outcome lg :=
  match l with
  | [] => Ret g
  | (id, now) :: l' => let! r := hot_update e g (Z.of_nat id) now file in checks e (snd r) file l'
  end.
(* threads that come up at once or soon after the wait is over *)
Definition prompt (th : Z -> tstart) : Prop := forall i, th i = Up \/ th i = Late.
Definition all_up (th : Z -> tstart) : Prop := forall i, th i = Up.
