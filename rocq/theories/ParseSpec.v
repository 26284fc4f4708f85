(* What the properties of the configuration parser say. *)
From Coq Require Import String ZArith List Bool.
From Verif Require Import Base LoggerState ParseVal Lexer ParseCfg.
Import ListNotations.
Open Scope Z_scope.

Definition in_ll (v : Z) : Prop := - 2 ^ 63 <= v < 2 ^ 63.
Definition flag (v : Z) : Prop := v = 0 \/ v = 1.

(* a device as the rest of the library expects it *)
Record dev_wf (d : pdev) : Prop := mkDevWf {
  dw_in : flag (pd_in d);
  dw_out : 0 <= pd_out d <= 5;
  dw_len : length (pd_cfg d) = 15%nat;
  dw_ll : Forall in_ll (pd_cfg d);
  dw_able : flag (fld (pd_cfg d) DEVICE_CFG_ABLE);
  dw_priority : 0 <= fld (pd_cfg d) DEVICE_CFG_PRIORITY <= 6;
  dw_daily : flag (fld (pd_cfg d) DEVICE_CFG_FILE_ROLLDAILY);
  dw_hourly : flag (fld (pd_cfg d) DEVICE_CFG_FILE_ROLLHOURLY);
  dw_stuff : flag (fld (pd_cfg d) DEVICE_CFG_FILE_STUFF_UP);
  dw_ip : 0 <= fld (pd_cfg d) DEVICE_CFG_UDP_IP < 2 ^ 32;
  dw_port : 0 <= fld (pd_cfg d) DEVICE_CFG_UDP_PORT < 2 ^ 16;
  dw_file : zlen (pd_file d) <= 48 /\ ~ In 0 (pd_file d);     (* of char[50] *)
  dw_path : zlen (pd_path d) <= 198 /\ ~ In 0 (pd_path d)     (* of char[200] *)
}.

(* the device that virtual_device_id_ names: the last virtual one *)
Definition is_virtual (d : pdev) : bool := pd_out d =? DEVICE_OUT_VIRTUAL.
Definition virtual_of (ds : list pdev) : Z :=
  match filter is_virtual (rev ds) with
  | d :: _ => pd_id d
  | [] => 0
  end.

Record chan_wf (maxdev : Z) (c : pchan) : Prop := mkChanWf {
  cw_type : pc_type c = CHANNEL_ASYNC \/ pc_type c = CHANNEL_SYNC;
  cw_len : length (pc_cfg c) = 7%nat;
  cw_ll : Forall in_ll (pc_cfg c);
  cw_priority : 0 <= fld (pc_cfg c) CHANNEL_CFG_PRIORITY <= 6;
  cw_max : zlen (pc_devs c) <= maxdev;
  cw_ids : forall i d, nth_error (pc_devs c) i = Some d -> pd_id d = Z.of_nat i;
  cw_devs : Forall dev_wf (pc_devs c);
  cw_virtual : pc_virtual c = virtual_of (pc_devs c)
}.

Record cfg_wf (maxch maxdev : Z) (chs : list pchan) : Prop := mkCfgWf {
  gw_max : zlen chs <= maxch;
  gw_ids : forall i c, nth_error chs i = Some c -> pc_id c = Z.of_nat i;
  gw_chs : Forall (chan_wf maxdev) chs
}.

(* an environment in which names resolve to IPv4 addresses *)
Definition dns_wf (e : penv) : Prop := forall h ip, x_dns e h = Some ip -> 0 <= ip < 2 ^ 32.

(* ---- the course of ParseLogger ---- *)
(* the state in which ParseLogger enters its loop *)
Definition start (shm : Z) (t : text) : lstate := mkLs t 0 (zlen t) 1 [] shm false [] [].
(* the states in which it enters the loop again *)
Inductive reaches (e : penv) (s : lstate) : lstate -> Prop :=
| reaches_here : reaches e s s
| reaches_next : forall s1 s2 fuel, reaches e s s1 -> logger_line fuel e s1 = Ret (Next s2) -> reaches e s s2.

(* a macro line whose content is the name itself: NAME NAME *)
Definition self_macro (v : text) : Prop :=
  exists name blanks, v = name ++ 32 :: blanks ++ name /\ ~ In 32 name /\ Forall (fun c => is_blank c = true) blanks.
(* a var line with an item whose value is the variable itself: x=$x or x=${x} *)
Definition self_var (v : text) : Prop :=
  exists before x bl y bl' after, v = before ++ x ++ bl ++ 61 :: y ++ bl' ++ after /\ x <> [] /\ ~ In 61 x /\
    (y = 36 :: x \/ y = [36; 123] ++ x ++ [125]) /\ Forall (fun c => is_blank c = true) (bl ++ bl') /\
    (before = [] \/ exists b c, before = b ++ [c] /\ (c = 44 \/ c = 32 \/ c = 9)) /\ (after = [] \/ exists r, after = 44 :: r).
(* the next line to be read is one of these *)
Definition self_line (s : lstate) : Prop :=
  exists fuel s1 l v w rest,
    lex_at fuel s = Ret (0, s1, l) /\ line_val (buf s1) l = Ret (v, w, rest) /\
    (l_key l = RK_DEFINE /\ self_macro v \/ l_key l = RK_VARIABLE /\ self_var v).
