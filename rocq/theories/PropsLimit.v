(* Properties C122, the built-in maxima only decide which configurations are too
   large, and C123, which channels are synchronous; with them the shipped samples
   (C74).

   [with_limits e c d]: the library built with FN_LOG_MAX_CHANNEL_SIZE c and
   FN_LOG_MAX_DEVICE_SIZE d. *)
From Coq Require Import String ZArith List Bool Lia ZifyBool ZifyNat ZifyN.
From Verif Require Import Base BaseFacts LoggerState FileName ParseVal Lexer ParseCfg ParseSpec ParseRefute ParseLimit PropsParse Samples.
Import ListNotations.
Open Scope Z_scope.

(* ---- C122: the maxima only decide what is too large ---- *)
(* With smaller maxima a text gets the same answer, or the answer that it has too
   many channels or devices. *)
Theorem C122_answers : forall e c d c' d' n shm t, c <= c' -> d <= d' ->
  parse_logger n (with_limits e c d) shm t = parse_logger n (with_limits e c' d') shm t \/
  exists code s, parse_logger n (with_limits e c d) shm t = Ret (code, s) /\
    (code = E_INVALID_CHANNEL_SIZE \/ code = E_OUT_OF_DEVICE_SIZE).
Proof.
  intros e c d c' d' n shm t C D. destruct (parse_lim e c d c' d' n shm t C D) as [E|[E _]]; [left|right]; assumption.
Qed.
Print Assumptions C122_answers.
Example C122_answers_ex : exists s s',
  parse_logger 2000 (with_limits std_env 1 20) 0 ex_cfg = Ret (E_INVALID_CHANNEL_SIZE, s) /\
  parse_logger 2000 (with_limits std_env 2 1) 0 ex_cfg = Ret (E_OUT_OF_DEVICE_SIZE, s') /\
  parse_logger 2000 (with_limits std_env 1 20) 0 (s2z "shm_key: 1") = parse_logger 2000 (with_limits std_env 7 20) 0 (s2z "shm_key: 1").
Proof. do 2 eexists. split; [vm_compute; reflexivity|]. split; vm_compute; reflexivity. Qed.

(* A text that is accepted is accepted with the same result if the maxima are
   larger, ... *)
Theorem C122_larger : forall e c d c' d' n shm t s, c <= c' -> d <= d' ->
  parse_logger n (with_limits e c d) shm t = Ret (0, s) -> parse_logger n (with_limits e c' d') shm t = Ret (0, s).
Proof.
  intros e c d c' d' n shm t s C D H. destruct (parse_lim e c d c' d' n shm t C D) as [E|[(code & s1 & E & L) _]]; [congruence|].
  rewrite H in E. injection E as <- _. destruct L; discriminate.
Qed.
Print Assumptions C122_larger.
(* ... and with smaller ones exactly if what was read is within them. *)
Theorem C122_accepted : forall e c d c' d' n shm t s, 0 <= c <= c' -> 0 <= d <= d' ->
  parse_logger n (with_limits e c' d') shm t = Ret (0, s) ->
  (parse_logger n (with_limits e c d) shm t = Ret (0, s) <->
   zlen (s_chs s) <= c /\ Forall (fun ch => zlen (pc_devs ch) <= d) (s_chs s)).
Proof. exact accept_iff. Qed.
Print Assumptions C122_accepted.
Example C122_accepted_ex : exists s c0 c1, parse_logger 2000 (with_limits std_env 2 20) 0 ex_cfg = Ret (0, s) /\
  s_chs s = [c0; c1] /\ zlen (pc_devs c0) = 2 /\ parse_logger 2000 (with_limits std_env 2 2) 0 ex_cfg = Ret (0, s).
Proof. do 3 eexists. split; [vm_compute; reflexivity|]. split; [reflexivity|]. split; [reflexivity|]. vm_compute. reflexivity. Qed.

(* ---- C74: the shipped samples ---- *)
(* bin/log.yaml is accepted exactly by a library that is built for four channels
   and two devices, whatever the names in it resolve to. *)
Theorem C74_log_yaml_partial : forall e c d shm, 0 <= c -> 0 <= d ->
  ((exists s, parse_logger (length log_yaml) (with_limits e c d) shm log_yaml = Ret (0, s)) <-> 4 <= c /\ 2 <= d).
Proof.
  intros e c d shm C D.
  assert (B : exists s, parse_logger (length log_yaml) (with_limits e 4 2) shm log_yaml = Ret (0, s) /\
    zlen (s_chs s) = 4 /\ exists ch rest, s_chs s = ch :: rest /\ zlen (pc_devs ch) = 2).
  { eexists. split; [vm_compute; reflexivity|]. split; [reflexivity|]. do 2 eexists. split; reflexivity. }
  destruct B as (s & H & N & ch & rest & CH & DV).
  assert (H' : parse_logger (length log_yaml) (with_limits e (Z.max c 4) (Z.max d 2)) shm log_yaml = Ret (0, s))
    by (apply (C122_larger e 4 2); lia || assumption).
  split.
  - intros (s1 & H1). assert (s1 = s) as ->.
    { pose proof (C122_larger e c d (Z.max c 4) (Z.max d 2) _ _ _ _ ltac:(lia) ltac:(lia) H1) as E. congruence. }
    destruct (proj1 (C122_accepted e c d (Z.max c 4) (Z.max d 2) _ _ _ s ltac:(split; lia) ltac:(split; lia) H') H1) as [F1 F2].
    rewrite CH in F2. inversion F2. lia.
  - intros [C4 D2]. exists s. apply (C122_larger e 4 2); assumption.
Qed.
Print Assumptions C74_log_yaml_partial.
(* default_log.yaml is accepted by none. *)
Theorem C74_default_never : forall e c d shm s,
  parse_logger (length default_log_yaml) (with_limits e c d) shm default_log_yaml <> Ret (0, s).
Proof.
  intros e c d shm s H.
  assert (B : exists s0, parse_logger (length default_log_yaml) (with_limits e 2 20) shm default_log_yaml = Ret (PEC_NOT_CLOSURE, s0))
    by (eexists; vm_compute; reflexivity).
  destruct B as (s0 & B).
  pose proof (C122_larger e c d (Z.max c 2) (Z.max d 20) _ _ _ _ ltac:(lia) ltac:(lia) H) as E.
  destruct (C122_answers e 2 20 (Z.max c 2) (Z.max d 20) (length default_log_yaml) shm default_log_yaml) as [X|(code & s1 & X & L)];
    [lia|lia|rewrite B, E in X; discriminate|]. rewrite B in X. injection X as <- _. destruct L; discriminate.
Qed.
Print Assumptions C74_default_never.
Example C74_ex : exists s, parse_logger (length log_yaml) (with_limits std_env 4 20) 0 log_yaml = Ret (0, s) /\
  map (fun c => zlen (pc_devs c)) (s_chs s) = [2; 0; 1; 0] /\ s_hot s = true.
Proof. eexists. split; [vm_compute; reflexivity|]. split; reflexivity. Qed.

(* ---- C123: which channels are synchronous ---- *)
(* The channel becomes synchronous exactly if the value begins with a small s;
   nothing else changes and no value is reported.  Missing: the documented SYNC
   and the sync_write: 1 of the samples. *)
Theorem C123_mode_partial : forall e c v w rest, exists c', channel_key e c RK_SYNC v w rest = Ret (PEC_NONE, c') /\
  (pc_type c' = CHANNEL_SYNC <-> exists r, v = 115 :: r) /\ (pc_type c' = CHANNEL_ASYNC <-> ~ exists r, v = 115 :: r) /\
  pc_id c' = pc_id c /\ pc_virtual c' = pc_virtual c /\ pc_cfg c' = pc_cfg c /\ pc_devs c' = pc_devs c.
Proof.
  intros e c v w rest. eexists. split; [reflexivity|]. cbn [pc_type pc_id pc_virtual pc_cfg pc_devs].
  split; [|split; [|auto]]; (destruct v as [|x r]; cbn [parse_channel_type];
    [|destruct (x =? 115) eqn:X]); unfold CHANNEL_SYNC, CHANNEL_ASYNC; split; intros H; try discriminate; try reflexivity.
  - destruct H; discriminate.
  - exists r. f_equal. lia.
  - destruct H as (r' & E). injection E as ->. discriminate.
  - intros (r' & E). discriminate.
  - exfalso. apply H. exists r. f_equal. lia.
  - intros (r' & E). injection E as ->. discriminate.
Qed.
Print Assumptions C123_mode_partial.
Example C123_mode_ex : exists s c0 c1, parse_logger 500 std_env 0 (ex_lines ["- channel: 0"; "   sync: sync"; "- channel: 1"; "   sync: async"]%string) = Ret (0, s) /\
  s_chs s = [c0; c1] /\ pc_type c0 = CHANNEL_SYNC /\ pc_type c1 = CHANNEL_ASYNC.
Proof. do 3 eexists. split; [vm_compute; reflexivity|]. split; [reflexivity|]. split; reflexivity. Qed.
(* README.md:426 lists SYNC as a value. *)
Theorem C123_upper_refuted : exists s c0, parse_logger 500 std_env 0 (ex_lines ["- channel: 0"; "   sync: SYNC"]%string) = Ret (0, s) /\
  s_chs s = [c0] /\ pc_type c0 = CHANNEL_ASYNC.
Proof. do 2 eexists. split; [vm_compute; reflexivity|]. split; reflexivity. Qed.
Print Assumptions C123_upper_refuted.
(* bin/log.yaml calls its channels 2 and 3 synchronous; no library that accepts
   the file makes them so. *)
Theorem C123_sample : forall e c d shm s,
  parse_logger (length log_yaml) (with_limits e c d) shm log_yaml = Ret (0, s) ->
  map pc_type (s_chs s) = [CHANNEL_ASYNC; CHANNEL_ASYNC; CHANNEL_ASYNC; CHANNEL_ASYNC].
Proof.
  intros e c d shm s H.
  assert (B : exists s0, parse_logger (length log_yaml) (with_limits e 4 2) shm log_yaml = Ret (0, s0) /\
    map pc_type (s_chs s0) = [CHANNEL_ASYNC; CHANNEL_ASYNC; CHANNEL_ASYNC; CHANNEL_ASYNC])
    by (eexists; split; [vm_compute; reflexivity|reflexivity]).
  destruct B as (s0 & B & T).
  pose proof (C122_larger e c d (Z.max c 4) (Z.max d 2) _ _ _ _ ltac:(lia) ltac:(lia) H) as E.
  pose proof (C122_larger e 4 2 (Z.max c 4) (Z.max d 2) _ _ _ _ ltac:(lia) ltac:(lia) B) as E0.
  congruence.
Qed.
Print Assumptions C123_sample.
Theorem C123_sample_refuted : exists s c2 c3, parse_logger (length log_yaml) (with_limits std_env 4 20) 0 log_yaml = Ret (0, s) /\
  nth_error (s_chs s) 2 = Some c2 /\ nth_error (s_chs s) 3 = Some c3 /\ pc_type c2 <> CHANNEL_SYNC /\ pc_type c3 <> CHANNEL_SYNC.
Proof.
  do 3 eexists. split; [vm_compute; reflexivity|]. split; [reflexivity|]. split; [reflexivity|]. split; discriminate.
Qed.
Print Assumptions C123_sample_refuted.
