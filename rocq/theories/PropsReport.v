(* Property theorems about the report of a rejected configuration. *)
From Coq Require Import String ZArith List Bool Lia ZifyBool ZifyNat ZifyN.
From Verif Require Import Base BaseFacts NumSpec LoggerState FileName ParseVal Lexer ParseCfg Report ReportSpec ReportProofs.
Import ListNotations.
Open Scope Z_scope.

(* ---- C110: the report of a rejected configuration ---- *)
(* Every rejected text: the code is printed with its message, with the number of a
   line and with the text from a position on, and [place] says which line that is.
   The quoted text is the text after the definitions above it were applied. *)
Theorem C110_report_partial : forall fuel e shm t code s, ~ In 0 t -> has_bom t = false ->
  parse_logger fuel e shm t = Ret (code, s) -> code <> 0 ->
  exists n p q out, place t code n p /\ quoted (s_text s) p q /\ printed code (debug_errno (x_maxdev e) code) n q out /\
    parse_report fuel e shm t = Ret (code, out) /\ length (s_text s) = length t /\
    (forall m k, line_start t m k <-> line_start (s_text s) m k).
Proof. exact parse_report_ok. Qed.
Print Assumptions C110_report_partial.

Definition nl : text := [10].
(* an unknown key in the third line *)
Definition bad_key : text := s2z "define: LONG_NAME x" ++ nl ++ s2z "channel: 0 #LONG_NAME" ++ nl ++ s2z "  Device: 0" ++ nl ++ s2z "  sync: LONG_NAME" ++ nl.
Example C110_report_partial_hypotheses : exists s, ~ In 0 bad_key /\ has_bom bad_key = false /\ parse_logger 300 std_env 0 bad_key = Ret (23, s).
Proof. eexists. split; [|split]. - vm_compute. intuition discriminate. - reflexivity. - vm_compute. reflexivity. Qed.
Example C110_report_partial_result : parse_report 300 std_env 0 bad_key =
  Ret (23, s2z "ParseLogger has error:<23 unknown key> in line:[3]  before:" ++ nl ++ s2z "  Device: 0" ++ nl ++ s2z "  sync: x        " ++ nl ++ nl).
Proof. vm_compute. reflexivity. Qed.

(* a line has one number *)
Theorem C110_number : forall t n m p, line_start t n p -> line_start t m p -> n = m.
Proof. exact line_number. Qed.
Print Assumptions C110_number.
Example C110_number_ex : line_start [97; 13; 10; 10; 98] 3 4.
Proof.
  apply (ls_next _ 2 3); [apply (ls_next _ 1 0); [constructor|]|].
  - exists [], [97], [13; 10], [10; 98]. split; [reflexivity|]. split; [reflexivity|]. split; [repeat constructor; discriminate|]. split; [constructor|reflexivity].
  - exists [97; 13; 10], [], [10], [98]. split; [reflexivity|]. split; [reflexivity|]. split; [constructor|]. split; [constructor; discriminate|reflexivity].
Qed.

(* A key that is known but not allowed where it stands is reported after its line was
   passed: the number is that of the following line, and the offending line is not
   quoted. *)
Definition misplaced_key : text := s2z "channel: 0" ++ nl ++ s2z "  file: a" ++ nl ++ s2z "  sync: true" ++ nl.
Theorem C110_misplaced_refuted : exists t code s, ~ In 0 t /\ has_bom t = false /\ parse_logger 300 std_env 0 t = Ret (code, s) /\ code <> 0 /\
  (* the second line is to blame, the third is reported *)
  parse_report 300 std_env 0 t = Ret (code, s2z "ParseLogger has error:<32 undefined type> in line:[3]  before:" ++ nl ++ s2z "  sync: true" ++ nl ++ nl) /\
  (exists s', parse_logger 300 std_env 0 (s2z "channel: 0" ++ nl ++ s2z "  sync: true" ++ nl) = Ret (0, s')).
Proof.
  exists misplaced_key. eexists _, _. split; [vm_compute; intuition discriminate|]. split; [reflexivity|]. split; [vm_compute; reflexivity|]. split; [discriminate|].
  split; [vm_compute; reflexivity|]. eexists. vm_compute. reflexivity.
Qed.
Print Assumptions C110_misplaced_refuted.
(* without a following line the report names one that does not exist *)
Theorem C110_beyond_refuted : exists t code s, ~ In 0 t /\ has_bom t = false /\ parse_logger 300 std_env 0 t = Ret (code, s) /\ code <> 0 /\
  s_no s = 3 /\ ~ (exists p, line_start t 3 p).
Proof.
  exists (s2z "channel: 0" ++ nl ++ s2z "  file: a"). eexists _, _. split; [vm_compute; intuition discriminate|]. split; [reflexivity|]. split; [vm_compute; reflexivity|].
  split; [discriminate|]. split; [reflexivity|].
  intros (p & H). inversion H as [|n p1 q H1 L E]; subst. replace n with 2 in H1 by lia.
  assert (S2 : line_start (s2z "channel: 0" ++ nl ++ s2z "  file: a") 2 11).
  { apply (ls_next _ 1 0); [constructor|]. exists [], (s2z "channel: 0"), nl, (s2z "  file: a"). split; [reflexivity|]. split; [reflexivity|]. split; [repeat constructor; discriminate|]. split; [constructor; discriminate|reflexivity]. }
  rewrite (line_start_det _ _ _ H1 _ S2) in L. destruct L as (a & x & e & r & T & P & NX & NL & _).
  destruct (app_len_inv (s2z "channel: 0" ++ nl) (s2z "  file: a") a (x ++ e ++ r)) as [_ T2]; [rewrite <- P; reflexivity|rewrite <- app_assoc; exact T|].
  assert (I : In 10 (s2z "  file: a") \/ In 13 (s2z "  file: a")).
  { rewrite T2. destruct (newline_hd _ _ NL) as [K|K]; [left|right]; apply in_app_iff; right; clear - NL K; destruct NL; cbn [app hd] in *; try discriminate K; left; reflexivity. }
  clear - I. vm_compute in I. destruct I as [I|I]; repeat (destruct I as [I|I]; [discriminate I|]); exact I.
Qed.
Print Assumptions C110_beyond_refuted.

(* every code that is reported has a message, except PEC_ILLEGAL_VAR_VALUE *)
Theorem C110_message_partial : forall fuel e shm t code s, ~ In 0 t -> has_bom t = false ->
  parse_logger fuel e shm t = Ret (code, s) -> code <> 0 -> code <> 25 -> debug_errno (x_maxdev e) code <> s2z "unknown error.".
Proof.
  intros fuel e shm t code s N B H C V. destruct (parse_report_ok fuel e shm t code s N B H C) as (n & p & _ & _ & P & _).
  exact (message_known _ _ _ _ _ P V).
Qed.
Print Assumptions C110_message_partial.
Example C110_message_partial_ex : exists s, parse_logger 300 std_env 0 misplaced_key = Ret (32, s) /\ debug_errno 20 32 = s2z "undefined type".
Proof. eexists. split; vm_compute; reflexivity. Qed.
Theorem C110_message_refuted : exists t code s, ~ In 0 t /\ has_bom t = false /\ parse_logger 300 std_env 0 t = Ret (code, s) /\ code <> 0 /\
  debug_errno 20 code = s2z "unknown error.".
Proof.
  exists (s2z "var: a" ++ nl). eexists _, _. split; [vm_compute; intuition discriminate|]. split; [reflexivity|]. split; [vm_compute; reflexivity|].
  split; [discriminate|]. reflexivity.
Qed.
Print Assumptions C110_message_refuted.
