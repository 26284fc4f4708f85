(* Properties of macros and variables in a configuration. *)
From Coq Require Import String ZArith List Bool Lia ZifyBool ZifyNat ZifyN.
From Verif Require Import Base BaseFacts LoggerState FileName FileNameProofs ParseVal Lexer ParseCfg
  ParseSpec TextSpec LexProofs ParseSafe ParseRefute SubstSpec SubstProofs SubstSelf ParseMono ParseStuck PropsParse Samples.
Import ListNotations.
Open Scope Z_scope.

(* ---- C49: macro and variable substitution ---- *)
(* A define line turns every later whole word that is the name into the content,
   filled up with spaces, and changes nothing else. *)
Theorem C49_define_partial : forall fuel pre s name bl content,
  word name -> Forall blank bl -> (forall c r, content = c :: r -> ~ blank c) -> content <> name -> (length content <= length name)%nat ->
  boundary pre s -> (length s < fuel)%nat ->
  exists s', predefined_macro fuel (pre ++ s) (length pre) (name ++ 32 :: bl ++ content) = Ret (0, pre ++ s') /\
    macro name (filled name content) s s' /\ length s' = length s.
Proof.
  intros fuel pre s name bl content W BL NB NE LE B FU. destruct (macro_total name (filled name content) s W) as (s' & M). exists s'.
  split; [apply macro_line; assumption|]. split; [exact M|]. eapply macro_len; [exact M|apply filled_len, LE].
Qed.
Print Assumptions C49_define_partial.
Theorem C49_define_long : forall fuel t pos name bl content,
  word name -> Forall blank bl -> (forall c r, content = c :: r -> ~ blank c) -> (length name < length content)%nat ->
  predefined_macro fuel t pos (name ++ 32 :: bl ++ content) = Ret (PEC_DEFINED_TARGET_TOO_LONG, t).
Proof. exact macro_long. Qed.
Print Assumptions C49_define_long.
(* A var line does so for the occurrences of ${x} and then of $x, item by item. *)
Theorem C49_var_partial : forall fuel pre s l v, vars_text l v ->
  Forall (fun p => var_name (fst p) /\ var_value (snd p) /\ snd p <> dollar (fst p) /\ (length (snd p) <= length (fst p) + 1)%nat) l ->
  (length s < fuel)%nat ->
  exists s', predefined_var fuel (pre ++ s) (length pre) v = Ret (0, pre ++ s') /\ vars l s s' /\ length s' = length s.
Proof.
  intros fuel pre s l v T F FU. destruct (vars_total l s) as (s' & V). exists s'. split; [exact (var_line l v T F pre s s' fuel [] (S (length v)) V FU (Nat.lt_succ_diag_r _))|].
  split; [exact V|]. apply (vars_len l s s' V). eapply Forall_impl; [|exact F]. intros p (_ & _ & _ & H). exact H.
Qed.
Print Assumptions C49_var_partial.
Theorem C49_var_long : forall fuel t pos l v ret t', vars_text l v -> Forall (fun p => var_name (fst p) /\ var_value (snd p)) l ->
  Exists (fun p => (length (fst p) + 1 < length (snd p))%nat) l ->
  predefined_var fuel t pos v = Ret (ret, t') -> ret = PEC_DEFINED_TARGET_TOO_LONG.
Proof. intros fuel t pos l v ret t' T F X H. exact (var_too_long l v T F X fuel t pos [] (S (length v)) ret t' (Nat.lt_succ_diag_r _) H). Qed.
Print Assumptions C49_var_long.
(* Whatever the line says: the text before its end and the length of the text stay. *)
Theorem C49_before : forall fuel t pos v ret t', ~ In 0 v ->
  predefined_macro fuel t pos v = Ret (ret, t') \/ predefined_var fuel t pos v = Ret (ret, t') ->
  firstn pos t' = firstn pos t /\ length t' = length t.
Proof.
  intros fuel t pos v ret t' N [H|H].
  - pose proof (macro_ok std_env fuel t pos v N) as P. rewrite H in P. cbn [okx snd] in P. destruct P as [[P1 _] P2]. split; [exact P2|lia].
  - pose proof (var_ok std_env fuel t pos v N) as P. rewrite H in P. cbn [okx snd] in P. destruct P as [[P1 _] P2]. split; [exact P2|lia].
Qed.
Print Assumptions C49_before.
Example C49_ex_define : predefined_macro 40 (s2z "X:NUM1,NUM,MYNUM,NUM") 2 (s2z "NUM  7") = Ret (0, s2z "X:NUM1,7  ,MYNUM,7  ") /\
  word (s2z "NUM") /\ boundary (s2z "X:") (s2z "NUM1,NUM,MYNUM,NUM").
Proof.
  split; [vm_compute; reflexivity|]. split.
  { split; [discriminate|]. change (s2z "NUM") with [78; 85; 77]. repeat (constructor; [unfold name_char, digit; lia|]). constructor. }
  intros p c d r P _ [N _]. change (s2z "X:") with ([88] ++ [58]) in P. apply app_inj_tail in P. destruct P as [_ <-]. unfold name_char, digit in N. lia.
Qed.
Example C49_ex_var : predefined_var 40 (s2z "$ab/${ab}/$abc/ab") 0 (s2z "ab=12, c=3") = Ret (0, s2z "12 /12   /$abc/ab") /\
  vars_text [(s2z "ab", s2z "12"); (s2z "c", s2z "3")] (s2z "ab=12, c=3") /\ var_name (s2z "ab") /\ var_value (s2z "12").
Proof.
  split; [vm_compute; reflexivity|]. split.
  - change (s2z "ab=12, c=3") with (s2z "ab=12" ++ 44 :: s2z " c=3"). apply vt_cons; [|apply vt_one].
    + exists [], [], []. repeat (split; [reflexivity || constructor|]). constructor.
    + exists [32], [], []. split; [reflexivity|]. split; [repeat constructor|]. split; constructor.
  - split; [change (s2z "ab") with [97; 98]; split; [split; [discriminate|repeat (constructor; [unfold name_char, digit; lia|]); constructor]|cbn; unfold digit; lia]|].
    split; [intros H; vm_compute in H; intuition discriminate|]. intros c r H. change (s2z "12") with ([49] ++ [50]) in H. apply app_inj_tail in H. destruct H as [_ <-].
    unfold blank. cbn [In]. lia.
Qed.
(* A name defined as itself is never done with. *)
Theorem C49_define_self_refuted : exists t pos v, forall fuel, predefined_macro fuel t pos v = Fuel.
Proof.
  assert (E : forall fuel, inplace_loop fuel (s2z "N N;N") 3 [78] [78] true true = Fuel).
  { intros [|fuel]; [reflexivity|].
    change (inplace_loop (S fuel) (s2z "N N;N") 3 [78] [78] true true) with (inplace_loop fuel (s2z "N N;N") 4 [78] [78] true true). apply inplace_stuck; reflexivity. }
  exists (s2z "N N;N"), 3%nat, (s2z "N N"). intros fuel.
  change (predefined_macro fuel (s2z "N N;N") 3 (s2z "N N")) with (let! t := inplace_loop fuel (s2z "N N;N") 3 [78] [78] true true in Ret (0, t)). rewrite E. reflexivity.
Qed.
Print Assumptions C49_define_self_refuted.

(* Exactly: it never returns if the name stands in the rest of the text as a whole word, and
   else it leaves the text as it is. *)
Theorem C49_define_self : forall pre s name bl, word name -> Forall blank bl -> boundary pre s ->
  (whole name s -> forall fuel, predefined_macro fuel (pre ++ s) (length pre) (name ++ 32 :: bl ++ name) = Fuel) /\
  (~ whole name s -> forall fuel, (length s < fuel)%nat -> predefined_macro fuel (pre ++ s) (length pre) (name ++ 32 :: bl ++ name) = Ret (0, pre ++ s)).
Proof. exact self_macro. Qed.
Print Assumptions C49_define_self.
(* The same for a variable with the value $x: ${x} is replaced, then $x for ever. *)
Theorem C49_var_self : forall pre s x v, var_name x -> item_text x (dollar x) v ->
  exists s1, var_in (braced x) (filled (braced x) (dollar x)) false s s1 /\
  (ending (dollar x) s1 -> forall fuel, predefined_var fuel (pre ++ s) (length pre) v = Fuel) /\
  (~ ending (dollar x) s1 -> forall fuel, (length s < fuel)%nat -> predefined_var fuel (pre ++ s) (length pre) v = Ret (0, pre ++ s1)).
Proof. exact self_var. Qed.
Print Assumptions C49_var_self.
Example C49_self_hypotheses : word (s2z "NUM") /\ boundary (s2z "X:") (s2z "NUM1,NUM") /\ whole (s2z "NUM") (s2z "NUM1,NUM") /\
  predefined_macro 40 (s2z "X:NUM1,MYNUM") 2 (s2z "NUM NUM") = Ret (0, s2z "X:NUM1,MYNUM") /\ predefined_macro 40 (s2z "X:NUM1,NUM") 2 (s2z "NUM NUM") = Fuel.
Proof.
  split. { split; [discriminate|]. change (s2z "NUM") with [78; 85; 77]. repeat (constructor; [unfold name_char, digit; lia|]). constructor. }
  split. { intros p c d r P _ [N _]. change (s2z "X:") with ([88] ++ [58]) in P. apply app_inj_tail in P. destruct P as [_ <-]. unfold name_char, digit in N. lia. }
  split; [|split; vm_compute; reflexivity]. exists (s2z "NUM1,"), []. split; [reflexivity|]. split; [intros c r H; discriminate H|].
  intros b c H. change (s2z "NUM1,") with (s2z "NUM1" ++ [44]) in H. apply app_inj_tail in H. destruct H as [_ <-]. unfold name_char, digit. lia.
Qed.
Example C49_var_self_hypotheses : var_name (s2z "ab") /\ item_text (s2z "ab") (dollar (s2z "ab")) (s2z "ab=$ab") /\ ending (dollar (s2z "ab")) (s2z "x$ab  ") /\
  predefined_var 40 (s2z "x${ab}") 0 (s2z "ab=$ab") = Fuel /\ predefined_var 40 (s2z "x$abc") 0 (s2z "ab=$ab") = Ret (0, s2z "x$abc").
Proof.
  split. { change (s2z "ab") with [97; 98]. split; [split; [discriminate|repeat (constructor; [unfold name_char, digit; lia|]); constructor]|cbn; unfold digit; lia]. }
  split. { exists [], [], []. repeat (split; [reflexivity || constructor|]). constructor. }
  split; [|split; vm_compute; reflexivity]. exists [120], [32; 32]. split; [reflexivity|]. intros c r H. injection H as <- _. unfold name_char, digit. lia.
Qed.

(* ---- C42: parsing does not end ---- *)
(* if a line defines a name as itself and the name stands behind it as a whole word, *)
Theorem C42_define_self : forall e shm t n s s1 l name bl w r pre rest, has_bom t = false -> reaches e (start shm t) s ->
  lex_at n s = Ret (0, s1, l) -> l_ke l <> l_kb l -> l_key l = RK_DEFINE -> line_val (buf s1) l = Ret (name ++ 32 :: bl ++ name, w, r) ->
  word name -> Forall blank bl -> s_text s1 = pre ++ rest -> length pre = Z.to_nat (l_ve l) -> boundary pre rest -> whole name rest ->
  forall fuel, parse_logger fuel e shm t = Fuel.
Proof. exact define_stuck. Qed.
Print Assumptions C42_define_self.
(* or gives a variable x the value $x and $x stands behind it, at first or for ${x} *)
Theorem C42_var_self : forall e shm t n s s1 l x v w r pre rest rest1, has_bom t = false -> reaches e (start shm t) s ->
  lex_at n s = Ret (0, s1, l) -> l_ke l <> l_kb l -> l_key l = RK_VARIABLE -> line_val (buf s1) l = Ret (v, w, r) ->
  var_name x -> item_text x (dollar x) v -> s_text s1 = pre ++ rest -> length pre = Z.to_nat (l_ve l) ->
  var_in (braced x) (filled (braced x) (dollar x)) false rest rest1 -> ending (dollar x) rest1 ->
  forall fuel, parse_logger fuel e shm t = Fuel.
Proof. exact var_stuck. Qed.
Print Assumptions C42_var_self.
(* a second line that does so *)
Example C42_define_self_hypotheses : exists s s1 l w r pre rest, reaches std_env (start 0 (ex_lines ["hot_update: true"; "define: NO NO"; "channel: NO"]%string)) s /\
  lex_at 60 s = Ret (0, s1, l) /\ l_ke l <> l_kb l /\ l_key l = RK_DEFINE /\ line_val (buf s1) l = Ret (s2z "NO NO", w, r) /\
  s_text s1 = pre ++ rest /\ length pre = Z.to_nat (l_ve l) /\ boundary pre rest /\ whole (s2z "NO") rest.
Proof.
  set (t := ex_lines ["hot_update: true"; "define: NO NO"; "channel: NO"]%string).
  do 3 eexists. do 2 eexists. exists (firstn 30 t), (skipn 30 t). split; [eapply reaches_next with (fuel := 60%nat); [apply reaches_here|vm_compute; reflexivity]|].
  split; [vm_compute; reflexivity|]. split; [vm_compute; discriminate|]. split; [reflexivity|]. split; [vm_compute; reflexivity|]. split; [vm_compute; reflexivity|]. split; [vm_compute; reflexivity|].
  split. { intros p c d r _ E [_ N]. vm_compute in E. injection E as <- _. unfold name_char, digit in N. lia. }
  exists (10 :: s2z "channel: "), [10]. split; [vm_compute; reflexivity|]. split; [intros c r E; injection E as <- _; unfold name_char, digit; lia|].
  intros b c E. change (10 :: s2z "channel: ") with ((10 :: s2z "channel:") ++ [32]) in E. apply app_inj_tail in E. destruct E as [_ <-]. unfold name_char, digit. lia.
Qed.
Example C42_var_self_hypotheses : exists s s1 l w r pre rest rest1, reaches std_env (start 0 (ex_lines ["hot_update: true"; "var: no=$no"; "channel: ${no}"]%string)) s /\
  lex_at 60 s = Ret (0, s1, l) /\ l_ke l <> l_kb l /\ l_key l = RK_VARIABLE /\ line_val (buf s1) l = Ret (s2z "no=$no", w, r) /\
  s_text s1 = pre ++ rest /\ length pre = Z.to_nat (l_ve l) /\ var_in (braced (s2z "no")) (filled (braced (s2z "no")) (dollar (s2z "no"))) false rest rest1 /\ ending (dollar (s2z "no")) rest1.
Proof.
  set (t := ex_lines ["hot_update: true"; "var: no=$no"; "channel: ${no}"]%string).
  do 3 eexists. do 2 eexists. exists (firstn 28 t), (skipn 28 t), (10 :: s2z "channel: $no  " ++ [10]). split; [eapply reaches_next with (fuel := 60%nat); [apply reaches_here|vm_compute; reflexivity]|].
  split; [vm_compute; reflexivity|]. split; [vm_compute; discriminate|]. split; [reflexivity|]. split; [vm_compute; reflexivity|]. split; [vm_compute; reflexivity|]. split; [vm_compute; reflexivity|].
  split.
  - change (skipn 28 t) with (10 :: s2z "channel: " ++ braced (s2z "no") ++ [10]). change (s2z "channel: $no  ") with (s2z "channel: " ++ filled (braced (s2z "no")) (dollar (s2z "no"))).
    rewrite <- app_assoc. change (s2z "channel: ") with [99; 104; 97; 110; 110; 101; 108; 58; 32]. cbn [app].
    assert (NH : forall c r, c <> 36 -> ~ hit (braced (s2z "no")) false (c :: r)) by (intros c r C (q & Q & _); injection Q as Q _; contradiction).
    do 10 (apply vi_skip; [apply NH; discriminate|]). apply vi_hit; [exists [10]; split; [reflexivity|discriminate]|]. apply vi_skip; [apply NH; discriminate|]. apply vi_nil.
  - exists (10 :: s2z "channel: "), [32; 32; 10]. split; [vm_compute; reflexivity|]. intros c r E. injection E as <- _. unfold name_char, digit. lia.
Qed.

(* ---- C72: spaces around the = of a var do not matter ---- *)
(* The line of the shipped sample is rejected, the same without the space is not. *)
Theorem C72_spaces_refuted : exists t1 t2 c1 s1 s2,
  t1 = ex_lines ["var: id = 234"; "channel: 0"]%string /\ t2 = ex_lines ["var: id=234"; "channel: 0"]%string /\
  parse_logger 200 std_env 0 t1 = Ret (c1, s1) /\ c1 = PEC_DEFINED_TARGET_TOO_LONG /\ parse_logger 200 std_env 0 t2 = Ret (0, s2).
Proof. do 5 eexists. split; [reflexivity|]. split; [reflexivity|]. split; [vm_compute; reflexivity|]. split; [reflexivity|]. vm_compute. reflexivity. Qed.
Print Assumptions C72_spaces_refuted.

(* Blanks before the = and around the items do not matter: two spellings of the
   same names and values do the same.  Missing: blanks behind the =, which belong
   to the value. *)
Theorem C72_before_partial : forall fuel pre s l v1 v2, vars_text l v1 -> vars_text l v2 ->
  Forall (fun p => var_name (fst p) /\ var_value (snd p) /\ snd p <> dollar (fst p) /\ (length (snd p) <= length (fst p) + 1)%nat) l ->
  (length s < fuel)%nat ->
  exists s', predefined_var fuel (pre ++ s) (length pre) v1 = Ret (0, pre ++ s') /\
    predefined_var fuel (pre ++ s) (length pre) v2 = Ret (0, pre ++ s').
Proof.
  intros fuel pre s l v1 v2 T1 T2 F FU. destruct (vars_total l s) as (s' & V). exists s'. split.
  - exact (var_line l v1 T1 F pre s s' fuel [] (S (length v1)) V FU (Nat.lt_succ_diag_r _)).
  - exact (var_line l v2 T2 F pre s s' fuel [] (S (length v2)) V FU (Nat.lt_succ_diag_r _)).
Qed.
Print Assumptions C72_before_partial.
Example C72_before_ex : vars_text [(s2z "ab", s2z "12")] (s2z "ab=12") /\ vars_text [(s2z "ab", s2z "12")] (s2z "  ab  =12 ") /\
  predefined_var 40 (s2z "$ab/") 0 (s2z "  ab  =12 ") = Ret (0, s2z "12 /").
Proof.
  split; [apply vt_one; exists [], [], []; repeat (split; [reflexivity || constructor|]); constructor|].
  split; [|vm_compute; reflexivity].
  apply vt_one. exists [32; 32], [32; 32], [32]. split; [reflexivity|]. unfold blank.
  split; [repeat constructor|]. split; repeat (apply Forall_cons; [cbn [In]; lia|]); constructor.
Qed.

(* ---- C73: define takes the documented list of key:val ---- *)
(* What is taken is one name and its content with a space between.  Missing: the
   documented form, which is rejected in every line without a space. *)
Theorem C73_single_partial : forall fuel pre s name bl content,
  word name -> Forall blank bl -> (forall c r, content = c :: r -> ~ blank c) -> content <> name -> (length content <= length name)%nat ->
  boundary pre s -> (length s < fuel)%nat ->
  exists s', predefined_macro fuel (pre ++ s) (length pre) (name ++ 32 :: bl ++ content) = Ret (0, pre ++ s') /\
    macro name (filled name content) s s'.
Proof.
  intros fuel pre s name bl content W BL NB NE LE B FU.
  destruct (C49_define_partial fuel pre s name bl content W BL NB NE LE B FU) as (s' & H & M & _). exists s'. auto.
Qed.
Print Assumptions C73_single_partial.
Theorem C73_never : forall fuel t pos v, ~ In 32 v -> predefined_macro fuel t pos v = Ret (PEC_NOT_CLOSURE, t).
Proof.
  intros fuel t pos v N. unfold predefined_macro. rewrite (FileNameProofs.find_none 32 v N). reflexivity.
Qed.
Print Assumptions C73_never.
Example C73_never_ex : ~ In 32 (s2z "AA:1,BBBBB:0") /\ predefined_macro 40 (s2z "AA BBBBB") 0 (s2z "AA:1,BBBBB:0") = Ret (PEC_NOT_CLOSURE, s2z "AA BBBBB").
Proof. split; [intros H; vm_compute in H; intuition discriminate|vm_compute; reflexivity]. Qed.
Theorem C73_list_refuted : exists s1 s2,
  parse_logger 300 std_env 0 (ex_lines ["define: AA:1, BBBBB:0"; "channel: BBBBB"]%string) = Ret (PEC_DEFINED_TARGET_TOO_LONG, s1) /\
  parse_logger 300 std_env 0 (ex_lines ["define: NUM:0"; "channel: NUM"]%string) = Ret (PEC_NOT_CLOSURE, s2).
Proof. eexists. eexists. split; vm_compute; reflexivity. Qed.
Print Assumptions C73_list_refuted.

(* ---- C74: the shipped samples are accepted ---- *)
(* bin/log.yaml has four channels, two more than the library is built for. *)
Theorem C74_log_yaml_refuted : exists s, parse_logger (length log_yaml) std_env 0 log_yaml = Ret (E_INVALID_CHANNEL_SIZE, s) /\ s_no s = 29.
Proof. eexists. split; [vm_compute; reflexivity|reflexivity]. Qed.
Print Assumptions C74_log_yaml_refuted.
(* default_log.yaml defines a macro without content. *)
Theorem C74_default_refuted : exists s, parse_logger (length default_log_yaml) std_env 0 default_log_yaml = Ret (PEC_NOT_CLOSURE, s) /\ s_no s = 31.
Proof. eexists. split; [vm_compute; reflexivity|reflexivity]. Qed.
Print Assumptions C74_default_refuted.
