(* The fuel only decides whether the parser's result is known: two results agree. *)
From Coq Require Import String ZArith List Bool Lia ZifyBool ZifyNat ZifyN.
From Verif Require Import Base BaseFacts LoggerState FileName ParseVal Lexer ParseCfg ParseSpec ParseRefute.
Import ListNotations.
Open Scope Z_scope.

Definition more {A} (a b : outcome A) : Prop := a = Fuel \/ a = b.
Lemma more_refl : forall A (a : outcome A), more a a.
Proof. right. reflexivity. Qed.
Lemma more_bind : forall A B (a b : outcome A) (k k' : A -> outcome B), more a b -> (forall x, more (k x) (k' x)) -> more (bind a k) (bind b k').
Proof. intros A B a b k k' [-> | ->] K; [left; reflexivity|]. destruct b; cbn [bind]; [apply K|apply more_refl|apply more_refl]. Qed.

Lemma lex_loop_more : forall n m b cur l, (n <= m)%nat -> more (lex_loop n b cur l) (lex_loop m b cur l).
Proof.
  induction n as [|n IH]; intros m b cur l L; [left; reflexivity|]. destruct m as [|m]; [lia|]. cbn [lex_loop]. apply more_bind; [apply more_refl|].
  intros [c' l'|]; [apply IH; lia|apply more_refl].
Qed.
Lemma lex_more : forall n m b cur end_, (n <= m)%nat -> more (lex n b cur end_) (lex m b cur end_).
Proof. intros n m b cur end_ L. unfold lex. destruct (end_ <=? cur); [apply more_refl|apply lex_loop_more, L]. Qed.
Lemma lex_at_more : forall n m s, (n <= m)%nat -> more (lex_at n s) (lex_at m s).
Proof. intros n m s L. unfold lex_at. apply more_bind; [apply lex_more, L|]. intros [[[c cur] l] k]. apply more_refl. Qed.
Lemma inplace_loop_more : forall n m t pos key val p s, (n <= m)%nat -> more (inplace_loop n t pos key val p s) (inplace_loop m t pos key val p s).
Proof.
  induction n as [|n IH]; intros m t pos key val p s L; [left; reflexivity|]. destruct m as [|m]; [lia|]. cbn [inplace_loop].
  destruct (find_sub_from key t pos); [|apply more_refl]. destruct (_ && _); [apply IH; lia|]. destruct (_ && _); apply IH; lia.
Qed.
Lemma inplace_more : forall n m t pos key val p s, (n <= m)%nat -> more (inplace n t pos key val p s) (inplace m t pos key val p s).
Proof.
  intros n m t pos key val p s L. unfold inplace. destruct (_ <? _)%nat; [apply more_refl|]. cbv zeta. apply more_bind; [apply inplace_loop_more, L|]. intros x. apply more_refl.
Qed.
Lemma macro_more : forall n m t pos v, (n <= m)%nat -> more (predefined_macro n t pos v) (predefined_macro m t pos v).
Proof.
  intros n m t pos v L. unfold predefined_macro. destruct (find 32 v); [|apply more_refl]. cbv zeta. destruct (_ =? _); [apply more_refl|apply inplace_more, L].
Qed.
Lemma var_loop_more : forall n m, (n <= m)%nat -> forall rounds t pos v off, more (var_loop n rounds t pos v off) (var_loop m rounds t pos v off).
Proof.
  intros n m L. induction rounds as [|rounds IH]; intros t pos v off; [left; reflexivity|]. cbn [var_loop]. cbv zeta.
  destruct (_ <=? _)%nat; [apply more_refl|]. destruct (_ || _); [apply IH|]. destruct (find_from 61 v off); [|apply more_refl].
  destruct (_ <=? _)%nat; [apply more_refl|]. destruct (_ =? _); [apply more_refl|]. destruct (negb _); [apply more_refl|].
  apply more_bind; [apply inplace_more, L|]. intros [r t']. destruct (negb _); [apply more_refl|].
  apply more_bind; [apply inplace_more, L|]. intros [r' t'']. destruct (negb _); [apply more_refl|]. apply IH.
Qed.
Lemma var_more : forall n m t pos v, (n <= m)%nat -> more (predefined_var n t pos v) (predefined_var m t pos v).
Proof. intros. apply var_loop_more. assumption. Qed.
Lemma device_more : forall e indent n m s d, (n <= m)%nat -> more (parse_device n e s d indent) (parse_device m e s d indent).
Proof.
  intros e indent. induction n as [|n IH]; intros m s d L; [left; reflexivity|]. destruct m as [|m]; [lia|]. cbn [parse_device]. cbv zeta.
  apply more_bind; [apply lex_at_more; lia|]. intros [[ret s1] l]. destruct (negb _); [apply more_refl|].
  destruct (_ =? 0). { destruct (_ <=? _); [apply more_refl|]. destruct (_ <? _); [apply IH; lia|apply more_refl]. }
  destruct (_ <=? _); [apply more_refl|]. apply more_bind; [apply more_refl|]. intros [[v w] rest]. apply more_bind; [apply more_refl|]. intros [r d'].
  destruct (_ =? PEC_NONE); [destruct (_ <? _); [apply IH; lia|apply more_refl]|apply more_refl].
Qed.
Lemma channel_more : forall e indent n m s c, (n <= m)%nat -> more (parse_channel n e s c indent) (parse_channel m e s c indent).
Proof.
  intros e indent. induction n as [|n IH]; intros m s c L; [left; reflexivity|]. destruct m as [|m]; [lia|]. cbn [parse_channel]. cbv zeta.
  apply more_bind; [apply lex_at_more; lia|]. intros [[ret s1] l]. destruct (negb _); [apply more_refl|].
  destruct (_ =? 0). { destruct (_ <=? _); [apply more_refl|]. destruct (_ <? _); [apply IH; lia|apply more_refl]. }
  destruct (_ <=? _); [apply more_refl|]. apply more_bind; [apply more_refl|]. intros [[v w] rest]. destruct (_ =? RK_DEVICE).
  - apply more_bind; [apply more_refl|]. intros id. destruct (_ <=? _); [apply more_refl|]. destruct (negb _); [apply more_refl|].
    apply more_bind; [apply device_more; lia|]. intros [[r s2] d]. destruct (negb _); [apply more_refl|]. destruct (_ <? _); [apply IH; lia|apply more_refl].
  - apply more_bind; [apply more_refl|]. intros [r c']. destruct (_ =? PEC_NONE); [destruct (_ <? _); [apply IH; lia|apply more_refl]|apply more_refl].
Qed.
Lemma logger_line_more : forall e n m s, (n <= m)%nat -> more (logger_line n e s) (logger_line m e s).
Proof.
  intros e n m s L. unfold logger_line. cbv zeta. apply more_bind; [apply lex_at_more; lia|]. intros [[ret s1] l]. destruct (negb _); [apply more_refl|].
  destruct (_ =? 0); [apply more_refl|]. apply more_bind; [apply more_refl|]. intros [[v w] rest]. destruct (_ =? RK_HOT_UPDATE); [apply more_refl|].
  destruct (_ || _). { apply more_bind; [destruct (_ =? RK_DEFINE); [apply macro_more, L|apply var_more, L]|]. intros [r t]. apply more_refl. }
  destruct (_ =? RK_LOGGER_NAME); [apply more_refl|]. destruct (_ =? PK_LOGGER_DESC); [apply more_refl|]. destruct (_ =? RK_SHM_KEY); [apply more_refl|].
  destruct (_ =? RK_CHANNEL); [|apply more_refl]. apply more_bind; [apply more_refl|]. intros id. destruct (_ <=? _); [apply more_refl|]. destruct (negb _); [apply more_refl|].
  apply more_bind; [apply channel_more, L|]. intros [[r s2] c]. apply more_refl.
Qed.
Lemma logger_loop_more : forall e n m s, (n <= m)%nat -> more (logger_loop n e s) (logger_loop m e s).
Proof.
  intros e. induction n as [|n IH]; intros m s L; [left; reflexivity|]. destruct m as [|m]; [lia|]. cbn [logger_loop].
  apply more_bind; [apply logger_line_more; lia|]. intros [s'|c s']; [apply IH; lia|apply more_refl].
Qed.
Lemma more_ret : forall A (a b : outcome A) x, more a b -> a = Ret x -> b = Ret x.
Proof. intros A a b x [-> | ->] H; [discriminate H|exact H]. Qed.
Theorem parse_fuel : forall n m e shm t, (n <= m)%nat -> parse_logger n e shm t = Fuel \/ parse_logger n e shm t = parse_logger m e shm t.
Proof. intros n m e shm t L. unfold parse_logger. apply logger_loop_more, L. Qed.
Theorem parse_agree : forall n m e shm t r r', parse_logger n e shm t = Ret r -> parse_logger m e shm t = Ret r' -> r = r'.
Proof.
  intros n m e shm t r r' H1 H2. destruct (le_ge_dec n m) as [L|L].
  - destruct (parse_fuel n m e shm t L) as [E|E]; congruence.
  - destruct (parse_fuel m n e shm t L) as [E|E]; congruence.
Qed.

(* the course of the parser from a state of which the next round is known *)
Lemma reaches_from : forall n e s s1 s', logger_line n e s = Ret (Next s1) -> reaches e s s' -> s' = s \/ reaches e s1 s'.
Proof.
  intros n e s s1 s' H R. induction R as [|sa sb fuel R IH LL]; [left; reflexivity|]. right. destruct IH as [->|IH].
  - assert (sb = s1); [|subst; constructor]. destruct (le_ge_dec n fuel) as [L|L].
    + pose proof (more_ret _ _ _ _ (logger_line_more e n fuel s L) H) as E. rewrite E in LL. injection LL as ->. reflexivity.
    + pose proof (more_ret _ _ _ _ (logger_line_more e fuel n s L) LL) as E. rewrite H in E. injection E as ->. reflexivity.
  - econstructor; eassumption.
Qed.
Lemma reaches_stop : forall n e s c s1 s', logger_line n e s = Ret (Stop c s1) -> reaches e s s' -> s' = s.
Proof.
  intros n e s c s1 s' H R. induction R as [|sa sb fuel R IH LL]; [reflexivity|]. subst sa. destruct (le_ge_dec n fuel) as [L|L].
  - pose proof (more_ret _ _ _ _ (logger_line_more e n fuel s L) H) as E. rewrite E in LL. discriminate LL.
  - pose proof (more_ret _ _ _ _ (logger_line_more e fuel n s L) LL) as E. rewrite H in E. discriminate E.
Qed.
Lemma not_self : forall n s s1 l, lex_at n s = Ret (0, s1, l) -> l_key l <> RK_DEFINE -> l_key l <> RK_VARIABLE -> ~ self_line s.
Proof.
  intros n s s1 l H D V (fuel & s2 & l2 & v & w & rest & LX & _ & K). assert (l2 = l) as ->; [|destruct K as [[K _]|[K _]]; contradiction].
  destruct (le_ge_dec n fuel) as [L|L].
  - rewrite (more_ret _ _ _ _ (lex_at_more n fuel s L) H) in LX. congruence.
  - rewrite (more_ret _ _ _ _ (lex_at_more fuel n s L) LX) in H. congruence.
Qed.
Lemma lex_at_agree : forall n m s r r', lex_at n s = Ret r -> lex_at m s = Ret r' -> r = r'.
Proof.
  intros n m s r r' H1 H2. destruct (le_ge_dec n m) as [L|L].
  - pose proof (more_ret _ _ _ _ (lex_at_more n m s L) H1). congruence.
  - pose proof (more_ret _ _ _ _ (lex_at_more m n s L) H2). congruence.
Qed.
Lemma not_self_macro : forall n s s1 l v w rest, lex_at n s = Ret (0, s1, l) -> line_val (buf s1) l = Ret (v, w, rest) -> l_key l = RK_DEFINE -> ~ self_macro v -> ~ self_line s.
Proof.
  intros n s s1 l v w rest H V K NS (fuel & s2 & l2 & v2 & w2 & rest2 & LX & LV & C). pose proof (lex_at_agree _ _ _ _ _ H LX) as E. injection E as <- <-.
  rewrite V in LV. injection LV as <- <- <-. destruct C as [[_ C]|[C _]]; [contradiction|]. rewrite K in C. discriminate C.
Qed.
Lemma not_self_var : forall n s s1 l v w rest, lex_at n s = Ret (0, s1, l) -> line_val (buf s1) l = Ret (v, w, rest) -> l_key l = RK_VARIABLE -> ~ self_var v -> ~ self_line s.
Proof.
  intros n s s1 l v w rest H V K NS (fuel & s2 & l2 & v2 & w2 & rest2 & LX & LV & C). pose proof (lex_at_agree _ _ _ _ _ H LX) as E. injection E as <- <-.
  rewrite V in LV. injection LV as <- <- <-. destruct C as [[C _]|[_ C]]; [|contradiction]. rewrite K in C. discriminate C.
Qed.
