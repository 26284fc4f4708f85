(* Runs of the configuration parser that never end, and other concrete runs. *)
From Coq Require Import String ZArith List Bool Lia ZifyBool ZifyNat ZifyN.
From Verif Require Import Base BaseFacts LoggerState FileName ParseVal Lexer ParseCfg LexProofs ParseSafe ParseSpec ParseInv.
Import ListNotations.
Open Scope Z_scope.

(* ---- a NUL ends no text ---- *)
(* at a NUL before the end the lexer returns without moving *)
Lemma lex_nul : forall fuel b cur end_, rd b cur = Ret 0 -> cur < end_ ->
  lex (S fuel) b cur end_ = Ret (0, cur, mkLine 0 1 BNone 0 RK_NULL (-1) (-1) (-1) (-1), 1).
Proof.
  intros fuel b cur end_ R L. unfold lex. replace (end_ <=? cur) with false by lia. cbn [lex_loop]. unfold lex_step. rewrite R. cbn [bind].
  unfold line0. cbn [l_block l_blank l_chars l_stack l_key l_kb l_ke l_vb l_ve]. change (is_soft 0) with true. cbv iota.
  unfold lex_end. cbv zeta. cbn [l_block l_ve l_vb]. change (Z.to_nat (-1 - -1)) with O. cbn [trim]. change (-1 <=? -1) with true. cbv iota. cbn [bind].
  change ((0 =? 13) || (0 =? 10)) with false. cbv iota. change (0 =? 0) with true. cbv iota. unfold set_val. cbn [l_block l_blank l_chars l_stack l_key l_kb l_ke l_vb l_ve].
  replace (cur + 1 - 1) with cur by lia. reflexivity.
Qed.
Lemma nul_loops : forall fuel e t cur end_ no chs shm hot name desc, rd (t ++ [0]) cur = Ret 0 -> cur < end_ ->
  logger_loop fuel e (mkLs t cur end_ no chs shm hot name desc) = Fuel.
Proof.
  induction fuel as [|fuel IH]; intros e t cur end_ no chs shm hot name desc R L; [reflexivity|]. cbn [logger_loop].
  assert (LL : logger_line fuel e (mkLs t cur end_ no chs shm hot name desc) = Fuel \/
               logger_line fuel e (mkLs t cur end_ no chs shm hot name desc) = Ret (Next (mkLs t cur end_ (no + 1) chs shm hot name desc))).
  { unfold logger_line. cbv zeta. unfold lex_at, buf. cbn [s_text s_cur s_end s_no]. destruct fuel as [|fuel].
    - left. unfold lex. replace (end_ <=? cur) with false by lia. reflexivity.
    - right. rewrite (lex_nul fuel _ _ _ R L). unfold set_cur. cbn [bind s_cur s_text s_end s_no s_chs s_shm s_hot s_name s_desc l_ke l_kb]. change (negb (0 =? PEC_NONE)) with false. cbv iota.
      change (-1 - -1 =? 0) with true. cbv iota. replace (end_ <=? cur) with false by lia. unfold again. cbn [s_cur s_end]. replace (cur <? end_) with true by lia. reflexivity. }
  destruct LL as [-> | ->]; [reflexivity|]. cbn [bind]. apply IH; assumption.
Qed.

(* ---- more fuel gives the same ---- *)
Lemma lex_loop_mono : forall n m b cur l r, lex_loop n b cur l = Ret r -> (n <= m)%nat -> lex_loop m b cur l = Ret r.
Proof.
  induction n as [|n IH]; intros m b cur l r H L; [discriminate H|]. destruct m as [|m]; [lia|]. cbn [lex_loop] in *.
  destruct (lex_step b cur l) as [x| |]; cbn [bind] in *; try discriminate H. destruct x as [c' l'|]; [|exact H]. apply IH; [exact H|lia].
Qed.
Lemma lex_mono : forall n m b cur end_ r, lex n b cur end_ = Ret r -> (n <= m)%nat -> lex m b cur end_ = Ret r.
Proof. intros n m b cur end_ r H L. unfold lex in *. destruct (end_ <=? cur); [exact H|]. eapply lex_loop_mono; eassumption. Qed.
Lemma lex_at_mono : forall n m s r, lex_at n s = Ret r -> (n <= m)%nat -> lex_at m s = Ret r.
Proof.
  intros n m s r H L. unfold lex_at in *. destruct (lex n _ _ _) as [x| |] eqn:E; cbn [bind] in H; try discriminate H. rewrite (lex_mono _ _ _ _ _ _ E L). exact H.
Qed.

(* ---- a macro that stands for itself ---- *)
Lemma inplace_stuck : forall fuel t p key val pre suf, find_sub_from key t p = Some p -> pre && negb (p =? 0)%nat && is_name (nth (p - 1) t 0) = false ->
  suf && negb (p + length val =? length t)%nat && is_name (nth (p + length val) t 0) = false -> replace t p (length val) val = t ->
  inplace_loop fuel t p key val pre suf = Fuel.
Proof. induction fuel as [|fuel IH]; intros t p key val pre suf F A B R; [reflexivity|]. cbn [inplace_loop]. rewrite F, A, B, R. apply IH; assumption. Qed.
Definition self_text : text := s2z "define: X X" ++ [10; 88].
Lemma self_macro_loops : forall fuel e shm, parse_logger fuel e shm self_text = Fuel.
Proof.
  intros fuel e shm. unfold parse_logger. change (has_bom self_text) with false. cbv zeta iota. destruct fuel as [|fuel]; [reflexivity|]. cbn [logger_loop].
  set (s0 := mkLs self_text 0 (0 + zlen self_text) 1 [] shm false [] []).
  assert (F : logger_line fuel e s0 = Fuel); [|rewrite F; reflexivity].
  destruct (le_lt_dec 12 fuel) as [G|G].
  - unfold logger_line. cbv zeta.
    assert (LX : lex_at 12 s0 = Ret (0, set_cur s0 12 2, mkLine 0 12 BClean 0 RK_DEFINE 0 6 8 11)) by (vm_compute; reflexivity).
    rewrite (lex_at_mono 12 fuel s0 _ LX G). cbn [bind]. change (negb (0 =? PEC_NONE)) with false. cbv iota. cbn [l_ke l_kb]. change (6 - 0 =? 0) with false. cbv iota.
    assert (LV : line_val (buf (set_cur s0 12 2)) (mkLine 0 12 BClean 0 RK_DEFINE 0 6 8 11) = Ret (s2z "X X", s2z "X X" ++ [10; 88; 0], [10; 88; 0])) by (vm_compute; reflexivity).
    rewrite LV. cbn [bind l_key]. change (RK_DEFINE =? RK_HOT_UPDATE) with false. change (RK_DEFINE =? RK_DEFINE) with true. cbn [orb l_ve].
    assert (PM : predefined_macro fuel (s_text (set_cur s0 12 2)) (Z.to_nat 11) (s2z "X X") = Fuel); [|rewrite PM; reflexivity].
    change (predefined_macro fuel (s_text (set_cur s0 12 2)) (Z.to_nat 11) (s2z "X X")) with (inplace fuel self_text 11%nat [88] [88] true true).
    unfold inplace. change (length [88] <? length [88])%nat with false. cbv iota zeta. change ([88] ++ repeat 32 (length [88] - length [88])) with [88].
    assert (IL : inplace_loop fuel self_text 11 [88] [88] true true = Fuel); [|rewrite IL; reflexivity].
    destruct fuel as [|fuel]; [lia|]. cbn [inplace_loop]. change (find_sub_from [88] self_text 11) with (Some 12%nat). cbv iota.
    change (true && negb (12 =? 0)%nat && is_name (nth (12 - 1) self_text 0)) with false. cbv iota.
    change (true && negb (12 + length [88] =? length self_text)%nat && is_name (nth (12 + length [88]) self_text 0)) with false. cbv iota.
    change (replace self_text 12 (length [88]) [88]) with self_text. apply inplace_stuck; reflexivity.
  - do 12 (destruct fuel as [|fuel]; [vm_compute; reflexivity|]). lia.
Qed.
