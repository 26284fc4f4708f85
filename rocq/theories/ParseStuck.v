(* Configurations whose parsing does not end (C42). *)
From Coq Require Import String ZArith List Bool Lia ZifyBool ZifyNat ZifyN.
From Verif Require Import Base BaseFacts LoggerState FileName ParseVal Lexer ParseCfg ParseSpec TextSpec SubstSpec SubstSelf ParseMono.
Import ListNotations.
Open Scope Z_scope.

Definition stuck (e : penv) (s : lstate) : Prop := forall fuel, logger_loop fuel e s = Fuel.
Lemma stuck_back : forall e f s1 s2, logger_line f e s1 = Ret (Next s2) -> stuck e s2 -> stuck e s1.
Proof.
  intros e f s1 s2 L S [|fuel]; [reflexivity|]. cbn [logger_loop]. destruct (logger_line_more e fuel (fuel + f) s1 ltac:(lia)) as [E|E]; rewrite E; [reflexivity|].
  rewrite (more_ret _ _ _ _ (logger_line_more e f (fuel + f) s1 ltac:(lia)) L). cbn [bind]. apply S.
Qed.
Lemma stuck_from : forall e s s', reaches e s s' -> stuck e s' -> stuck e s.
Proof. intros e s s' R. induction R as [|s1 s2 f R IH L]; intros S; [exact S|]. apply IH. eapply stuck_back; eassumption. Qed.
Lemma line_stuck : forall e n s s1 l v w r, lex_at n s = Ret (0, s1, l) -> l_ke l <> l_kb l -> line_val (buf s1) l = Ret (v, w, r) ->
  (l_key l = RK_DEFINE /\ (forall fuel, predefined_macro fuel (s_text s1) (Z.to_nat (l_ve l)) v = Fuel)) \/
  (l_key l = RK_VARIABLE /\ (forall fuel, predefined_var fuel (s_text s1) (Z.to_nat (l_ve l)) v = Fuel)) -> stuck e s.
Proof.
  intros e n s s1 l v w r LX K LV H [|fuel]; [reflexivity|]. cbn [logger_loop].
  assert (F : logger_line fuel e s = Fuel); [|rewrite F; reflexivity].
  unfold logger_line. cbv zeta. destruct (lex_at_more fuel (fuel + n) s ltac:(lia)) as [E|E]; rewrite E; [reflexivity|].
  rewrite (more_ret _ _ _ _ (lex_at_more n (fuel + n) s ltac:(lia)) LX). cbn [bind]. change (negb (0 =? PEC_NONE)) with false. cbv iota.
  replace (l_ke l - l_kb l =? 0) with false by lia. rewrite LV. cbn [bind].
  destruct H as [[-> H]|[-> H]].
  - change (RK_DEFINE =? RK_HOT_UPDATE) with false. change (RK_DEFINE =? RK_DEFINE) with true. cbn [orb]. rewrite H. reflexivity.
  - change (RK_VARIABLE =? RK_HOT_UPDATE) with false. change (RK_VARIABLE =? RK_DEFINE) with false. change (RK_VARIABLE =? RK_VARIABLE) with true. cbn [orb]. rewrite H. reflexivity.
Qed.
Lemma parse_stuck : forall e shm t s, has_bom t = false -> reaches e (start shm t) s -> stuck e s -> forall fuel, parse_logger fuel e shm t = Fuel.
Proof. intros e shm t s B R S fuel. unfold parse_logger. rewrite B. exact (stuck_from e _ _ R S fuel). Qed.
Lemma define_stuck : forall e shm t n s s1 l name bl w r pre rest, has_bom t = false -> reaches e (start shm t) s ->
  lex_at n s = Ret (0, s1, l) -> l_ke l <> l_kb l -> l_key l = RK_DEFINE -> line_val (buf s1) l = Ret (name ++ 32 :: bl ++ name, w, r) ->
  word name -> Forall blank bl -> s_text s1 = pre ++ rest -> length pre = Z.to_nat (l_ve l) -> boundary pre rest -> whole name rest ->
  forall fuel, parse_logger fuel e shm t = Fuel.
Proof.
  intros e shm t n s s1 l name bl w r pre rest B R LX K KD LV W BL T P BO WH. apply (parse_stuck e shm t s B R). eapply line_stuck; [exact LX|exact K|exact LV|]. left. split; [exact KD|].
  intros fuel. rewrite T, <- P. apply (self_macro pre rest name bl W BL BO). exact WH.
Qed.
Lemma var_in_fun : forall k v b s s1, k <> [] -> var_in k v b s s1 -> forall s2, var_in k v b s s2 -> s1 = s2.
Proof.
  intros k v b s s1 K V. induction V as [|c s s' NH V IH|s s' H V IH]; intros s2 V2.
  - remember [] as u eqn:U in V2. destruct V2; [reflexivity|discriminate U|]. apply app_eq_nil in U. destruct U; contradiction.
  - remember (c :: s) as u eqn:U in V2. destruct V2 as [|c0 u u' NH2 V2|u u' H2 V2]; [discriminate U| |].
    + injection U as -> ->. f_equal. apply IH. exact V2.
    + exfalso. apply NH. rewrite <- U. exact H2.
  - remember (k ++ s) as u eqn:U in V2. destruct V2 as [|c0 u u' NH2 V2|u u' H2 V2].
    + symmetry in U. apply app_eq_nil in U. destruct U; contradiction.
    + exfalso. apply NH2. rewrite U. exact H.
    + apply app_inv_head in U. subst u. f_equal. apply IH. exact V2.
Qed.
Lemma var_stuck : forall e shm t n s s1 l x v w r pre rest rest1, has_bom t = false -> reaches e (start shm t) s ->
  lex_at n s = Ret (0, s1, l) -> l_ke l <> l_kb l -> l_key l = RK_VARIABLE -> line_val (buf s1) l = Ret (v, w, r) ->
  var_name x -> item_text x (dollar x) v -> s_text s1 = pre ++ rest -> length pre = Z.to_nat (l_ve l) ->
  var_in (braced x) (filled (braced x) (dollar x)) false rest rest1 -> ending (dollar x) rest1 ->
  forall fuel, parse_logger fuel e shm t = Fuel.
Proof.
  intros e shm t n s s1 l x v w r pre rest rest1 B R LX K KD LV X I T P VI EN. apply (parse_stuck e shm t s B R). eapply line_stuck; [exact LX|exact K|exact LV|]. right. split; [exact KD|].
  intros fuel. rewrite T, <- P. destruct (self_var pre rest x v X I) as (s1' & VI' & H & _). apply H. assert (NE : braced x <> []) by discriminate. rewrite <- (var_in_fun _ _ _ _ _ NE VI _ VI'). exact EN.
Qed.
