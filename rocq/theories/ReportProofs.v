(* Where the parser stands when it rejects a configuration, and what is printed. *)
From Coq Require Import String ZArith List Bool Lia ZifyBool ZifyNat ZifyN.
From Verif Require Import Base BaseFacts NumSpec LoggerState FileName FileNameProofs ParseVal Lexer ParseCfg LexProofs ParseSafe Report ReportSpec.
Import ListNotations.
Open Scope Z_scope.

(* ---- one character ---- *)
Lemma lex_step_cases : forall b cur l r, lex_step b cur l = Ret r -> exists ch, rd b cur = Ret ch /\
  match r with
  | More _ _ => is_bound ch = false
  | Done code cur' _ n =>
      (code = 0 /\ n = 1 /\ (ch = 0 /\ cur' = cur \/
         (ch = 13 \/ ch = 10) /\ exists nx, rd b (cur + 1) = Ret nx /\
           cur' = if ((nx =? 13) || (nx =? 10)) && negb (nx =? ch) then cur + 2 else cur + 1)) \/
      (In code [22; 23; 26] /\ n = 0)
  end.
Proof.
  intros b cur l r H. unfold lex_step in H. destruct (rd b cur) as [ch| |] eqn:R; cbn [bind] in H; try discriminate. exists ch. split; [reflexivity|].
  assert (EN : forall l, lex_end b ch (cur + 1) l = Ret r -> match r with
    | More _ _ => is_bound ch = false
    | Done code cur' _ n => (code = 0 /\ n = 1 /\ (ch = 0 /\ cur' = cur \/ (ch = 13 \/ ch = 10) /\ exists nx, rd b (cur + 1) = Ret nx /\
           cur' = if ((nx =? 13) || (nx =? 10)) && negb (nx =? ch) then cur + 2 else cur + 1)) \/ (In code [22; 23; 26] /\ n = 0) end).
  { clear H l. intros l H. unfold lex_end in H.
    assert (CL : forall l, (let! ve := trim (Z.to_nat (l_ve l - l_vb l)) b (l_vb l) (l_ve l) in
      if (ch =? 13) || (ch =? 10) then
        let! nx := rd b (cur + 1) in
        Ret (Done PEC_NONE (if ((nx =? 13) || (nx =? 10)) && negb (nx =? ch) then cur + 1 + 1 else cur + 1) (set_val l (l_block l) (l_vb l) ve) 1)
      else if ch =? 0 then Ret (Done PEC_NONE (cur + 1 - 1) (set_val l (l_block l) (l_vb l) ve) 1)
      else Ret (More (cur + 1) (set_block (set_val l (l_block l) (l_vb l) ve) BClean))) = Ret r -> match r with
    | More _ _ => is_bound ch = false
    | Done code cur' _ n => (code = 0 /\ n = 1 /\ (ch = 0 /\ cur' = cur \/ (ch = 13 \/ ch = 10) /\ exists nx, rd b (cur + 1) = Ret nx /\
           cur' = if ((nx =? 13) || (nx =? 10)) && negb (nx =? ch) then cur + 2 else cur + 1)) \/ (In code [22; 23; 26] /\ n = 0) end).
    { clear H l. intros l H. destruct (trim _ b _ _); cbn [bind] in H; try discriminate. destruct ((ch =? 13) || (ch =? 10)) eqn:NL.
      - destruct (rd b (cur + 1)) as [nx| |]; cbn [bind] in H; try discriminate. injection H as <-. left. split; [reflexivity|]. split; [reflexivity|].
        right. split; [lia|]. exists nx. split; [reflexivity|]. destruct (_ && _); lia.
      - destruct (ch =? 0) eqn:Z0; injection H as <-; [left; repeat split; left; lia|]. unfold is_bound. lia. }
    cbv zeta in H. destruct (l_block l) eqn:BL.
    - specialize (CL l). rewrite BL in CL. exact (CL H).
    - injection H as <-. right. cbn. auto.
    - injection H as <-. right. cbn. auto.
    - exact (CL _ H).
    - destruct (negb _); [injection H as <-; right; cbn; auto|]. exact (CL _ H).
    - specialize (CL l). rewrite BL in CL. exact (CL H). }
  assert (PS : forall l, lex_pre_sep ch (cur + 1) l = r -> is_bound ch = false -> match r with
    | More _ _ => is_bound ch = false
    | Done code cur' _ n => (code = 0 /\ n = 1 /\ (ch = 0 /\ cur' = cur \/ (ch = 13 \/ ch = 10) /\ exists nx, rd b (cur + 1) = Ret nx /\
           cur' = if ((nx =? 13) || (nx =? 10)) && negb (nx =? ch) then cur + 2 else cur + 1)) \/ (In code [22; 23; 26] /\ n = 0) end).
  { clear H l. intros l H B. unfold lex_pre_sep in H. destruct (ch =? 58); [subst r; exact B|]. destruct (_ || _); subst r; [exact B|]. right. cbn. auto. }
  assert (KE : forall l, lex_key b ch (cur + 1) l = Ret r -> is_bound ch = false -> match r with
    | More _ _ => is_bound ch = false
    | Done code cur' _ n => (code = 0 /\ n = 1 /\ (ch = 0 /\ cur' = cur \/ (ch = 13 \/ ch = 10) /\ exists nx, rd b (cur + 1) = Ret nx /\
           cur' = if ((nx =? 13) || (nx =? 10)) && negb (nx =? ch) then cur + 2 else cur + 1)) \/ (In code [22; 23; 26] /\ n = 0) end).
  { clear H l. intros l H B. unfold lex_key in H. destruct (_ || _); [injection H as <-; exact B|].
    destruct (sub b _ _); cbn [bind] in H; try discriminate. destruct (parse_reserve _); cbn [bind] in H; try discriminate.
    destruct (_ =? RK_NULL); injection H as <-; [right; cbn; auto|]. exact (PS _ eq_refl B). }
  assert (LV : forall l, lex_val ch (cur + 1) l = r -> is_bound ch = false -> match r with
    | More _ _ => is_bound ch = false
    | Done _ _ _ _ => False end).
  { clear H l. intros l H B. unfold lex_val in H. destruct (_ && _); [subst r; exact B|]. destruct (_ && _); subst r; exact B. }
  assert (SB : is_soft ch = false -> is_bound ch = false) by (unfold is_soft, is_bound; lia).
  match type of H with context [mkLine ?a ?b0 ?c ?d ?f ?g ?h ?i ?j] => set (l1 := mkLine a b0 c d f g h i j) in H end.
  destruct (l_block l1) eqn:B.
  - destruct (is_soft ch) eqn:S0; [exact (EN _ H)|]. specialize (SB eq_refl). unfold lex_none in H. destruct (is_blank ch); [injection H as <-; exact SB|].
    destruct (ch =? 45); [injection H as <-; exact SB|]. destruct (is_lower ch); cbn [negb] in H; [exact (KE _ H SB)|]. injection H as <-. right. cbn. auto.
  - destruct (is_soft ch) eqn:S0; [exact (EN _ H)|]. exact (KE _ H (SB eq_refl)).
  - destruct (is_soft ch) eqn:S0; [exact (EN _ H)|]. injection H as H. exact (PS _ H (SB eq_refl)).
  - destruct (is_soft ch) eqn:S0; [exact (EN _ H)|]. specialize (SB eq_refl). injection H as H. unfold lex_pre_val in H.
    destruct (is_blank ch); [subst r; exact SB|]. destruct (ch =? 34); [subst r; exact SB|]. destruct (ch =? 91); [subst r; exact SB|]. destruct (ch =? 123); [subst r; exact SB|].
    assert (J := LV _ H SB). destruct r; [exact J|contradiction].
  - destruct (is_soft ch) eqn:S0; [exact (EN _ H)|]. injection H as H. assert (J := LV _ H (SB eq_refl)). destruct r; [exact J|contradiction].
  - destruct (is_bound ch) eqn:S0; cbn [negb] in H; [exact (EN _ H)|]. injection H as <-. reflexivity.
Qed.

(* ---- one line ---- *)
Lemma lex_loop_line : forall fuel u a c0 l code cur' l' n, 0 <= c0 <= zlen a -> linv c0 (zlen a) l -> ~ In 0 u ->
  lex_loop fuel ((a ++ u) ++ [0]) (zlen a) l = Ret (code, cur', l', n) ->
  (In code [22; 23; 26] /\ n = 0) \/
  (code = 0 /\ n = 1 /\ exists x y, u = x ++ y /\ no_nl x /\ line_ok c0 (zlen (a ++ x)) l' /\
     (y = [] /\ cur' = zlen (a ++ x) \/ exists e r, y = e ++ r /\ newline e r /\ cur' = zlen (a ++ x ++ e))).
Proof.
  induction fuel as [|fuel IH]; intros u a c0 l code cur' l' n C LI N H; [discriminate H|]. cbn [lex_loop] in H.
  destruct (lex_step_ok (a ++ u) c0 (zlen a) l C) as (r & R & SO & _); [rewrite zlen_app; pose proof (zlen_nonneg _ u); lia|exact LI|].
  rewrite R in H. cbn [bind] in H. destruct (lex_step_cases _ _ _ _ R) as (ch & RC & K).
  destruct r as [c1 l1|code1 c1 l1 n1]; cbn [step_ok] in SO.
  - destruct SO as (-> & _ & L1). destruct u as [|ch' u].
    { rewrite app_nil_r in RC. rewrite rd_app_r in RC by lia. rewrite Z.sub_diag in RC. injection RC as <-. discriminate K. }
    rewrite <- app_assoc in RC. cbn [app] in RC. rewrite (rd_app_mid _ a (u ++ [0]) ch' _ eq_refl) in RC. injection RC as ->.
    replace (a ++ ch :: u) with ((a ++ [ch]) ++ u) in H by (rewrite <- app_assoc; reflexivity).
    assert (ZA : zlen a + 1 = zlen (a ++ [ch])) by (rewrite zlen_app; reflexivity). rewrite ZA in H, L1.
    destruct (IH u (a ++ [ch]) c0 l1 code cur' l' n) as [D|(D1 & D2 & x & y & D3 & D4 & D5 & D6)]; [lia|exact L1|intros I; apply N; right; exact I|exact H|left; exact D|].
    right. split; [exact D1|]. split; [exact D2|]. exists (ch :: x), y. split; [subst u; reflexivity|].
    split; [constructor; [unfold is_bound in K; lia|exact D4]|]. rewrite <- app_assoc in D5. split; [exact D5|].
    destruct D6 as [[D6 D7]|(e & r & D6 & D7 & D8)]; [left; split; [exact D6|rewrite <- app_assoc in D7; exact D7]|].
    right. exists e, r. split; [exact D6|]. split; [exact D7|]. rewrite <- app_assoc in D8. exact D8.
  - injection H as <- <- <- <-. destruct K as [(-> & -> & K)|K]; [|left; exact K]. right. split; [reflexivity|]. split; [reflexivity|].
    destruct SO as [S1 S2]. destruct (S2 eq_refl) as (_ & S3 & _).
    exists [], u. split; [reflexivity|]. split; [constructor|]. rewrite app_nil_r. split; [exact S3|]. cbn [app].
    destruct K as [[-> ->]|(CH & nx & RN & ->)].
    + left. split; [|reflexivity]. destruct u as [|c u]; [reflexivity|]. exfalso. rewrite <- app_assoc in RC. cbn [app] in RC.
      rewrite (rd_app_mid _ a (u ++ [0]) c _ eq_refl) in RC. injection RC as ->. apply N. left. reflexivity.
    + right. destruct u as [|c u]. { rewrite app_nil_r, rd_app_r, Z.sub_diag in RC by lia. injection RC as <-. lia. }
      rewrite <- app_assoc in RC, RN. cbn [app] in RC, RN. rewrite (rd_app_mid _ a (u ++ [0]) c _ eq_refl) in RC. injection RC as ->.
      assert (NX : nx = hd 0 (u ++ [0])).
      { rewrite rd_app_r in RN by lia. replace (zlen a + 1 - zlen a) with 1 in RN by lia. destruct u; injection RN as <-; reflexivity. }
      destruct (((nx =? 13) || (nx =? 10)) && negb (nx =? ch)) eqn:P.
      * destruct u as [|c2 u]; cbn [app hd] in NX; subst nx; [exfalso; lia|]. exists [ch; c2], u. split; [reflexivity|]. split; [|rewrite zlen_app; reflexivity].
        destruct CH as [-> | ->]; [replace c2 with 10 by lia|replace c2 with 13 by lia]; constructor.
      * exists [ch], u. split; [reflexivity|]. split; [|rewrite zlen_app; reflexivity].
        assert (hd 0 u = nx \/ u = []) by (destruct u; cbn [app hd] in *; auto).
        destruct CH as [-> | ->]; constructor; destruct H as [H|H]; subst u || rewrite H; cbn [hd]; lia.
Qed.

(* ---- the shape of a text: its newlines and NULs ---- *)
Definition shape (c : Z) : Z := if c =? 10 then 10 else if c =? 13 then 13 else if c =? 0 then 0 else 1.
Definition shaped (t t' : text) : Prop := map shape t = map shape t'.
Lemma shaped_len : forall t t', shaped t t' -> zlen t = zlen t'.
Proof. intros t t' H. apply (f_equal (@length Z)) in H. rewrite !map_length in H. unfold zlen. lia. Qed.
Lemma shaped_nul : forall t t', shaped t t' -> ~ In 0 t -> ~ In 0 t'.
Proof.
  intros t t' H N I. apply N. apply (in_map shape) in I. rewrite <- H in I. change (shape 0) with 0 in I. apply in_map_iff in I.
  destruct I as (c & C & I). unfold shape in C. destruct (c =? 10); [discriminate|]. destruct (c =? 13); [discriminate|]. destruct (c =? 0) eqn:E; [|discriminate].
  replace 0 with c by lia. exact I.
Qed.
Lemma shaped_nl : forall x x', shaped x x' -> no_nl x -> no_nl x'.
Proof.
  induction x as [|c x IH]; intros [|c' x'] H N; try discriminate; [constructor|]. injection H as H1 H2. inversion N; subst. constructor; [|apply IH; assumption].
  unfold shape in H1. destruct (c =? 10) eqn:E1; [lia|]. destruct (c =? 13) eqn:E2; [lia|].
  destruct (c' =? 10) eqn:E3; [destruct (c =? 0); discriminate|]. destruct (c' =? 13) eqn:E4; [destruct (c =? 0); discriminate|]. lia.
Qed.
Lemma shape_10 : forall c, shape c = 10 -> c = 10.
Proof. intros c H. unfold shape in H. destruct (c =? 10) eqn:E1; [lia|]. destruct (c =? 13); [discriminate|]. destruct (c =? 0); discriminate. Qed.
Lemma shape_13 : forall c, shape c = 13 -> c = 13.
Proof. intros c H. unfold shape in H. destruct (c =? 10); [discriminate|]. destruct (c =? 13) eqn:E; [lia|]. destruct (c =? 0); discriminate. Qed.
Lemma shaped_newline : forall e r e' r', shaped e e' -> shaped r r' -> newline e r -> newline e' r'.
Proof.
  intros e r e' r' E R N. unfold shaped in *.
  assert (HD : forall k, (k = 10 \/ k = 13) -> hd 0 r <> k -> hd 0 r' <> k).
  { intros k K H Q. apply H. destruct r as [|c r], r' as [|c' r']; try discriminate; cbn [hd map] in *; [exact Q|]. injection R as R1 _. subst c'.
    destruct K as [-> | ->]; [apply shape_10|apply shape_13]; exact R1. }
  inversion N; subst; clear N; cbn [map] in E.
  - destruct e' as [|a [|b [|c e']]]; try discriminate. injection E as E1 E2. symmetry in E1, E2. apply shape_13 in E1. apply shape_10 in E2. subst. constructor.
  - destruct e' as [|a [|b [|c e']]]; try discriminate. injection E as E1 E2. symmetry in E1, E2. apply shape_10 in E1. apply shape_13 in E2. subst. constructor.
  - destruct e' as [|a [|b e']]; try discriminate. injection E as E1. symmetry in E1. apply shape_10 in E1. subst. constructor. apply HD; auto.
  - destruct e' as [|a [|b e']]; try discriminate. injection E as E1. symmetry in E1. apply shape_13 in E1. subst. constructor. apply HD; auto.
Qed.
Lemma shaped_app : forall a b t', shaped (a ++ b) t' -> exists a' b', t' = a' ++ b' /\ shaped a a' /\ shaped b b'.
Proof.
  intros a b t' H. unfold shaped in *. rewrite map_app in H. symmetry in H. apply map_eq_app in H. destruct H as (a' & b' & -> & A & B).
  exists a', b'. auto.
Qed.
Lemma shaped_line_to : forall t t' p q, shaped t t' -> line_to t p q -> line_to t' p q.
Proof.
  intros t t' p q S (a & x & e & r & -> & -> & NX & NL & ->).
  destruct (shaped_app _ _ _ S) as (a' & u & -> & SA & S1). destruct (shaped_app _ _ _ S1) as (x' & v & -> & SX & S2). destruct (shaped_app _ _ _ S2) as (e' & r' & -> & SE & SR).
  exists a', x', e', r'. split; [reflexivity|]. split; [apply shaped_len; exact SA|]. split; [exact (shaped_nl _ _ SX NX)|]. split; [exact (shaped_newline _ _ _ _ SE SR NL)|].
  rewrite !zlen_app. rewrite (shaped_len _ _ SA), (shaped_len _ _ SX), (shaped_len _ _ SE). reflexivity.
Qed.
Lemma shaped_last : forall t t' p, shaped t t' -> last_line t p -> last_line t' p.
Proof.
  intros t t' p S (a & x & -> & -> & NX). destruct (shaped_app _ _ _ S) as (a' & x' & -> & SA & SX).
  exists a', x'. split; [reflexivity|]. split; [apply shaped_len; exact SA|exact (shaped_nl _ _ SX NX)].
Qed.

(* ---- substitution keeps the shape ---- *)
Definition flat (v : text) : Prop := Forall (fun c => shape c = 1) v.
Lemma flat_map : forall v, flat v -> map shape v = repeat 1 (length v).
Proof. induction v as [|c v IH]; intros F; [reflexivity|]. inversion F; subst. cbn [map repeat length]. rewrite IH by assumption. congruence. Qed.
Lemma flat_in : forall v w, flat v -> (forall c, In c w -> In c v) -> flat w.
Proof. intros v w F H. unfold flat in *. rewrite Forall_forall in *. auto. Qed.
Lemma inplace_loop_shape : forall key val pb sb fuel t pos t', length val = length key -> flat key -> flat val ->
  inplace_loop fuel t pos key val pb sb = Ret t' -> shaped t' t.
Proof.
  intros key val pb sb. induction fuel as [|fuel IH]; intros t pos t' L FK FV H; [discriminate H|]. cbn [inplace_loop] in H.
  destruct (find_sub_from key t pos) as [p|] eqn:F; [|injection H as <-; reflexivity].
  destruct (pb && _ && _); [exact (IH _ _ _ L FK FV H)|]. destruct (sb && _ && _); [exact (IH _ _ _ L FK FV H)|].
  destruct (find_from_some _ _ _ _ F) as (_ & (r & R) & P2 & _). unfold shaped. rewrite (IH _ _ _ L FK FV H).
  rewrite (replace_good t p key val r R P2 L). rewrite R at 2. rewrite !map_app, (flat_map key FK), (flat_map val FV), L. reflexivity.
Qed.
Lemma inplace_shape : forall fuel t pos key val pb sb ret t', flat key -> flat val -> inplace fuel t pos key val pb sb = Ret (ret, t') ->
  shaped t' t /\ (ret = 0 \/ ret = 29).
Proof.
  intros fuel t pos key val pb sb ret t' FK FV H. unfold inplace in H. destruct (length key <? length val)%nat eqn:L; [injection H as <- <-; split; [reflexivity|right; reflexivity]|].
  cbv zeta in H. destruct (inplace_loop _ _ _ _ _ _ _) as [u| |] eqn:E; cbn [bind] in H; try discriminate. injection H as <- <-. split; [|left; reflexivity].
  eapply inplace_loop_shape; [|exact FK| |exact E].
  - rewrite app_length, repeat_length. apply Nat.ltb_ge in L. lia.
  - apply Forall_app. split; [exact FV|]. apply Forall_forall. intros c C. apply repeat_spec in C. subst. reflexivity.
Qed.
Lemma macro_shape : forall fuel t pos v ret t', flat v -> predefined_macro fuel t pos v = Ret (ret, t') -> shaped t' t /\ In ret [0; 24; 25; 26; 29].
Proof.
  intros fuel t pos v ret t' F H. unfold predefined_macro in H. destruct (find 32 v) as [sep|]; [|injection H as <- <-; split; [reflexivity|cbn; auto]].
  cbv zeta in H. destruct (_ =? 0); [injection H as <- <-; split; [reflexivity|cbn; auto]|].
  assert (F1 : flat (firstn sep v)) by (apply (flat_in v); [exact F|]; intros c C; rewrite <- (firstn_skipn sep v); apply in_app_iff; left; exact C).
  assert (F2 : flat (drop_while is_blank (skipn sep v))) by (apply (flat_in v); [exact F|]; intros c C; apply drop_while_incl in C; rewrite <- (firstn_skipn sep v); apply in_app_iff; right; exact C).
  destruct (inplace_shape _ _ _ _ _ _ _ _ _ F1 F2 H) as [S R].
  split; [exact S|]. cbn. destruct R as [-> | ->]; auto 10.
Qed.
Lemma var_shape : forall fuel rounds t pos v offset ret t', flat v -> var_loop fuel rounds t pos v offset = Ret (ret, t') ->
  shaped t' t /\ In ret [0; 24; 25; 26; 29].
Proof.
  intros fuel. induction rounds as [|rounds IH]; intros t pos v offset ret t' F H; [discriminate H|]. cbn [var_loop] in H.
  assert (ST : forall k, In k [0; 24; 25; 26; 29] -> Ret (k, t) = Ret (ret, t') -> shaped t' t /\ In ret [0; 24; 25; 26; 29]).
  { intros k K E. injection E as <- <-. split; [reflexivity|exact K]. }
  destruct (_ <=? offset)%nat; [exact (ST 0 ltac:(cbn; auto) H)|]. destruct (_ || _); [exact (IH _ _ _ _ _ _ F H)|]. cbv zeta in H.
  set (dot := match find_from 44 v offset with Some d => d | None => length v end) in H.
  destruct (find_from 61 v offset) as [sep|]; [|exact (ST 25 ltac:(cbn; auto) H)].
  destruct (dot <=? sep)%nat; [exact (ST 25 ltac:(cbn; auto) H)|].
  destruct (zlen _ =? 0); [exact (ST 29 ltac:(cbn; auto 10) H)|]. destruct (negb _); [exact (ST 24 ltac:(cbn; auto) H)|].
  match type of H with context [inplace fuel t pos ?k ?w false false] => set (val := w) in H; set (key := k) in H end.
  assert (FV : flat val) by (apply (flat_in v); [exact F|]; intros c C; eapply substr_in, rtrim_in, C).
  assert (FX : flat (rtrim (substr v offset (sep - offset)))) by (apply (flat_in v); [exact F|]; intros c C; eapply substr_in, rtrim_in, C).
  assert (FD : flat (36 :: rtrim (substr v offset (sep - offset)))) by (constructor; [reflexivity|exact FX]).
  assert (FK : flat key). { subst key. apply Forall_app. split; [repeat constructor|]. apply Forall_app. split; [exact FX|repeat constructor]. }
  destruct (inplace fuel t pos key val false false) as [[r1 t1]| |] eqn:E1; cbn [bind] in H; try discriminate.
  destruct (inplace_shape _ _ _ _ _ _ _ _ _ FK FV E1) as [S1 R1].
  destruct (negb (r1 =? 0)). { injection H as <- <-. split; [exact S1|]. cbn. destruct R1 as [-> | ->]; auto 10. }
  match type of H with context [inplace fuel t1 pos ?k val false true] => destruct (inplace fuel t1 pos k val false true) as [[r2 t2]| |] eqn:E2 end; cbn [bind] in H; try discriminate.
  destruct (inplace_shape _ _ _ _ _ _ _ _ _ FD FV E2) as [S2 R2].
  assert (S3 : shaped t2 t) by (unfold shaped in *; congruence).
  destruct (negb (r2 =? 0)). { injection H as <- <-. split; [exact S3|]. cbn. destruct R2 as [-> | ->]; auto 10. }
  destruct (IH _ _ _ _ _ _ F H) as [S4 R4]. split; [unfold shaped in *; congruence|exact R4].
Qed.

(* ---- the codes of the switches ---- *)
Lemma put_code : forall d i o r d', put d i o = Ret (r, d') -> r = 0.
Proof. intros d i o r d' H. unfold put in H. destruct o; cbn [bind] in H; try discriminate. injection H as <- _. reflexivity. Qed.
Lemma putc_code : forall c i o r c', putc c i o = Ret (r, c') -> r = 0.
Proof. intros c i o r c' H. unfold putc in H. destruct o; cbn [bind] in H; try discriminate. injection H as <- _. reflexivity. Qed.
Local Ltac dk := match goal with H : (if ?c then _ else _) = Ret _ |- _ => destruct c end.
Lemma device_code : forall e d key v w rest r d', device_key e d key v w rest = Ret (r, d') -> In r [0; 27; 28; 30; 31].
Proof.
  intros e d key v w rest r d' H. unfold device_key in H.
  assert (P : forall i o, put d i o = Ret (r, d') -> In r [0; 27; 28; 30; 31]) by (intros i o E; left; symmetry; exact (put_code _ _ _ _ _ E)).
  dk; [injection H as <- _; left; reflexivity|].
  dk; [cbv zeta in H; injection H as <- _; match goal with |- context [if ?c then _ else _] => destruct c end; cbn; auto 10|].
  do 19 (dk; [exact (P _ _ H)|]).
  dk; [injection H as <- _; left; reflexivity|].
  dk; [injection H as <- _; left; reflexivity|].
  dk.
  - cbv zeta in H. destruct (parse_address _ _ _) as [[ip port]| |]; cbn [bind] in H; try discriminate.
    injection H as <- _. repeat match goal with |- context [if ?c then _ else _] => destruct c end; cbn; auto 10.
  - injection H as <- _. cbn. auto 10.
Qed.
Lemma channel_code : forall e c key v w rest r c', channel_key e c key v w rest = Ret (r, c') -> In r [0; 32].
Proof.
  intros e c key v w rest r c' H. unfold channel_key in H.
  assert (P : forall i o, putc c i o = Ret (r, c') -> In r [0; 32]) by (intros i o E; left; symmetry; exact (putc_code _ _ _ _ _ E)).
  dk; [injection H as <- _; left; reflexivity|].
  do 13 (dk; [exact (P _ _ H)|]).
  injection H as <- _. cbn. auto.
Qed.

(* ---- the parser's position ---- *)
(* the position at which the next line is read *)
Definition here (t : text) (n p : Z) : Prop :=
  line_start t n p /\ p <= zlen t \/ behind_line t (n - 1) p.
Record stand (t : text) (s : lstate) : Prop := mkStand {
  st_shape : shaped (s_text s) t;
  st_end : s_end s = zlen t;
  st_here : here t (s_no s) (s_cur s)
}.
Lemma behind_end : forall t n p, behind_line t n p -> p <= zlen t.
Proof.
  intros t n p (q & _ & [(a & x & e & r & -> & _ & _ & _ & ->)|[_ ->]]); [|lia].
  rewrite !zlen_app. pose proof (zlen_nonneg _ r). lia.
Qed.
Lemma line_start_pos : forall t n p, line_start t n p -> 0 <= p.
Proof. intros t n p H. destruct H as [|n p q _ (a & x & e & r & _ & _ & _ & _ & ->)]; [lia|apply zlen_nonneg]. Qed.
Lemma here_start : forall t n p, here t n p -> p < zlen t -> on_line t n p.
Proof.
  intros t n p [[H _]|(q & [Q _] & [L|[_ ->]])] P; [split; assumption| |lia]. split; [|exact P].
  replace n with (n - 1 + 1) by lia. exact (ls_next _ _ _ _ Q L).
Qed.
Lemma here_range : forall t n p, here t n p -> p <= zlen t.
Proof. intros t n p [[_ H]|H]; [exact H|exact (behind_end _ _ _ H)]. Qed.

Lemma sub_incl : forall b i j v c, sub b i j = Ret v -> In c v -> exists k, i <= k < j /\ rd b k = Ret c.
Proof.
  intros b i j v c H I. destruct (sub_len _ _ _ _ H) as (L & A & B). rewrite sub_ret in H by lia. injection H as <-.
  apply In_nth_error in I. destruct I as (k & K). assert (KL : (k < Z.to_nat (j - i))%nat).
  { assert (nth_error (firstn (Z.to_nat (j - i)) (skipn (Z.to_nat i) b)) k <> None) by congruence.
    apply nth_error_Some in H. rewrite firstn_length in H. lia. }
  exists (i + Z.of_nat k). split; [lia|]. apply rd_ret; [lia|].
  rewrite <- K. clear K. rewrite <- (firstn_skipn (Z.to_nat i) b) at 1. rewrite nth_error_app2 by (rewrite firstn_length; lia).
  rewrite firstn_length_le by (unfold zlen in B; lia). replace (Z.to_nat (i + Z.of_nat k) - Z.to_nat i)%nat with k by lia.
  rewrite <- (firstn_skipn (Z.to_nat (j - i)) (skipn (Z.to_nat i) b)) at 1. rewrite nth_error_app1; [reflexivity|].
  rewrite firstn_length, skipn_length. unfold zlen in B. lia.
Qed.

Lemma lex_at_lines : forall t fuel s ret s1 l, ~ In 0 t -> stand t s -> lex_at fuel s = Ret (ret, s1, l) ->
  s1 = set_cur s (s_cur s1) (s_no s1) /\
  ((s_end s <= s_cur s /\ ret = 0 /\ s1 = s /\ l = line0) \/
   (on_line t (s_no s) (s_cur s) /\ In ret [22; 23; 26] /\ s_no s1 = s_no s) \/
   (on_line t (s_no s) (s_cur s) /\ ret = 0 /\ s_no s1 = s_no s + 1 /\ behind_line t (s_no s) (s_cur s1) /\
      (forall v w rest, line_val (buf s1) l = Ret (v, w, rest) -> flat v))).
Proof.
  intros t fuel s ret s1 l N [SH EN HE] H. unfold lex_at in H. destruct (lex fuel (buf s) (s_cur s) (s_end s)) as [[[[code cur] l0] n]| |] eqn:LX; cbn [bind] in H; try discriminate.
  injection H as <- <- <-. cbn [set_cur s_cur s_no]. split; [reflexivity|]. unfold lex in LX. destruct (s_end s <=? s_cur s) eqn:E.
  { injection LX as <- <- <- <-. left. split; [lia|]. split; [reflexivity|]. split; [|reflexivity]. rewrite Z.add_0_r. destruct s; reflexivity. }
  right. assert (ON : on_line t (s_no s) (s_cur s)) by (apply here_start; [exact HE|lia]).
  pose proof (line_start_pos _ _ _ (proj1 ON)) as P0. pose proof (shaped_len _ _ SH) as SL.
  set (a := firstn (Z.to_nat (s_cur s)) (s_text s)). set (u := skipn (Z.to_nat (s_cur s)) (s_text s)).
  assert (AU : s_text s = a ++ u) by (symmetry; apply firstn_skipn).
  assert (ZA : zlen a = s_cur s) by (apply zlen_firstn; lia).
  assert (NU : ~ In 0 u). { intros I. apply (shaped_nul t (s_text s)); [unfold shaped in *; congruence|exact N|]. rewrite AU. apply in_app_iff. right. exact I. }
  unfold buf in LX. rewrite AU in LX. rewrite <- ZA in LX at 1.
  destruct (lex_loop_line fuel u a (zlen a) line0 code cur l0 n ltac:(pose proof (zlen_nonneg _ a); lia) ltac:(unfold linv; cbn; auto) NU LX) as [[C ->]|(-> & -> & x & y & U & NX & LO & Y)].
  { left. split; [exact ON|]. split; [exact C|lia]. }
  right. split; [exact ON|]. split; [reflexivity|]. split; [reflexivity|]. split.
  - exists (s_cur s). split; [exact ON|]. destruct Y as [[-> ->]|(e & r & -> & NL & ->)].
    + right. split; [|rewrite <- SL, AU, U, app_nil_r; reflexivity]. apply (shaped_last (s_text s)); [exact SH|]. exists a, x. rewrite AU, U, app_nil_r. auto.
    + left. apply (shaped_line_to (s_text s)); [exact SH|]. exists a, x, e, r. rewrite AU, U. auto.
  - intros v w rest LV. unfold line_val in LV. cbn [set_cur s_text buf] in LV.
    apply bind_ret_inv in LV. destruct LV as (v' & V & LV). apply bind_ret_inv in LV. destruct LV as (w' & _ & LV). apply bind_ret_inv in LV. destruct LV as (r' & _ & LV).
    injection LV as <- _ _.
    apply Forall_forall. intros c C. destruct (sub_incl _ _ _ _ _ V C) as (k & K & RK).
    destruct LO as [(_ & _ & B1 & B2)|(B1 & B2 & B3)]; [lia|]. unfold buf in RK. cbn [set_cur s_text] in RK. rewrite AU, U in RK. rewrite zlen_app in B3.
    rewrite <- app_assoc in RK. rewrite rd_app_r in RK by lia. rewrite <- app_assoc in RK. rewrite rd_app_l in RK by lia. apply rd_inv in RK. destruct RK as [_ RK]. apply nth_error_In in RK.
    unfold no_nl in NX. rewrite Forall_forall in NX. specialize (NX c RK). assert (c <> 0). { intros ->. apply NU. rewrite U. apply in_app_iff. left. exact RK. }
    unfold shape. replace (c =? 10) with false by lia. replace (c =? 13) with false by lia. replace (c =? 0) with false by lia. reflexivity.
Qed.

(* ---- ParseDevice, ParseChannel and ParseLogger ---- *)
Record ends (t : text) (code : Z) (s : lstate) : Prop := mkEnds {
  en_shape : shaped (s_text s) t;
  en_end : s_end s = zlen t;
  en_place : code = 0 /\ here t (s_no s) (s_cur s) \/ place t code (s_no s) (s_cur s)
}.
Lemma ends_stand : forall t s, ends t 0 s -> stand t s.
Proof.
  intros t s [A B [[_ C]|[[C _]|[[C _]|[C _]]]]]; [constructor; assumption| | |discriminate C]; cbn in C; exfalso; lia.
Qed.
Lemma stand_ends : forall t s, stand t s -> ends t 0 s.
Proof. intros t s [A B C]. constructor; auto. Qed.
Lemma stand_behind : forall t s n cur, stand t s -> behind_line t n cur -> stand t (set_cur s cur (n + 1)).
Proof.
  intros t s n cur [A B C] H. constructor; cbn [set_cur s_text s_end s_no s_cur]; [exact A|exact B|]. right. replace (n + 1 - 1) with n by lia. exact H.
Qed.
Lemma ends_on : forall t code s s1, stand t s -> s1 = set_cur s (s_cur s1) (s_no s1) -> on_line t (s_no s) (s_cur s) -> In code wrong_line ->
  ends t code (set_cur s1 (s_cur s) (s_no s)).
Proof.
  intros t code s s1 [A B C] E ON I. rewrite E. constructor; cbn [set_cur s_text s_end s_no s_cur]; [exact A|exact B|]. right. left. split; assumption.
Qed.

Local Ltac code := first [solve [vm_compute; auto 20] | cbn; repeat match goal with H : In _ _ |- _ => cbn in H end; lia].
Lemma device_lines : forall t e indent fuel s d code s' d', ~ In 0 t -> stand t s -> parse_device fuel e s d indent = Ret (code, s', d') -> ends t code s'.
Proof.
  intros t e indent. induction fuel as [|fuel IH]; intros s d code s' d' N ST H; [discriminate H|]. cbn [parse_device] in H. cbv zeta in H.
  apply bind_ret_inv in H. destruct H as ([[ret s1] l] & LX & H). destruct (lex_at_lines t fuel s ret s1 l N ST LX) as [S1 [(E & -> & -> & ->)|[(ON & C & NO)|(ON & -> & NO & BE & FL)]]].
  - cbn [Z.eqb negb PEC_NONE line0 l_ke l_kb] in H. change (-1 - -1 =? 0) with true in H. cbn [Z.eqb negb] in H.
    replace (s_end s <=? s_cur s) with true in H by lia. injection H as <- <- _. apply stand_ends, ST.
  - replace (ret =? PEC_NONE) with false in H by (cbn in C; unfold PEC_NONE; lia). cbn [negb] in H. injection H as <- <- _. rewrite NO.
    apply ends_on; try assumption. code.
  - pose proof (stand_behind _ _ _ _ ST BE) as ST1. rewrite <- NO, <- S1 in ST1. change (0 =? PEC_NONE) with true in H. cbn [negb] in H.
    destruct (_ =? 0).
    { destruct (s_end s1 <=? s_cur s1); [injection H as <- <- _; apply stand_ends, ST1|].
      destruct (s_cur s1 <? s_end s1); [exact (IH _ _ _ _ _ N ST1 H)|]. injection H as <- <- _. apply stand_ends, ST1. }
    replace (s_no s1 - 1) with (s_no s) in H by lia.
    destruct (l_blank l <=? indent). { injection H as <- <- _. rewrite S1. destruct ST. constructor; cbn [set_cur s_text s_end s_no s_cur]; auto. }
    apply bind_ret_inv in H. destruct H as ([[v w] rest] & LV & H). apply bind_ret_inv in H. destruct H as ([r d1] & DK & H). pose proof (device_code _ _ _ _ _ _ _ _ DK) as RC.
    destruct (r =? PEC_NONE) eqn:R0. { destruct (s_cur s1 <? s_end s1); [exact (IH _ _ _ _ _ N ST1 H)|]. injection H as <- <- _. apply stand_ends, ST1. }
    destruct (r =? PEC_UNDEFINED_DEVICE_KEY) eqn:R1; injection H as <- <- _.
    + destruct ST1 as [A B C]. constructor; [exact A|exact B|]. right. right. left. replace r with 30 by (unfold PEC_UNDEFINED_DEVICE_KEY in R1; lia).
      split; [code|]. replace (s_no s1 - 1) with (s_no s) by lia. exact BE.
    + apply ends_on; try assumption. unfold PEC_NONE, PEC_UNDEFINED_DEVICE_KEY in *. code.
Qed.

Lemma channel_lines : forall t e indent fuel s c code s' c', ~ In 0 t -> stand t s -> parse_channel fuel e s c indent = Ret (code, s', c') -> ends t code s'.
Proof.
  intros t e indent. induction fuel as [|fuel IH]; intros s c code s' c' N ST H; [discriminate H|]. cbn [parse_channel] in H. cbv zeta in H.
  apply bind_ret_inv in H. destruct H as ([[ret s1] l] & LX & H). destruct (lex_at_lines t fuel s ret s1 l N ST LX) as [S1 [(E & -> & -> & ->)|[(ON & C & NO)|(ON & -> & NO & BE & FL)]]].
  - cbn [Z.eqb negb PEC_NONE line0 l_ke l_kb] in H. change (-1 - -1 =? 0) with true in H. cbn [Z.eqb negb] in H.
    replace (s_end s <=? s_cur s) with true in H by lia. injection H as <- <- _. apply stand_ends, ST.
  - replace (ret =? PEC_NONE) with false in H by (cbn in C; unfold PEC_NONE; lia). cbn [negb] in H. injection H as <- <- _. rewrite NO.
    apply ends_on; try assumption. code.
  - pose proof (stand_behind _ _ _ _ ST BE) as ST1. rewrite <- NO, <- S1 in ST1. change (0 =? PEC_NONE) with true in H. cbn [negb] in H.
    destruct (_ =? 0).
    { destruct (s_end s1 <=? s_cur s1); [injection H as <- <- _; apply stand_ends, ST1|].
      destruct (s_cur s1 <? s_end s1); [exact (IH _ _ _ _ _ N ST1 H)|]. injection H as <- <- _. apply stand_ends, ST1. }
    replace (s_no s1 - 1) with (s_no s) in H by lia.
    destruct (l_blank l <=? indent). { injection H as <- <- _. rewrite S1. destruct ST. constructor; cbn [set_cur s_text s_end s_no s_cur]; auto. }
    apply bind_ret_inv in H. destruct H as ([[v w] rest] & LV & H). destruct (l_key l =? RK_DEVICE).
    + apply bind_ret_inv in H. destruct H as (id & _ & H). destruct (x_maxdev e <=? _); [injection H as <- <- _; apply ends_on; try assumption; code|].
      destruct (negb _); [injection H as <- <- _; apply ends_on; try assumption; code|].
      apply bind_ret_inv in H. destruct H as ([[r s2] d] & PD & H). pose proof (device_lines _ _ _ _ _ _ _ _ _ N ST1 PD) as ED.
      destruct (r =? PEC_NONE) eqn:R0; cbn [negb] in H; [|injection H as <- <- _; exact ED]. replace r with 0 in ED by (unfold PEC_NONE in R0; lia).
      destruct (s_cur s2 <? s_end s2); [exact (IH _ _ _ _ _ N (ends_stand _ _ ED) H)|]. injection H as <- <- _. exact ED.
    + apply bind_ret_inv in H. destruct H as ([r c1] & CK & H). pose proof (channel_code _ _ _ _ _ _ _ _ CK) as RC.
      destruct (r =? PEC_NONE) eqn:R0. { destruct (s_cur s1 <? s_end s1); [exact (IH _ _ _ _ _ N ST1 H)|]. injection H as <- <- _. apply stand_ends, ST1. }
      injection H as <- <- _. destruct ST1 as [A B C]. constructor; [exact A|exact B|]. right. right. left. replace r with 32 by (unfold PEC_NONE in R0; code).
      split; [code|]. replace (s_no s1 - 1) with (s_no s) by lia. exact BE.
Qed.

Definition lnext_ok (t : text) (r : lnext) : Prop :=
  match r with Next s => stand t s | Stop code s => ends t code s end.
Lemma again_lines : forall t s, stand t s -> lnext_ok t (again s).
Proof.
  intros t s ST. unfold again. destruct (s_cur s <? s_end s) eqn:E; [exact ST|]. cbn [lnext_ok]. destruct (_ =? 0); [|apply stand_ends, ST].
  destruct ST as [A B C]. pose proof (here_range _ _ _ C). constructor; [exact A|exact B|]. right. right. right. split; [reflexivity|]. split; [lia|].
  destruct C as [[C _]|C]; auto.
Qed.
Lemma logger_line_lines : forall t e fuel s r, ~ In 0 t -> stand t s -> logger_line fuel e s = Ret r -> lnext_ok t r.
Proof.
  intros t e fuel s r N ST H. unfold logger_line in H. cbv zeta in H.
  apply bind_ret_inv in H. destruct H as ([[ret s1] l] & LX & H). destruct (lex_at_lines t fuel s ret s1 l N ST LX) as [S1 [(E & -> & -> & ->)|[(ON & C & NO)|(ON & -> & NO & BE & FL)]]].
  - cbn [Z.eqb negb PEC_NONE line0 l_ke l_kb] in H. change (-1 - -1 =? 0) with true in H. cbn [Z.eqb negb] in H.
    replace (s_end s <=? s_cur s) with true in H by lia. injection H as <-. apply stand_ends, ST.
  - replace (ret =? PEC_NONE) with false in H by (cbn in C; unfold PEC_NONE; lia). cbn [negb] in H. injection H as <-. rewrite NO.
    apply ends_on; try assumption. code.
  - pose proof (stand_behind _ _ _ _ ST BE) as ST1. rewrite <- NO, <- S1 in ST1. change (0 =? PEC_NONE) with true in H. cbn [negb] in H.
    destruct (_ =? 0).
    { destruct (s_end s1 <=? s_cur s1); injection H as <-; [apply stand_ends, ST1|apply again_lines, ST1]. }
    replace (s_no s1 - 1) with (s_no s) in H by lia.
    apply bind_ret_inv in H. destruct H as ([[v w] rest] & LV & H). specialize (FL _ _ _ LV).
    assert (SET : forall s2, s_text s2 = s_text s1 -> s_end s2 = s_end s1 -> s_no s2 = s_no s1 -> s_cur s2 = s_cur s1 -> stand t s2).
    { intros s2 E1 E2 E3 E4. destruct ST1. constructor; rewrite ?E1, ?E2, ?E3, ?E4; assumption. }
    destruct (_ =? RK_HOT_UPDATE); [injection H as <-; apply again_lines, SET; reflexivity|].
    destruct (_ || _).
    { apply bind_ret_inv in H. destruct H as ([r1 t1] & DF & H).
      assert (J : shaped t1 (s_text s1) /\ In r1 [0; 24; 25; 26; 29]).
      { destruct (_ =? RK_DEFINE); [exact (macro_shape _ _ _ _ _ _ FL DF)|exact (var_shape _ _ _ _ _ _ _ _ FL DF)]. }
      destruct J as [J1 J2]. assert (J3 : shaped t1 t) by (destruct ST1; unfold shaped in *; congruence).
      destruct (r1 =? PEC_NONE) eqn:R0; cbn [negb] in H; injection H as <-.
      - apply again_lines. destruct ST1. constructor; cbn [set_text s_text s_end s_no s_cur]; assumption.
      - destruct ST1 as [A B C]. constructor; cbn [set_text set_cur s_text s_end s_no s_cur]; [exact J3|exact B|]. right. left. split; [|exact ON]. unfold PEC_NONE in R0. code. }
    destruct (_ =? RK_LOGGER_NAME); [injection H as <-; apply again_lines, SET; reflexivity|].
    destruct (_ =? PK_LOGGER_DESC); [injection H as <-; apply again_lines, SET; reflexivity|].
    destruct (_ =? RK_SHM_KEY); [apply bind_ret_inv in H; destruct H as (n & _ & H); injection H as <-; apply again_lines, SET; reflexivity|].
    destruct (_ =? RK_CHANNEL).
    { apply bind_ret_inv in H. destruct H as (id & _ & H). destruct (x_maxch e <=? _); [injection H as <-; apply ends_on; try assumption; code|].
      destruct (negb _); [injection H as <-; apply ends_on; try assumption; code|].
      apply bind_ret_inv in H. destruct H as ([[r2 s2] c] & PC & H). pose proof (channel_lines _ _ _ _ _ _ _ _ _ N ST1 PC) as EC.
      destruct (r2 =? 0) eqn:R0; cbn [negb] in H; injection H as <-.
      - replace r2 with 0 in EC by lia. apply ends_stand in EC. apply again_lines. destruct EC. constructor; assumption.
      - destruct EC. constructor; assumption. }
    injection H as <-. destruct ST1 as [A B C]. constructor; [exact A|exact B|]. right. right. left. split; [code|]. replace (s_no s1 - 1) with (s_no s) by lia. exact BE.
Qed.
Lemma logger_lines : forall t e fuel s code s', ~ In 0 t -> stand t s -> logger_loop fuel e s = Ret (code, s') -> ends t code s'.
Proof.
  intros t e. induction fuel as [|fuel IH]; intros s code s' N ST H; [discriminate H|]. cbn [logger_loop] in H. apply bind_ret_inv in H. destruct H as (r & LL & H).
  pose proof (logger_line_lines _ _ _ _ _ N ST LL) as J. destruct r as [s1|c1 s1]; [exact (IH _ _ _ N J H)|]. injection H as <- <-. exact J.
Qed.
Lemma parse_lines : forall fuel e shm t code s, ~ In 0 t -> has_bom t = false -> parse_logger fuel e shm t = Ret (code, s) -> ends t code s.
Proof.
  intros fuel e shm t code s N B H. unfold parse_logger in H. rewrite B in H. cbv zeta in H. rewrite Z.add_0_l in H. eapply logger_lines; [exact N| |exact H].
  constructor; [reflexivity|reflexivity|]. left. split; [constructor|apply zlen_nonneg].
Qed.

(* ---- the quoted text ---- *)
Lemma quote_ok : forall u fuel a q0, ~ In 0 u -> (length u < fuel)%nat ->
  zlen q0 <= 380 \/ (exists x y, q0 = x ++ y /\ zlen x = 380 /\ ~ In 10 y) ->
  exists q r, q0 ++ u = q ++ r /\ quote_len fuel ((a ++ q0 ++ u) ++ [0]) (zlen a) (zlen (a ++ q0 ++ u)) (zlen q0) = Ret (zlen q) /\
    ((r = [] /\ zlen q <= 380) \/ exists x y, q = x ++ y /\ zlen x = 380 /\ ~ In 10 y /\ (r = [] \/ exists r', r = 10 :: r')).
Proof.
  induction u as [|c u IH]; intros fuel a q0 N F Q; (destruct fuel as [|fuel]; [cbn [length] in F; lia|]); cbn [quote_len].
  - exists q0, []. split; [reflexivity|]. rewrite !zlen_app, zlen_nil. replace (_ <=? _) with true by lia. split; [reflexivity|].
    destruct Q as [Q|(x & y & -> & X & Y)]; [left; auto|right; exists x, y; auto].
  - assert (ZL : zlen (a ++ q0 ++ c :: u) = zlen a + zlen q0 + 1 + zlen u) by (rewrite !zlen_app, zlen_cons; lia). pose proof (zlen_nonneg _ u).
    replace (_ <=? _) with false by lia.
    replace ((a ++ q0 ++ c :: u) ++ [0]) with ((a ++ q0) ++ c :: (u ++ [0])) by (rewrite <- !app_assoc; reflexivity).
    rewrite rd_app_mid by (rewrite zlen_app; reflexivity). cbn [bind].
    replace (c =? 0) with false by (assert (c <> 0) by (intros ->; apply N; left; reflexivity); lia).
    replace ((a ++ q0) ++ c :: (u ++ [0])) with ((a ++ (q0 ++ [c]) ++ u) ++ [0]) by (rewrite <- !app_assoc; reflexivity).
    replace (a ++ q0 ++ c :: u) with (a ++ (q0 ++ [c]) ++ u) by (rewrite <- !app_assoc; reflexivity).
    replace (q0 ++ c :: u) with ((q0 ++ [c]) ++ u) by (rewrite <- app_assoc; reflexivity).
    assert (ZQ : zlen q0 + 1 = zlen (q0 ++ [c])) by (rewrite zlen_app; reflexivity).
    assert (NU : ~ In 0 u) by (intros I; apply N; right; exact I). assert (FU : (length u < fuel)%nat) by (cbn [length] in F; lia).
    destruct (zlen q0 <? 380) eqn:L; [rewrite ZQ; apply (IH fuel a (q0 ++ [c])); [exact NU|exact FU|left; lia]|].
    assert (Q' : exists x y, q0 = x ++ y /\ zlen x = 380 /\ ~ In 10 y).
    { destruct Q as [Q|Q]; [|exact Q]. exists q0, []. rewrite app_nil_r. split; [reflexivity|]. split; [lia|intros []]. }
    destruct Q' as (x & y & -> & X & Y). destruct (c =? 10) eqn:C.
    + exists (x ++ y), (c :: u). split; [rewrite <- app_assoc; reflexivity|]. split; [reflexivity|]. right. exists x, y.
      split; [reflexivity|]. split; [exact X|]. split; [exact Y|]. right. exists u. f_equal. lia.
    + rewrite ZQ. apply (IH fuel a ((x ++ y) ++ [c])); [exact NU|exact FU|]. right. exists x, (y ++ [c]). split; [rewrite <- app_assoc; reflexivity|]. split; [exact X|].
      rewrite in_app_iff. intros [I|[I|[]]]; [exact (Y I)|lia].
Qed.

Lemma line_start_no : forall t n p, line_start t n p -> 1 <= n.
Proof. induction 1; lia. Qed.
Lemma place_no : forall t code n p, place t code n p -> 0 <= n /\ 0 <= code /\ 0 <= p <= zlen t.
Proof.
  intros t code n p [[C [A B]]|[[C A]|(C & P & A)]].
  - split; [pose proof (line_start_no _ _ _ A); lia|]. split; [cbn in C; lia|]. split; [exact (line_start_pos _ _ _ A)|lia].
  - pose proof (behind_end _ _ _ A). destruct A as (q & [Q L] & A). split; [pose proof (line_start_no _ _ _ Q); lia|]. split; [cbn in C; lia|]. split; [|lia].
    destruct A as [(a & x & e & r & _ & _ & _ & _ & ->)|[_ ->]]; apply zlen_nonneg.
  - split; [|split; [lia|rewrite P; pose proof (zlen_nonneg _ t); lia]].
    destruct A as [A|(q & [Q L] & A)]; [pose proof (line_start_no _ _ _ A); lia|pose proof (line_start_no _ _ _ Q); lia].
Qed.
Lemma place_code : forall t code n p, place t code n p -> code <> 0.
Proof. intros t code n p [[C _]|[[C _]|[C _]]]; cbn in C; lia. Qed.

Lemma report_ok : forall e t code s, ~ In 0 t -> ends t code s -> code <> 0 ->
  place t code (s_no s) (s_cur s) /\ exists q out, quoted (s_text s) (s_cur s) q /\ report e code s = Ret out /\ printed code (debug_errno (x_maxdev e) code) (s_no s) q out.
Proof.
  intros e t code s N [SH EN PL] C. destruct PL as [[PL _]|PL]; [contradiction|]. split; [exact PL|]. destruct (place_no _ _ _ _ PL) as (P1 & P2 & P3).
  pose proof (shaped_len _ _ SH) as SL.
  set (a := firstn (Z.to_nat (s_cur s)) (s_text s)). set (u := skipn (Z.to_nat (s_cur s)) (s_text s)).
  assert (AU : s_text s = a ++ u) by (symmetry; apply firstn_skipn).
  assert (ZA : zlen a = s_cur s) by (apply zlen_firstn; lia).
  assert (NU : ~ In 0 u). { intros I. apply (shaped_nul t (s_text s)); [unfold shaped in *; congruence|exact N|]. rewrite AU. apply in_app_iff. right. exact I. }
  destruct (quote_ok u (S (length (buf s))) a [] NU) as (q & r & U & QL & QS).
  { unfold buf. rewrite AU, !app_length. lia. } { left. rewrite zlen_nil. lia. }
  cbn [app] in U, QL. rewrite zlen_nil in QL. exists q. eexists. split; [|split].
  - exists a, r. rewrite AU, U. auto.
  - unfold report. unfold buf in *. rewrite <- ZA, EN, <- SL, AU in *. rewrite QL. cbn [bind]. rewrite U.
    assert (SB : sub ((a ++ q ++ r) ++ [0]) (zlen a) (zlen a + zlen q) = Ret q).
    { rewrite sub_ret; [|pose proof (zlen_nonneg _ a); pose proof (zlen_nonneg _ q); lia|rewrite !zlen_app; pose proof (zlen_nonneg _ r); pose proof (zlen_nonneg _ [0]); lia].
      f_equal. replace (zlen a + zlen q - zlen a) with (zlen q) by lia. unfold zlen. rewrite !Nat2Z.id. rewrite <- !app_assoc.
      rewrite skipn_app, skipn_all, Nat.sub_diag. cbn [skipn app]. rewrite firstn_app, firstn_all, Nat.sub_diag. cbn [firstn]. apply app_nil_r. }
    rewrite SB. cbn [bind]. reflexivity.
  - exists (to_string code), (to_string (s_no s)). split; [apply to_string_ok; lia|]. split; [apply to_string_ok; lia|]. reflexivity.
Qed.

(* ---- line numbers are unique ---- *)
Lemma no_nl_split : forall x y x' y', no_nl x -> no_nl x' -> (y = [] \/ hd 0 y = 10 \/ hd 0 y = 13) -> (y' = [] \/ hd 0 y' = 10 \/ hd 0 y' = 13) ->
  x ++ y = x' ++ y' -> x = x' /\ y = y'.
Proof.
  induction x as [|c x IH]; intros y x' y' N N' Y Y' E.
  - destruct x' as [|c' x']; [auto|]. exfalso. cbn [app] in E. subst y. inversion N'; subst. cbn [hd] in Y. destruct Y as [Y|[Y|Y]]; [discriminate|lia|lia].
  - destruct x' as [|c' x']. { exfalso. cbn [app] in E. subst y'. inversion N; subst. cbn [hd] in Y'. destruct Y' as [Y'|[Y'|Y']]; [discriminate|lia|lia]. }
    injection E as -> E. inversion N; subst. inversion N'; subst. destruct (IH y x' y') as [-> ->]; auto.
Qed.
Lemma newline_hd : forall e r, newline e r -> hd 0 (e ++ r) = 10 \/ hd 0 (e ++ r) = 13.
Proof. intros e r H. destruct H; cbn; auto. Qed.
Lemma newline_det : forall e r e' r', newline e r -> newline e' r' -> e ++ r = e' ++ r' -> e = e'.
Proof. intros e r e' r' H H' E. destruct H, H'; cbn [app] in E; try reflexivity; try discriminate E; exfalso; injection E as E; subst; cbn [hd] in *; congruence. Qed.
Lemma app_len_inv : forall (a b a' b' : text), zlen a = zlen a' -> a ++ b = a' ++ b' -> a = a' /\ b = b'.
Proof.
  induction a as [|c a IH]; intros b [|c' a'] b' L E; rewrite ?zlen_cons, ?zlen_nil in L.
  - auto.
  - pose proof (zlen_nonneg _ a'). lia.
  - pose proof (zlen_nonneg _ a). lia.
  - injection E as -> E. destruct (IH b a' b') as [-> ->]; [lia|exact E|auto].
Qed.
Lemma line_to_det : forall t p q q', line_to t p q -> line_to t p q' -> q = q'.
Proof.
  intros t p q q' (a & x & e & r & T & P & NX & NL & Q) (a' & x' & e' & r' & T' & P' & NX' & NL' & Q'). rewrite T in T'.
  destruct (app_len_inv a (x ++ e ++ r) a' (x' ++ e' ++ r')) as [<- E]; [congruence|exact T'|].
  destruct (no_nl_split x (e ++ r) x' (e' ++ r')) as [<- E2]; try assumption; [right; exact (newline_hd _ _ NL)|right; exact (newline_hd _ _ NL')|].
  rewrite (newline_det _ _ _ _ NL NL' E2) in Q. congruence.
Qed.
Lemma line_to_lt : forall t p q, line_to t p q -> p < q.
Proof.
  intros t p q (a & x & e & r & _ & -> & _ & NL & ->). rewrite !zlen_app. pose proof (zlen_nonneg _ x). assert (0 < zlen e) by (destruct NL; reflexivity). lia.
Qed.
Lemma line_start_det : forall t n p, line_start t n p -> forall q, line_start t n q -> p = q.
Proof.
  intros t n p H. induction H as [|n p q H IH L]; intros q' H'.
  - inversion H' as [|n p q H1 L E]; subst; [reflexivity|]. pose proof (line_start_no _ _ _ H1). lia.
  - inversion H' as [E|n' p' q2 H1 L' E]; subst. { pose proof (line_start_no _ _ _ H). lia. }
    replace n' with n in H1 by lia. rewrite <- (IH _ H1) in L'. exact (line_to_det _ _ _ _ L L').
Qed.
Lemma line_start_mono : forall t m q, line_start t m q -> forall n p, line_start t n p -> n < m -> p < q.
Proof.
  intros t m q H. induction H as [|m p' q H IH L]; intros n p HP LT; [pose proof (line_start_no _ _ _ HP); lia|].
  pose proof (line_to_lt _ _ _ L). destruct (Z.eq_dec n m) as [->|]; [rewrite (line_start_det _ _ _ HP _ H); lia|]. specialize (IH n p HP). lia.
Qed.
Lemma line_number : forall t n m p, line_start t n p -> line_start t m p -> n = m.
Proof.
  intros t n m p H H'. destruct (Z.lt_trichotomy n m) as [L|[L|L]]; [|exact L|].
  - pose proof (line_start_mono _ _ _ H' _ _ H L). lia.
  - pose proof (line_start_mono _ _ _ H _ _ H' L). lia.
Qed.
Lemma shaped_start : forall t t' n p, shaped t t' -> line_start t n p -> line_start t' n p.
Proof. intros t t' n p S H. induction H as [|n p q H IH L]; [constructor|]. exact (ls_next _ _ _ _ IH (shaped_line_to _ _ _ _ S L)). Qed.

Theorem parse_report_ok : forall fuel e shm t code s, ~ In 0 t -> has_bom t = false -> parse_logger fuel e shm t = Ret (code, s) -> code <> 0 ->
  exists n p q out, place t code n p /\ quoted (s_text s) p q /\ printed code (debug_errno (x_maxdev e) code) n q out /\
    parse_report fuel e shm t = Ret (code, out) /\ length (s_text s) = length t /\ (forall m k, line_start t m k <-> line_start (s_text s) m k).
Proof.
  intros fuel e shm t code s N B H C. pose proof (parse_lines _ _ _ _ _ _ N B H) as E. destruct (report_ok e t code s N E C) as (PL & q & out & Q & R & P).
  exists (s_no s), (s_cur s), q, out. split; [exact PL|]. split; [exact Q|]. split; [exact P|].
  pose proof (en_shape _ _ _ E) as SH. split; [|split; [pose proof (shaped_len _ _ SH); unfold zlen in *; lia|]].
  - unfold parse_report. rewrite H. cbn [bind]. replace (code =? PEC_NONE) with false by (unfold PEC_NONE; lia). cbn [negb]. rewrite R. reflexivity.
  - intros m k. split; apply shaped_start; unfold shaped in *; congruence.
Qed.

Lemma message_known : forall maxdev t code n p, place t code n p -> code <> 25 -> debug_errno maxdev code <> s2z "unknown error.".
Proof.
  intros maxdev t code n p PL C. assert (K : In code (wrong_line ++ misplaced)). { apply in_app_iff. destruct PL as [[K _]|[[K _]|[-> _]]]; [auto|auto|left; cbn; auto]. }
  assert (K2 : code = 10 \/ code <> 10) by lia. destruct K2 as [-> |K2]; [intros E; discriminate E|].
  unfold wrong_line, misplaced in K. cbn [app] in K. clear PL.
  repeat (destruct K as [<-|K]; [try contradiction; try (exfalso; apply C; reflexivity); intros E; discriminate E|]). contradiction.
Qed.
