(* The lexer stays inside the text and always returns. *)
From Coq Require Import String ZArith List Bool Lia ZifyBool ZifyNat ZifyN.
From Verif Require Import Base BaseFacts ParseVal Lexer.
Import ListNotations.
Open Scope Z_scope.

Lemma sub_ret : forall b i j, 0 <= i <= j -> j <= zlen b ->
  sub b i j = Ret (firstn (Z.to_nat (j - i)) (skipn (Z.to_nat i) b)).
Proof. intros b i j H1 H2. unfold sub. replace (_ && _ && _) with true by lia. reflexivity. Qed.

Lemma sub_len : forall b i j v, sub b i j = Ret v -> zlen v = j - i /\ 0 <= i <= j /\ j <= zlen b.
Proof.
  intros b i j v H. unfold sub in H. destruct (_ && _ && _) eqn:E; [|discriminate]. injection H as <-.
  split; [|lia]. rewrite zlen_firstn; [reflexivity|]. rewrite zlen_skipn by lia. lia.
Qed.

Lemma rd_ok : forall A (l : list A) i, 0 <= i < zlen l -> exists v, rd l i = Ret v.
Proof. exact rd_in. Qed.

(* classifying a key never reads behind it *)
Lemma parse_reserve_ret : forall k, exists r, parse_reserve k = Ret r.
Proof.
  intros k. unfold parse_reserve. destruct (zlen k <? 2) eqn:E; [eauto|].
  destruct (rd_ok _ k 0 ltac:(lia)) as (c0 & ->). destruct (rd_ok _ k 1 ltac:(lia)) as (c1 & ->). cbn [bind].
  assert (R9 : forall A (f : Z -> outcome A) g, (forall c, exists r, f c = Ret r) -> (exists r, g = Ret r) ->
     exists r, (if 11 <? zlen k then let! c := rd k 9 in f c else g) = Ret r).
  { intros A f g F G. destruct (11 <? zlen k) eqn:L; [|exact G]. destruct (rd_ok _ k 9 ltac:(lia)) as (c & ->). cbn [bind]. apply F. }
  assert (N10 : forall a b, 11 <? zlen k = true -> exists r, (let! c := rd k 10 in if c =? 108 then Ret a else if c =? 109 then Ret b else Ret RK_NULL) = Ret r).
  { intros a b L. destruct (rd_ok _ k 10 ltac:(lia)) as (c & ->). cbn [bind]. repeat (destruct (_ =? _); eauto). }
  destruct (c0 =? 99).
  { destruct (c1 =? 104); [eauto|]. destruct (c1 =? 97); [|eauto]. destruct (11 <? zlen k) eqn:L; [|eauto].
    destruct (rd_ok _ k 9 ltac:(lia)) as (c9 & ->). cbn [bind].
    destruct (c9 =? 101); [eauto|]. destruct (c9 =? 119); [apply N10; reflexivity|]. destruct (c9 =? 98); [apply N10; reflexivity|eauto]. }
  destruct (c0 =? 100).
  { destruct (zlen k <? 3) eqn:L; [eauto|]. destruct (rd_ok _ k 2 ltac:(lia)) as (c2 & ->). cbn [bind]. repeat (destruct (_ =? _); eauto). }
  destruct (c0 =? 102); [eauto|]. destruct (c0 =? 104); [eauto|].
  destruct (c0 =? 105).
  { destruct (c1 =? 110); [eauto|]. destruct (11 <? zlen k) eqn:L; [|eauto].
    destruct (rd_ok _ k 9 ltac:(lia)) as (c9 & ->). cbn [bind].
    destruct (c9 =? 101); [eauto|]. destruct (c9 =? 119); [apply N10; reflexivity|]. destruct (c9 =? 98); [apply N10; reflexivity|eauto]. }
  destruct (c0 =? 108).
  { destruct (c1 =? 105); [eauto|]. destruct (8 <? zlen k) eqn:L; [|eauto]. destruct (rd_ok _ k 7 ltac:(lia)) as (c & ->). cbn [bind].
    repeat (destruct (_ =? _); eauto). }
  destruct (c0 =? 112); [repeat (destruct (_ =? _); eauto)|].
  destruct (c0 =? 114).
  { destruct (6 <? zlen k) eqn:L; [|eauto]. destruct (rd_ok _ k 4 ltac:(lia)) as (c & ->). cbn [bind]. repeat (destruct (_ =? _); eauto). }
  repeat (destruct (_ =? _); eauto).
Qed.

Lemma parse_reserve_null : forall k r, parse_reserve k = Ret r -> r <> RK_NULL -> 2 <= zlen k.
Proof.
  intros k r H N. unfold parse_reserve in H. destruct (zlen k <? 2) eqn:E; [injection H as <-; contradiction|lia].
Qed.

Lemma trim_ok : forall n b vb ve, 0 <= vb <= ve -> ve <= zlen b -> Z.to_nat (ve - vb) = n ->
  exists ve', trim n b vb ve = Ret ve' /\ vb <= ve' <= ve.
Proof.
  induction n as [|n IH]; intros b vb ve H L E.
  - cbn [trim]. replace (ve <=? vb) with true by lia. exists ve. split; [reflexivity|lia].
  - cbn [trim]. replace (ve <=? vb) with false by lia. destruct (rd_ok _ b (ve - 1) ltac:(lia)) as (c & ->). cbn [bind].
    destruct (is_blank c); [|exists ve; split; [reflexivity|lia]].
    destruct (IH b vb (ve - 1)) as (ve' & T & R); try lia. exists ve'. split; [exact T|lia].
Qed.
Lemma trim_null : forall n b, trim n b (-1) (-1) = Ret (-1).
Proof. intros. destruct n; reflexivity. Qed.

(* positions of the pieces of the line being read, which starts at [c0] *)
Definition linv (c0 cur : Z) (l : line) : Prop :=
  match l_block l with
  | BNone => l_kb l = -1 /\ l_ke l = -1 /\ l_vb l = -1 /\ l_ve l = -1
  | BKey => c0 <= l_kb l < cur /\ l_ke l = -1 /\ l_vb l = -1 /\ l_ve l = -1
  | BPreSep | BPreVal => c0 <= l_kb l < l_ke l /\ l_ke l < cur /\ l_vb l = -1 /\ l_ve l = -1
  | BVal => c0 <= l_kb l < l_ke l /\ l_ke l < l_vb l <= cur /\ l_ve l = -1
  | BClean => (l_kb l = -1 /\ l_ke l = -1 /\ l_vb l = -1 /\ l_ve l = -1) \/
              (c0 <= l_kb l < l_ke l /\ l_ke l < l_vb l <= l_ve l /\ l_ve l < cur)
  end.
(* the ranges of a finished line *)
Definition line_ok (c0 cur : Z) (l : line) : Prop :=
  (l_kb l = -1 /\ l_ke l = -1 /\ l_vb l = -1 /\ l_ve l = -1) \/
  (c0 <= l_kb l < l_ke l /\ l_ke l < l_vb l <= l_ve l /\ l_ve l <= cur).

(* no NUL between two positions *)
Definition nz (t : text) (a b : Z) : Prop := forall i, a <= i < b -> rd (t ++ [0]) i <> Ret 0.

Definition step_ok (t : text) (c0 cur : Z) (r : lres) : Prop :=
  match r with
  | More cur' l => cur' = cur + 1 /\ cur' <= zlen t /\ linv c0 cur' l
  | Done code cur' l n => cur <= cur' <= zlen t + 1 /\
      (code = PEC_NONE -> cur' <= zlen t /\ line_ok c0 cur l /\ nz t cur cur' /\ (rd (t ++ [0]) cur <> Ret 0 -> cur < cur'))
  end.

Lemma at_nul : forall t cur ch, 0 <= cur <= zlen t -> rd (t ++ [0]) cur = Ret ch -> ch <> 0 -> cur < zlen t.
Proof.
  intros t cur ch H R N. destruct (Z.eq_dec cur (zlen t)) as [E|E]; [|lia]. exfalso. apply N.
  rewrite (rd_app_mid _ t [] 0 cur (eq_sym E)) in R. congruence.
Qed.

Lemma lex_end_ok : forall t c0 cur ch l, 0 <= c0 <= cur -> cur <= zlen t -> rd (t ++ [0]) cur = Ret ch -> linv c0 cur l ->
  is_soft ch = true -> exists r, lex_end (t ++ [0]) ch (cur + 1) l = Ret r /\ step_ok t c0 cur r.
Proof.
  intros t c0 cur ch l C0 CT R I SO. unfold is_soft in SO.
  assert (LB : zlen (t ++ [0]) = zlen t + 1) by (rewrite zlen_app; reflexivity).
  assert (CLOSE : forall l, linv c0 (cur + 1) l -> l_block l = BNone \/ l_block l = BClean -> exists r,
    (let! ve := trim (Z.to_nat (l_ve l - l_vb l)) (t ++ [0]) (l_vb l) (l_ve l) in
     if (ch =? 13) || (ch =? 10) then
       let! nx := rd (t ++ [0]) (cur + 1) in
       Ret (Done PEC_NONE (if ((nx =? 13) || (nx =? 10)) && negb (nx =? ch) then cur + 1 + 1 else cur + 1)
             (set_val l (l_block l) (l_vb l) ve) 1)
     else if ch =? 0 then Ret (Done PEC_NONE (cur + 1 - 1) (set_val l (l_block l) (l_vb l) ve) 1)
     else Ret (More (cur + 1) (set_block (set_val l (l_block l) (l_vb l) ve) BClean))) = Ret r /\ step_ok t c0 cur r).
  { clear l I. intros l I BL.
    assert (T : exists ve, trim (Z.to_nat (l_ve l - l_vb l)) (t ++ [0]) (l_vb l) (l_ve l) = Ret ve /\
       ((l_kb l = -1 /\ l_ke l = -1 /\ l_vb l = -1 /\ l_ve l = -1 /\ ve = -1) \/
        (c0 <= l_kb l < l_ke l /\ l_ke l < l_vb l <= ve /\ ve <= cur))).
    { unfold linv in I. destruct BL as [B|B]; rewrite B in I.
      - destruct I as (A1 & A2 & A3 & A4). rewrite A3, A4. exists (-1). split; [apply trim_null|]. left. auto.
      - destruct I as [(A1 & A2 & A3 & A4)|(A1 & A2 & A3)].
        + rewrite A3, A4. exists (-1). split; [apply trim_null|]. left. auto.
        + destruct (trim_ok (Z.to_nat (l_ve l - l_vb l)) (t ++ [0]) (l_vb l) (l_ve l)) as (ve & E & V); try lia.
          exists ve. split; [exact E|]. right. lia. }
    destruct T as (ve & -> & V). cbn [bind]. destruct ((ch =? 13) || (ch =? 10)) eqn:NL.
    - assert (cur < zlen t) by (apply (at_nul t cur ch); try assumption; lia).
      destruct (rd_ok _ (t ++ [0]) (cur + 1) ltac:(lia)) as (nx & RX). rewrite RX. cbn [bind]. eexists. split; [reflexivity|].
      cbn [step_ok]. assert (X : ((nx =? 13) || (nx =? 10)) && negb (nx =? ch) = true -> cur + 1 < zlen t).
      { intros X. apply (at_nul t (cur + 1) nx); try assumption; lia. }
      destruct (((nx =? 13) || (nx =? 10)) && negb (nx =? ch)) eqn:NX.
      + specialize (X eq_refl) as X1. split; [lia|]. intros _. split; [lia|]. split; [|split; [|lia]].
        * unfold line_ok. cbn [set_val l_kb l_ke l_vb l_ve]. lia.
        * intros i H'. destruct (Z.eq_dec i cur) as [->|]; [rewrite R|replace i with (cur + 1) by lia; rewrite RX]; intros [= K]; lia.
      + split; [lia|]. intros _. split; [lia|]. split; [|split; [|lia]].
        * unfold line_ok. cbn [set_val l_kb l_ke l_vb l_ve]. lia.
        * intros i H'. replace i with cur by lia. rewrite R. intros [= K]; lia.
    - destruct (ch =? 0) eqn:Z0.
      + eexists. split; [reflexivity|]. cbn [step_ok]. split; [lia|]. intros _. split; [lia|]. split.
        * unfold line_ok. cbn [set_val l_kb l_ke l_vb l_ve]. lia.
        * split; [intros i H'; lia|]. intros K. exfalso. apply K. rewrite R. f_equal. lia.
      + assert (cur < zlen t) by (apply (at_nul t cur ch); try assumption; lia).
        eexists. split; [reflexivity|]. cbn [step_ok]. split; [reflexivity|]. split; [lia|].
        unfold linv. cbn [set_block set_val l_block l_kb l_ke l_vb l_ve]. lia. }
  unfold lex_end. cbv zeta. pose proof I as I0. unfold linv in I. destruct (l_block l) eqn:B.
  - specialize (CLOSE l). rewrite B in CLOSE. apply CLOSE; [|auto]. unfold linv. rewrite B. lia.
  - eexists. split; [reflexivity|]. cbn [step_ok]. split; [lia|]. intros X. discriminate X.
  - eexists. split; [reflexivity|]. cbn [step_ok]. split; [lia|]. intros X. discriminate X.
  - apply (CLOSE (set_val l BClean (cur + 1 - 1) (cur + 1 - 1))); [|auto]. unfold linv. cbn [set_val l_block l_kb l_ke l_vb l_ve]. lia.
  - destruct (negb (l_stack l =? 0)).
    + eexists. split; [reflexivity|]. cbn [step_ok]. split; [lia|]. intros X. discriminate X.
    + apply (CLOSE (set_val l BClean (l_vb l) (cur + 1 - 1))); [|auto]. unfold linv. cbn [set_val l_block l_kb l_ke l_vb l_ve]. lia.
  - specialize (CLOSE l). rewrite B in CLOSE. apply CLOSE; [|auto]. unfold linv. rewrite B. lia.
Qed.

Lemma lex_pre_sep_ok : forall t c0 cur ch l, cur < zlen t -> linv c0 (cur + 1) l -> l_block l = BPreSep ->
  step_ok t c0 cur (lex_pre_sep ch (cur + 1) l).
Proof.
  intros t c0 cur ch l CT I B. unfold lex_pre_sep, linv in *. rewrite B in I. destruct (ch =? 58).
  - cbn [step_ok]. split; [reflexivity|]. split; [lia|]. unfold linv. cbn [set_block l_block l_kb l_ke l_vb l_ve]. lia.
  - destruct ((ch =? 32) || (ch =? 9)).
    + cbn [step_ok]. split; [reflexivity|]. split; [lia|]. unfold linv. rewrite B. lia.
    + cbn [step_ok]. split; [lia|]. intros X. discriminate X.
Qed.

Lemma lex_key_ok : forall t c0 cur ch l, 0 <= c0 -> cur < zlen t -> linv c0 (cur + 1) l -> l_block l = BKey ->
  (l_kb l = cur -> is_lower ch = true) ->
  exists r, lex_key (t ++ [0]) ch (cur + 1) l = Ret r /\ step_ok t c0 cur r.
Proof.
  intros t c0 cur ch l C0 CT I B LO. unfold lex_key, linv in *. rewrite B in I.
  destruct (is_lower ch || (ch =? 95) || is_number ch) eqn:E.
  - eexists. split; [reflexivity|]. cbn [step_ok]. split; [reflexivity|]. split; [lia|]. unfold linv. rewrite B. lia.
  - assert (l_kb l <> cur) by (intros K; specialize (LO K); rewrite LO in E; discriminate).
    rewrite sub_ret by (rewrite ?zlen_app; change (zlen [0]) with 1; lia). cbn [bind].
    destruct (parse_reserve_ret (firstn (Z.to_nat (cur + 1 - 1 - l_kb l)) (skipn (Z.to_nat (l_kb l)) (t ++ [0])))) as (key & ->). cbn [bind].
    destruct (key =? RK_NULL); eexists; (split; [reflexivity|]).
    + cbn [step_ok]. split; [lia|]. intros X. discriminate X.
    + apply lex_pre_sep_ok; [assumption| |reflexivity]. unfold linv. cbn [l_block l_kb l_ke l_vb l_ve]. lia.
Qed.

Lemma lex_val_ok : forall t c0 cur ch l, cur < zlen t -> linv c0 (cur + 1) l -> l_vb l <= cur -> l_block l = BVal ->
  step_ok t c0 cur (lex_val ch (cur + 1) l).
Proof.
  intros t c0 cur ch l CT I V B. unfold lex_val, linv in *. rewrite B in I.
  destruct ((l_vb l =? cur + 1 - 1) && is_blank ch).
  - cbn [step_ok]. split; [reflexivity|]. split; [lia|]. unfold linv. cbn [set_val l_block l_kb l_ke l_vb l_ve]. lia.
  - destruct (negb (l_stack l =? 0) && (ch =? l_stack l)).
    + cbn [step_ok]. split; [reflexivity|]. split; [lia|]. unfold linv. cbn [set_val l_block l_kb l_ke l_vb l_ve]. lia.
    + cbn [step_ok]. split; [reflexivity|]. split; [lia|]. unfold linv. rewrite B. lia.
Qed.

Lemma lex_step_ok : forall t c0 cur l, 0 <= c0 <= cur -> cur <= zlen t -> linv c0 cur l ->
  exists r, lex_step (t ++ [0]) cur l = Ret r /\ step_ok t c0 cur r /\
    (rd (t ++ [0]) cur = Ret 0 -> match r with More _ _ => False | Done _ _ _ _ => True end).
Proof.
  intros t c0 cur l C0 CT I.
  assert (W : exists r, lex_step (t ++ [0]) cur l = Ret r /\ step_ok t c0 cur r); [|
    destruct W as (r & W1 & W2); exists r; split; [exact W1|]; split; [exact W2|]; intros R0; destruct r as [cur1 l1|]; [|exact Logic.I];
    cbn [step_ok] in W2; unfold lex_step, lex_end in W1; rewrite R0 in W1; cbn [bind is_soft is_bound Z.eqb orb negb l_block l_stack] in W1;
    destruct (l_block l); cbn [set_val l_block] in W1; repeat (match type of W1 with context [trim ?n ?b ?x ?y] => destruct (trim n b x y) end; cbn [bind] in W1);
    repeat (match type of W1 with context [if ?c then _ else _] => destruct c end; cbn [bind] in W1); try discriminate].
  unfold lex_step.
  destruct (rd_ok _ (t ++ [0]) cur) as (ch & R). { rewrite zlen_app. change (zlen [0]) with 1. lia. }
  rewrite R. cbn [bind].
  set (l1 := mkLine (l_blank l) (l_chars l + 1) (l_block l) (l_stack l) (l_key l) (l_kb l) (l_ke l) (l_vb l) (l_ve l)).
  assert (B1 : l_block l1 = l_block l) by reflexivity.
  assert (I1 : linv c0 cur l1) by exact I.
  assert (I2 : linv c0 (cur + 1) l1) by (unfold linv in *; destruct (l_block l1); lia).
  destruct (l_block l1) eqn:B.
  - destruct (is_soft ch) eqn:SO; [apply lex_end_ok; assumption|].
    assert (N : cur < zlen t) by (apply (at_nul t cur ch); try assumption; unfold is_soft in SO; lia).
    unfold lex_none. unfold linv in I1. rewrite B in I1. destruct (is_blank ch) eqn:BL.
    { eexists. split; [reflexivity|]. cbn [step_ok]. split; [reflexivity|]. split; [lia|].
      destruct (l_blank l1 =? l_chars l1 - 1); unfold linv; cbn [l_block l_kb l_ke l_vb l_ve]; rewrite ?B; exact I1. }
    destruct (ch =? 45); [eexists; split; [reflexivity|]; cbn [step_ok]; split; [reflexivity|]; split; [lia|]; unfold linv; rewrite B; exact I1|].
    destruct (is_lower ch) eqn:LO; cbn [negb].
    + apply lex_key_ok; [lia|lia| |reflexivity|auto]. unfold linv. cbn [l_block l_kb l_ke l_vb l_ve]. lia.
    + eexists. split; [reflexivity|]. cbn [step_ok]. split; [lia|]. intros X. discriminate X.
  - destruct (is_soft ch) eqn:SO; [apply lex_end_ok; assumption|].
    assert (N : cur < zlen t) by (apply (at_nul t cur ch); try assumption; unfold is_soft in SO; lia).
    apply lex_key_ok; try assumption; try lia. intros K. unfold linv in I1. rewrite B in I1. lia.
  - destruct (is_soft ch) eqn:SO; [apply lex_end_ok; assumption|].
    assert (N : cur < zlen t) by (apply (at_nul t cur ch); try assumption; unfold is_soft in SO; lia).
    eexists. split; [reflexivity|]. apply lex_pre_sep_ok; assumption.
  - destruct (is_soft ch) eqn:SO; [apply lex_end_ok; assumption|].
    assert (N : cur < zlen t) by (apply (at_nul t cur ch); try assumption; unfold is_soft in SO; lia).
    eexists. split; [reflexivity|]. unfold linv in I1. rewrite B in I1. unfold lex_pre_val. cbv zeta.
    destruct (is_blank ch); [cbn [step_ok]; split; [reflexivity|]; split; [lia|]; unfold linv; rewrite B; lia|].
    do 3 (match goal with |- step_ok _ _ _ (if ch =? ?k then _ else _) => destruct (ch =? k);
      [cbn [step_ok]; split; [reflexivity|]; split; [lia|]; unfold linv; cbn [l_block l_kb l_ke l_vb l_ve]; lia|] end).
    apply lex_val_ok; try assumption; try reflexivity; unfold linv; cbn [l_block l_kb l_ke l_vb l_ve]; lia.
  - destruct (is_soft ch) eqn:SO; [apply lex_end_ok; assumption|].
    assert (N : cur < zlen t) by (apply (at_nul t cur ch); try assumption; unfold is_soft in SO; lia).
    eexists. split; [reflexivity|]. apply lex_val_ok; try assumption. unfold linv in I1. rewrite B in I1. lia.
  - destruct (is_bound ch) eqn:BO; cbn [negb].
    + apply lex_end_ok; try assumption. unfold is_bound in BO. unfold is_soft. lia.
    + assert (N : cur < zlen t) by (apply (at_nul t cur ch); try assumption; unfold is_bound in BO; lia).
      eexists. split; [reflexivity|]. cbn [step_ok]. split; [reflexivity|]. split; [lia|exact I2].
Qed.

Lemma lex_loop_ok : forall t c0 fuel cur l, 0 <= c0 <= cur -> cur <= zlen t -> linv c0 cur l ->
  match lex_loop fuel (t ++ [0]) cur l with
  | Ret (code, cur', l', n) => cur <= cur' <= zlen t + 1 /\
      (code = PEC_NONE -> cur' <= zlen t /\ line_ok c0 cur' l' /\ nz t cur cur' /\ (cur = cur' -> rd (t ++ [0]) cur = Ret 0))
  | Ub => False
  | Fuel => Z.of_nat fuel <= zlen t - cur
  end.
Proof.
  intros t c0. induction fuel as [|fuel IH]; intros cur l C0 CT I; [cbn [lex_loop]; lia|]. cbn [lex_loop].
  destruct (lex_step_ok t c0 cur l C0 CT I) as (r & -> & S & Z0). cbn [bind]. destruct r as [cur1 l1|code cur1 l1 n]; cbn [step_ok] in S.
  - destruct S as (-> & S2 & S3). assert (J := IH (cur + 1) l1 ltac:(lia) S2 S3).
    destruct (lex_loop fuel (t ++ [0]) (cur + 1) l1) as [[[[code cur'] l'] n]| |]; [|exact J|lia].
    destruct J as [R K]. split; [lia|]. intros C. destruct (K C) as (K1 & K2 & K3 & K4). split; [exact K1|]. split; [exact K2|]. split; [|lia].
    intros i H. destruct (Z.eq_dec i cur) as [->|]; [intros R0; exact (Z0 R0)|]. apply K3. lia.
  - destruct S as [S1 S2]. split; [exact S1|]. intros C. destruct (S2 C) as (A1 & A2 & A4 & A3).
    split; [exact A1|]. split; [unfold line_ok in *; lia|]. split; [exact A4|]. intros E. destruct (rd_ok _ (t ++ [0]) cur) as (v & V). { rewrite zlen_app. change (zlen [0]) with 1. lia. }
    destruct (Z.eq_dec v 0) as [->|N]; [exact V|]. exfalso. assert (cur < cur1) by (apply A3; rewrite V; congruence). lia.
Qed.

(* Any text, any position, any fuel.  [end_] may lie behind the text (a byte order mark). *)
Theorem lex_inside : forall t fuel cur end_, 0 <= cur <= zlen t ->
  match lex fuel (t ++ [0]) cur end_ with
  | Ret (code, cur', l, n) => cur <= cur' <= zlen t + 1 /\
      (code = PEC_NONE -> cur' <= zlen t /\ line_ok cur cur' l /\ nz t cur cur' /\
         (cur < end_ -> cur = cur' -> rd (t ++ [0]) cur = Ret 0))
  | Ub => False
  | Fuel => Z.of_nat fuel <= zlen t - cur
  end.
Proof.
  intros t fuel cur end_ C. unfold lex. destruct (end_ <=? cur) eqn:E.
  - split; [lia|]. intros _. split; [lia|]. split; [left; cbn; auto|]. split; [intros i H; lia|lia].
  - assert (J := lex_loop_ok t cur fuel cur line0 ltac:(lia) ltac:(lia)).
    assert (L : linv cur cur line0) by (unfold linv; cbn; auto). specialize (J L).
    destruct (lex_loop fuel (t ++ [0]) cur line0) as [[[[code cur'] l'] n]| |]; [|exact J|exact J].
    destruct J as [J1 J2]. split; [exact J1|]. intros K. destruct (J2 K) as (A & B & D & F). auto.
Qed.
