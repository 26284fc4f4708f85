(* Every line of an accepted configuration has been read without an error. *)
From Coq Require Import String ZArith List Bool Lia ZifyBool ZifyNat ZifyN.
From Verif Require Import Base BaseFacts NumSpec LoggerState FileName FileNameProofs ParseVal Lexer ParseCfg LexProofs ParseSafe TextSpec ReportSpec ReportProofs LexLine ValSpec AcceptSpec.
Import ListNotations.
Open Scope Z_scope.

(* ---- one line ---- *)
Definition known (k : text) (l : line) : Prop := parse_reserve k = Ret (l_key l) /\ l_key l <> RK_NULL.
Definition headed (a z : text) (l : line) (s k w v : text) : Prop :=
  z = s ++ k ++ w ++ 58 :: v /\ leading s /\ key_word k /\ known k l /\ Forall (fun c => c = 32 \/ c = 9) w /\
  l_kb l = zlen (a ++ s) /\ l_ke l = l_kb l + zlen k.
Definition gapped (z : text) (l : line) : Prop := gap_line z /\ l_kb l = -1 /\ l_ke l = -1.
Definition sofar (a z : text) (l : line) : Prop :=
  match l_block l with
  | BNone => leading z /\ l_kb l = -1 /\ l_ke l = -1
  | BKey => exists s k, z = s ++ k /\ leading s /\ key_word k /\ l_kb l = zlen (a ++ s)
  | BPreSep => exists s k w, z = s ++ k ++ w /\ leading s /\ key_word k /\ known k l /\ Forall (fun c => c = 32 \/ c = 9) w /\
      l_kb l = zlen (a ++ s) /\ l_ke l = l_kb l + zlen k
  | BPreVal => exists s k w v, headed a z l s k w v
  | BVal => exists s k w v, headed a z l s k w v /\ zlen (a ++ s ++ k ++ w) < l_vb l
  | BClean => (exists r, z = r /\ gap_line z /\ In 35 z /\ l_kb l = -1 /\ l_ke l = -1) \/
      exists s k w v, headed a z l s k w v /\ zlen (a ++ s ++ k ++ w) < l_vb l
  end.
Definition final (a z : text) (l : line) : Prop :=
  gapped z l \/ exists s k w v, headed a z l s k w v /\ zlen (a ++ s ++ k ++ w) < l_vb l.

Lemma headed_more : forall a z l l' s k w v c, headed a z l s k w v -> l_kb l' = l_kb l -> l_ke l' = l_ke l -> l_key l' = l_key l -> headed a (z ++ [c]) l' s k w (v ++ [c]).
Proof.
  intros a z l l' s k w v c (-> & A & B & C & D & E & F) K1 K2 K3. unfold headed, known in *. rewrite K1, K2, K3. split; [|auto 10].
  rewrite <- !app_assoc. cbn [app]. reflexivity.
Qed.
Lemma headed_eq : forall a z l l' s k w v, headed a z l s k w v -> l_kb l' = l_kb l -> l_ke l' = l_ke l -> l_key l' = l_key l -> headed a z l' s k w v.
Proof. intros a z l l' s k w v (A & B & C & D & E & F & G) K1 K2 K3. unfold headed, known in *. rewrite K1, K2, K3. auto 10. Qed.
Lemma headed_end : forall a z l s k w v, headed a z l s k w v -> zlen (a ++ s ++ k ++ w) < zlen (a ++ z).
Proof. intros a z l s k w v (-> & _). rewrite !zlen_app, zlen_cons. pose proof (zlen_nonneg _ v). lia. Qed.
Lemma gap_more : forall z c, gap_line z -> In 35 z -> gap_line (z ++ [c]) /\ In 35 (z ++ [c]).
Proof.
  intros z c (s & r & -> & L & [-> |(r' & ->)]) I.
  - exfalso. rewrite app_nil_r in I. unfold leading in L. rewrite Forall_forall in L. specialize (L 35 I). unfold blank in L. cbn [In] in L. lia.
  - split; [|apply in_or_app; left; exact I]. exists s, ((35 :: r') ++ [c]). rewrite app_assoc. split; [reflexivity|]. split; [exact L|]. right. eexists. reflexivity.
Qed.
Lemma leading_more : forall z c, leading z -> c = 45 \/ blank c -> leading (z ++ [c]).
Proof. intros z c L C. apply Forall_app. split; [exact L|constructor; [exact C|constructor]]. Qed.

Lemma lex_end_form : forall b a z ch l r, sofar a z l -> is_soft ch = true -> lex_end b ch (zlen (a ++ z) + 1) l = Ret r ->
  match r with More _ l1 => sofar a (z ++ [ch]) l1 | Done code _ l1 _ => code = 0 -> final a z l1 end.
Proof.
  intros b a z ch l r S SO H. unfold lex_end in H. cbv zeta in H.
  assert (CL : forall l, (l_block l = BNone /\ sofar a z l) \/ (l_block l = BClean /\ sofar a z l) ->
    (let! ve := trim (Z.to_nat (l_ve l - l_vb l)) b (l_vb l) (l_ve l) in
      if (ch =? 13) || (ch =? 10) then
        let! nx := rd b (zlen (a ++ z) + 1) in
        Ret (Done PEC_NONE (if ((nx =? 13) || (nx =? 10)) && negb (nx =? ch) then zlen (a ++ z) + 1 + 1 else zlen (a ++ z) + 1) (set_val l (l_block l) (l_vb l) ve) 1)
      else if ch =? 0 then Ret (Done PEC_NONE (zlen (a ++ z) + 1 - 1) (set_val l (l_block l) (l_vb l) ve) 1)
      else Ret (More (zlen (a ++ z) + 1) (set_block (set_val l (l_block l) (l_vb l) ve) BClean))) = Ret r ->
    match r with More _ l1 => sofar a (z ++ [ch]) l1 | Done code _ l1 _ => code = 0 -> final a z l1 end).
  { clear H S l. intros l S H. destruct (trim _ b _ _) as [ve| |]; cbn [bind] in H; try discriminate.
    assert (FI : forall k, final a z (set_val l k (l_vb l) ve)).
    { intros k. unfold final, gapped. cbn [set_val l_kb l_ke l_vb]. destruct S as [[B S]|[B S]]; unfold sofar in S; rewrite B in S.
      - destruct S as (L & K1 & K2). left. split; [|auto]. exists z, []. rewrite app_nil_r. auto.
      - destruct S as [(x & _ & G & _ & K)|(s & k0 & w & v & HD & V)]; [left; auto|]. right. exists s, k0, w, v. split; [|exact V].
        eapply headed_eq; [exact HD|reflexivity|reflexivity|reflexivity]. }
    destruct ((ch =? 13) || (ch =? 10)) eqn:NL.
    - destruct (rd b (zlen (a ++ z) + 1)) as [nx| |]; cbn [bind] in H; try discriminate. injection H as <-. intros _. apply FI.
    - destruct (ch =? 0) eqn:Z0; injection H as <-; [intros _; apply FI|].
      assert (ch = 35) by (unfold is_soft in SO; lia). subst ch. unfold sofar. cbn [set_block set_val l_block l_kb l_ke l_vb].
      destruct S as [[B S]|[B S]]; unfold sofar in S; rewrite B in S.
      + destruct S as (L & K1 & K2). left. eexists. split; [reflexivity|]. split; [exists z, [35]; split; [reflexivity|]; split; [exact L|right; eexists; reflexivity]|].
        split; [apply in_or_app; right; left; reflexivity|auto].
      + destruct S as [(x & _ & G & I & K)|(s & k0 & w & v & HD & V)].
        * left. eexists. split; [reflexivity|]. destruct (gap_more z 35 G I). auto.
        * right. exists s, k0, w, (v ++ [35]). split; [|exact V]. eapply headed_more; [exact HD|reflexivity|reflexivity|reflexivity]. }
  unfold sofar in S. destruct (l_block l) eqn:B.
  - specialize (CL l). rewrite B in CL. apply CL; [|exact H]. left. split; [reflexivity|]. unfold sofar. rewrite B. exact S.
  - injection H as <-. intros E. discriminate E.
  - injection H as <-. intros E. discriminate E.
  - apply (CL _) in H; [exact H|]. right. split; [reflexivity|]. unfold sofar. cbn [set_val l_block l_vb]. right. destruct S as (s & k & w & v & HD). exists s, k, w, v.
    split; [eapply headed_eq; [exact HD|reflexivity|reflexivity|reflexivity]|]. pose proof (headed_end _ _ _ _ _ _ _ HD). lia.
  - destruct (negb (l_stack l =? 0)); [injection H as <-; intros E; discriminate E|]. apply (CL _) in H; [exact H|]. right. split; [reflexivity|]. unfold sofar. cbn [set_val l_block l_vb]. right.
    destruct S as (s & k & w & v & HD & V). exists s, k, w, v. split; [eapply headed_eq; [exact HD|reflexivity|reflexivity|reflexivity]|exact V].
  - specialize (CL l). rewrite B in CL. apply CL; [|exact H]. right. split; [reflexivity|]. unfold sofar. rewrite B. exact S.
Qed.

Lemma pre_sep_form : forall a z ch l c0, l_block l = BPreSep ->
  (exists s k w, z = s ++ k ++ w /\ leading s /\ key_word k /\ known k l /\ Forall (fun c => c = 32 \/ c = 9) w /\ l_kb l = zlen (a ++ s) /\ l_ke l = l_kb l + zlen k) ->
  match lex_pre_sep ch c0 l with More _ l1 => sofar a (z ++ [ch]) l1 | Done code _ l1 _ => code = 0 -> final a z l1 end.
Proof.
  intros a z ch l c0 B (s & k & w & -> & L & KW & KN & W & K1 & K2). unfold lex_pre_sep. destruct (ch =? 58) eqn:C.
  - unfold sofar. cbn [set_block l_block]. exists s, k, w, []. unfold headed. cbn [set_block l_kb l_ke]. replace ch with 58 by lia.
    rewrite <- !app_assoc. auto 10.
  - destruct ((ch =? 32) || (ch =? 9)) eqn:C2; [|intros E; discriminate E]. unfold sofar. rewrite B. exists s, k, (w ++ [ch]). rewrite <- !app_assoc.
    split; [reflexivity|]. split; [exact L|]. split; [exact KW|]. split; [exact KN|]. split; [apply Forall_app; split; [exact W|constructor; [lia|constructor]]|]. auto.
Qed.
Lemma key_word_more : forall k c, key_word k -> is_lower c || (c =? 95) || is_number c = true -> key_word (k ++ [c]).
Proof.
  intros k c (d & r & -> & D & R) C. exists d, (r ++ [c]). split; [reflexivity|]. split; [exact D|]. apply Forall_app. split; [exact R|]. constructor; [|constructor].
  unfold is_lower, is_number in C. unfold lower, digit. lia.
Qed.
Lemma key_form : forall b a z ch l r rest, b = a ++ z ++ rest -> l_block l = BKey ->
  (exists s k, z = s ++ k /\ leading s /\ key_word k /\ l_kb l = zlen (a ++ s)) ->
  lex_key b ch (zlen (a ++ z) + 1) l = Ret r ->
  match r with More _ l1 => sofar a (z ++ [ch]) l1 | Done code _ l1 _ => code = 0 -> final a z l1 end.
Proof.
  intros b a z ch l r rest BB B (s & k & -> & L & KW & K1) H. unfold lex_key in H. destruct (is_lower ch || (ch =? 95) || is_number ch) eqn:C.
  - injection H as <-. unfold sofar. rewrite B. exists s, (k ++ [ch]). rewrite <- app_assoc. split; [reflexivity|]. split; [exact L|]. split; [apply key_word_more; assumption|exact K1].
  - assert (SUB : sub b (l_kb l) (zlen (a ++ s ++ k) + 1 - 1) = Ret k).
    { rewrite K1. replace (zlen (a ++ s ++ k) + 1 - 1) with (zlen (a ++ s) + zlen k) by (rewrite !zlen_app; lia).
      apply (at_sub b (zlen (a ++ s)) k rest). subst b. exists (a ++ s). split; [|reflexivity]. rewrite <- !app_assoc. reflexivity. }
    rewrite SUB in H. cbn [bind] in H. destruct (parse_reserve k) as [key| |] eqn:PR; cbn [bind] in H; try discriminate.
    destruct (key =? RK_NULL) eqn:KN; injection H as <-; [intros E; discriminate E|].
    apply pre_sep_form; [reflexivity|]. exists s, k, []. rewrite app_nil_r. cbn [l_kb l_ke]. split; [reflexivity|]. split; [exact L|]. split; [exact KW|].
    split; [split; [exact PR|cbn [l_key]; lia]|]. split; [constructor|]. split; [exact K1|]. rewrite K1, !zlen_app. lia.
Qed.
Lemma val_form : forall a z ch l c0, l_block l = BVal ->
  (exists s k w v, headed a z l s k w v /\ zlen (a ++ s ++ k ++ w) < l_vb l) -> l_vb l <= zlen (a ++ z) -> c0 = zlen (a ++ z) + 1 ->
  match lex_val ch c0 l with More _ l1 => sofar a (z ++ [ch]) l1 | Done code _ l1 _ => code = 0 -> final a z l1 end.
Proof.
  intros a z ch l c0 B (s & k & w & v & HD & V) VB C0. unfold lex_val. pose proof (headed_end _ _ _ _ _ _ _ HD) as HE. destruct ((l_vb l =? c0 - 1) && is_blank ch) eqn:C1.
  - unfold sofar. cbn [set_val l_block l_vb]. exists s, k, w, (v ++ [ch]). split; [eapply headed_more; [exact HD|reflexivity|reflexivity|reflexivity]|]. lia.
  - destruct (negb (l_stack l =? 0) && (ch =? l_stack l)) eqn:C2; unfold sofar; cbn [set_val l_block l_vb].
    + right. exists s, k, w, (v ++ [ch]). split; [eapply headed_more; [exact HD|reflexivity|reflexivity|reflexivity]|exact V].
    + rewrite B. exists s, k, w, (v ++ [ch]). split; [eapply headed_more; [exact HD|reflexivity|reflexivity|reflexivity]|exact V].
Qed.

Lemma lex_step_form : forall b a z ch rest l r, b = a ++ z ++ ch :: rest -> sofar a z l -> (l_block l = BVal -> l_vb l <= zlen (a ++ z)) -> lex_step b (zlen (a ++ z)) l = Ret r ->
  match r with More _ l1 => sofar a (z ++ [ch]) l1 | Done code _ l1 _ => code = 0 -> final a z l1 end.
Proof.
  intros b a z ch rest l r BB S VB H. unfold lex_step in H.
  assert (RC : rd b (zlen (a ++ z)) = Ret ch). { subst b. rewrite app_assoc. apply rd_app_mid. reflexivity. }
  rewrite RC in H. cbn [bind] in H. cbv zeta in H.
  match type of H with context [mkLine ?a ?b0 ?c ?d ?f ?g ?h ?i ?j] => set (l1 := mkLine a b0 c d f g h i j) in H end.
  assert (S1 : sofar a z l1) by exact S. assert (V1 : l_block l1 = BVal -> l_vb l1 <= zlen (a ++ z)) by exact VB. clearbody l1. clear S VB l.
  destruct (l_block l1) eqn:B.
  - destruct (is_soft ch) eqn:SO; [exact (lex_end_form _ _ _ _ _ _ S1 SO H)|]. unfold sofar in S1. rewrite B in S1. destruct S1 as (L & K1 & K2). unfold lex_none in H.
    destruct (is_blank ch) eqn:BK.
    { injection H as <-. assert (LM : leading (z ++ [ch])) by (apply leading_more; [exact L|right; apply is_blank_spec; exact BK]).
      destruct (_ =? _); unfold sofar; cbn [l_block l_kb l_ke]; rewrite B; auto. }
    destruct (ch =? 45) eqn:DA. { injection H as <-. unfold sofar. rewrite B. split; [apply leading_more; [exact L|left; lia]|auto]. }
    destruct (is_lower ch) eqn:LO; cbn [negb] in H; [|injection H as <-; intros E; discriminate E].
    unfold lex_key in H. rewrite LO in H. cbn [orb] in H. injection H as <-. unfold sofar. cbn [l_block l_kb]. exists z, [ch]. split; [reflexivity|]. split; [exact L|].
    split; [exists ch, []; split; [reflexivity|]; split; [unfold is_lower in LO; unfold lower; lia|constructor]|]. lia.
  - destruct (is_soft ch) eqn:SO; [exact (lex_end_form _ _ _ _ _ _ S1 SO H)|]. unfold sofar in S1. rewrite B in S1. exact (key_form _ _ _ _ _ _ _ BB B S1 H).
  - destruct (is_soft ch) eqn:SO; [exact (lex_end_form _ _ _ _ _ _ S1 SO H)|]. unfold sofar in S1. rewrite B in S1. injection H as <-. exact (pre_sep_form _ _ _ _ _ B S1).
  - destruct (is_soft ch) eqn:SO; [exact (lex_end_form _ _ _ _ _ _ S1 SO H)|]. unfold sofar in S1. rewrite B in S1. injection H as <-. destruct S1 as (s & k & w & v & HD).
    pose proof (headed_end _ _ _ _ _ _ _ HD) as HE. unfold lex_pre_val.
    assert (OP : forall st vb, zlen (a ++ z) <= vb -> sofar a (z ++ [ch]) (mkLine (l_blank l1) (l_chars l1) BVal st (l_key l1) (l_kb l1) (l_ke l1) vb (l_ve l1))).
    { intros st vb VB. unfold sofar. cbn [l_block l_vb]. exists s, k, w, (v ++ [ch]). split; [eapply headed_more; [exact HD|reflexivity|reflexivity|reflexivity]|lia]. }
    destruct (is_blank ch). { unfold sofar. rewrite B. exists s, k, w, (v ++ [ch]). eapply headed_more; [exact HD|reflexivity|reflexivity|reflexivity]. }
    destruct (ch =? 34); [apply OP; lia|]. destruct (ch =? 91); [apply OP; lia|]. destruct (ch =? 123); [apply OP; lia|].
    apply val_form; [reflexivity| |cbn [l_vb]; lia|reflexivity]. exists s, k, w, v. split; [eapply headed_eq; [exact HD|reflexivity|reflexivity|reflexivity]|cbn [l_vb]; lia].
  - destruct (is_soft ch) eqn:SO; [exact (lex_end_form _ _ _ _ _ _ S1 SO H)|]. unfold sofar in S1. rewrite B in S1. injection H as <-. apply val_form; [exact B|exact S1|apply V1; reflexivity|reflexivity].
  - destruct (is_bound ch) eqn:BO; cbn [negb] in H; [apply (lex_end_form b a z ch l1 r S1); [unfold is_bound in BO; unfold is_soft; lia|exact H]|].
    injection H as <-. unfold sofar in *. rewrite B in *. destruct S1 as [(x & _ & G & I & K)|(s & k & w & v & HD & V)].
    + left. eexists. split; [reflexivity|]. destruct (gap_more z ch G I). auto.
    + right. exists s, k, w, (v ++ [ch]). split; [eapply headed_more; [exact HD|reflexivity|reflexivity|reflexivity]|exact V].
Qed.

Lemma lex_loop_form : forall fuel u a z l cur' l' n, linv (zlen a) (zlen (a ++ z)) l -> sofar a z l -> ~ In 0 u ->
  lex_loop fuel ((a ++ z ++ u) ++ [0]) (zlen (a ++ z)) l = Ret (0, cur', l', n) ->
  exists x y, u = x ++ y /\ no_nl x /\ (y = [] \/ hd 0 y = 10 \/ hd 0 y = 13) /\ final a (z ++ x) l'.
Proof.
  induction fuel as [|fuel IH]; intros u a z l cur' l' n LI S N H; [discriminate H|]. cbn [lex_loop] in H.
  assert (LA : 0 <= zlen a <= zlen (a ++ z)) by (rewrite zlen_app; pose proof (zlen_nonneg _ a); pose proof (zlen_nonneg _ z); lia).
  destruct (lex_step_ok (a ++ z ++ u) (zlen a) (zlen (a ++ z)) l LA) as (r & R & SO & _); [rewrite !zlen_app; pose proof (zlen_nonneg _ u); lia|exact LI|].
  rewrite R in H. cbn [bind] in H. destruct (lex_step_cases _ _ _ _ R) as (ch & RC & K).
  assert (VB : l_block l = BVal -> l_vb l <= zlen (a ++ z)). { intros B. unfold linv in LI. rewrite B in LI. lia. }
  assert (UU : exists rest, u ++ [0] = ch :: rest).
  { rewrite app_assoc, <- app_assoc in RC. destruct (u ++ [0]) as [|c r0] eqn:E; [destruct u; discriminate E|]. rewrite (rd_app_mid _ (a ++ z) r0 c _ eq_refl) in RC. injection RC as ->. eexists. reflexivity. }
  destruct UU as (rest & UU).
  assert (F : match r with More _ l1 => sofar a (z ++ [ch]) l1 | Done code _ l1 _ => code = 0 -> final a z l1 end).
  { apply (lex_step_form ((a ++ z ++ u) ++ [0]) a z ch rest l r); [rewrite <- !app_assoc, UU; reflexivity|exact S|exact VB|exact R]. }
  destruct r as [c1 l1|code1 c1 l1 n1]; cbn [step_ok] in SO.
  - destruct SO as (-> & _ & L1). destruct u as [|c u]; [cbn [app] in UU; injection UU as <- _; discriminate K|]. cbn [app] in UU. injection UU as -> _.
    assert (ZA : zlen (a ++ z) + 1 = zlen (a ++ z ++ [ch])) by (unfold zlen; rewrite !app_length; cbn [length]; lia). rewrite ZA in H, L1.
    replace (z ++ ch :: u) with ((z ++ [ch]) ++ u) in H by (rewrite <- app_assoc; reflexivity).
    destruct (IH u a (z ++ [ch]) l1 cur' l' n L1 F) as (x & y & -> & NX & Y & FI); [intros I; apply N; right; exact I|exact H|].
    exists (ch :: x), y. split; [reflexivity|]. split; [constructor; [unfold is_bound in K; lia|exact NX]|]. split; [exact Y|]. rewrite <- app_assoc in FI. exact FI.
  - injection H as -> <- <- <-. exists [], u. split; [reflexivity|]. split; [constructor|]. rewrite app_nil_r. split; [|exact (F eq_refl)].
    destruct K as [(_ & _ & K)|[K _]]; [|cbn in K; exfalso; lia]. destruct u as [|c u]; [left; reflexivity|]. cbn [app] in UU. injection UU as -> _. right. cbn [hd].
    destruct K as [[-> _]|[K _]]; [exfalso; apply N; left; reflexivity|lia].
Qed.

(* ---- the lines that have been read ---- *)
Definition formed (x : text) : Prop := gap_line x \/ exists k r, key_line k x /\ parse_reserve k = Ret r /\ r <> RK_NULL.
Definition good (t : text) (p : Z) : Prop :=
  forall n q, line_start t n q -> q < p -> exists x, line_text t q x /\ q + zlen x <= p /\ formed x.

Lemma firstn_both : forall (t t1 : text) pos a b, firstn pos t1 = firstn pos t -> length t1 = length t -> t = a ++ b -> (length a <= pos)%nat ->
  exists b1, t1 = a ++ b1 /\ length b1 = length b.
Proof.
  intros t t1 pos a b F L E P. exists (skipn (length a) t1).
  assert (A : firstn (length a) t1 = a).
  { replace (firstn (length a) t1) with (firstn (length a) (firstn pos t1)) by (rewrite firstn_firstn; f_equal; lia).
    rewrite F, firstn_firstn, Nat.min_l by lia. subst t. rewrite firstn_app, Nat.sub_diag, firstn_all, firstn_O, app_nil_r. reflexivity. }
  split; [rewrite <- A at 1; symmetry; apply firstn_skipn|]. rewrite skipn_length, L. subst t. rewrite app_length. lia.
Qed.
Lemma shaped_inv_app : forall a b b1, shaped (a ++ b1) (a ++ b) -> shaped b1 b.
Proof. intros a b b1 H. unfold shaped in *. rewrite !map_app in H. apply app_inv_head in H. exact H. Qed.
Lemma shaped_hd : forall y y1, shaped y1 y -> (y = [] \/ hd 0 y = 10 \/ hd 0 y = 13) -> y1 = [] \/ hd 0 y1 = 10 \/ hd 0 y1 = 13.
Proof.
  intros y y1 S Y. destruct y1 as [|c1 y1]; [left; reflexivity|]. right. destruct y as [|c y]; [discriminate S|]. unfold shaped in S. cbn [map] in S. injection S as S _.
  destruct Y as [Y|[Y|Y]]; [discriminate Y| |]; cbn [hd] in *; subst c; [left; apply shape_10; exact S|right; apply shape_13; exact S].
Qed.
Lemma line_text_kept : forall t t1 pos q x, firstn pos t1 = firstn pos t -> shaped t1 t -> line_text t q x -> q + zlen x <= Z.of_nat pos -> line_text t1 q x.
Proof.
  intros t t1 pos q x F S (a & y & E & -> & NX & Y) P.
  assert (LE : length t1 = length t) by (pose proof (shaped_len _ _ S); unfold zlen in *; lia).
  destruct (firstn_both t t1 pos (a ++ x) y F LE) as (y1 & E1 & _); [rewrite <- app_assoc; exact E|rewrite app_length; unfold zlen in P; lia|].
  exists a, y1. rewrite <- app_assoc in E1. split; [exact E1|]. split; [reflexivity|]. split; [exact NX|]. apply (shaped_hd y); [|exact Y].
  rewrite E, E1 in S. apply shaped_inv_app in S. apply shaped_inv_app in S. exact S.
Qed.
Lemma last_none : forall t n p, last_line t p -> line_start t n p -> forall m q, line_start t m q -> n < m -> False.
Proof.
  intros t n p (a & x & E & -> & NX) LP m q H. induction H as [|m p' q H IH L]; intros M; [pose proof (line_start_no _ _ _ LP); lia|].
  destruct (Z.eq_dec m n) as [-> |D]; [|apply IH; lia]. rewrite (line_start_det _ _ _ H _ LP) in *.
  destruct L as (a2 & x2 & e & r & E2 & Z2 & NX2 & NL & _). rewrite E in E2. apply app_len_inv in E2; [|exact Z2]. destruct E2 as [_ ->].
  apply Forall_app in NX. destruct NX as [_ NX]. apply Forall_app in NX. destruct NX as [NX _]. destruct NL; inversion NX as [|? ? [A B] _]; congruence.
Qed.
Lemma starts_between : forall t n p q, on_line t n p -> behind_line t n q -> forall m r, line_start t m r -> p < r -> r < q -> False.
Proof.
  intros t n p q [LP _] (p' & [LP' _] & B) m r LR P Q. rewrite (line_start_det _ _ _ LP' _ LP) in B.
  assert (NM : n < m).
  { destruct (Z.lt_trichotomy n m) as [H|[H|H]]; [exact H| |]; [subst m; rewrite (line_start_det _ _ _ LR _ LP) in P; lia|].
    pose proof (line_start_mono _ _ _ LP _ _ LR H). lia. }
  destruct B as [L|[L ->]]; [|exact (last_none _ _ _ L LP _ _ LR NM)].
  pose proof (ls_next _ _ _ _ LP L) as LQ. destruct (Z.eq_dec m (n + 1)) as [-> |D]; [rewrite (line_start_det _ _ _ LR _ LQ) in Q; lia|].
  pose proof (line_start_mono _ _ _ LR _ _ LQ ltac:(lia)). lia.
Qed.
Lemma shaped_sym : forall t t', shaped t t' -> shaped t' t.
Proof. intros t t' H. unfold shaped in *. congruence. Qed.

Lemma step_good : forall t t0 t1 n p q pos x, shaped t0 t -> shaped t1 t -> firstn pos t1 = firstn pos t0 -> good t0 p -> p <= Z.of_nat pos ->
  on_line t n p -> behind_line t n q -> line_text t1 p x -> p + zlen x <= q -> formed x -> p <= q -> good t1 q.
Proof.
  intros t t0 t1 n p q pos x S0 S1 F G P ON BE LT LX FX PQ m r LR Q.
  assert (LRt : line_start t m r) by exact (shaped_start _ _ _ _ S1 LR).
  assert (LR0 : line_start t0 m r) by exact (shaped_start _ _ _ _ (shaped_sym _ _ S0) LRt).
  destruct (Z.lt_trichotomy r p) as [H|[H|H]].
  - destruct (G m r LR0 H) as (x0 & LT0 & B0 & F0). exists x0. split; [|split; [lia|exact F0]].
    apply (line_text_kept t0 t1 pos); [exact F|unfold shaped in *; congruence|exact LT0|lia].
  - subst r. exists x. auto.
  - exfalso. exact (starts_between _ _ _ _ ON BE _ _ LRt H Q).
Qed.

Lemma lex_at_form : forall t fuel s s1 l, ~ In 0 t -> stand t s -> s_cur s < s_end s -> lex_at fuel s = Ret (0, s1, l) ->
  exists a x y, s_text s = a ++ x ++ y /\ s_cur s = zlen a /\ no_nl x /\ (y = [] \/ hd 0 y = 10 \/ hd 0 y = 13) /\
    s_cur s + zlen x <= s_cur s1 /\ final a x l /\ (0 <= l_vb l -> l_vb l <= l_ve l).
Proof.
  intros t fuel s s1 l N [SH EN HE] C H. unfold lex_at in H. destruct (lex fuel (buf s) (s_cur s) (s_end s)) as [[[[code cur] l0] n]| |] eqn:LX; cbn [bind] in H; try discriminate.
  injection H as -> <- <-. cbn [set_cur s_cur]. unfold lex in LX. replace (s_end s <=? s_cur s) with false in LX by lia.
  assert (ON : on_line t (s_no s) (s_cur s)) by (apply here_start; [exact HE|lia]).
  pose proof (line_start_pos _ _ _ (proj1 ON)) as P0. pose proof (shaped_len _ _ SH) as SL.
  set (a := firstn (Z.to_nat (s_cur s)) (s_text s)). set (u := skipn (Z.to_nat (s_cur s)) (s_text s)).
  assert (AU : s_text s = a ++ u) by (symmetry; apply firstn_skipn).
  assert (ZA : zlen a = s_cur s) by (apply zlen_firstn; lia).
  assert (NU : ~ In 0 u). { intros I. apply (shaped_nul t (s_text s)); [unfold shaped in *; congruence|exact N|]. rewrite AU. apply in_app_iff. right. exact I. }
  unfold buf in LX. rewrite AU in LX. rewrite <- ZA in LX at 1.
  destruct (lex_loop_line fuel u a (zlen a) line0 0 cur l0 n ltac:(pose proof (zlen_nonneg _ a); lia) ltac:(unfold linv; cbn; auto) NU LX) as [[K _]|(_ & _ & x & y & U & NX & LO & Y)].
  { cbn in K. exfalso. lia. }
  assert (LX2 : lex_loop fuel ((a ++ [] ++ u) ++ [0]) (zlen (a ++ [])) line0 = Ret (0, cur, l0, n)) by (cbn [app]; rewrite app_nil_r; exact LX).
  assert (SF : sofar a [] line0) by (unfold sofar; cbn; repeat split; constructor).
  destruct (lex_loop_form fuel u a [] line0 cur l0 n ltac:(rewrite app_nil_r; unfold linv; cbn; auto) SF NU LX2) as (x2 & y2 & U2 & NX2 & Y2 & FI). cbn [app] in FI.
  assert (Y' : y = [] \/ hd 0 y = 10 \/ hd 0 y = 13).
  { destruct Y as [[-> _]|(e & r & -> & NL & _)]; [left; reflexivity|right]. exact (newline_hd _ _ NL). }
  destruct (no_nl_split x y x2 y2 NX NX2 Y' Y2) as [E1 E2]; [congruence|]. subst x2 y2.
  exists a, x, y. rewrite AU, U. split; [reflexivity|]. split; [symmetry; exact ZA|]. split; [exact NX|]. split; [exact Y'|]. split.
  - rewrite <- ZA. destruct Y as [[_ ->]|(e & r & _ & _ & ->)]; rewrite !zlen_app; [lia|pose proof (zlen_nonneg _ e); lia].
  - split; [exact FI|]. intros V. destruct LO as [(_ & _ & L1 & L2)|(_ & L2 & _)]; lia.
Qed.
Lemma final_formed : forall a x l, final a x l -> formed x.
Proof.
  intros a x l [(G & _)|(s & k & w & v & (E & L & KW & KN & W & _) & _)]; [left; exact G|]. right. exists k, (l_key l). split; [|exact KN]. exists s, w, v. auto.
Qed.
Lemma final_key : forall a x l, final a x l -> l_ke l - l_kb l = 0 -> gap_line x.
Proof.
  intros a x l [(G & _)|(s & k & w & v & (E & L & (c & r & KW & _) & _ & _ & K1 & K2) & _)] Z0; [exact G|]. subst k. rewrite zlen_cons in K2. pose proof (zlen_nonneg _ r). lia.
Qed.

Lemma lex_at_good : forall t fuel s s1 l, ~ In 0 t -> stand t s -> good (s_text s) (s_cur s) -> lex_at fuel s = Ret (0, s1, l) -> s_cur s < s_end s ->
  s_text s1 = s_text s /\ good (s_text s1) (s_cur s1) /\ s_cur s <= s_cur s1 /\
  (l_ke l - l_kb l = 0 -> exists x, line_text (s_text s) (s_cur s) x /\ gap_line x).
Proof.
  intros t fuel s s1 l N ST G H C. destruct (lex_at_form t fuel s s1 l N ST C H) as (a & x & y & E & ZA & NX & Y & LX & FI & _).
  destruct (lex_at_lines t fuel s 0 s1 l N ST H) as [S1 [(EE & _)|[(_ & K & _)|(ON & _ & _ & BE & _)]]]; [lia|cbn in K; exfalso; lia|].
  assert (T1 : s_text s1 = s_text s) by (rewrite S1; reflexivity). pose proof (zlen_nonneg _ x).
  assert (LT : line_text (s_text s) (s_cur s) x) by (exists a, y; auto).
  split; [exact T1|]. split; [|split; [lia|intros Z0; exists x; split; [exact LT|exact (final_key _ _ _ FI Z0)]]].
  rewrite T1. destruct ST as [SH EN HE]. apply (step_good t (s_text s) (s_text s) (s_no s) (s_cur s) (s_cur s1) (Z.to_nat (s_cur s)) x); try assumption; try reflexivity; try lia.
  exact (final_formed _ _ _ FI).
Qed.

(* ---- ParseDevice, ParseChannel and ParseLogger ---- *)
Lemma lex_at_stand : forall t fuel s s1 l, ~ In 0 t -> stand t s -> lex_at fuel s = Ret (0, s1, l) -> s_cur s < s_end s -> stand t s1 /\ s_end s1 = s_end s /\ s_no s1 - 1 = s_no s.
Proof.
  intros t fuel s s1 l N ST H C. destruct (lex_at_lines t fuel s 0 s1 l N ST H) as [S1 [(EE & _)|[(_ & K & _)|(ON & _ & NO & BE & _)]]]; [lia|cbn in K; exfalso; lia|].
  pose proof (stand_behind _ _ _ _ ST BE) as ST1. rewrite <- NO, <- S1 in ST1. split; [exact ST1|]. split; [rewrite S1; reflexivity|lia].
Qed.
Lemma device_good : forall t e indent fuel s d s' d', ~ In 0 t -> stand t s -> good (s_text s) (s_cur s) -> parse_device fuel e s d indent = Ret (0, s', d') ->
  good (s_text s') (s_cur s') /\ s_chs s' = s_chs s.
Proof.
  intros t e indent. induction fuel as [|fuel IH]; intros s d s' d' N ST G H; [discriminate H|]. cbn [parse_device] in H. cbv zeta in H.
  apply bind_ret_inv in H. destruct H as ([[ret s1] l] & LX & H). destruct (lex_at_lines t fuel s ret s1 l N ST LX) as [S1 [(E & -> & -> & ->)|[(ON & C & NO)|(ON & -> & NO & BE & FL)]]].
  - cbn [Z.eqb negb PEC_NONE line0 l_ke l_kb] in H. change (-1 - -1 =? 0) with true in H. cbn [Z.eqb negb] in H.
    replace (s_end s <=? s_cur s) with true in H by lia. injection H as <- _. auto.
  - replace (ret =? PEC_NONE) with false in H by (cbn in C; unfold PEC_NONE; lia). cbn [negb] in H. injection H as -> _ _. cbn in C. exfalso. lia.
  - assert (CE : s_cur s < s_end s) by (destruct ST as [_ EN _]; destruct ON; lia).
    destruct (lex_at_stand _ _ _ _ _ N ST LX CE) as (ST1 & _). destruct (lex_at_good _ _ _ _ _ N ST G LX CE) as (T1 & G1 & _).
    assert (CH : s_chs s1 = s_chs s) by (rewrite S1; reflexivity). change (0 =? PEC_NONE) with true in H. cbn [negb] in H.
    assert (AG : forall d, (if s_cur s1 <? s_end s1 then parse_device fuel e s1 d indent else Ret (PEC_NONE, s1, d)) = Ret (0, s', d') -> good (s_text s') (s_cur s') /\ s_chs s' = s_chs s).
    { intros d0 H0. destruct (s_cur s1 <? s_end s1); [rewrite <- CH; exact (IH _ _ _ _ N ST1 G1 H0)|]. injection H0 as <- _. auto. }
    destruct (_ =? 0); [destruct (s_end s1 <=? s_cur s1); [injection H as <- _; auto|exact (AG _ H)]|].
    destruct (l_blank l <=? indent). { injection H as <- _. cbn [set_cur s_text s_cur s_chs]. rewrite T1. auto. }
    apply bind_ret_inv in H. destruct H as ([[v w] rest] & LV & H). apply bind_ret_inv in H. destruct H as ([r d1] & DK & H).
    destruct (r =? PEC_NONE) eqn:R0; [exact (AG _ H)|]. unfold PEC_NONE in R0. destruct (r =? PEC_UNDEFINED_DEVICE_KEY); injection H as -> _ _; lia.
Qed.
Lemma channel_good : forall t e indent fuel s c s' c', ~ In 0 t -> stand t s -> good (s_text s) (s_cur s) -> parse_channel fuel e s c indent = Ret (0, s', c') ->
  good (s_text s') (s_cur s') /\ s_chs s' = s_chs s.
Proof.
  intros t e indent. induction fuel as [|fuel IH]; intros s c s' c' N ST G H; [discriminate H|]. cbn [parse_channel] in H. cbv zeta in H.
  apply bind_ret_inv in H. destruct H as ([[ret s1] l] & LX & H). destruct (lex_at_lines t fuel s ret s1 l N ST LX) as [S1 [(E & -> & -> & ->)|[(ON & C & NO)|(ON & -> & NO & BE & FL)]]].
  - cbn [Z.eqb negb PEC_NONE line0 l_ke l_kb] in H. change (-1 - -1 =? 0) with true in H. cbn [Z.eqb negb] in H.
    replace (s_end s <=? s_cur s) with true in H by lia. injection H as <- _. auto.
  - replace (ret =? PEC_NONE) with false in H by (cbn in C; unfold PEC_NONE; lia). cbn [negb] in H. injection H as -> _ _. cbn in C. exfalso. lia.
  - assert (CE : s_cur s < s_end s) by (destruct ST as [_ EN _]; destruct ON; lia).
    destruct (lex_at_stand _ _ _ _ _ N ST LX CE) as (ST1 & _). destruct (lex_at_good _ _ _ _ _ N ST G LX CE) as (T1 & G1 & _).
    assert (CH : s_chs s1 = s_chs s) by (rewrite S1; reflexivity). change (0 =? PEC_NONE) with true in H. cbn [negb] in H.
    assert (AG : forall s2 c, s_chs s2 = s_chs s -> stand t s2 -> good (s_text s2) (s_cur s2) ->
      (if s_cur s2 <? s_end s2 then parse_channel fuel e s2 c indent else Ret (PEC_NONE, s2, c)) = Ret (0, s', c') -> good (s_text s') (s_cur s') /\ s_chs s' = s_chs s).
    { intros s2 c0 CH2 ST2 G2 H0. destruct (s_cur s2 <? s_end s2); [rewrite <- CH2; exact (IH _ _ _ _ N ST2 G2 H0)|]. injection H0 as <- _. auto. }
    destruct (_ =? 0); [destruct (s_end s1 <=? s_cur s1); [injection H as <- _; auto|exact (AG _ _ CH ST1 G1 H)]|].
    destruct (l_blank l <=? indent). { injection H as <- _. cbn [set_cur s_text s_cur s_chs]. rewrite T1. auto. }
    apply bind_ret_inv in H. destruct H as ([[v w] rest] & LV & H). destruct (l_key l =? RK_DEVICE).
    + apply bind_ret_inv in H. destruct H as (id & _ & H). destruct (x_maxdev e <=? _); [injection H as E _ _; discriminate E|].
      destruct (negb _); [injection H as E _ _; discriminate E|].
      apply bind_ret_inv in H. destruct H as ([[r s2] d] & PD & H). pose proof (device_lines _ _ _ _ _ _ _ _ _ N ST1 PD) as ED.
      destruct (r =? PEC_NONE) eqn:R0; cbn [negb] in H; [|injection H as -> _ _; discriminate R0]. assert (r = 0) by (unfold PEC_NONE in R0; lia). subst r.
      destruct (device_good _ _ _ _ _ _ _ _ N ST1 G1 PD) as [G2 CH2]. apply (AG s2 (add_dev c d)); [congruence|exact (ends_stand _ _ ED)|exact G2|exact H].
    + apply bind_ret_inv in H. destruct H as ([r c1] & CK & H). destruct (r =? PEC_NONE) eqn:R0; [exact (AG _ _ CH ST1 G1 H)|]. injection H as -> _ _. discriminate R0.
Qed.

(* what holds after a round of ParseLogger *)
Definition tail_gap (t : text) : Prop :=
  t = [] \/ exists n p x, line_start t n p /\ behind_line t n (zlen t) /\ line_text t p x /\ gap_line x.
Definition lnext_good (r : lnext) : Prop :=
  match r with
  | Next s => good (s_text s) (s_cur s) /\ s_cur s < s_end s
  | Stop code s => code = 0 -> good (s_text s) (s_cur s) /\ s_end s <= s_cur s /\ (s_chs s = [] -> tail_gap (s_text s))
  end.
Lemma again_good : forall s, good (s_text s) (s_cur s) -> lnext_good (again s).
Proof.
  intros s G. unfold again. destruct (s_cur s <? s_end s) eqn:E; cbn [lnext_good]; [split; [exact G|lia]|].
  destruct (zlen (s_chs s) =? 0) eqn:C; [intros K; discriminate K|]. intros _. split; [exact G|]. split; [lia|]. intros K. rewrite K in C. discriminate C.
Qed.

Lemma subst_good : forall t fuel s s1 l t1, ~ In 0 t -> stand t s -> good (s_text s) (s_cur s) -> lex_at fuel s = Ret (0, s1, l) -> s_cur s < s_end s ->
  l_ke l - l_kb l <> 0 -> shaped t1 t -> firstn (Z.to_nat (l_ve l)) t1 = firstn (Z.to_nat (l_ve l)) (s_text s) -> good t1 (s_cur s1).
Proof.
  intros t fuel s s1 l t1 N ST G H C K SH1 F. destruct (lex_at_form t fuel s s1 l N ST C H) as (a & x & y & E & ZA & NX & Y & LX & FI & VV).
  destruct (lex_at_lines t fuel s 0 s1 l N ST H) as [S1 [(EE & _)|[(_ & K0 & _)|(ON & _ & _ & BE & _)]]]; [lia|cbn in K0; exfalso; lia|].
  destruct ST as [SH EN HE].
  destruct FI as [(_ & K1 & K2)|(s0 & k & w & v & (EX & L & KW & KN & W & _) & VB)]; [lia|].
  pose proof (zlen_nonneg _ (a ++ s0 ++ k ++ w)) as P0. specialize (VV ltac:(lia)). pose proof (zlen_nonneg _ x) as PX.
  assert (S01 : shaped t1 (s_text s)) by (unfold shaped in *; congruence).
  assert (LE : length t1 = length (s_text s)) by (pose proof (shaped_len _ _ S01); unfold zlen in *; lia).
  destruct (firstn_both (s_text s) t1 (Z.to_nat (l_ve l)) (a ++ s0 ++ k ++ w ++ [58]) (v ++ y) F LE) as (b1 & E1 & LB).
  { rewrite E, EX. rewrite <- !app_assoc. reflexivity. }
  { unfold zlen in VB, VV. rewrite !app_length in *. cbn [length] in *. lia. }
  assert (SB : shaped (v ++ y) b1).
  { apply shaped_sym. rewrite E, EX, E1 in S01. replace (a ++ (s0 ++ k ++ w ++ 58 :: v) ++ y) with ((a ++ s0 ++ k ++ w ++ [58]) ++ v ++ y) in S01 by (rewrite <- !app_assoc; reflexivity).
    exact (shaped_inv_app _ _ _ S01). }
  destruct (shaped_app _ _ _ SB) as (v1 & y1 & -> & SV & SY).
  set (x1 := s0 ++ k ++ w ++ 58 :: v1).
  assert (ZX : zlen x1 = zlen x). { subst x x1. rewrite !zlen_app, !zlen_cons, (shaped_len _ _ SV). reflexivity. }
  apply (step_good t (s_text s) t1 (s_no s) (s_cur s) (s_cur s1) (Z.to_nat (l_ve l)) x1); try assumption.
  - rewrite ZA, zlen_app in *. rewrite !zlen_app in VB. pose proof (zlen_nonneg _ s0). pose proof (zlen_nonneg _ k). pose proof (zlen_nonneg _ w). lia.
  - exists a, y1. split; [rewrite E1; subst x1; rewrite <- !app_assoc; reflexivity|]. split; [exact ZA|]. split; [|exact (shaped_hd y y1 (shaped_sym _ _ SY) Y)].
    subst x x1. unfold no_nl in NX. rewrite !Forall_app in NX. destruct NX as (N1 & N2 & N3 & N4). inversion N4 as [|? ? N5 N6]; subst.
    apply Forall_app. split; [exact N1|]. apply Forall_app. split; [exact N2|]. apply Forall_app. split; [exact N3|]. constructor; [exact N5|]. exact (shaped_nl _ _ SV N6).
  - lia.
  - right. exists k, (l_key l). split; [|exact KN]. exists s0, w, v1. auto.
  - lia.
Qed.

Lemma logger_line_good : forall t e fuel s r, ~ In 0 t -> stand t s -> good (s_text s) (s_cur s) -> s_cur s < s_end s -> logger_line fuel e s = Ret r -> lnext_good r.
Proof.
  intros t e fuel s r N ST G CE H. unfold logger_line in H. cbv zeta in H.
  apply bind_ret_inv in H. destruct H as ([[ret s1] l] & LX & H). destruct (lex_at_lines t fuel s ret s1 l N ST LX) as [S1 [(E & _)|[(ON & C & NO)|(ON & -> & NO & BE & FL)]]]; [lia| |].
  - replace (ret =? PEC_NONE) with false in H by (cbn in C; unfold PEC_NONE; lia). cbn [negb] in H. injection H as <-. cbn [lnext_good]. intros ->. cbn in C. exfalso. lia.
  - destruct (lex_at_stand _ _ _ _ _ N ST LX CE) as (ST1 & EN1 & _). destruct (lex_at_good _ _ _ _ _ N ST G LX CE) as (T1 & G1 & _ & GAP).
    change (0 =? PEC_NONE) with true in H. cbn [negb] in H. destruct (l_ke l - l_kb l =? 0) eqn:KZ.
    { destruct (s_end s1 <=? s_cur s1) eqn:EE; injection H as <-; [|apply again_good, G1]. cbn [lnext_good]. intros _. split; [exact G1|]. split; [lia|]. intros _.
      right. destruct (GAP ltac:(lia)) as (x & LT & GL). pose proof (shaped_sym _ _ (st_shape _ _ ST)) as SS. exists (s_no s), (s_cur s), x. rewrite T1.
      split; [exact (shaped_start _ _ _ _ SS (proj1 ON))|]. split; [|auto].
      assert (CZ : s_cur s1 = zlen (s_text s)). { pose proof (behind_end _ _ _ BE). pose proof (shaped_len _ _ SS). pose proof (st_end _ _ ST1). lia. }
      rewrite CZ in BE. destruct BE as (p & [B1 B2] & B3). exists p. split; [split; [exact (shaped_start _ _ _ _ SS B1)|rewrite <- (shaped_len _ _ SS); exact B2]|].
      destruct B3 as [B3|[B3 _]]; [left; exact (shaped_line_to _ _ _ _ SS B3)|right; split; [exact (shaped_last _ _ _ SS B3)|reflexivity]]. }
    apply bind_ret_inv in H. destruct H as ([[v w] rest] & LV & H). specialize (FL _ _ _ LV).
    assert (SET : forall s2, s_text s2 = s_text s1 -> s_cur s2 = s_cur s1 -> good (s_text s2) (s_cur s2)) by (intros s2 -> ->; exact G1).
    destruct (_ =? RK_HOT_UPDATE); [injection H as <-; apply again_good, SET; reflexivity|].
    destruct (_ || _).
    { apply bind_ret_inv in H. destruct H as ([r1 t1] & DF & H).
      assert (NV : ~ In 0 v). { intros I0. unfold flat in FL. rewrite Forall_forall in FL. specialize (FL 0 I0). discriminate FL. }
      assert (J : shaped t1 (s_text s1) /\ firstn (Z.to_nat (l_ve l)) t1 = firstn (Z.to_nat (l_ve l)) (s_text s1)).
      { destruct (_ =? RK_DEFINE).
        - split; [exact (proj1 (macro_shape _ _ _ _ _ _ FL DF))|]. pose proof (macro_ok std_env fuel (s_text s1) (Z.to_nat (l_ve l)) v NV) as P. rewrite DF in P. exact (proj2 P).
        - split; [exact (proj1 (var_shape _ _ _ _ _ _ _ _ FL DF))|]. pose proof (var_ok std_env fuel (s_text s1) (Z.to_nat (l_ve l)) v NV) as P. rewrite DF in P. exact (proj2 P). }
      destruct J as [J1 J2]. destruct (r1 =? PEC_NONE) eqn:R0; cbn [negb] in H; injection H as <-.
      - apply again_good. cbn [set_text s_text s_cur]. apply (subst_good t fuel s s1 l t1 N ST G LX CE); [lia|destruct ST1; unfold shaped in *; congruence|rewrite <- T1; exact J2].
      - cbn [lnext_good]. intros ->. discriminate R0. }
    destruct (_ =? RK_LOGGER_NAME); [injection H as <-; apply again_good, SET; reflexivity|].
    destruct (_ =? PK_LOGGER_DESC); [injection H as <-; apply again_good, SET; reflexivity|].
    destruct (_ =? RK_SHM_KEY); [apply bind_ret_inv in H; destruct H as (n & _ & H); injection H as <-; apply again_good, SET; reflexivity|].
    destruct (_ =? RK_CHANNEL).
    { apply bind_ret_inv in H. destruct H as (id & _ & H). destruct (x_maxch e <=? _); [injection H as <-; intros K; discriminate K|].
      destruct (negb _); [injection H as <-; intros K; discriminate K|].
      apply bind_ret_inv in H. destruct H as ([[r2 s2] c] & PC & H).
      destruct (r2 =? 0) eqn:R0; cbn [negb] in H; injection H as <-; [|intros ->; discriminate R0].
      assert (r2 = 0) by lia. subst r2. destruct (channel_good _ _ _ _ _ _ _ _ N ST1 G1 PC) as [G2 _]. apply again_good. exact G2. }
    injection H as <-. intros K. discriminate K.
Qed.
Lemma logger_good : forall t e fuel s s', ~ In 0 t -> stand t s -> good (s_text s) (s_cur s) -> s_cur s < s_end s -> logger_loop fuel e s = Ret (0, s') ->
  good (s_text s') (s_cur s') /\ s_end s' <= s_cur s' /\ (s_chs s' = [] -> tail_gap (s_text s')).
Proof.
  intros t e. induction fuel as [|fuel IH]; intros s s' N ST G C H; [discriminate H|]. cbn [logger_loop] in H. apply bind_ret_inv in H. destruct H as (r & LL & H).
  pose proof (logger_line_lines _ _ _ _ _ N ST LL) as J. pose proof (logger_line_good _ _ _ _ _ N ST G C LL) as K. destruct r as [s1|c1 s1].
  - destruct K as [K1 K2]. exact (IH _ _ N J K1 K2 H).
  - injection H as -> <-. exact (K eq_refl).
Qed.
Theorem accepted_lines : forall fuel e shm t s, ~ In 0 t -> has_bom t = false -> parse_logger fuel e shm t = Ret (0, s) ->
  (forall n p, line_start (s_text s) n p -> p < zlen (s_text s) -> exists x, line_text (s_text s) p x /\ formed x) /\
  (s_chs s = [] -> tail_gap (s_text s)).
Proof.
  intros fuel e shm t s N B H. pose proof (parse_lines fuel e shm t 0 s N B H) as EN. unfold parse_logger in H. rewrite B in H. cbv zeta in H. rewrite Z.add_0_l in H.
  destruct t as [|c t].
  - destruct fuel; [discriminate H|]. cbn in H. destruct fuel; cbn in H; injection H as <-; cbn [s_text s_chs]; (split; [|left; reflexivity]).
    all: intros n p LS P; pose proof (line_start_pos _ _ _ LS) as P0; unfold zlen in P; cbn in P; lia.
  - set (t0 := c :: t) in *. set (s0 := mkLs t0 0 (zlen t0) 1 [] shm false [] []) in *.
    assert (ST : stand t0 s0) by (constructor; [reflexivity|reflexivity|left; split; [constructor|apply zlen_nonneg]]).
    assert (G : good (s_text s0) (s_cur s0)). { intros n q LS Q. pose proof (line_start_pos _ _ _ LS). cbn in Q. lia. }
    assert (C : s_cur s0 < s_end s0). { subst s0 t0. cbn [s_cur s_end]. rewrite zlen_cons. pose proof (zlen_nonneg _ t). lia. }
    destruct (logger_good t0 e fuel s0 s N ST G C H) as (G1 & E1 & T1). split; [|exact T1].
    intros n p LS P. destruct (G1 n p LS) as (x & LT & _ & F); [|exists x; auto]. destruct EN as [SH EE _]. rewrite (shaped_len _ _ SH) in P. lia.
Qed.

(* ---- the key of a line ---- *)
Definition lead_char (c : Z) : Prop := c = 45 \/ blank c.
Lemma split_at : forall (P : Z -> Prop) s s' c c' r r', (forall x, P x -> x <> c /\ x <> c') -> Forall P s -> Forall P s' -> s ++ c :: r = s' ++ c' :: r' -> s = s' /\ c = c' /\ r = r'.
Proof.
  intros P s. induction s as [|x s IH]; intros s' c c' r r' D F F' E; destruct s' as [|x' s']; cbn [app] in E.
  - injection E as <- <-. auto.
  - injection E as E _. inversion F'; subst. destruct (D x') as [D1 _]; [assumption|]. congruence.
  - injection E as E _. inversion F; subst. destruct (D c') as [_ D1]; [assumption|]. congruence.
  - injection E as -> E. inversion F; inversion F'; subst. destruct (IH s' c c' r r' D ltac:(assumption) ltac:(assumption) E) as (-> & -> & ->). auto.
Qed.
Lemma key_line_gap : forall k x, key_line k x -> gap_line x -> False.
Proof.
  intros k x (s & w & v & -> & L & (c & r & -> & LO & _) & _) (s' & c' & E & L' & C).
  assert (NL : forall y, lead_char y -> y <> c /\ y <> 35) by (unfold lead_char, blank, lower in *; cbn [In]; lia).
  destruct C as [-> |(r' & ->)].
  - rewrite app_nil_r in E. subst s'. apply Forall_app in L'. destruct L' as [_ L']. inversion L' as [|? ? A _]; subst. destruct (NL c A) as [B _]. congruence.
  - cbn [app] in E. destruct (split_at lead_char _ _ _ _ _ _ NL L L' E) as (_ & B & _). unfold lower in LO. lia.
Qed.
Lemma key_line_det : forall k k' x, key_line k x -> key_line k' x -> k = k'.
Proof.
  intros k k' x (s & w & v & -> & L & (c & r & -> & LO & KR) & W) (s' & w' & v' & E & L' & (c' & r' & -> & LO' & KR') & W'). cbn [app] in E.
  assert (NL : forall y, lead_char y -> y <> c /\ y <> c') by (unfold lead_char, blank, lower in *; cbn [In]; lia).
  destruct (split_at lead_char _ _ _ _ _ _ NL L L' E) as (_ & <- & E2). f_equal.
  assert (HW : forall w v, Forall (fun c => c = 32 \/ c = 9) w -> exists d u, w ++ 58 :: v = d :: u /\ (d = 32 \/ d = 9 \/ d = 58)).
  { intros w0 v0 F. destruct w0 as [|d w0]; [exists 58, v0; auto|]. inversion F; subst. exists d, (w0 ++ 58 :: v0). split; [reflexivity|lia]. }
  destruct (HW w v W) as (d & u & E3 & D). destruct (HW w' v' W') as (d' & u' & E4 & D'). rewrite E3, E4 in E2.
  assert (NK : forall y, lower y \/ digit y \/ y = 95 -> y <> d /\ y <> d') by (unfold lower, digit; lia).
  exact (proj1 (split_at _ _ _ _ _ _ _ NK KR KR' E2)).
Qed.
Lemma line_text_det : forall t p x x', line_text t p x -> line_text t p x' -> x = x'.
Proof.
  intros t p x x' (a & y & E & Z1 & NX & Y) (a' & y' & E' & Z2 & NX' & Y'). rewrite E in E'. apply app_len_inv in E'; [|congruence]. destruct E' as [_ E'].
  exact (proj1 (no_nl_split x y x' y' NX NX' Y Y' E')).
Qed.

(* ---- keys are taken by their first letter at least ---- *)
Definition lettered (c r : Z) : bool := existsb (fun p => (snd p =? r) && (hd 0 (fst p) =? c)) documented.
Lemma lettered_in : forall c r, lettered c r = true -> exists d, In (d, r) documented /\ hd 0 d = c.
Proof.
  intros c r H. unfold lettered in H. apply existsb_exists in H. destruct H as ([d r'] & I & E). cbn [fst snd] in E.
  assert (r' = r /\ hd 0 d = c) as [-> E2] by lia. exists d. auto.
Qed.
Lemma reserve_letter : forall k r, parse_reserve k = Ret r -> r <> RK_NULL -> 2 <= zlen k /\ exists d, In (d, r) documented /\ hd 0 d = hd 0 k.
Proof.
  intros k r H NR. split; [exact (parse_reserve_null k r H NR)|]. apply lettered_in. destruct k as [|c0 k]; [injection H as <-; exfalso; apply NR; reflexivity|].
  unfold parse_reserve in H. destruct (zlen (c0 :: k) <? 2); [injection H as <-; exfalso; apply NR; reflexivity|]. change (rd (c0 :: k) 0) with (Ret c0) in H. cbn [bind hd] in *.
  destruct (rd (c0 :: k) 1) as [c1| |]; cbn [bind] in H; try discriminate.
  repeat match type of H with
  | (if ?c =? ?n then _ else _) = _ => destruct (Z.eqb_spec c n) as [E|_]; [try subst c0|]
  | (if ?b then _ else _) = _ => destruct b
  | bind ?m _ = _ => destruct m; cbn [bind] in H; try discriminate H
  end; try (injection H as <-; first [reflexivity | exfalso; apply NR; reflexivity]).
Qed.

(* ---- a text without definitions stays as it is ---- *)
Lemma final_keyed : forall a x l, final a x l -> l_ke l - l_kb l <> 0 -> exists k, key_line k x /\ parse_reserve k = Ret (l_key l).
Proof.
  intros a x l [(_ & K1 & K2)|(s & k & w & v & (E & L & KW & [KN _] & W & _) & _)] Z0; [lia|]. exists k. split; [|exact KN]. exists s, w, v. auto.
Qed.
Lemma device_text : forall e indent fuel s d r s' d', parse_device fuel e s d indent = Ret (r, s', d') -> s_text s' = s_text s.
Proof.
  intros e indent. induction fuel as [|fuel IH]; intros s d r s' d' H; [discriminate H|]. cbn [parse_device] in H. cbv zeta in H.
  apply bind_ret_inv in H. destruct H as ([[ret s1] l] & LX & H).
  assert (T1 : s_text s1 = s_text s). { unfold lex_at in LX. destruct (lex _ _ _ _) as [[[[c0 c1] c2] c3]| |]; cbn [bind] in LX; try discriminate. injection LX as _ <- _. reflexivity. }
  assert (AG : forall d, (if s_cur s1 <? s_end s1 then parse_device fuel e s1 d indent else Ret (PEC_NONE, s1, d)) = Ret (r, s', d') -> s_text s' = s_text s).
  { intros d0 H0. destruct (s_cur s1 <? s_end s1); [rewrite <- T1; exact (IH _ _ _ _ _ H0)|]. injection H0 as _ <- _. exact T1. }
  destruct (negb _); [injection H as _ <- _; exact T1|]. destruct (_ =? 0); [destruct (_ <=? _); [injection H as _ <- _; exact T1|exact (AG _ H)]|].
  destruct (_ <=? indent); [injection H as _ <- _; exact T1|]. apply bind_ret_inv in H. destruct H as ([[v w] rest] & _ & H). apply bind_ret_inv in H. destruct H as ([r1 d1] & _ & H).
  destruct (r1 =? PEC_NONE); [exact (AG _ H)|]. destruct (_ =? PEC_UNDEFINED_DEVICE_KEY); injection H as _ <- _; exact T1.
Qed.
Lemma channel_text : forall e indent fuel s c r s' c', parse_channel fuel e s c indent = Ret (r, s', c') -> s_text s' = s_text s.
Proof.
  intros e indent. induction fuel as [|fuel IH]; intros s c r s' c' H; [discriminate H|]. cbn [parse_channel] in H. cbv zeta in H.
  apply bind_ret_inv in H. destruct H as ([[ret s1] l] & LX & H).
  assert (T1 : s_text s1 = s_text s). { unfold lex_at in LX. destruct (lex _ _ _ _) as [[[[c0 c1] c2] c3]| |]; cbn [bind] in LX; try discriminate. injection LX as _ <- _. reflexivity. }
  assert (AG : forall s2 c, s_text s2 = s_text s -> (if s_cur s2 <? s_end s2 then parse_channel fuel e s2 c indent else Ret (PEC_NONE, s2, c)) = Ret (r, s', c') -> s_text s' = s_text s).
  { intros s2 d0 T2 H0. destruct (s_cur s2 <? s_end s2); [rewrite <- T2; exact (IH _ _ _ _ _ H0)|]. injection H0 as _ <- _. exact T2. }
  destruct (negb _); [injection H as _ <- _; exact T1|]. destruct (_ =? 0); [destruct (_ <=? _); [injection H as _ <- _; exact T1|exact (AG _ _ T1 H)]|].
  destruct (_ <=? indent); [injection H as _ <- _; exact T1|]. apply bind_ret_inv in H. destruct H as ([[v w] rest] & _ & H). destruct (_ =? RK_DEVICE).
  - apply bind_ret_inv in H. destruct H as (id & _ & H). destruct (_ <=? _); [injection H as _ <- _; exact T1|]. destruct (negb _); [injection H as _ <- _; exact T1|].
    apply bind_ret_inv in H. destruct H as ([[r2 s2] d] & PD & H). pose proof (device_text _ _ _ _ _ _ _ _ PD) as T2. rewrite T1 in T2.
    destruct (negb _); [injection H as _ <- _; exact T2|exact (AG s2 (add_dev c d) T2 H)].
  - apply bind_ret_inv in H. destruct H as ([r1 c1] & _ & H). destruct (r1 =? PEC_NONE); [exact (AG _ _ T1 H)|]. injection H as _ <- _. exact T1.
Qed.
(* no line with the key of a definition *)
Definition undefined (t : text) : Prop :=
  forall n p x k, line_start t n p -> line_text t p x -> key_line k x -> parse_reserve k <> Ret RK_DEFINE /\ parse_reserve k <> Ret RK_VARIABLE.
Lemma logger_text : forall t e fuel s r, ~ In 0 t -> undefined t -> s_text s = t -> stand t s -> s_cur s < s_end s -> logger_line fuel e s = Ret r ->
  match r with Next s' => s_text s' = t /\ s_cur s' < s_end s' | Stop code s' => s_text s' = t end.
Proof.
  intros t e fuel s r N UN TE ST CE H. unfold logger_line in H. cbv zeta in H.
  assert (AG : forall s2, s_text s2 = t -> match again s2 with Next s' => s_text s' = t /\ s_cur s' < s_end s' | Stop code s' => s_text s' = t end).
  { intros s2 T2. unfold again. destruct (s_cur s2 <? s_end s2) eqn:E; [split; [exact T2|lia]|exact T2]. }
  apply bind_ret_inv in H. destruct H as ([[ret s1] l] & LX & H). destruct (lex_at_lines t fuel s ret s1 l N ST LX) as [S1 J].
  assert (T1 : s_text s1 = t) by (rewrite S1; exact TE).
  destruct (ret =? PEC_NONE) eqn:R0; cbn [negb] in H; [|injection H as <-; exact T1]. assert (ret = 0) by (unfold PEC_NONE in R0; lia). subst ret.
  destruct (_ =? 0) eqn:KZ; [destruct (_ <=? _); injection H as <-; [exact T1|apply AG, T1]|].
  destruct J as [(E & _)|[(_ & C & _)|(ON & _ & NO & BE & FL)]]; [lia|cbn in C; exfalso; lia|].
  destruct (lex_at_form t fuel s s1 l N ST CE LX) as (a & x & y & E & ZA & NX & Y & _ & FI & _).
  destruct (final_keyed _ _ _ FI ltac:(lia)) as (k & KL & PR). destruct (UN (s_no s) (s_cur s) x k (proj1 ON)) as [U1 U2]; [exists a, y; rewrite <- TE; auto|exact KL|].
  rewrite PR in U1, U2.
  apply bind_ret_inv in H. destruct H as ([[v w] rest] & LV & H).
  destruct (_ =? RK_HOT_UPDATE); [injection H as <-; apply AG, T1|].
  replace (l_key l =? RK_DEFINE) with false in H by (destruct (Z.eqb_spec (l_key l) RK_DEFINE); congruence).
  replace (l_key l =? RK_VARIABLE) with false in H by (destruct (Z.eqb_spec (l_key l) RK_VARIABLE); congruence). cbn [orb] in H.
  destruct (_ =? RK_LOGGER_NAME); [injection H as <-; apply AG, T1|]. destruct (_ =? PK_LOGGER_DESC); [injection H as <-; apply AG, T1|].
  destruct (_ =? RK_SHM_KEY); [apply bind_ret_inv in H; destruct H as (n & _ & H); injection H as <-; apply AG, T1|].
  destruct (_ =? RK_CHANNEL); [|injection H as <-; exact T1].
  apply bind_ret_inv in H. destruct H as (id & _ & H). destruct (_ <=? _); [injection H as <-; exact T1|]. destruct (negb _); [injection H as <-; exact T1|].
  apply bind_ret_inv in H. destruct H as ([[r2 s2] c] & PC & H). pose proof (channel_text _ _ _ _ _ _ _ _ PC) as T2. rewrite T1 in T2.
  destruct (negb _); injection H as <-; [exact T2|apply AG, T2].
Qed.
Theorem text_kept : forall fuel e shm t code s, ~ In 0 t -> has_bom t = false -> undefined t -> parse_logger fuel e shm t = Ret (code, s) -> s_text s = t.
Proof.
  intros fuel e shm t code s N B UN H. unfold parse_logger in H. rewrite B in H. cbv zeta in H. rewrite Z.add_0_l in H.
  assert (G : forall fuel s0, stand t s0 -> s_text s0 = t -> s_cur s0 < s_end s0 -> logger_loop fuel e s0 = Ret (code, s) -> s_text s = t).
  { clear fuel H. induction fuel as [|fuel IH]; intros s0 ST TE C H; [discriminate H|]. cbn [logger_loop] in H. apply bind_ret_inv in H. destruct H as (r & LL & H).
    pose proof (logger_line_lines _ _ _ _ _ N ST LL) as J. pose proof (logger_text _ _ _ _ _ N UN TE ST C LL) as K. destruct r as [s1|c1 s1].
    - destruct K as [K1 K2]. exact (IH _ J K1 K2 H).
    - injection H as _ <-. exact K. }
  destruct t as [|c t].
  - destruct fuel; [discriminate H|]. cbn in H. destruct fuel; cbn in H; injection H as _ <-; reflexivity.
  - refine (G fuel _ _ _ _ H); [constructor; [reflexivity|reflexivity|left; split; [constructor|apply zlen_nonneg]]|reflexivity|].
    cbn [s_cur s_end]. rewrite zlen_cons. pose proof (zlen_nonneg _ t). lia.
Qed.
Lemma reserve_define : forall k, (parse_reserve k = Ret RK_DEFINE -> hd 0 k = 100 /\ nth 2 k 0 = 102) /\ (parse_reserve k = Ret RK_VARIABLE -> hd 0 k = 118).
Proof.
  assert (ND : RK_DEFINE <> RK_NULL /\ RK_VARIABLE <> RK_NULL) by (split; discriminate).
  intros k. split; intros H.
  - destruct k as [|c0 [|c1 [|c2 k]]]; try (vm_compute in H; discriminate H).
    + exfalso. unfold parse_reserve in H. change (zlen [c0; c1] <? 2) with false in H. change (rd [c0; c1] 0) with (Ret c0) in H. change (rd [c0; c1] 1) with (Ret c1) in H.
      change (zlen [c0; c1] <? 3) with true in H. change (11 <? zlen [c0; c1]) with false in H. change (8 <? zlen [c0; c1]) with false in H. change (6 <? zlen [c0; c1]) with false in H.
      cbn [bind] in H. repeat match type of H with (if ?b then _ else _) = _ => destruct b end; discriminate H.
    + unfold parse_reserve in H. change (rd (c0 :: c1 :: c2 :: k) 0) with (Ret c0) in H. change (rd (c0 :: c1 :: c2 :: k) 1) with (Ret c1) in H. change (rd (c0 :: c1 :: c2 :: k) 2) with (Ret c2) in H.
      cbn [bind hd nth] in *.
      repeat match type of H with
      | (if ?c =? ?n then _ else _) = _ => destruct (Z.eqb_spec c n)
      | (if ?b then _ else _) = _ => destruct b
      | bind ?m _ = _ => destruct m; cbn [bind] in H; try discriminate H
      end; try discriminate H; auto.
  - destruct (reserve_letter k _ H (proj2 ND)) as (_ & d & I & <-). unfold documented in I. cbn [map fst snd] in I.
    repeat (destruct I as [I|I]; [first [discriminate I | injection I as <-; reflexivity | injection I as <- E; discriminate E]|]). destruct I.
Qed.
