(* What the lexer makes of a well-formed line. *)
From Coq Require Import String ZArith List Bool Lia ZifyBool ZifyNat ZifyN.
From Verif Require Import Base BaseFacts ParseVal Lexer TextSpec LexProofs.
Import ListNotations.
Open Scope Z_scope.

(* ---- positions ---- *)
Definition at_ (b : text) (i : Z) (s : text) : Prop := exists pre, b = pre ++ s /\ zlen pre = i.
Lemma at_app : forall b i s1 s2, at_ b i (s1 ++ s2) -> at_ b (i + zlen s1) s2.
Proof. intros b i s1 s2 (pre & -> & L). exists (pre ++ s1). rewrite <- app_assoc. split; [reflexivity|]. rewrite zlen_app. lia. Qed.
Lemma at_cons : forall b i c s, at_ b i (c :: s) -> at_ b (i + 1) s.
Proof. intros b i c s H. exact (at_app b i [c] s H). Qed.
Lemma at_rd : forall b i c s, at_ b i (c :: s) -> rd b i = Ret c.
Proof. intros b i c s (pre & -> & L). apply rd_app_mid. exact L. Qed.
Lemma at_nonneg : forall b i s, at_ b i s -> 0 <= i.
Proof. intros b i s (pre & _ & <-). apply zlen_nonneg. Qed.
Lemma at_sub : forall b i v s, at_ b i (v ++ s) -> sub b i (i + zlen v) = Ret v.
Proof.
  intros b i v s (pre & -> & L). pose proof (zlen_nonneg _ pre). pose proof (zlen_nonneg _ v). pose proof (zlen_nonneg _ s).
  rewrite sub_ret by (rewrite ?zlen_app; lia). f_equal. subst i. unfold zlen.
  replace (Z.to_nat (Z.of_nat (length pre))) with (length pre) by lia. rewrite skipn_app, skipn_all, Nat.sub_diag. cbn [skipn app].
  replace (Z.to_nat (Z.of_nat (length pre) + Z.of_nat (length v) - Z.of_nat (length pre))) with (length v) by lia.
  rewrite firstn_app, firstn_all, Nat.sub_diag. cbn [firstn]. apply app_nil_r.
Qed.
Lemma at_sub_end : forall b i s, at_ b i s -> sub b i (zlen b) = Ret s.
Proof.
  intros b i s H. rewrite <- (app_nil_r s) in H. pose proof (at_sub b i s [] H) as R.
  replace (zlen b) with (i + zlen s); [exact R|]. destruct H as (pre & -> & L). rewrite !zlen_app. change (zlen (@nil Z)) with 0. lia.
Qed.

Lemma is_blank_spec : forall c, is_blank c = true <-> blank c.
Proof. intros c. unfold is_blank, blank. cbn [In]. lia. Qed.
Lemma not_blank_spec : forall c, is_blank c = false <-> ~ blank c.
Proof. intros c. rewrite <- is_blank_spec. destruct (is_blank c); split; intros; congruence. Qed.
Lemma plain_soft : forall c, plain c -> is_soft c = false.
Proof. intros c [(A & B & C) D]. unfold is_soft. lia. Qed.
Lemma in_line_bound : forall c, in_line c -> is_bound c = false.
Proof. intros c (A & B & C). unfold is_bound. lia. Qed.
Lemma blank_soft : forall c, blank c -> is_soft c = false.
Proof. intros c H. unfold blank in H. cbn [In] in H. unfold is_soft. lia. Qed.

(* ---- runs of the lexer ---- *)
Definition runs (n : Z) (b : text) (cur : Z) (l : line) (cur' : Z) (l' : line) : Prop :=
  0 <= n /\ forall fuel, lex_loop (Z.to_nat n + fuel) b cur l = lex_loop fuel b cur' l'.
Lemma runs_refl : forall b cur l, runs 0 b cur l cur l.
Proof. intros. split; [lia|reflexivity]. Qed.
Lemma runs_step : forall n b cur l cur1 l1 cur2 l2, lex_step b cur l = Ret (More cur1 l1) -> runs n b cur1 l1 cur2 l2 -> runs (1 + n) b cur l cur2 l2.
Proof.
  intros n b cur l cur1 l1 cur2 l2 ST [H1 H2]. split; [lia|]. intros fuel.
  replace (Z.to_nat (1 + n) + fuel)%nat with (S (Z.to_nat n + fuel)) by lia. cbn [lex_loop]. rewrite ST. cbn [bind]. apply H2.
Qed.
Lemma runs_trans : forall n m b c1 l1 c2 l2 c3 l3, runs n b c1 l1 c2 l2 -> runs m b c2 l2 c3 l3 -> runs (n + m) b c1 l1 c3 l3.
Proof.
  intros n m b c1 l1 c2 l2 c3 l3 [A1 A2] [B1 B2]. split; [lia|]. intros fuel.
  replace (Z.to_nat (n + m) + fuel)%nat with (Z.to_nat n + (Z.to_nat m + fuel))%nat by lia. rewrite A2. apply B2.
Qed.

Lemma run_lead : forall s b cur n ch st k kb ke vb ve rest, Forall blank s -> at_ b cur (s ++ rest) -> n = ch ->
  runs (zlen s) b cur (mkLine n ch BNone st k kb ke vb ve) (cur + zlen s) (mkLine (n + zlen s) (ch + zlen s) BNone st k kb ke vb ve).
Proof.
  induction s as [|c s IH]; intros b cur n ch st k kb ke vb ve rest F A E.
  - change (zlen (@nil Z)) with 0. rewrite !Z.add_0_r. apply runs_refl.
  - inversion F as [|? ? FC FS]; subst. cbn [app] in A. rewrite zlen_cons.
    replace (1 + zlen s) with (1 + zlen s) by lia. eapply runs_step.
    + unfold lex_step. rewrite (at_rd _ _ _ _ A). cbn [bind l_block l_blank l_chars l_stack l_key l_kb l_ke l_vb l_ve].
      rewrite (blank_soft c FC). unfold lex_none. rewrite (proj2 (is_blank_spec c) FC). cbn [l_block l_blank l_chars l_stack l_key l_kb l_ke l_vb l_ve].
      replace (ch =? ch + 1 - 1) with true by lia. reflexivity.
    + replace (cur + (1 + zlen s)) with (cur + 1 + zlen s) by lia. replace (ch + (1 + zlen s)) with (ch + 1 + zlen s) by lia.
      apply (IH b (cur + 1) (ch + 1) (ch + 1) st k kb ke vb ve rest FS); [apply at_cons in A; exact A|reflexivity].
Qed.

Lemma run_dash1 : forall s b cur n ch st k kb ke vb ve rest, Forall (fun c => c = 45 \/ blank c) s -> at_ b cur (s ++ rest) -> n < ch ->
  runs (zlen s) b cur (mkLine n ch BNone st k kb ke vb ve) (cur + zlen s) (mkLine n (ch + zlen s) BNone st k kb ke vb ve).
Proof.
  induction s as [|c s IH]; intros b cur n ch st k kb ke vb ve rest F A E.
  - change (zlen (@nil Z)) with 0. rewrite !Z.add_0_r. apply runs_refl.
  - inversion F as [|? ? FC FS]; subst. cbn [app] in A. rewrite zlen_cons. eapply runs_step.
    + unfold lex_step. rewrite (at_rd _ _ _ _ A). cbn [bind l_block l_blank l_chars l_stack l_key l_kb l_ke l_vb l_ve].
      replace (is_soft c) with false; [|destruct FC as [->|FC]; [reflexivity|symmetry; apply blank_soft; exact FC]].
      unfold lex_none. cbn [l_block l_blank l_chars l_stack l_key l_kb l_ke l_vb l_ve].
      replace (n =? ch + 1 - 1) with false by lia.
      replace (if is_blank c then Ret (More (cur + 1) (mkLine n (ch + 1) BNone st k kb ke vb ve))
               else if c =? 45 then Ret (More (cur + 1) (mkLine n (ch + 1) BNone st k kb ke vb ve)) else _)
        with (Ret (More (cur + 1) (mkLine n (ch + 1) BNone st k kb ke vb ve))); [reflexivity|].
      destruct FC as [->|FC]; [reflexivity|]. rewrite (proj2 (is_blank_spec c) FC). reflexivity.
    + replace (cur + (1 + zlen s)) with (cur + 1 + zlen s) by lia. replace (ch + (1 + zlen s)) with (ch + 1 + zlen s) by lia.
      apply (IH b (cur + 1) n (ch + 1) st k kb ke vb ve rest FS); [apply at_cons in A; exact A|lia].
Qed.

Lemma run_dash : forall s b cur n st k kb ke vb ve rest, dashes s -> at_ b cur (s ++ rest) ->
  runs (zlen s) b cur (mkLine n n BNone st k kb ke vb ve) (cur + zlen s) (mkLine n (n + zlen s) BNone st k kb ke vb ve).
Proof.
  intros s b cur n st k kb ke vb ve rest [->|(r & -> & F)] A.
  - change (zlen (@nil Z)) with 0. rewrite !Z.add_0_r. apply runs_refl.
  - rewrite zlen_cons. eapply runs_step.
    + unfold lex_step. cbn [app] in A. rewrite (at_rd _ _ _ _ A). reflexivity.
    + replace (cur + (1 + zlen r)) with (cur + 1 + zlen r) by lia. replace (n + (1 + zlen r)) with (n + 1 + zlen r) by lia.
      cbn [l_block l_blank l_chars l_stack l_key l_kb l_ke l_vb l_ve].
      apply (run_dash1 r b (cur + 1) n (n + 1) st k kb ke vb ve rest F); [apply at_cons in A; exact A|lia].
Qed.

Definition key_char (c : Z) : Prop := lower c \/ digit c \/ c = 95.
Lemma key_char_soft : forall c, key_char c -> is_soft c = false.
Proof. intros c H. unfold key_char, lower, digit in H. unfold is_soft. lia. Qed.
Lemma key_char_spec : forall c, key_char c -> is_lower c || (c =? 95) || is_number c = true.
Proof. intros c H. unfold key_char, lower, digit in H. unfold is_lower, is_number. lia. Qed.

Lemma run_key_rest : forall s b cur n ch st k kb ke vb ve rest, Forall key_char s -> at_ b cur (s ++ rest) ->
  runs (zlen s) b cur (mkLine n ch BKey st k kb ke vb ve) (cur + zlen s) (mkLine n (ch + zlen s) BKey st k kb ke vb ve).
Proof.
  induction s as [|c s IH]; intros b cur n ch st k kb ke vb ve rest F A.
  - change (zlen (@nil Z)) with 0. rewrite !Z.add_0_r. apply runs_refl.
  - inversion F as [|? ? FC FS]; subst. cbn [app] in A. rewrite zlen_cons. eapply runs_step.
    + unfold lex_step. rewrite (at_rd _ _ _ _ A). cbn [bind l_block l_blank l_chars l_stack l_key l_kb l_ke l_vb l_ve].
      rewrite (key_char_soft c FC). unfold lex_key. rewrite (key_char_spec c FC). reflexivity.
    + replace (cur + (1 + zlen s)) with (cur + 1 + zlen s) by lia. replace (ch + (1 + zlen s)) with (ch + 1 + zlen s) by lia.
      apply (IH b (cur + 1) n (ch + 1) st k kb ke vb ve rest FS). apply at_cons in A. exact A.
Qed.

Lemma run_key : forall s b cur n ch st k kb ke vb ve rest, key_word s -> at_ b cur (s ++ rest) ->
  runs (zlen s) b cur (mkLine n ch BNone st k kb ke vb ve) (cur + zlen s) (mkLine n (ch + zlen s) BKey st k cur ke vb ve).
Proof.
  intros s b cur n ch st k kb ke vb ve rest (c & r & -> & L & F) A. rewrite zlen_cons. eapply runs_step.
  - unfold lex_step. cbn [app] in A. rewrite (at_rd _ _ _ _ A). cbn [bind l_block l_blank l_chars l_stack l_key l_kb l_ke l_vb l_ve].
    assert (KC : key_char c) by (left; exact L). rewrite (key_char_soft c KC). unfold lex_none. unfold lower in L.
    replace (is_blank c) with false by (unfold is_blank; lia). replace (c =? 45) with false by lia. replace (is_lower c) with true by (unfold is_lower; lia).
    cbn [negb]. unfold lex_key. rewrite (key_char_spec c KC). replace (cur + 1 - 1) with cur by lia. reflexivity.
  - replace (cur + (1 + zlen r)) with (cur + 1 + zlen r) by lia. replace (ch + (1 + zlen r)) with (ch + 1 + zlen r) by lia.
    cbn [l_block l_blank l_chars l_stack l_key l_kb l_ke l_vb l_ve].
    apply (run_key_rest r b (cur + 1) n (ch + 1) st k cur ke vb ve rest F). apply at_cons in A. exact A.
Qed.

Definition tab_or_space (c : Z) : Prop := c = 32 \/ c = 9.
Lemma run_sep : forall s b cur n ch st k kb ke vb ve rest, Forall tab_or_space s -> at_ b cur (s ++ 58 :: rest) ->
  runs (zlen s + 1) b cur (mkLine n ch BPreSep st k kb ke vb ve) (cur + zlen s + 1) (mkLine n (ch + zlen s + 1) BPreVal st k kb ke vb ve).
Proof.
  induction s as [|c s IH]; intros b cur n ch st k kb ke vb ve rest F A.
  - change (zlen (@nil Z)) with 0. rewrite !Z.add_0_r. cbn [app] in A. change (0 + 1) with (1 + 0). eapply runs_step; [|apply runs_refl].
    unfold lex_step. rewrite (at_rd _ _ _ _ A). reflexivity.
  - inversion F as [|? ? FC FS]; subst. cbn [app] in A. rewrite zlen_cons. replace (1 + zlen s + 1) with (1 + (zlen s + 1)) by lia. eapply runs_step.
    + unfold lex_step. rewrite (at_rd _ _ _ _ A). cbn [bind l_block l_blank l_chars l_stack l_key l_kb l_ke l_vb l_ve].
      replace (is_soft c) with false by (destruct FC as [->| ->]; reflexivity). unfold lex_pre_sep.
      replace (c =? 58) with false by (destruct FC as [->| ->]; reflexivity). replace ((c =? 32) || (c =? 9)) with true by (destruct FC as [->| ->]; reflexivity). reflexivity.
    + replace (cur + (1 + zlen s) + 1) with (cur + 1 + zlen s + 1) by lia. replace (ch + (1 + zlen s) + 1) with (ch + 1 + zlen s + 1) by lia.
      apply (IH b (cur + 1) n (ch + 1) st k kb ke vb ve rest FS). apply at_cons in A. exact A.
Qed.

(* key, blanks and colon *)
Lemma run_key_sep : forall kw s b cur n ch st key k0 kb ke vb ve rest, key_word kw -> parse_reserve kw = Ret key -> key <> RK_NULL ->
  Forall tab_or_space s -> at_ b cur (kw ++ s ++ 58 :: rest) ->
  runs (zlen kw + (zlen s + 1)) b cur (mkLine n ch BNone st k0 kb ke vb ve) (cur + zlen kw + zlen s + 1)
    (mkLine n (ch + zlen kw + zlen s + 1) BPreVal st key cur (cur + zlen kw) vb ve).
Proof.
  intros kw s b cur n ch st key k0 kb ke vb ve rest KW PR KN F A. eapply runs_trans; [eapply run_key; [exact KW|exact A]|].
  pose proof (at_app _ _ _ _ A) as A2. pose proof (at_sub _ _ _ _ A) as SB.
  assert (NK : forall c, tab_or_space c \/ c = 58 -> is_lower c || (c =? 95) || is_number c = false).
  { intros c H. unfold tab_or_space in H. unfold is_lower, is_number. lia. }
  assert (KEY : forall c cur1 l, cur1 = cur + zlen kw + 1 -> l_kb l = cur -> tab_or_space c \/ c = 58 ->
    lex_key b c cur1 l = Ret (lex_pre_sep c cur1 (mkLine (l_blank l) (l_chars l) BPreSep (l_stack l) key (l_kb l) (cur + zlen kw) (l_vb l) (l_ve l)))).
  { intros c cur1 l -> KB H. unfold lex_key. rewrite (NK c H), KB. replace (cur + zlen kw + 1 - 1) with (cur + zlen kw) by lia. rewrite SB. cbn [bind].
    rewrite PR. cbn [bind]. replace (key =? RK_NULL) with false by lia. reflexivity. }
  destruct s as [|c s].
  - cbn [app] in A2. change (zlen (@nil Z)) with 0. rewrite !Z.add_0_r. change (0 + 1) with (1 + 0). eapply runs_step; [|apply runs_refl].
    unfold lex_step. rewrite (at_rd _ _ _ _ A2). cbn [bind l_block l_blank l_chars l_stack l_key l_kb l_ke l_vb l_ve]. change (is_soft 58) with false. cbv iota.
    rewrite KEY by (auto; reflexivity). reflexivity.
  - inversion F as [|? ? FC FS]; subst. cbn [app] in A2. rewrite zlen_cons. replace (1 + zlen s + 1) with (1 + (zlen s + 1)) by lia. eapply runs_step.
    + unfold lex_step. rewrite (at_rd _ _ _ _ A2). cbn [bind l_block l_blank l_chars l_stack l_key l_kb l_ke l_vb l_ve].
      replace (is_soft c) with false by (destruct FC as [->| ->]; reflexivity).
      rewrite KEY by (auto; reflexivity). unfold lex_pre_sep.
      replace (c =? 58) with false by (destruct FC as [->| ->]; reflexivity). replace ((c =? 32) || (c =? 9)) with true by (destruct FC as [->| ->]; reflexivity). reflexivity.
    + cbn [l_block l_blank l_chars l_stack l_key l_kb l_ke l_vb l_ve].
      replace (cur + zlen kw + (1 + zlen s) + 1) with (cur + zlen kw + 1 + zlen s + 1) by lia. replace (ch + zlen kw + (1 + zlen s) + 1) with (ch + zlen kw + 1 + zlen s + 1) by lia.
      apply (run_sep s b (cur + zlen kw + 1) n (ch + zlen kw + 1) st key cur (cur + zlen kw) vb ve rest FS). apply at_cons in A2. exact A2.
Qed.

Lemma run_pre_val : forall s b cur n ch st k kb ke vb ve rest, Forall blank s -> at_ b cur (s ++ rest) ->
  runs (zlen s) b cur (mkLine n ch BPreVal st k kb ke vb ve) (cur + zlen s) (mkLine n (ch + zlen s) BPreVal st k kb ke vb ve).
Proof.
  induction s as [|c s IH]; intros b cur n ch st k kb ke vb ve rest F A.
  - change (zlen (@nil Z)) with 0. rewrite !Z.add_0_r. apply runs_refl.
  - inversion F as [|? ? FC FS]; subst. cbn [app] in A. rewrite zlen_cons. eapply runs_step.
    + unfold lex_step. rewrite (at_rd _ _ _ _ A). cbn [bind l_block l_blank l_chars l_stack l_key l_kb l_ke l_vb l_ve].
      rewrite (blank_soft c FC). unfold lex_pre_val. rewrite (proj2 (is_blank_spec c) FC). reflexivity.
    + replace (cur + (1 + zlen s)) with (cur + 1 + zlen s) by lia. replace (ch + (1 + zlen s)) with (ch + 1 + zlen s) by lia.
      apply (IH b (cur + 1) n (ch + 1) st k kb ke vb ve rest FS). apply at_cons in A. exact A.
Qed.

(* blanks at the start of an opened value *)
Lemma run_val_blanks : forall s b cur n ch st k kb ke ve rest, Forall blank s -> at_ b cur (s ++ rest) ->
  runs (zlen s) b cur (mkLine n ch BVal st k kb ke cur ve) (cur + zlen s) (mkLine n (ch + zlen s) BVal st k kb ke (cur + zlen s) ve).
Proof.
  induction s as [|c s IH]; intros b cur n ch st k kb ke ve rest F A.
  - change (zlen (@nil Z)) with 0. rewrite !Z.add_0_r. apply runs_refl.
  - inversion F as [|? ? FC FS]; subst. cbn [app] in A. rewrite zlen_cons. eapply runs_step.
    + unfold lex_step. rewrite (at_rd _ _ _ _ A). cbn [bind l_block l_blank l_chars l_stack l_key l_kb l_ke l_vb l_ve].
      rewrite (blank_soft c FC). unfold lex_val. cbn [l_vb l_stack]. rewrite (proj2 (is_blank_spec c) FC). replace ((cur =? cur + 1 - 1) && true) with true by lia. reflexivity.
    + replace (cur + (1 + zlen s)) with (cur + 1 + zlen s) by lia. replace (ch + (1 + zlen s)) with (ch + 1 + zlen s) by lia.
      apply (IH b (cur + 1) n (ch + 1) st k kb ke ve rest FS). apply at_cons in A. exact A.
Qed.

(* characters inside a value: before [vb <> cur] or not a blank *)
Lemma run_val : forall s b cur n ch st k kb ke vb ve rest, Forall plain s -> ~ In st s -> at_ b cur (s ++ rest) -> vb <= cur ->
  (vb = cur -> forall c r, s = c :: r -> ~ blank c) ->
  runs (zlen s) b cur (mkLine n ch BVal st k kb ke vb ve) (cur + zlen s) (mkLine n (ch + zlen s) BVal st k kb ke vb ve).
Proof.
  induction s as [|c s IH]; intros b cur n ch st k kb ke vb ve rest F NS A V NB.
  - change (zlen (@nil Z)) with 0. rewrite !Z.add_0_r. apply runs_refl.
  - inversion F as [|? ? FC FS]; subst. cbn [app] in A. rewrite zlen_cons. eapply runs_step.
    + unfold lex_step. rewrite (at_rd _ _ _ _ A). cbn [bind l_block l_blank l_chars l_stack l_key l_kb l_ke l_vb l_ve].
      rewrite (plain_soft c FC). unfold lex_val. cbn [l_vb l_stack].
      replace ((vb =? cur + 1 - 1) && is_blank c) with false.
      2: { destruct (Z.eq_dec vb cur) as [E|E]; [|replace (vb =? cur + 1 - 1) with false by lia; reflexivity].
           rewrite (proj2 (not_blank_spec c)) by (apply (NB E c s); reflexivity). rewrite andb_false_r. reflexivity. }
      replace (negb (st =? 0) && (c =? st)) with false; [reflexivity|].
      destruct (c =? st) eqn:E; [|rewrite andb_false_r; reflexivity]. exfalso. apply NS. left. lia.
    + replace (cur + (1 + zlen s)) with (cur + 1 + zlen s) by lia. replace (ch + (1 + zlen s)) with (ch + 1 + zlen s) by lia.
      apply (IH b (cur + 1) n (ch + 1) st k kb ke vb ve rest FS); [intros H; apply NS; right; exact H|apply at_cons in A; exact A|lia|lia].
Qed.

Lemma run_clean : forall s b cur n ch st k kb ke vb ve rest, Forall in_line s -> at_ b cur (s ++ rest) ->
  runs (zlen s) b cur (mkLine n ch BClean st k kb ke vb ve) (cur + zlen s) (mkLine n (ch + zlen s) BClean st k kb ke vb ve).
Proof.
  induction s as [|c s IH]; intros b cur n ch st k kb ke vb ve rest F A.
  - change (zlen (@nil Z)) with 0. rewrite !Z.add_0_r. apply runs_refl.
  - inversion F as [|? ? FC FS]; subst. cbn [app] in A. rewrite zlen_cons. eapply runs_step.
    + unfold lex_step. rewrite (at_rd _ _ _ _ A). cbn [bind l_block l_blank l_chars l_stack l_key l_kb l_ke l_vb l_ve].
      rewrite (in_line_bound c FC). reflexivity.
    + replace (cur + (1 + zlen s)) with (cur + 1 + zlen s) by lia. replace (ch + (1 + zlen s)) with (ch + 1 + zlen s) by lia.
      apply (IH b (cur + 1) n (ch + 1) st k kb ke vb ve rest FS). apply at_cons in A. exact A.
Qed.

(* ---- trimming ---- *)
Lemma trim_blanks : forall s b vb i v rest n, at_ b vb (v ++ s ++ rest) -> Forall blank s -> (forall c r, v = r ++ [c] -> ~ blank c) ->
  i = vb + zlen v + zlen s -> (Z.to_nat (i - vb) <= n)%nat -> trim n b vb i = Ret (vb + zlen v).
Proof.
  intros s. induction s as [|c s IH] using rev_ind; intros b vb i v rest n A F NB I N.
  - change (zlen (@nil Z)) with 0 in I. rewrite Z.add_0_r in I. subst i. destruct (list_eq_dec Z.eq_dec v []) as [->|NE].
    + change (zlen (@nil Z)) with 0. rewrite Z.add_0_r. destruct n; cbn [trim]; replace (vb <=? vb) with true by lia; reflexivity.
    + destruct (exists_last NE) as (r & c & ->). rewrite zlen_app in *. change (zlen [c]) with 1 in *. pose proof (zlen_nonneg _ r).
      pose proof (at_nonneg _ _ _ A). rewrite <- !app_assoc in A. apply at_app in A. cbn [app] in A.
      destruct n as [|n]; cbn [trim]; replace (vb + (zlen r + 1) <=? vb) with false by lia;
        replace (vb + (zlen r + 1) - 1) with (vb + zlen r) by lia; rewrite (at_rd _ _ _ _ A); cbn [bind];
        rewrite (proj2 (not_blank_spec c)) by (apply (NB c r); reflexivity); reflexivity.
  - apply Forall_app in F. destruct F as [F1 F2]. inversion F2 as [|? ? FC _]; subst. rewrite zlen_app in *. change (zlen [c]) with 1 in *.
    pose proof (zlen_nonneg _ v). pose proof (zlen_nonneg _ s). destruct n as [|n]; [lia|]. cbn [trim].
    replace (vb + zlen v + (zlen s + 1) <=? vb) with false by lia.
    replace (vb + zlen v + (zlen s + 1) - 1) with (vb + zlen v + zlen s) by lia.
    assert (A2 : at_ b vb (v ++ s ++ c :: rest)) by (rewrite <- app_assoc in A; exact A).
    rewrite (at_rd b (vb + zlen v + zlen s) c rest) by (apply at_app, at_app in A2; exact A2). cbn [bind].
    rewrite (proj2 (is_blank_spec c) FC). apply (IH b vb _ v (c :: rest) n A2 F1 NB); lia.
Qed.

(* ---- the end of the line ---- *)
(* the next line does not start in the middle of a line end *)
Definition follows (eol rest : text) : Prop :=
  (eol = [10] -> hd 0 rest <> 13) /\ (eol = [13] -> hd 0 rest <> 10).
(* the value of the line: none, or v followed by blanks *)
Definition val_at (b : text) (vb ve ve' : Z) : Prop :=
  (vb = -1 /\ ve = -1 /\ ve' = -1) \/
  exists v bl s, at_ b vb (v ++ bl ++ s) /\ Forall blank bl /\ (forall c r, v = r ++ [c] -> ~ blank c) /\
    ve = vb + zlen v + zlen bl /\ ve' = vb + zlen v.
Lemma trim_val : forall b vb ve ve', val_at b vb ve ve' -> trim (Z.to_nat (ve - vb)) b vb ve = Ret ve'.
Proof.
  intros b vb ve ve' [(-> & -> & ->)|(v & bl & s & A & F & NB & -> & ->)]; [apply trim_null|].
  apply (trim_blanks bl b vb _ v s _ A F NB); lia.
Qed.
Lemma val_at_again : forall b vb ve ve', val_at b vb ve ve' -> val_at b vb ve' ve'.
Proof.
  intros b vb ve ve' [(-> & -> & ->)|(v & bl & s & A & F & NB & -> & ->)]; [left; auto|right].
  exists v, [], (bl ++ s). split; [exact A|]. split; [constructor|]. split; [exact NB|]. change (zlen (@nil Z)) with 0. lia.
Qed.
Lemma end_close : forall b cur n ch st k kb ke vb ve ve' eol rest, line_end eol -> follows eol rest -> rest <> [] -> at_ b cur (eol ++ rest) ->
  val_at b vb ve ve' -> forall fuel blk, blk = BClean \/ blk = BNone ->
  exists c', lex_loop (S fuel) b cur (mkLine n ch blk st k kb ke vb ve) = Ret (0, cur + zlen eol, mkLine n c' blk st k kb ke vb ve', 1).
Proof.
  intros b cur n ch st k kb ke vb ve ve' eol rest LE FO RN A V fuel blk BK. exists (ch + 1). cbn [lex_loop].
  apply trim_val in V.
  assert (STEP : forall c r, eol ++ rest = c :: r -> (c = 13 \/ c = 10) ->
     lex_step b cur (mkLine n ch blk st k kb ke vb ve) = lex_end b c (cur + 1) (mkLine n (ch + 1) blk st k kb ke vb ve)).
  { intros c r E CC. unfold lex_step. rewrite E in A. rewrite (at_rd _ _ _ _ A). cbn [bind l_block l_blank l_chars l_stack l_key l_kb l_ke l_vb l_ve].
    replace (is_soft c) with true by (unfold is_soft; lia). replace (is_bound c) with true by (unfold is_bound; lia). cbn [negb]. destruct BK as [-> | ->]; reflexivity. }
  assert (CL : forall c x y, at_ b (cur + 1) (x :: y) -> (c = 13 \/ c = 10) ->
     lex_end b c (cur + 1) (mkLine n (ch + 1) blk st k kb ke vb ve) =
     Ret (Done PEC_NONE (if ((x =? 13) || (x =? 10)) && negb (x =? c) then cur + 1 + 1 else cur + 1) (mkLine n (ch + 1) blk st k kb ke vb ve') 1)).
  { intros c x y AX CC. unfold lex_end. cbv zeta. destruct BK as [-> | ->]; cbn [l_block l_vb l_ve]; rewrite V; cbn [bind set_val l_block l_vb l_ve l_blank l_chars l_stack l_key l_kb l_ke];
      replace ((c =? 13) || (c =? 10)) with true by lia; rewrite (at_rd _ _ _ _ AX); reflexivity. }
  destruct rest as [|x rest]; [contradiction|]. destruct FO as [F1 F2]. cbn [hd] in F1, F2.
  destruct LE as [-> | [-> | ->]]; cbn [app] in A.
  - rewrite (STEP 10 (x :: rest) eq_refl) by auto. rewrite (CL 10 x rest) by (try (apply at_cons in A; exact A); auto). cbn [bind].
    specialize (F1 eq_refl). replace (((x =? 13) || (x =? 10)) && negb (x =? 10)) with false by lia. reflexivity.
  - rewrite (STEP 13 (x :: rest) eq_refl) by auto. rewrite (CL 13 x rest) by (try (apply at_cons in A; exact A); auto). cbn [bind].
    specialize (F2 eq_refl). replace (((x =? 13) || (x =? 10)) && negb (x =? 13)) with false by lia. reflexivity.
  - rewrite (STEP 13 (10 :: x :: rest) eq_refl) by auto. rewrite (CL 13 10 (x :: rest)) by (try (apply at_cons in A; exact A); auto). cbn [bind].
    change (((10 =? 13) || (10 =? 10)) && negb (10 =? 13)) with true. cbv iota. f_equal. f_equal. f_equal. f_equal. change (zlen [13; 10]) with 2. lia.
Qed.

(* blocks that a line end or a comment turns into a finished value *)
Definition finished (blk : block) (cur vb ve : Z) : option (block * Z * Z) :=
  match blk with
  | BVal => Some (BClean, vb, cur)
  | BPreVal => Some (BClean, cur, cur)
  | BNone => Some (BNone, vb, ve)
  | BClean => Some (BClean, vb, ve)
  | _ => None
  end.
Lemma soft_step : forall b cur c r n ch k kb ke vb ve blk blk' vb' ve', at_ b cur (c :: r) -> is_soft c = true -> is_bound c = true \/ blk <> BClean ->
  finished blk cur vb ve = Some (blk', vb', ve') ->
  lex_step b cur (mkLine n ch blk 0 k kb ke vb ve) = lex_end b c (cur + 1) (mkLine n (ch + 1) blk' 0 k kb ke vb' ve').
Proof.
  intros b cur c r n ch k kb ke vb ve blk blk' vb' ve' A SO BO F. unfold lex_step. rewrite (at_rd _ _ _ _ A).
  cbn [bind l_block l_blank l_chars l_stack l_key l_kb l_ke l_vb l_ve]. rewrite SO.
  destruct blk; cbn [finished] in F; try discriminate F; injection F as <- <- <-; try reflexivity.
  - unfold lex_end. cbn [l_block l_stack set_val l_blank l_chars l_key l_kb l_ke l_vb l_ve]. replace (cur + 1 - 1) with cur by lia. reflexivity.
  - unfold lex_end. cbn [l_block l_stack set_val l_blank l_chars l_key l_kb l_ke l_vb l_ve Z.eqb negb]. replace (cur + 1 - 1) with cur by lia. reflexivity.
  - destruct BO as [->|BO]; [reflexivity|contradiction].
Qed.

(* the rest of a line: nothing or a comment, then the line end *)
Lemma tail_close : forall b cur n ch k kb ke vb ve blk blk' vb' ve' ve'' tail eol rest,
  line_end eol -> follows eol rest -> rest <> [] -> at_ b cur (tail ++ eol ++ rest) ->
  (tail = [] \/ exists r, tail = 35 :: r /\ Forall in_line r) ->
  finished blk cur vb ve = Some (blk', vb', ve') -> blk <> BClean -> val_at b vb' ve' ve'' ->
  forall fuel, exists c' bl, lex_loop (Z.to_nat (zlen tail) + S fuel) b cur (mkLine n ch blk 0 k kb ke vb ve) =
    Ret (0, cur + zlen tail + zlen eol, mkLine n c' bl 0 k kb ke vb' ve'', 1).
Proof.
  intros b cur n ch k kb ke vb ve blk blk' vb' ve' ve'' tail eol rest LE FO RN A T F BN V fuel.
  assert (B' : blk' = BClean \/ blk' = BNone).
  { destruct blk; cbn [finished] in F; try discriminate F; injection F as <- <- <-; auto. }
  destruct T as [->|(r & -> & FR)].
  - change (zlen (@nil Z)) with 0. rewrite Z.add_0_r. cbn [app Z.to_nat Nat.add] in *.
    destruct (end_close b cur n ch 0 k kb ke vb' ve' ve'' eol rest LE FO RN A V fuel blk' B') as (c' & E). exists c', blk'. rewrite <- E.
    cbn [lex_loop]. f_equal. assert (X : exists c r, eol ++ rest = c :: r /\ (c = 13 \/ c = 10)).
    { destruct LE as [-> | [-> | ->]]; cbn [app]; eexists _, _; (split; [reflexivity|]); auto. }
    destruct X as (c & r & X1 & X2). rewrite X1 in A.
    rewrite (soft_step b cur c r n ch k kb ke vb ve blk blk' vb' ve' A); [|unfold is_soft; lia|left; unfold is_bound; lia|exact F].
    rewrite (soft_step b cur c r n ch k kb ke vb' ve' blk' blk' vb' ve' A); [reflexivity|unfold is_soft; lia|left; unfold is_bound; lia|destruct B' as [-> | ->]; reflexivity].
  - rewrite zlen_cons. pose proof (zlen_nonneg _ r). replace (Z.to_nat (1 + zlen r) + S fuel)%nat with (S (Z.to_nat (zlen r) + S fuel)) by lia. cbn [app] in A. cbn [lex_loop].
    rewrite (soft_step b cur 35 _ n ch k kb ke vb ve blk blk' vb' ve' A); [|reflexivity|right; exact BN|exact F].
    pose proof (val_at_again _ _ _ _ V) as V2. apply trim_val in V.
    assert (H35 : lex_end b 35 (cur + 1) (mkLine n (ch + 1) blk' 0 k kb ke vb' ve') = Ret (More (cur + 1) (mkLine n (ch + 1) BClean 0 k kb ke vb' ve''))).
    { unfold lex_end. cbv zeta. destruct B' as [-> | ->]; cbn [l_block l_vb l_ve]; rewrite V; reflexivity. }
    rewrite H35. cbn [bind]. apply at_cons in A.
    destruct (run_clean r b (cur + 1) n (ch + 1) 0 k kb ke vb' ve'' (eol ++ rest) FR A) as [_ RC]. rewrite RC.
    apply at_app in A.
    destruct (end_close b (cur + 1 + zlen r) n (ch + 1 + zlen r) 0 k kb ke vb' ve'' ve'' eol rest LE FO RN A V2 fuel BClean (or_introl eq_refl)) as (c' & E).
    exists c', BClean. rewrite E. f_equal. f_equal. f_equal. f_equal. lia.
Qed.

(* ---- a key line ---- *)
Definition no_digit (s : text) : Prop := exists c r, s = c :: r /\ ~ digit c.
Lemma written_lex : forall v w b cur n ch k kb ke eol rest,
  written v w -> line_end eol -> follows eol rest -> rest <> [] -> at_ b cur (w ++ eol ++ rest) ->
  forall fuel, exists c' bl st vb r, lex_loop (Z.to_nat (zlen w) + S fuel) b cur (mkLine n ch BPreVal 0 k kb ke (-1) (-1)) =
    Ret (0, cur + zlen w + zlen eol, mkLine n c' bl st k kb ke vb (vb + zlen v), 1) /\
    at_ b vb (v ++ r) /\ no_digit r.
Proof.
  intros v w b cur n ch k kb ke eol rest W LE FO RN A fuel.
  assert (ND : forall bl tail, Forall blank bl -> (tail = [] \/ exists r, tail = 35 :: r /\ Forall in_line r) -> no_digit (bl ++ tail ++ eol ++ rest)).
  { intros bl tail F T. destruct bl as [|c bl].
    - destruct T as [->|(r & -> & _)]; cbn [app].
      + destruct LE as [-> | [-> | ->]]; cbn [app]; eexists _, _; (split; [reflexivity|]); unfold digit; lia.
      + eexists _, _. split; [reflexivity|]. unfold digit. lia.
    - inversion F as [|? ? FC _]; subst. exists c, (bl ++ tail ++ eol ++ rest). split; [reflexivity|]. unfold blank in FC. cbn [In] in FC. unfold digit. lia. }
  destruct W as [bl tail VV VO BL TL | o c b1 b2 tail VV OC NC B1 B2 TL].
  - destruct VV as (V1 & V2 & V3). rewrite <- !app_assoc in A.
    destruct v as [|x v].
    + cbn [app] in *. destruct (run_pre_val bl b cur n ch 0 k kb ke (-1) (-1) _ BL A) as [_ RP]. pose proof (at_app _ _ _ _ A) as A2.
      rewrite zlen_app. pose proof (zlen_nonneg _ bl). pose proof (zlen_nonneg _ tail).
      replace (Z.to_nat (zlen bl + zlen tail) + S fuel)%nat with (Z.to_nat (zlen bl) + (Z.to_nat (zlen tail) + S fuel))%nat by lia. rewrite RP.
      destruct (tail_close b (cur + zlen bl) n (ch + zlen bl) k kb ke (-1) (-1) BPreVal BClean (cur + zlen bl) (cur + zlen bl) (cur + zlen bl) tail eol rest LE FO RN A2 TL eq_refl
        ltac:(discriminate)) with (fuel := fuel) as (c' & bb & E).
      { right. exists [], [], (tail ++ eol ++ rest). split; [exact A2|]. split; [constructor|]. split; [intros c r H'; destruct r; discriminate H'|]. change (zlen (@nil Z)) with 0. lia. }
      exists c', bb, 0, (cur + zlen bl), (tail ++ eol ++ rest). split; [|split].
      * rewrite E. change (zlen (@nil Z)) with 0. rewrite Z.add_0_r. f_equal. f_equal. f_equal. f_equal. lia.
      * exact A2.
      * apply (ND [] tail); [constructor|exact TL].
    + specialize (VO x v eq_refl). cbn [In] in VO. pose proof (V2 x v eq_refl) as NB. inversion V1 as [|? ? PX PV]; subst.
      pose proof A as A0. cbn [app] in A. rewrite !zlen_app, zlen_cons.
      pose proof (zlen_nonneg _ bl). pose proof (zlen_nonneg _ tail). pose proof (zlen_nonneg _ v).
      replace (Z.to_nat (1 + zlen v + (zlen bl + zlen tail)) + S fuel)%nat with (S (Z.to_nat (zlen (v ++ bl)) + (Z.to_nat (zlen tail) + S fuel)))%nat by (rewrite zlen_app; lia).
      cbn [lex_loop].
      assert (S1 : lex_step b cur (mkLine n ch BPreVal 0 k kb ke (-1) (-1)) = Ret (More (cur + 1) (mkLine n (ch + 1) BVal 0 k kb ke cur (-1)))).
      { unfold lex_step. rewrite (at_rd _ _ _ _ A). cbn [bind l_block l_blank l_chars l_stack l_key l_kb l_ke l_vb l_ve]. rewrite (plain_soft x PX).
        unfold lex_pre_val. cbv zeta. rewrite (proj2 (not_blank_spec x) NB). replace (x =? 34) with false by lia. replace (x =? 91) with false by lia. replace (x =? 123) with false by lia.
        unfold lex_val. cbn [l_vb l_stack l_block l_blank l_chars l_key l_kb l_ke l_ve]. rewrite (proj2 (not_blank_spec x) NB), andb_false_r. cbn [Z.eqb negb andb]. replace (cur + 1 - 1) with cur by lia. reflexivity. }
      rewrite S1. cbn [bind]. apply at_cons in A.
      assert (FV : Forall plain (v ++ bl)).
      { apply Forall_app. split; [exact PV|]. eapply Forall_impl; [|exact BL]. intros c C. unfold blank in C. cbn [In] in C. unfold plain, in_line. lia. }
      assert (NZ : ~ In 0 (v ++ bl)). { intros I. rewrite Forall_forall in FV. destruct (FV 0 I) as [(K & _) _]. contradiction. }
      assert (A1 : at_ b (cur + 1) ((v ++ bl) ++ tail ++ eol ++ rest)) by (rewrite <- app_assoc; exact A).
      destruct (run_val (v ++ bl) b (cur + 1) n (ch + 1) 0 k kb ke cur (-1) _ FV NZ A1 ltac:(lia) ltac:(lia)) as [_ RV]. rewrite RV.
      apply at_app in A1.
      destruct (tail_close b (cur + 1 + zlen (v ++ bl)) n (ch + 1 + zlen (v ++ bl)) k kb ke cur (-1) BVal BClean cur (cur + 1 + zlen (v ++ bl)) (cur + zlen (x :: v)) tail eol rest LE FO RN A1 TL eq_refl
        ltac:(discriminate)) with (fuel := fuel) as (c' & bb & E).
      { right. exists (x :: v), bl, (tail ++ eol ++ rest). split; [exact A0|]. split; [exact BL|]. split; [exact V3|]. rewrite zlen_app, zlen_cons. lia. }
      exists c', bb, 0, cur, (bl ++ tail ++ eol ++ rest). split; [|split].
      * rewrite E, zlen_app, (zlen_cons _ x v). f_equal. f_equal. f_equal. f_equal. lia.
      * exact A0.
      * apply ND; [exact BL|exact TL].
  - destruct VV as (V1 & V2 & V3).
    assert (SO : is_soft o = false /\ is_soft c = false /\ c <> 0 /\ ~ digit c /\ is_blank o = false /\ ~ blank c).
    { unfold digit, blank. cbn [In] in OC |- *. destruct OC as [OC|[OC|[OC|[]]]]; injection OC as <- <-; (repeat split; try reflexivity; try lia). }
    destruct SO as (SO1 & SO2 & SO3 & SO4 & SO5 & SO6).
    cbn [app] in A. rewrite <- !app_assoc in A. cbn [app] in A.
    assert (S1 : lex_step b cur (mkLine n ch BPreVal 0 k kb ke (-1) (-1)) = Ret (More (cur + 1) (mkLine n (ch + 1) BVal c k kb ke (cur + 1) (-1)))).
    { unfold lex_step. rewrite (at_rd _ _ _ _ A). cbn [bind l_block l_blank l_chars l_stack l_key l_kb l_ke l_vb l_ve]. rewrite SO1.
      unfold lex_pre_val. cbv zeta. rewrite SO5. cbn [In] in OC. destruct OC as [OC|[OC|[OC|[]]]]; injection OC as <- <-; reflexivity. }
    apply at_cons in A.
    pose proof (run_val_blanks b1 b (cur + 1) n (ch + 1) c k kb ke (-1) _ B1 A) as R1. apply at_app in A. pose proof A as AV.
    set (vb := cur + 1 + zlen b1) in *.
    assert (FV : Forall plain (v ++ b2)).
    { apply Forall_app. split; [exact V1|]. eapply Forall_impl; [|exact B2]. intros x C. unfold blank in C. cbn [In] in C. unfold plain, in_line. lia. }
    assert (NS : ~ In c (v ++ b2)).
    { rewrite in_app_iff. intros [I|I]; [auto|]. rewrite Forall_forall in B2. apply SO6, B2, I. }
    rewrite app_assoc in A.
    (* the closing character may come right after the opening blanks *)
    assert (R2 : exists vb' , runs (zlen (v ++ b2)) b vb (mkLine n (ch + 1 + zlen b1) BVal c k kb ke vb (-1)) (vb + zlen (v ++ b2)) (mkLine n (ch + 1 + zlen b1 + zlen (v ++ b2)) BVal c k kb ke vb' (-1)) /\
       (vb' = vb /\ v <> [] \/ v = [] /\ vb' = vb + zlen b2)).
    { destruct v as [|x v].
      - exists (vb + zlen b2). cbn [app]. split; [|auto]. apply (run_val_blanks b2 b vb n _ c k kb ke (-1) (c :: tail ++ eol ++ rest) B2). exact A.
      - exists vb. split; [|left; split; [reflexivity|discriminate]]. apply (run_val ((x :: v) ++ b2) b vb n _ c k kb ke vb (-1) _ FV NS A); [lia|].
        intros _ c' r' E'. cbn [app] in E'. injection E' as <- <-. apply (V2 x v). reflexivity. }
    destruct R2 as (vb' & R2 & VB). pose proof (at_app _ _ _ _ A) as A3.
    assert (S2 : lex_step b (vb + zlen (v ++ b2)) (mkLine n (ch + 1 + zlen b1 + zlen (v ++ b2)) BVal c k kb ke vb' (-1)) =
       Ret (More (vb + zlen (v ++ b2) + 1) (mkLine n (ch + 1 + zlen b1 + zlen (v ++ b2) + 1) BClean c k kb ke vb' (vb + zlen (v ++ b2))))).
    { unfold lex_step. rewrite (at_rd _ _ _ _ A3). cbn [bind l_block l_blank l_chars l_stack l_key l_kb l_ke l_vb l_ve]. rewrite SO2.
      unfold lex_val. cbn [l_vb l_stack l_block l_blank l_chars l_key l_kb l_ke l_ve set_val]. rewrite (proj2 (not_blank_spec c) SO6), andb_false_r.
      replace (negb (c =? 0) && (c =? c)) with true by lia. replace (vb + zlen (v ++ b2) + 1 - 1) with (vb + zlen (v ++ b2)) by lia. reflexivity. }
    pose proof (at_cons _ _ _ _ A3) as A4.
    pose proof (run_clean tail b (vb + zlen (v ++ b2) + 1) n (ch + 1 + zlen b1 + zlen (v ++ b2) + 1) c k kb ke vb' (vb + zlen (v ++ b2)) _ TL A4) as R3. apply at_app in A4.
    assert (RR := runs_step _ _ _ _ _ _ _ _ S1 (runs_trans _ _ _ _ _ _ _ _ _ R1 (runs_trans _ _ _ _ _ _ _ _ _ R2 (runs_step _ _ _ _ _ _ _ _ S2 R3)))).
    assert (AV' : at_ b vb' (v ++ (if list_eq_dec Z.eq_dec v [] then [] else b2) ++ c :: tail ++ eol ++ rest)).
    { destruct VB as [[-> VN]|[-> ->]].
      - destruct (list_eq_dec Z.eq_dec v []); [contradiction|]. exact AV.
      - cbn [app]. destruct (list_eq_dec Z.eq_dec [] []) as [_|X]; [|contradiction]. cbn [app] in *. exact A3. }
    destruct (end_close b _ n (ch + 1 + zlen b1 + zlen (v ++ b2) + 1 + zlen tail) c k kb ke vb' (vb + zlen (v ++ b2)) (vb' + zlen v) eol rest LE FO RN A4) with (fuel := fuel) (blk := BClean) as (c' & E).
    { right. exists v, (if list_eq_dec Z.eq_dec v [] then [] else b2), (c :: tail ++ eol ++ rest). split; [exact AV'|]. split; [destruct (list_eq_dec Z.eq_dec v []); [constructor|exact B2]|].
      split; [exact V3|]. split; [|reflexivity]. destruct VB as [[-> VN]|[-> ->]].
      - destruct (list_eq_dec Z.eq_dec v []); [contradiction|]. rewrite zlen_app. lia.
      - destruct (list_eq_dec Z.eq_dec [] []) as [_|X]; [|contradiction]. cbn [app]. change (zlen (@nil Z)) with 0. lia. }
    { auto. }
    destruct RR as [RR0 RR]. exists c', BClean, c, vb', ((if list_eq_dec Z.eq_dec v [] then [] else b2) ++ c :: tail ++ eol ++ rest).
    assert (LW : zlen (o :: b1 ++ v ++ b2 ++ c :: tail) = 1 + (zlen b1 + (zlen (v ++ b2) + (1 + zlen tail)))).
    { rewrite zlen_cons, !zlen_app, zlen_cons. lia. }
    split; [|split].
    + rewrite LW. rewrite RR, E. f_equal. f_equal. f_equal. f_equal. unfold vb. lia.
    + exact AV'.
    + destruct VB as [[_ VN]|[-> _]].
      * destruct (list_eq_dec Z.eq_dec v []) as [|_]; [contradiction|]. destruct b2 as [|x b2]; cbn [app]; eexists _, _; (split; [reflexivity|]); [exact SO4|].
        inversion B2 as [|? ? BX _]; subst. unfold blank in BX. cbn [In] in BX. unfold digit. lia.
      * destruct (list_eq_dec Z.eq_dec [] []) as [_|X]; [|contradiction]. cbn [app]. exists c, (tail ++ eol ++ rest). split; [reflexivity|exact SO4].
Qed.

(* What the lexer returns for a line. *)
Theorem lex_line : forall eol n k v t b cur end_ rest key, is_line eol n k v t -> line_end eol -> follows eol rest -> rest <> [] ->
  parse_reserve k = Ret key -> key <> RK_NULL -> at_ b cur (t ++ rest) -> cur < end_ ->
  forall fuel, zlen t < Z.of_nat fuel ->
  exists l r, lex fuel b cur end_ = Ret (0, cur + zlen t, l, 1) /\ l_blank l = n /\ l_key l = key /\ l_kb l < l_ke l /\
    sub b (l_vb l) (l_ve l) = Ret v /\ sub b (l_vb l) (zlen b) = Ret (v ++ r) /\ sub b (l_ve l) (zlen b) = Ret r /\ no_digit r /\ 0 <= l_ve l.
Proof.
  intros eol n k v t b cur end_ rest key (lead & dash & b1 & b2 & w & -> & LD & LN & DA & KW & B1 & B2 & WR) LE FO RN PR KN A CE fuel FU.
  unfold lex. replace (end_ <=? cur) with false by lia.
  repeat (rewrite <- app_assoc in A || rewrite <- app_comm_cons in A).
  unfold line0.
  pose proof (run_lead lead b cur 0 0 0 RK_NULL (-1) (-1) (-1) (-1) _ LD A eq_refl) as R1. apply at_app in A.
  rewrite !Z.add_0_l in R1.
  pose proof (run_dash dash b (cur + zlen lead) (zlen lead) 0 RK_NULL (-1) (-1) (-1) (-1) _ DA A) as R2. apply at_app in A.
  set (c2 := cur + zlen lead + zlen dash) in *.
  pose proof (run_key_sep k b1 b c2 (zlen lead) (zlen lead + zlen dash) 0 key RK_NULL (-1) (-1) (-1) (-1) _ KW PR KN B1 A) as R3.
  apply at_app in A. apply at_app in A. apply at_cons in A.
  pose proof (run_pre_val b2 b _ (zlen lead) (zlen lead + zlen dash + zlen k + zlen b1 + 1) 0 key c2 (c2 + zlen k) (-1) (-1) _ B2 A) as R4. apply at_app in A.
  assert (RR := runs_trans _ _ _ _ _ _ _ _ _ R1 (runs_trans _ _ _ _ _ _ _ _ _ R2 (runs_trans _ _ _ _ _ _ _ _ _ R3 R4))). destruct RR as [RR0 RR].
  set (m := zlen lead + (zlen dash + (zlen k + (zlen b1 + 1) + zlen b2))) in *.
  assert (LT : zlen (lead ++ dash ++ k ++ b1 ++ 58 :: b2 ++ w ++ eol) = m + zlen w + zlen eol).
  { unfold m. rewrite !zlen_app, zlen_cons, !zlen_app. lia. }
  assert (E1 : 1 <= zlen eol) by (destruct LE as [-> | [-> | ->]]; vm_compute; discriminate). pose proof (zlen_nonneg _ w).
  rewrite LT in FU |- *.
  replace fuel with (Z.to_nat m + (Z.to_nat (zlen w) + S (fuel - Z.to_nat m - Z.to_nat (zlen w) - 1)))%nat by lia.
  rewrite RR.
  destruct (written_lex v w b _ (zlen lead) (zlen lead + zlen dash + zlen k + zlen b1 + 1 + zlen b2) key c2 (c2 + zlen k) eol rest WR LE FO RN A (fuel - Z.to_nat m - Z.to_nat (zlen w) - 1)%nat)
    as (c' & bl & st & vb & r & E & AV & ND).
  exists (mkLine (zlen lead) c' bl st key c2 (c2 + zlen k) vb (vb + zlen v)), r. cbn [l_blank l_key l_kb l_ke l_vb l_ve].
  split; [|split; [exact LN|split; [reflexivity|split; [|split; [|split; [|split; [|split]]]]]]].
  - rewrite E. f_equal. f_equal. f_equal. f_equal. unfold m, c2. lia.
  - destruct KW as (c & q & -> & _). rewrite zlen_cons. pose proof (zlen_nonneg _ q). lia.
  - exact (at_sub _ _ _ _ AV).
  - exact (at_sub_end _ _ _ AV).
  - apply at_app in AV. exact (at_sub_end _ _ _ AV).
  - exact ND.
  - apply at_app in AV. exact (at_nonneg _ _ _ AV).
Qed.

Theorem lex_gap : forall eol t b cur end_ rest, is_gap eol t -> line_end eol -> follows eol rest -> rest <> [] ->
  at_ b cur (t ++ rest) -> cur < end_ -> forall fuel, zlen t < Z.of_nat fuel ->
  exists l, lex fuel b cur end_ = Ret (0, cur + zlen t, l, 1) /\ l_ke l - l_kb l = 0.
Proof.
  intros eol t b cur end_ rest (lead & dash & tail & -> & LD & DA & TL) LE FO RN A CE fuel FU.
  unfold lex. replace (end_ <=? cur) with false by lia. rewrite <- !app_assoc in A. unfold line0.
  pose proof (run_lead lead b cur 0 0 0 RK_NULL (-1) (-1) (-1) (-1) _ LD A eq_refl) as R1. apply at_app in A. rewrite !Z.add_0_l in R1.
  pose proof (run_dash dash b (cur + zlen lead) (zlen lead) 0 RK_NULL (-1) (-1) (-1) (-1) _ DA A) as R2. apply at_app in A.
  destruct (runs_trans _ _ _ _ _ _ _ _ _ R1 R2) as [RR0 RR].
  assert (E1 : 1 <= zlen eol) by (destruct LE as [-> | [-> | ->]]; vm_compute; discriminate). pose proof (zlen_nonneg _ tail). pose proof (zlen_nonneg _ lead). pose proof (zlen_nonneg _ dash).
  rewrite !zlen_app in *.
  replace fuel with (Z.to_nat (zlen lead + zlen dash) + (Z.to_nat (zlen tail) + S (fuel - Z.to_nat (zlen lead + zlen dash) - Z.to_nat (zlen tail) - 1)))%nat by lia.
  rewrite RR.
  destruct (tail_close b _ (zlen lead) (zlen lead + zlen dash) RK_NULL (-1) (-1) (-1) (-1) BNone BNone (-1) (-1) (-1) tail eol rest LE FO RN A TL eq_refl ltac:(discriminate)) with
    (fuel := (fuel - Z.to_nat (zlen lead + zlen dash) - Z.to_nat (zlen tail) - 1)%nat) as (c' & bl & E). { left. auto. }
  eexists. split; [rewrite E; f_equal; f_equal; f_equal; f_equal; lia|reflexivity].
Qed.
