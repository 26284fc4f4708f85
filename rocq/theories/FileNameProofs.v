(* Proofs about FileName.v. *)
From Coq Require Import String ZArith List Bool Lia ZifyBool ZifyNat ZifyN.
From Verif Require Import Base BaseFacts NumSpec NumFacts FileName FileNameSpec.
Import ListNotations.
Open Scope Z_scope.

(* ---- numbers ---- *)
Definition digits (t : text) : Prop := Forall (fun c => 48 <= c <= 57) t.

Lemma digit_10 : forall d, 0 <= d < 10 -> digit_val (48 + d) = Some d.
Proof. intros d D. unfold digit_val. destruct ((48 <=? 48 + d) && (48 + d <=? 57)) eqn:E; [f_equal; lia|lia]. Qed.

Lemma dec_digits_ok : forall fuel n acc, 0 <= n < 10 ^ Z.of_nat fuel -> (0 < fuel)%nat ->
  exists t, dec_digits fuel n acc = t ++ acc /\ value 10 0 t = Some n /\ 1 <= zlen t /\
    (1 < zlen t -> nth 0 t 0 <> 48) /\ digits t.
Proof.
  induction fuel as [|fuel IH]; intros n acc N F; [lia|]. cbn [dec_digits].
  pose proof (Z.mod_pos_bound n 10 ltac:(lia)) as M.
  destruct (n <? 10) eqn:E.
  - exists [48 + n mod 10]. rewrite Z.mod_small by lia. split; [reflexivity|].
    split; [cbn [value]; rewrite digit_10 by lia; replace (n <? 10) with true; f_equal; lia|].
    split; [reflexivity|]. split; [intros X; exfalso; revert X; apply Z.lt_irrefl|]. constructor; [lia|constructor].
  - replace (Z.of_nat (S fuel)) with (Z.of_nat fuel + 1) in N by lia. rewrite Z.pow_add_r, Z.pow_1_r in N by lia.
    assert (D : 0 <= n / 10 < 10 ^ Z.of_nat fuel).
    { split; [apply Z.div_pos; lia|]. apply Z.div_lt_upper_bound; lia. }
    assert (D1 : 1 <= n / 10) by (apply Z.div_le_lower_bound; lia).
    assert (F' : (0 < fuel)%nat) by (destruct fuel; [cbn in D; lia|lia]).
    destruct (IH (n / 10) (48 + n mod 10 :: acc) D F') as (t & E1 & V & L & NZ & DG).
    exists (t ++ [48 + n mod 10]). rewrite E1, <- app_assoc. split; [reflexivity|].
    split.
    { rewrite value_app, V. cbn [value]. rewrite digit_10 by lia. destruct (n mod 10 <? 10) eqn:X; [|lia].
      f_equal. pose proof (Z.div_mod n 10 ltac:(lia)). lia. }
    split; [rewrite zlen_app; change (zlen [48 + n mod 10]) with 1; lia|]. split.
    + intros _. destruct t as [|c [|c2 t]]; [rewrite zlen_nil in L; lia| |].
      * cbn [app nth]. intros ->. cbn in V. injection V as V. lia.
      * cbn [app nth]. apply NZ. rewrite !zlen_cons. pose proof (zlen_nonneg _ t). lia.
    + apply Forall_app. split; [assumption|]. constructor; [lia|constructor].
Qed.

Lemma dec_abs_ok : forall n, 0 <= n -> is_numeral 10 1 n (dec_abs n) /\ digits (dec_abs n).
Proof.
  intros n N. unfold dec_abs.
  destruct (dec_digits_ok (S (Z.to_nat (Z.log2 n))) n []) as (t & -> & V & L & NZ & DG).
  - split; [assumption|]. pose proof (Z.log2_nonneg n) as LN.
    replace (Z.of_nat (S (Z.to_nat (Z.log2 n)))) with (Z.succ (Z.log2 n)) by lia.
    destruct (Z.eq_dec n 0) as [->|D]; [reflexivity|].
    pose proof (Z.log2_spec n ltac:(lia)) as [_ S].
    eapply Z.lt_le_trans; [exact S|]. apply Z.pow_le_mono_l. lia.
  - lia.
  - rewrite app_nil_r. split; [|assumption]. split; [assumption|]. split; [assumption|]. split; [assumption|].
    intros X. apply NZ. lia.
Qed.

Lemma pad_ok : forall w n, 0 <= n -> is_numeral 10 w n (pad w n) /\ digits (pad w n).
Proof.
  intros w n N. unfold pad. replace (n <? 0) with false by lia. rewrite Z.abs_eq by assumption. cbn [app].
  destruct (dec_abs_ok n N) as [(V & L & _ & NZ) DG]. set (t := dec_abs n) in *. split.
  - split; [rewrite value_app, value_zeros by lia; exact V|].
    assert (ZL : zlen (repeat 48 (Z.to_nat (w - zlen t)) ++ t) = Z.max w (zlen t)).
    { rewrite zlen_app. unfold zlen at 1. rewrite repeat_length. lia. }
    rewrite ZL. split; [lia|]. split; [lia|]. intros X.
    replace (Z.to_nat (w - zlen t)) with 0%nat by lia. cbn [repeat app]. apply NZ. lia.
  - apply Forall_app. split; [|assumption]. apply Forall_forall. intros x X. apply repeat_spec in X. lia.
Qed.

Lemma to_string_ok : forall n, 0 <= n -> is_numeral 10 1 n (to_string n) /\ digits (to_string n).
Proof. intros n N. unfold to_string. replace (n <? 0) with false by lia. apply dec_abs_ok. assumption. Qed.

Lemma digits_no : forall c t, digits t -> (c < 48 \/ 57 < c) -> ~ In c t.
Proof. intros c t D C I. unfold digits in D. rewrite Forall_forall in D. specialize (D c I). cbn in D. lia. Qed.

(* every text pad can give, also for negative numbers *)
Lemma pad_no : forall c w n, c <> 45 -> (c < 48 \/ 57 < c) -> ~ In c (pad w n).
Proof.
  intros c w n C C2 I. unfold pad in I. apply in_app_or in I. destruct I as [I|I].
  - destruct (n <? 0); [destruct I as [I|[]]; lia|contradiction].
  - apply in_app_or in I. destruct I as [I|I]; [apply repeat_spec in I; lia|].
    destruct (dec_abs_ok (Z.abs n) ltac:(lia)) as [_ D]. revert I. apply digits_no; assumption.
Qed.

Lemma to_string_no : forall c n, c <> 45 -> (c < 48 \/ 57 < c) -> ~ In c (to_string n).
Proof.
  intros c n C C2 I. unfold to_string in I. destruct (n <? 0) eqn:E.
  - destruct I as [I|I]; [lia|]. destruct (dec_abs_ok (- n) ltac:(lia)) as [_ D]. revert I. apply digits_no; assumption.
  - destruct (dec_abs_ok n ltac:(lia)) as [_ D]. revert I. apply digits_no; assumption.
Qed.

(* ---- strings ---- *)
Lemma teq_spec : forall a b, teq a b = true <-> a = b.
Proof. intros. unfold teq. destruct (list_eq_dec Z.eq_dec a b); split; congruence. Qed.

Lemma find_none : forall ch s, ~ In ch s -> find ch s = None.
Proof.
  induction s as [|x s IH]; intros H; [reflexivity|]. cbn [find].
  destruct (x =? ch) eqn:E; [exfalso; apply H; left; lia|]. rewrite IH; [reflexivity|]. intros I. apply H. right. exact I.
Qed.

Lemma find_at : forall ch a r, ~ In ch a -> find ch (a ++ ch :: r) = Some (length a).
Proof.
  induction a as [|x a IH]; intros r H; cbn [app find length].
  - rewrite Z.eqb_refl. reflexivity.
  - destruct (x =? ch) eqn:E; [exfalso; apply H; left; lia|]. rewrite IH; [reflexivity|]. intros I. apply H. right. exact I.
Qed.

Lemma skipn_exact : forall A (a b : list A), skipn (length a) (a ++ b) = b.
Proof. intros. rewrite skipn_app, Nat.sub_diag, skipn_all. reflexivity. Qed.
Lemma firstn_exact : forall A (a b : list A), firstn (length a) (a ++ b) = a.
Proof. intros. rewrite firstn_app, Nat.sub_diag, firstn_all, firstn_O. apply app_nil_r. Qed.
Lemma skipn_exact2 : forall A (a b : list A) n, skipn (length a + n) (a ++ b) = skipn n b.
Proof. intros. rewrite skipn_app, skipn_all2 by lia. replace (length a + n - length a)%nat with n by lia. reflexivity. Qed.

Lemma find_from_none : forall ch D r, ~ In ch r -> find_from ch (D ++ r) (length D) = None.
Proof. intros. unfold find_from. rewrite skipn_exact, find_none by assumption. reflexivity. Qed.
Lemma find_from_at : forall ch D a r, ~ In ch a -> find_from ch (D ++ a ++ ch :: r) (length D) = Some (length (D ++ a)).
Proof.
  intros. unfold find_from. rewrite skipn_exact, find_at by assumption. cbn [option_map]. rewrite app_length. reflexivity.
Qed.

Lemma split_first : forall (ch : Z) s, In ch s -> exists a r, s = a ++ ch :: r /\ ~ In ch a.
Proof.
  induction s as [|x s IH]; intros H; [contradiction|]. destruct (Z.eq_dec x ch) as [->|D].
  - exists [], s. split; [reflexivity|]. intros [].
  - destruct H as [H|H]; [contradiction|]. destruct (IH H) as (a & r & -> & A). exists (x :: a), r.
    split; [reflexivity|]. intros [X|X]; contradiction.
Qed.

Lemma replace_at : forall D a r by_, replace (D ++ a ++ r) (length D) (length a) by_ = D ++ by_ ++ r.
Proof.
  intros. unfold replace. rewrite firstn_exact, skipn_exact2, skipn_exact. reflexivity.
Qed.

Lemma nth_after : forall D r k, nth (length D + k) (D ++ r) 0 = nth k r 0.
Proof. intros. rewrite app_nth2 by lia. f_equal. lia. Qed.
Lemma substr_at : forall D a r k, substr (D ++ a ++ r) (length D + length a) k = firstn k r.
Proof. intros. unfold substr. rewrite skipn_exact2, skipn_exact. reflexivity. Qed.

(* ---- the switch ---- *)
(* value of an escape, as text *)
Definition esc_text (v : fenv) (t : clock) (e : esc) : text :=
  match e with
  | EPName => v_name v | EPid => pad 6 (v_pid v) | EYear => pad 4 (k_year t + 1900) | EMon => pad 2 (k_mon t + 1)
  | EDay => pad 2 (k_mday t) | EHour => pad 2 (k_hour t) | EMin => pad 2 (k_min t) | ESec => pad 2 (k_sec t)
  | EDate => []
  end.

Lemma firstn_split : forall (x r : text), firstn (length x) r = x -> exists r', r = x ++ r'.
Proof. intros x r H. exists (skipn (length x) r). rewrite <- H at 1. symmetry. apply firstn_skipn. Qed.

(* expand recognises exactly the escapes *)
Lemma expand_some : forall v t D r n', expand v t (D ++ 36 :: r) (length D) = Some n' ->
  exists e r', e <> EDate /\ 36 :: r = esc_src e ++ r' /\ n' = D ++ esc_text v t e ++ r'.
Proof.
  intros v t D r n' H. unfold expand in H. rewrite nth_after in H. cbn [nth] in H.
  destruct r as [|c r]; [discriminate|]. cbn [nth] in H.
  assert (SB : forall k, substr (D ++ 36 :: c :: r) (length D + 2) k = firstn k r)
    by (intros k; apply (substr_at D [36; c] r k)).
  rewrite !SB in H. clear SB.
  assert (GO : forall e x, esc_src e = 36 :: c :: x -> e <> EDate -> firstn (length x) r = x ->
     replace (D ++ 36 :: c :: r) (length D) (2 + length x) (esc_text v t e) = n' ->
     exists e r', e <> EDate /\ 36 :: c :: r = esc_src e ++ r' /\ n' = D ++ esc_text v t e ++ r').
  { intros e x S NE F R. destruct (firstn_split _ _ F) as [r' ->]. exists e, r'. split; [assumption|].
    split; [rewrite S; reflexivity|]. rewrite <- R.
    change (36 :: c :: x ++ r') with ((36 :: c :: x) ++ r'). apply (replace_at D (36 :: c :: x) r'). }
  repeat match type of H with
    | (if ?x =? ?y then _ else _) = _ => destruct (Z.eqb_spec x y) as [->|]
    | (if teq ?a ?b then _ else _) = _ => let Q := fresh "Q" in destruct (teq a b) eqn:Q; [apply teq_spec in Q|clear Q]
    end; try discriminate; injection H as H.
  - eapply (GO EPName (s2z "NAME")); try reflexivity; try discriminate; assumption.
  - eapply (GO EPid (s2z "ID")); try reflexivity; try discriminate; assumption.
  - eapply (GO EYear (s2z "EAR")); try reflexivity; try discriminate; assumption.
  - eapply (GO EMon (s2z "ON")); try reflexivity; try discriminate; assumption.
  - eapply (GO EMin (s2z "IN")); try reflexivity; try discriminate; assumption.
  - eapply (GO EDay (s2z "AY")); try reflexivity; try discriminate; assumption.
  - eapply (GO EHour (s2z "OUR")); try reflexivity; try discriminate; assumption.
  - eapply (GO ESec (s2z "EC")); try reflexivity; try discriminate; assumption.
Qed.

Lemma expand_esc : forall v t D e r, e <> EDate ->
  expand v t (D ++ esc_src e ++ r) (length D) = Some (D ++ esc_text v t e ++ r).
Proof.
  intros v t D e r NE.
  assert (SB : forall a b x k, substr (D ++ (a :: b :: x) ++ r) (length D + 2) k = firstn k (x ++ r))
    by (intros a b x k; apply (substr_at D [a; b] (x ++ r) k)).
  unfold expand. rewrite <- (replace_at D (esc_src e) r (esc_text v t e)). rewrite nth_after.
  destruct e; try contradiction; cbn [esc_text esc_src].
  - change (s2z "$PNAME") with (36 :: 80 :: s2z "NAME"). rewrite SB. reflexivity.
  - change (s2z "$PID") with (36 :: 80 :: s2z "ID"). rewrite !SB.
    cbn [nth app]. change (80 =? 80) with true. cbv iota.
    destruct (teq _ (s2z "NAME")) eqn:E; [apply teq_spec in E; discriminate E|]. reflexivity.
  - change (s2z "$YEAR") with (36 :: 89 :: s2z "EAR"). rewrite !SB. reflexivity.
  - change (s2z "$MON") with (36 :: 77 :: s2z "ON"). rewrite !SB. reflexivity.
  - change (s2z "$DAY") with (36 :: 68 :: s2z "AY"). rewrite !SB. reflexivity.
  - change (s2z "$HOUR") with (36 :: 72 :: s2z "OUR"). rewrite !SB. reflexivity.
  - change (s2z "$MIN") with (36 :: 77 :: s2z "IN"). rewrite !SB. reflexivity.
  - change (s2z "$SEC") with (36 :: 83 :: s2z "EC"). rewrite !SB. reflexivity.
Qed.

(* ---- the loop on a template ---- *)
Fixpoint dollars (t : text) : nat :=
  match t with [] => O | c :: r => ((if (c =? 36)%Z then 1 else 0) + dollars r)%nat end.
Lemma dollars_app : forall a b, dollars (a ++ b) = (dollars a + dollars b)%nat.
Proof. induction a as [|c a IH]; intros b; [reflexivity|]. cbn [app dollars]. rewrite IH. lia. Qed.
Lemma dollars_none : forall t, ~ In 36 t -> dollars t = O.
Proof.
  induction t as [|c t IH]; intros H; [reflexivity|]. cbn [dollars]. destruct (c =? 36) eqn:E; [exfalso; apply H; left; lia|].
  apply IH. intros X. apply H. right. exact X.
Qed.

Lemma esc_src_shape : forall e, e <> EDate -> exists c x, esc_src e = 36 :: c :: x /\ dollars (esc_src e) = 1%nat.
Proof. intros e NE. destruct e; try contradiction; do 2 eexists; split; reflexivity. Qed.

Lemma esc_text_no : forall v t e, ~ In 36 (v_name v) -> ~ In 36 (esc_text v t e).
Proof. intros v t e H. destruct e; cbn [esc_text]; try assumption; try (apply pad_no; lia). intros []. Qed.

Definition no_date (k : tok) : Prop := k <> Esc EDate.
Definition tok_text (v : fenv) (t : clock) (k : tok) : text :=
  match k with Lit s => s | Esc e => esc_text v t e end.
Definition dollar_free (k : tok) : Prop := match k with Lit s => ~ In 36 s | Esc _ => True end.

Lemma fmt_loop_toks : forall v t, ~ In 36 (v_name v) -> forall l fuel D P,
  Forall no_date l -> Forall dollar_free l -> ~ In 36 P -> (dollars (source l) < fuel)%nat ->
  fmt_loop fuel v t (D ++ P ++ source l) (length D) = Ret (D ++ P ++ concat (map (tok_text v t) l)).
Proof.
  intros v t NV. induction l as [|k l IH]; intros fuel D P ND DF NP F.
  - cbn [source map concat]. destruct fuel as [|fuel]; [lia|]. cbn [fmt_loop].
    change (source []) with (@nil Z). rewrite app_nil_r, find_from_none by assumption. reflexivity.
  - inversion ND as [|? ? N1 N2]; subst. inversion DF as [|? ? D1 D2]; subst.
    change (source (k :: l)) with (tok_src k ++ source l) in *. cbn [map concat].
    rewrite dollars_app in F. destruct k as [s|e].
    + cbn [tok_src tok_text dollar_free] in *. specialize (IH fuel D (P ++ s) N2 D2).
      rewrite <- !app_assoc in IH. apply IH; [|lia]. intros I. apply in_app_or in I. tauto.
    + assert (NE : e <> EDate) by (intros ->; apply N1; reflexivity).
      cbn [tok_src tok_text] in *. destruct (esc_src_shape e NE) as (c & x & ES & DS).
      destruct fuel as [|fuel]; [lia|]. cbn [fmt_loop].
      rewrite ES at 1. cbn [app]. rewrite find_from_at by assumption.
      replace (length (D ++ P ++ esc_src e ++ source l) - length (D ++ P) <? 2)%nat with false
        by (rewrite ES, !app_length; cbn [length]; symmetry; apply Nat.ltb_ge; lia).
      replace (D ++ P ++ esc_src e ++ source l) with ((D ++ P) ++ esc_src e ++ source l) by (rewrite <- app_assoc; reflexivity).
      rewrite expand_esc by assumption. rewrite (IH fuel (D ++ P) (esc_text v t e) N2 D2 (esc_text_no v t e NV)) by lia.
      rewrite <- app_assoc. reflexivity.
Qed.

(* PreFmtName turns %F into three escapes *)
Definition pre_tok (k : tok) : list tok :=
  match k with
  | Esc EDate => [Esc EYear; Lit [45]; Esc EMon; Lit [45]; Esc EDay]
  | _ => [k]
  end.
Definition pre_toks (l : list tok) : list tok := concat (map pre_tok l).

Lemma source_app : forall a b, source (a ++ b) = source a ++ source b.
Proof. intros. unfold source. rewrite map_app, concat_app. reflexivity. Qed.

Definition percent_free (k : tok) : Prop := match k with Lit s => ~ In 37 s | Esc _ => True end.

Fixpoint percents (t : text) : nat :=
  match t with [] => O | c :: r => ((if (c =? 37)%Z then 1 else 0) + percents r)%nat end.
Lemma percents_app : forall a b, percents (a ++ b) = (percents a + percents b)%nat.
Proof. induction a as [|c a IH]; intros b; [reflexivity|]. cbn [app percents]. rewrite IH. lia. Qed.

Lemma esc_src_no37 : forall e, e <> EDate -> ~ In 37 (esc_src e).
Proof. intros e NE I. destruct e; try contradiction; cbn in I; decompose sum I; discriminate || contradiction. Qed.

Lemma pre_loop_toks : forall l fuel D P, Forall percent_free l -> ~ In 37 P -> (percents (source l) < fuel)%nat ->
  pre_loop fuel (D ++ P ++ source l) (length D) = Ret (D ++ P ++ source (pre_toks l)).
Proof.
  induction l as [|k l IH]; intros fuel D P PF NP F.
  - destruct fuel as [|fuel]; [lia|]. cbn [pre_loop].
    change (source []) with (@nil Z). rewrite app_nil_r, find_from_none by assumption.
    change (source (pre_toks [])) with (@nil Z). rewrite app_nil_r. reflexivity.
  - inversion PF as [|? ? D1 D2]; subst.
    change (source (k :: l)) with (tok_src k ++ source l) in *.
    change (pre_toks (k :: l)) with (pre_tok k ++ pre_toks l). rewrite source_app.
    rewrite percents_app in F.
    assert (PASS : ~ In 37 (tok_src k) -> pre_tok k = [k] ->
      pre_loop fuel (D ++ P ++ tok_src k ++ source l) (length D) = Ret (D ++ P ++ source (pre_tok k) ++ source (pre_toks l))).
    { intros NI ->. specialize (IH fuel D (P ++ tok_src k) D2). rewrite <- !app_assoc in IH.
      replace (source [k]) with (tok_src k) by (unfold source; cbn [map concat]; symmetry; apply app_nil_r).
      apply IH; [|lia]. intros I. apply in_app_or in I. tauto. }
    destruct k as [s|e]; [apply PASS; [assumption|reflexivity]|].
    destruct e; try (apply PASS; [apply esc_src_no37; discriminate|reflexivity]). clear PASS.
    cbn [tok_src esc_src] in *. change (s2z "%F") with [37; 70] in *.
    destruct fuel as [|fuel]; [lia|]. cbn [pre_loop app]. rewrite find_from_at by assumption.
    replace (Nat.ltb (length (D ++ P ++ 37 :: 70 :: source l) - length (D ++ P)) 2) with false
      by (rewrite !app_length; cbn [length]; symmetry; apply Nat.ltb_ge; lia).
    replace (D ++ P ++ 37 :: 70 :: source l) with ((D ++ P) ++ [37; 70] ++ source l) by (rewrite <- app_assoc; reflexivity).
    rewrite nth_after. cbn [nth app]. change (70 =? 70) with true. cbv iota.
    rewrite (replace_at (D ++ P) [37; 70] (source l)).
    rewrite (IH fuel (D ++ P) (s2z "$YEAR-$MON-$DAY")); [|assumption| |cbn in F; lia].
    + rewrite <- app_assoc. reflexivity.
    + intros I. cbn in I. decompose sum I; discriminate || contradiction.
Qed.

Lemma dollars_len : forall t, (dollars t <= length t)%nat.
Proof. induction t as [|c t IH]; cbn [dollars length]; [lia|]. destruct (c =? 36); lia. Qed.
Lemma percents_len : forall t, (percents t <= length t)%nat.
Proof. induction t as [|c t IH]; cbn [percents length]; [lia|]. destruct (c =? 37); lia. Qed.

Lemma pre_toks_no_date : forall l, Forall no_date (pre_toks l).
Proof.
  induction l as [|k l IH]; [constructor|]. change (pre_toks (k :: l)) with (pre_tok k ++ pre_toks l).
  apply Forall_app. split; [|assumption].
  destruct k as [s|[]]; cbn [pre_tok]; repeat constructor; discriminate.
Qed.
Lemma pre_toks_dollar_free : forall l, Forall dollar_free l -> Forall dollar_free (pre_toks l).
Proof.
  induction l as [|k l IH]; intros H; [constructor|]. inversion H; subst.
  change (pre_toks (k :: l)) with (pre_tok k ++ pre_toks l). apply Forall_app. split; [|auto].
  destruct k as [s|[]]; cbn [pre_tok]; repeat constructor; cbn; try assumption; intros [X|[]]; discriminate X.
Qed.

Lemma pre_len : forall l, (length (source (pre_toks l)) <= 8 * length (source l))%nat.
Proof.
  induction l as [|k l IH]; [cbn; lia|]. change (pre_toks (k :: l)) with (pre_tok k ++ pre_toks l).
  rewrite source_app. change (source (k :: l)) with (tok_src k ++ source l). rewrite !app_length.
  enough (length (source (pre_tok k)) <= 8 * length (tok_src k))%nat by lia.
  destruct k as [s|[]]; cbn; rewrite ?app_nil_r; lia.
Qed.

Lemma fmt_name_toks : forall v t l fuel, ~ In 36 (v_name v) -> Forall dollar_free l -> Forall percent_free l ->
  (8 * length (source l) < fuel)%nat ->
  fmt_name fuel v t (source l) = Ret (concat (map (tok_text v t) (pre_toks l))).
Proof.
  intros v t l fuel NV DF PF F. unfold fmt_name.
  assert (G : (let! name := pre_loop fuel (source l) 0 in fmt_loop fuel v t name 0) = Ret (concat (map (tok_text v t) (pre_toks l)))).
  { pose proof (pre_loop_toks l fuel [] [] PF (fun x => x)) as E1. cbn [app length] in E1.
    rewrite E1 by (pose proof (percents_len (source l)); lia). cbn [bind].
    pose proof (fmt_loop_toks v t NV (pre_toks l) fuel [] [] (pre_toks_no_date l) (pre_toks_dollar_free l DF) (fun x => x)) as E2.
    cbn [app length] in E2. apply E2. pose proof (dollars_len (source (pre_toks l))). pose proof (pre_len l). lia. }
  destruct (source l) eqn:S; [|exact G].
  destruct fuel; [cbn in F; lia|]. cbn in G. exact G.
Qed.

(* ---- meaning ---- *)
Lemma tok_vals : forall v t l, valid_clock t -> 0 <= v_pid v ->
  exists vals, Forall2 (tok_val v t) l vals /\ concat vals = concat (map (tok_text v t) (pre_toks l)).
Proof.
  intros v t l (V1 & V2 & V3 & V4 & V5 & V6) VP. induction l as [|k l (vals & F & C)].
  - exists []. split; [constructor|reflexivity].
  - exists (concat (map (tok_text v t) (pre_tok k)) :: vals). split.
    + constructor; [|assumption]. destruct k as [s|[]]; cbn [pre_tok map concat tok_text tok_val esc_text esc_val];
        rewrite ?app_nil_r; try reflexivity; try (apply pad_ok; lia).
      exists (pad 4 (k_year t + 1900)), (pad 2 (k_mon t + 1)), (pad 2 (k_mday t)).
      split; [apply pad_ok; lia|]. split; [apply pad_ok; lia|]. split; [apply pad_ok; lia|]. reflexivity.
    + cbn [concat]. rewrite C. change (pre_toks (k :: l)) with (pre_tok k ++ pre_toks l).
      rewrite map_app, concat_app. reflexivity.
Qed.

Lemma plain_free : forall l, Forall plain_tok l -> Forall dollar_free l /\ Forall percent_free l.
Proof.
  intros l H. split; eapply Forall_impl; try exact H; intros [s|e] P; cbn in *; auto; apply P.
Qed.

Theorem make_file_name_spec : forall v t l chan dev fuel,
  valid_clock t -> 0 <= v_pid v -> ~ In 36 (v_name v) -> Forall plain_tok l -> source l <> [] ->
  (8 * (length (source l) + 4) < fuel)%nat ->
  exists vals, Forall2 (tok_val v t) l vals /\
    make_file_name fuel v t (source l) chan dev = Ret (concat vals ++ s2z ".log").
Proof.
  intros v t l chan dev fuel VC VP NV PL NE F. unfold make_file_name.
  set (l' := l ++ [Lit (s2z ".log")]).
  assert (S : (match source l with [] => s2z "$PNAME_$YEAR$MON$DAY_$PID." ++ to_string chan ++ to_string dev | _ => source l end)
     ++ s2z ".log" = source l').
  { unfold l'. rewrite source_app. destruct (source l); [contradiction|]. reflexivity. }
  rewrite S. destruct (plain_free l PL) as [DF PF].
  destruct (tok_vals v t l VC VP) as (vals & F2 & C). exists vals. split; [assumption|].
  rewrite fmt_name_toks.
  - f_equal. unfold pre_toks, l'. rewrite !map_app, !concat_app. unfold pre_toks in C. rewrite map_app, concat_app, C. reflexivity.
  - assumption.
  - unfold l'. apply Forall_app. split; [assumption|]. repeat constructor. cbn. intros I. decompose sum I; discriminate || contradiction.
  - unfold l'. apply Forall_app. split; [assumption|]. repeat constructor. cbn. intros I. decompose sum I; discriminate || contradiction.
  - unfold l'. rewrite source_app, app_length. change (length (source [Lit (s2z ".log")])) with 4%nat. lia.
Qed.

Theorem make_file_name_default : forall v t chan dev fuel,
  valid_clock t -> 0 <= v_pid v -> ~ In 36 (v_name v) -> 0 <= chan -> 0 <= dev ->
  (8 * (27 + length (to_string chan ++ to_string dev) + 4) < fuel)%nat ->
  exists c d vals, is_numeral 10 1 chan c /\ is_numeral 10 1 dev d /\ Forall2 (tok_val v t) (default_toks c d) vals /\
    make_file_name fuel v t [] chan dev = Ret (concat vals ++ s2z ".log").
Proof.
  intros v t chan dev fuel VC VP NV C D F.
  exists (to_string chan), (to_string dev).
  assert (N : forall n, plain (to_string n)) by (intros n; split; apply to_string_no; lia).
  destruct (make_file_name_spec v t (default_toks (to_string chan) (to_string dev)) chan dev fuel VC VP NV) as (vals & F2 & E).
  - unfold default_toks. repeat constructor; cbn; try apply N; intros [X|[]]; discriminate X.
  - discriminate.
  - unfold default_toks, source. cbn [map tok_src concat esc_src]. rewrite !app_length in *. cbn in *. lia.
  - exists vals. split; [apply to_string_ok; assumption|]. split; [apply to_string_ok; assumption|]. split; [assumption|].
    rewrite <- E. unfold make_file_name. f_equal.
    unfold default_toks, source. cbn [map tok_src concat]. rewrite app_nil_r. reflexivity.
Qed.

(* ---- termination for any template ---- *)
Lemma fmt_loop_ends : forall v t, ~ In 36 (v_name v) -> forall fuel D s,
  (dollars s < fuel)%nat -> exists r, fmt_loop fuel v t (D ++ s) (length D) = Ret r.
Proof.
  intros v t NV. induction fuel as [|fuel IH]; intros D s F; [lia|]. cbn [fmt_loop].
  destruct (in_dec Z.eq_dec 36 s) as [I|I].
  - destruct (split_first 36 s I) as (a & r & -> & NA).
    rewrite find_from_at by assumption. rewrite dollars_app, (dollars_none a NA) in F. cbn [dollars] in F. rewrite Z.eqb_refl in F.
    destruct (Nat.ltb _ 2); [eauto|].
    replace (D ++ a ++ 36 :: r) with ((D ++ a) ++ 36 :: r) by (rewrite <- app_assoc; reflexivity).
    destruct (expand v t ((D ++ a) ++ 36 :: r) (length (D ++ a))) as [n'|] eqn:E.
    + destruct (expand_some _ _ _ _ _ E) as (e & r' & NE & ER & ->). apply IH.
      rewrite dollars_app, dollars_none by (apply esc_text_no; assumption).
      assert (X : dollars (36 :: r) = dollars (esc_src e ++ r')) by (rewrite ER; reflexivity).
      destruct (esc_src_shape e NE) as (c & x & _ & DS). rewrite dollars_app, DS in X. cbn [dollars] in X. rewrite Z.eqb_refl in X. lia.
    + replace ((D ++ a) ++ 36 :: r) with (((D ++ a) ++ [36]) ++ r) by (rewrite <- !app_assoc; reflexivity).
      replace (S (length (D ++ a))) with (length ((D ++ a) ++ [36])) by (rewrite (app_length (D ++ a)); cbn; lia).
      apply IH. lia.
  - rewrite find_from_none by assumption. eauto.
Qed.

Lemma pre_loop_ends : forall fuel D s, (percents s < fuel)%nat ->
  exists r, pre_loop fuel (D ++ s) (length D) = Ret r /\ (length r <= length D + length s + 13 * percents s)%nat.
Proof.
  induction fuel as [|fuel IH]; intros D s F; [lia|]. cbn [pre_loop].
  destruct (in_dec Z.eq_dec 37 s) as [I|I].
  - destruct (split_first 37 s I) as (a & r & -> & NA).
    rewrite find_from_at by assumption. rewrite percents_app in F |- *. cbn [percents] in F |- *. rewrite Z.eqb_refl in F |- *.
    destruct (Nat.ltb _ 2); [eexists; split; [reflexivity|]; rewrite !app_length; cbn [length]; lia|].
    replace (D ++ a ++ 37 :: r) with ((D ++ a) ++ 37 :: r) by (rewrite <- app_assoc; reflexivity).
    rewrite nth_after.
    assert (NEXT : exists r', pre_loop fuel ((D ++ a) ++ 37 :: r) (S (length (D ++ a))) = Ret r' /\
              (length r' <= length D + length (a ++ 37%Z :: r) + 13 * (percents a + (1 + percents r)))%nat).
    { replace ((D ++ a) ++ 37 :: r) with (((D ++ a) ++ [37]) ++ r) by (rewrite <- !app_assoc; reflexivity).
      replace (S (length (D ++ a))) with (length ((D ++ a) ++ [37])) by (rewrite (app_length (D ++ a)); cbn; lia).
      destruct (IH ((D ++ a) ++ [37]) r) as (r' & E & L); [lia|]. exists r'. split; [exact E|].
      rewrite !app_length in *. cbn [length] in *. lia. }
    destruct (nth 1 (37 :: r) 0 =? 70) eqn:EC; [|exact NEXT].
    destruct r as [|c r]; [discriminate EC|].
    pose proof (replace_at (D ++ a) [37; c] r (s2z "$YEAR-$MON-$DAY")) as R. cbn [app length] in R. cbn [app] in R.
    destruct (IH (D ++ a) (s2z "$YEAR-$MON-$DAY" ++ r)) as (r' & E & L).
    { rewrite percents_app. change (percents (s2z "$YEAR-$MON-$DAY")) with 0%nat. cbn [percents] in F. lia. }
    exists r'. split.
    + rewrite <- E. f_equal. exact R.
    + rewrite percents_app in L. change (percents (s2z "$YEAR-$MON-$DAY")) with 0%nat in L.
      rewrite !app_length in *. change (length (s2z "$YEAR-$MON-$DAY")) with 15%nat in L. cbn [length percents]. lia.
  - rewrite find_from_none by assumption. eexists. split; [reflexivity|]. rewrite app_length. lia.
Qed.

Theorem fmt_name_ends : forall v t s fuel, ~ In 36 (v_name v) -> (14 * length s < fuel)%nat ->
  exists r, fmt_name fuel v t s = Ret r.
Proof.
  intros v t s fuel NV F. unfold fmt_name. destruct s as [|c s]; [eauto|].
  pose proof (percents_len (c :: s)) as PL.
  destruct (pre_loop_ends fuel [] (c :: s)) as (r & E & L); [lia|]. cbn [app length] in E. rewrite E. cbn [bind].
  apply (fmt_loop_ends v t NV fuel [] r). pose proof (dollars_len r). cbn [length app] in *. lia.
Qed.

(* a process called "$PNAME" *)
Lemma fmt_loop_stuck : forall t fuel pid D r,
  fmt_loop fuel (mkEnv (s2z "$PNAME") pid) t (D ++ s2z "$PNAME" ++ r) (length D) = Fuel.
Proof.
  induction fuel as [|fuel IH]; intros pid D r; [reflexivity|]. cbn [fmt_loop].
  pose proof (find_from_at 36 D [] (s2z "PNAME" ++ r) (fun x => x)) as E.
  rewrite app_nil_r in E. change ([] ++ 36 :: s2z "PNAME" ++ r) with (s2z "$PNAME" ++ r) in E. rewrite E.
  destruct (Nat.ltb _ 2) eqn:X.
  - apply Nat.ltb_lt in X. rewrite !app_length in X. change (length (s2z "$PNAME")) with 6%nat in X. lia.
  - pose proof (expand_esc (mkEnv (s2z "$PNAME") pid) t D EPName r ltac:(discriminate)) as Y.
    cbn [esc_src esc_text v_name] in Y. rewrite Y. apply IH.
Qed.

(* ---- the result always ends in ".log" ---- *)
Lemma esc_no_dot : forall e, ~ In 46 (esc_src e).
Proof. intros e I. destruct e; cbn in I; decompose sum I; discriminate || contradiction. Qed.

Lemma app_cut : forall (a b x s : text), a ++ b = x ++ 46 :: s -> ~ In 46 a -> exists b', b = b' ++ 46 :: s /\ x = a ++ b'.
Proof.
  induction a as [|c a IH]; intros b x s H N; [exists x; split; [exact H|reflexivity]|].
  destruct x as [|d x]; cbn [app] in H; injection H as H1 H2.
  - exfalso. apply N. left. exact H1.
  - subst d. destruct (IH b x s H2) as (b' & -> & ->); [intros I; apply N; right; exact I|]. exists b'. split; reflexivity.
Qed.

Lemma fmt_loop_log : forall v t fuel D s r,
  fmt_loop fuel v t (D ++ s ++ s2z ".log") (length D) = Ret r -> exists y, r = y ++ s2z ".log".
Proof.
  intros v t. induction fuel as [|fuel IH]; intros D s r H; [discriminate|]. cbn [fmt_loop] in H.
  destruct (in_dec Z.eq_dec 36 s) as [I|I].
  - destruct (split_first 36 s I) as (a & r0 & -> & NA).
    rewrite <- app_assoc in H. cbn [app] in H.
    rewrite find_from_at in H by assumption. destruct (Nat.ltb _ 2).
    + injection H as <-. exists (D ++ a ++ 36 :: r0). rewrite <- !app_assoc. reflexivity.
    + replace (D ++ a ++ 36 :: r0 ++ s2z ".log") with ((D ++ a) ++ 36 :: r0 ++ s2z ".log") in H by (rewrite <- app_assoc; reflexivity).
      destruct (expand v t ((D ++ a) ++ 36 :: r0 ++ s2z ".log") (length (D ++ a))) as [n'|] eqn:E.
      * destruct (expand_some _ _ _ _ _ E) as (e & r' & NE & ER & ->).
        change (36 :: r0 ++ s2z ".log") with ((36 :: r0) ++ 46 :: s2z "log") in ER.
        destruct (app_cut _ _ _ _ (eq_sym ER) (esc_no_dot e)) as (b' & -> & _).
        rewrite app_assoc in H. rewrite <- (app_assoc (D ++ a)) in H. rewrite app_assoc in H.
        change (46 :: s2z "log") with (s2z ".log") in H. rewrite <- (app_assoc (D ++ a)), <- (app_assoc (esc_text v t e)) in H || idtac.
        eapply (IH (D ++ a) (esc_text v t e ++ b')). rewrite <- H. f_equal. rewrite <- !app_assoc. reflexivity.
      * replace ((D ++ a) ++ 36 :: r0 ++ s2z ".log") with (((D ++ a) ++ [36]) ++ r0 ++ s2z ".log") in H by (rewrite <- !app_assoc; reflexivity).
        replace (S (length (D ++ a))) with (length ((D ++ a) ++ [36])) in H by (rewrite (app_length (D ++ a)); cbn; lia).
        eapply IH; exact H.
  - rewrite find_from_none in H.
    + injection H as <-. exists (D ++ s). rewrite <- app_assoc. reflexivity.
    + intros X. apply in_app_or in X. destruct X as [X|X]; [contradiction|]. cbn in X. decompose sum X; discriminate || contradiction.
Qed.

Lemma pre_loop_log : forall fuel D s r,
  pre_loop fuel (D ++ s ++ s2z ".log") (length D) = Ret r -> exists y, r = y ++ s2z ".log".
Proof.
  induction fuel as [|fuel IH]; intros D s r H; [discriminate|]. cbn [pre_loop] in H.
  destruct (in_dec Z.eq_dec 37 s) as [I|I].
  - destruct (split_first 37 s I) as (a & r0 & -> & NA).
    rewrite <- app_assoc in H. cbn [app] in H.
    rewrite find_from_at in H by assumption. destruct (Nat.ltb _ 2).
    + injection H as <-. exists (D ++ a ++ 37 :: r0). rewrite <- !app_assoc. reflexivity.
    + replace (D ++ a ++ 37 :: r0 ++ s2z ".log") with ((D ++ a) ++ 37 :: r0 ++ s2z ".log") in H by (rewrite <- app_assoc; reflexivity).
      rewrite nth_after in H. destruct (nth 1 (37 :: r0 ++ s2z ".log") 0 =? 70) eqn:E.
      * destruct r0 as [|c r0]; [discriminate E|].
        pose proof (replace_at (D ++ a) [37; c] (r0 ++ s2z ".log") (s2z "$YEAR-$MON-$DAY")) as R. cbn [app length] in R. cbn [app] in H.
        rewrite R in H. rewrite (app_assoc (s2z "$YEAR-$MON-$DAY")) in H. eapply IH; exact H.
      * replace ((D ++ a) ++ 37 :: r0 ++ s2z ".log") with (((D ++ a) ++ [37]) ++ r0 ++ s2z ".log") in H by (rewrite <- !app_assoc; reflexivity).
        replace (S (length (D ++ a))) with (length ((D ++ a) ++ [37])) in H by (rewrite (app_length (D ++ a)); cbn; lia).
        eapply IH; exact H.
  - rewrite find_from_none in H.
    + injection H as <-. exists (D ++ s). rewrite <- app_assoc. reflexivity.
    + intros X. apply in_app_or in X. destruct X as [X|X]; [contradiction|]. cbn in X. decompose sum X; discriminate || contradiction.
Qed.

Lemma make_file_name_log : forall fuel v t fmt chan dev r,
  make_file_name fuel v t fmt chan dev = Ret r -> exists y, r = y ++ s2z ".log".
Proof.
  intros fuel v t fmt chan dev r H. unfold make_file_name in H. cbv zeta in H.
  set (x := match fmt with [] => _ | _ => _ end) in H. unfold fmt_name in H.
  destruct (x ++ s2z ".log") eqn:E; [destruct x; discriminate E|]. rewrite <- E in H.
  destruct (pre_loop fuel (x ++ s2z ".log") 0) as [n| |] eqn:P; try discriminate. cbn [bind] in H.
  destruct (pre_loop_log fuel [] x n P) as (y & ->). exact (fmt_loop_log v t fuel [] y r H).
Qed.
