(* Names that are defined as themselves (C49). *)
From Coq Require Import String ZArith List Bool Lia ZifyBool ZifyNat ZifyN.
From Verif Require Import Base BaseFacts LoggerState FileName FileNameProofs ParseVal Lexer ParseCfg LexProofs ParseSafe TextSpec ValSpec ValProofs SubstSpec SubstProofs ParseMono.
Import ListNotations.
Open Scope Z_scope.

Lemma snoc_len : forall (pre : text) c, length (pre ++ [c]) = S (length pre).
Proof. intros. rewrite app_length. cbn [length]. lia. Qed.
(* an occurrence that is not skipped is replaced for ever *)
Lemma self_stuck : forall k pb sb fuel, k <> [] -> forall a pre r, blocked pb sb (pre ++ a) k r = false ->
  inplace_loop fuel (pre ++ a ++ k ++ r) (length pre) k k pb sb = Fuel.
Proof.
  intros k pb sb fuel K. induction fuel as [|fuel IH]; [reflexivity|]. induction a as [|c a IHa]; intros pre r B.
  - rewrite app_nil_r in B. cbn [app]. rewrite step_hit by (reflexivity || exact B). apply (IH [] pre r). rewrite app_nil_r. exact B.
  - assert (E : pre ++ (c :: a) ++ k ++ r = (pre ++ [c]) ++ a ++ k ++ r) by (rewrite <- app_assoc; reflexivity).
    assert (B' : blocked pb sb ((pre ++ [c]) ++ a) k r = false) by (rewrite <- app_assoc; exact B).
    destruct (starts k (c :: a ++ k ++ r)) eqn:S0.
    + destruct (starts_app _ _ S0) as (q & Q). destruct (blocked pb sb pre k q) eqn:BQ.
      * cbn [app]. rewrite Q. rewrite step_skip by (reflexivity || assumption). rewrite <- Q. change (c :: a ++ k ++ r) with ((c :: a) ++ k ++ r). rewrite E, <- (snoc_len pre c). apply IH. exact B'.
      * cbn [app]. rewrite Q. rewrite step_hit by (reflexivity || assumption). rewrite <- Q. change (c :: a ++ k ++ r) with ((c :: a) ++ k ++ r). apply IH. exact B.
    + cbn [app]. rewrite step_miss by exact S0. change (pre ++ c :: a ++ k ++ r) with (pre ++ (c :: a) ++ k ++ r). rewrite E. apply IHa. exact B'.
Qed.
(* without one the text stays *)
Lemma none_stays : forall k v pb sb, k <> [] -> length v = length k -> forall s pre fuel,
  (forall a r, s = a ++ k ++ r -> blocked pb sb (pre ++ a) k r = true) -> (length s < fuel)%nat ->
  inplace_loop fuel (pre ++ s) (length pre) k v pb sb = Ret (pre ++ s).
Proof.
  intros k v pb sb K L. induction s as [|c s IH]; intros pre fuel H FU.
  - rewrite app_nil_r. destruct fuel as [|fuel]; [cbn [length] in FU; lia|]. apply step_end, K.
  - cbn [length] in FU.
    assert (NEXT : forall f, (length s < f)%nat -> inplace_loop f (pre ++ c :: s) (S (length pre)) k v pb sb = Ret (pre ++ c :: s)).
    { intros f F. replace (pre ++ c :: s) with ((pre ++ [c]) ++ s) by (rewrite <- app_assoc; reflexivity). rewrite <- (snoc_len pre c). apply IH; [|exact F].
      intros a r E. rewrite <- app_assoc. apply (H (c :: a) r). rewrite E. reflexivity. }
    destruct (starts k (c :: s)) eqn:S0.
    + destruct (starts_app _ _ S0) as (q & Q). destruct fuel as [|fuel]; [lia|]. rewrite Q. rewrite step_skip; [|exact L|exact K|].
      * rewrite <- Q. apply NEXT. lia.
      * specialize (H [] q Q). rewrite app_nil_r in H. exact H.
    + rewrite step_miss by exact S0. rewrite snoc_len. apply NEXT. lia.
Qed.

Lemma end_spec : forall r : text, match r with [] => false | c :: _ => is_name c end = false <-> word_end r.
Proof.
  intros [|c r]; [split; [intros _ c q Q; discriminate Q|reflexivity]|]. rewrite not_name_spec. split; [intros N d q Q; injection Q as <- _; exact N|intros E; exact (E c r eq_refl)].
Qed.
Lemma whole_spec : forall k pre s a r, word k -> boundary pre s -> s = a ++ k ++ r ->
  (blocked true true (pre ++ a) k r = false <-> word_end r /\ (forall b c, a = b ++ [c] -> ~ name_char c)).
Proof.
  intros k pre s a r W B E. unfold blocked. cbn [andb]. rewrite orb_false_iff, end_spec.
  assert (P : negb (length (pre ++ a) =? 0)%nat && is_name (last (pre ++ a) 0) = false <-> (forall b c, a = b ++ [c] -> ~ name_char c)).
  { destruct a as [|c a _] using rev_ind.
    - rewrite app_nil_r. split; [intros _ b c Q; destruct b; discriminate Q|]. intros _.
      destruct pre as [|c pre _] using rev_ind; [reflexivity|]. rewrite last_snoc. replace (length (pre ++ [c]) =? 0)%nat with false by (rewrite snoc_len; reflexivity). cbn [negb andb].
      apply not_name_spec. intros N. destruct W as [NE F]. destruct k as [|k0 k]; [contradiction|]. apply (B pre c k0 (k ++ r) eq_refl); [exact E|]. split; [exact N|exact (Forall_inv F)].
    - rewrite app_assoc, last_snoc, snoc_len. cbn [Nat.eqb negb andb]. rewrite not_name_spec. split.
      + intros N b d Q. apply app_inj_tail in Q. destruct Q as [_ <-]. exact N.
      + intros H. exact (H a c eq_refl). }
  rewrite P. tauto.
Qed.
Lemma filled_self : forall k, filled k k = k.
Proof. intros k. unfold filled. rewrite Nat.sub_diag. apply app_nil_r. Qed.
Lemma macro_call : forall fuel t pos name bl content, word name -> Forall blank bl -> (forall c r, content = c :: r -> ~ blank c) ->
  predefined_macro fuel t pos (name ++ 32 :: bl ++ content) = inplace fuel t pos name content true true.
Proof.
  intros fuel t pos name bl content W BL NB. unfold predefined_macro. rewrite (find_at 32 name _ (word_no_blank _ W)). cbv zeta. rewrite firstn_app, firstn_all, Nat.sub_diag, app_nil_r.
  replace (zlen name =? 0) with false by (destruct W as [W _]; destruct name; [contradiction|]; rewrite zlen_cons; pose proof (zlen_nonneg _ name); lia).
  rewrite skipn_pre.
  assert (DW : drop_while is_blank (32 :: bl ++ content) = content).
  { change (32 :: bl ++ content) with ((32 :: bl) ++ content). rewrite drop_app.
    - destruct content as [|c r]; [reflexivity|]. apply drop_stop. apply Bool.not_true_iff_false. rewrite blank_blank. exact (NB c r eq_refl).
    - constructor; [reflexivity|]. eapply Forall_impl; [|exact BL]. intros x X. apply blank_blank, X. }
  rewrite DW. reflexivity.
Qed.
Lemma word_start : forall w c r, word w -> w = c :: r -> ~ blank c.
Proof. intros w c r [_ F] E. subst w. pose proof (Forall_inv F) as N. unfold name_char, digit in N. unfold blank. cbn [In]. lia. Qed.
Lemma self_macro : forall pre s name bl, word name -> Forall blank bl -> boundary pre s ->
  (whole name s -> forall fuel, predefined_macro fuel (pre ++ s) (length pre) (name ++ 32 :: bl ++ name) = Fuel) /\
  (~ whole name s -> forall fuel, (length s < fuel)%nat -> predefined_macro fuel (pre ++ s) (length pre) (name ++ 32 :: bl ++ name) = Ret (0, pre ++ s)).
Proof.
  intros pre s name bl W BL B. assert (NE : name <> []) by apply W. split.
  - intros (a & r & E & H1 & H2) fuel. rewrite macro_call by (assumption || intros; eapply word_start; eassumption). unfold inplace. rewrite Nat.ltb_irrefl. cbv zeta. fold (filled name name). rewrite filled_self.
    rewrite E, self_stuck; [reflexivity|exact NE|]. apply (whole_spec name pre s a r W B E). auto.
  - intros N fuel FU. rewrite macro_call by (assumption || intros; eapply word_start; eassumption). unfold inplace. rewrite Nat.ltb_irrefl. cbv zeta. fold (filled name name). rewrite filled_self.
    rewrite none_stays; [reflexivity|exact NE|reflexivity| |exact FU]. intros a r E. apply Bool.not_false_is_true. intros H. apply N. apply (whole_spec name pre s a r W B E) in H. exists a, r. tauto.
Qed.
Lemma self_var : forall pre s x v, var_name x -> item_text x (dollar x) v ->
  exists s1, var_in (braced x) (filled (braced x) (dollar x)) false s s1 /\
  (ending (dollar x) s1 -> forall fuel, predefined_var fuel (pre ++ s) (length pre) v = Fuel) /\
  (~ ending (dollar x) s1 -> forall fuel, (length s < fuel)%nat -> predefined_var fuel (pre ++ s) (length pre) v = Ret (0, pre ++ s1)).
Proof.
  intros pre s x v X T. destruct (var_in_total (braced x) (filled (braced x) (dollar x)) false s ltac:(discriminate)) as (s1 & M). exists s1. split; [exact M|].
  assert (LB : (length (dollar x) <= length (braced x))%nat) by (unfold braced, dollar; rewrite !app_length; cbn [length]; lia).
  pose proof (var_in_len _ _ _ _ _ M (filled_len _ _ LB)) as L1.
  assert (VV : var_value (dollar x)).
  { destruct X as [[NE F] _]. split.
    - intros [I|I]; [discriminate I|]. rewrite Forall_forall in F. specialize (F _ I). unfold name_char, digit in F. lia.
    - intros c r E. assert (I : In c (dollar x)) by (rewrite E; apply in_or_app; right; left; reflexivity). destruct I as [<-|I]; [unfold blank; cbn [In]; lia|].
      rewrite Forall_forall in F. specialize (F _ I). unfold name_char, digit in F. unfold blank. cbn [In]. lia. }
  assert (D : dollar x <> []) by discriminate.
  assert (CALL : forall fuel, exists k, predefined_var fuel (pre ++ s) (length pre) v = var_step fuel (pre ++ s) (length pre) x (dollar x) k /\ forall T', k T' = Ret (0, T')).
  { intros fuel. destruct (var_read x (dollar x) v [] [] (S (length v)) fuel (pre ++ s) (length pre) T X VV (or_introl eq_refl) ltac:(lia)) as (q & Q & R). cbn [app length] in R. rewrite !app_nil_r in R. unfold predefined_var. rewrite R.
    eexists. split; [reflexivity|]. intros T'. cbv beta. destruct q as [|q]; [lia|]. cbn [var_loop]. replace (length v <=? S (length v))%nat with true by lia. reflexivity. }
  split.
  - intros (a & r & E & H).
    assert (BIG : forall fuel, (length s < fuel)%nat -> predefined_var fuel (pre ++ s) (length pre) v = Fuel).
    { intros fuel BG. destruct (CALL fuel) as (k & C & _). rewrite C. unfold var_step.
      rewrite (inplace_var fuel pre (braced x) (dollar x) false s s1 ltac:(discriminate) (fun a b r E B _ => braced_miss x (dollar x) a b r (proj1 X) ltac:(cbn [dollar length]; lia) E B) LB M BG).
      cbn [bind]. change (negb (0 =? 0)) with false. cbv iota. unfold inplace. rewrite Nat.ltb_irrefl. cbv zeta. fold (filled (dollar x) (dollar x)). rewrite filled_self.
      rewrite E, self_stuck; [reflexivity|exact D|]. unfold blocked. cbn [andb orb]. apply end_spec, H. }
    intros fuel. destruct (var_more fuel (fuel + S (length s)) (pre ++ s) (length pre) v ltac:(lia)) as [Q|Q]; [exact Q|]. rewrite Q. apply BIG. lia.
  - intros N fuel FU. destruct (CALL fuel) as (k & C & KK). rewrite C. unfold var_step.
    rewrite (inplace_var fuel pre (braced x) (dollar x) false s s1 ltac:(discriminate) (fun a b r E B _ => braced_miss x (dollar x) a b r (proj1 X) ltac:(cbn [dollar length]; lia) E B) LB M FU).
    cbn [bind]. change (negb (0 =? 0)) with false. cbv iota. unfold inplace. rewrite Nat.ltb_irrefl. cbv zeta. fold (filled (dollar x) (dollar x)). rewrite filled_self.
    rewrite none_stays; [cbn [bind]; change (negb (0 =? 0)) with false; cbv iota; apply KK|exact D|reflexivity| |lia].
    intros a r E. apply Bool.not_false_is_true. intros H. apply N. exists a, r. split; [exact E|]. unfold blocked in H. cbn [andb orb] in H. apply end_spec, H.
Qed.
