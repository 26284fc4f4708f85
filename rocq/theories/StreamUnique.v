(* The text a value, a prefix or a statement stands for is determined by it. *)
From Coq Require Import String ZArith List Bool Lia ZifyBool ZifyNat ZifyN.
From Verif Require Import Base BaseFacts NumSpec NumFacts DateSpec DateProofs DblFmt DblSpec DblProofs Stream StreamSpec StreamProofs PrefixProofs.
Import ListNotations.
Open Scope Z_scope.

Lemma num_fun : forall base w n t t', 1 < base -> is_numeral base w n t -> is_numeral base w n t' -> t = t'.
Proof. intros. eapply is_numeral_unique; eassumption. Qed.

Lemma trimmed_unique : forall (ds zs ds' zs' : text), ds ++ zs = ds' ++ zs' -> Forall (eq 48) zs -> Forall (eq 48) zs' ->
  2 <= zlen ds -> 2 <= zlen ds' -> (2 < zlen ds -> last ds 48 <> 48) -> (2 < zlen ds' -> last ds' 48 <> 48) -> ds = ds'.
Proof.
  assert (A : forall (l ds zs ds' zs' : text), ds = ds' ++ l -> zs' = l ++ zs -> Forall (eq 48) zs' -> 2 <= zlen ds' -> (2 < zlen ds -> last ds 48 <> 48) -> ds = ds').
  { intros l ds zs ds' zs' E1 E2 F H L. destruct l as [|x l]; [rewrite app_nil_r in E1; assumption|exfalso].
    rewrite E2 in F. apply Forall_app in F. destruct F as (F & _).
    assert (N : x :: l <> []) by discriminate. apply L.
    - rewrite E1, zlen_app, zlen_cons. pose proof (zlen_nonneg _ l). lia.
    - rewrite E1. destruct (exists_last N) as (l' & y & E). rewrite E in *. rewrite app_assoc, last_last. apply Forall_app in F. destruct F as (_ & F). inversion F; subst. reflexivity. }
  intros ds zs ds' zs' E F F' H H' L L'. apply app_eq_app in E. destruct E as (l & [(E1 & E2)|(E1 & E2)]).
  - eapply A; eassumption.
  - symmetry. eapply A; eassumption.
Qed.
Lemma is_dbl_text_unique : forall neg I F t t', is_dbl_text neg I F t -> is_dbl_text neg I F t' -> t = t'.
Proof.
  intros neg I F t t' (ti & N & C) (ti' & N' & C'). rewrite (num_fun 10 0 I ti' ti) in C' by (lia || assumption).
  destruct C as [(Z0 & ->)|(ds & zs & P & M & L4 & FZ & L2 & LL & ->)]; destruct C' as [(Z0' & ->)|(ds' & zs' & P' & M' & L4' & FZ' & L2' & LL' & ->)]; try lia; [reflexivity|].
  assert (E : ds ++ zs = ds' ++ zs') by (apply (num_fun 10 4 F); [lia|assumption|assumption]).
  rewrite (trimmed_unique ds zs ds' zs'); auto.
Qed.
Lemma plain_units : forall m e, plain_range m e -> 7378697629483821 * 2 ^ 1008 <= units m e <= 2 ^ 1134.
Proof.
  intros m e P. assert (HE : -1074 <= e) by (destruct P as (_ & P & _); lia).
  assert (A : ~ m * 2 ^ (e + 1074) < 7378697629483821 * 2 ^ (-66 + 1074)).
  { rewrite <- dlt_spec by lia. pose proof (plain_not_small m e P) as X. unfold c_1em4 in X. cbn [fst snd] in X. congruence. }
  assert (B : ~ 1 * 2 ^ (60 + 1074) < m * 2 ^ (e + 1074)).
  { rewrite <- dlt_spec by lia. pose proof (plain_not_big m e P) as X. unfold c_2p60 in X. cbn [fst snd] in X. congruence. }
  change (-66 + 1074) with 1008 in A. change (1 * 2 ^ (60 + 1074)) with (2 ^ 1134) in B. unfold units. split; apply Z.nlt_ge; assumption.
Qed.
Lemma big_order : 2 ^ 52 < 7555786372591432 * 2 ^ 998 /\ 7555786372591432 * 2 ^ 998 < 7378697629483821 * 2 ^ 1008 /\ 7378697629483821 * 2 ^ 1008 < 2 ^ 1134.
Proof. split; [|split]; vm_compute; reflexivity. Qed.
Lemma dbl_text_unique : forall L d t t', dbl_text L d t -> dbl_text L d t' -> t = t'.
Proof.
  intros L d t t' A B. pose proof big_order as O1.
  inversion A as [s|s| |s m e R|s m e I F u R D T|s m e R|s m e R]; subst;
    inversion B as [s'|s'| |s' m' e' R'|s' m' e' I' F' u' R' D' T'|s' m' e' R'|s' m' e' R']; subst; try reflexivity;
    try (pose proof (plain_units _ _ R)); try (pose proof (plain_units _ _ R')); unfold subnormal_range, fixed_range, gcvt_range in *;
    try (exfalso; set (a := 2 ^ 52) in *; set (b := 7555786372591432 * 2 ^ 998) in *; set (c := 7378697629483821 * 2 ^ 1008) in *; set (g := 2 ^ 1134) in *; set (x := units m e) in *; clearbody a b c g x; lia).
  destruct (decimals_unique m e I F I' F' D D') as (-> & ->). eapply is_dbl_text_unique; eassumption.
Qed.
Lemma ptr_text_unique : forall p t t', ptr_text p t -> ptr_text p t' -> t = t'.
Proof.
  intros p t t' A B. inversion A as [|? u P N]; subst; inversion B as [|? u' P' N']; subst; try lia; [reflexivity|].
  rewrite (num_fun 16 0 p u u'); auto. lia.
Qed.
Lemma hex_bytes_unique : forall d ps ps', hex_bytes d ps -> hex_bytes d ps' -> ps = ps'.
Proof.
  intros d ps ps' A. revert ps'. induction A as [|c r h ps N A IH]; intros ps' B; inversion B as [|? ? h' ? N' B']; subst; [reflexivity|].
  rewrite (num_fun 16 2 c h h') by (lia || assumption). f_equal. apply IH; assumption.
Qed.
Lemma dump_rows_unique : forall n a d ps ps', dump_rows n a d ps -> dump_rows n a d ps' -> ps = ps'.
Proof.
  intros n a d ps ps' A. revert ps'. induction A as [|n a d p hs ps P H A IH]; intros ps' B; inversion B as [|? ? ? p' hs' qs P' H' B']; subst; [reflexivity|].
  rewrite (ptr_text_unique a p p') by assumption. rewrite (hex_bytes_unique (firstn 32 d) hs hs') by assumption. rewrite (IH qs) by assumption. reflexivity.
Qed.
Lemma normal_unique : forall m e m' e' x, 0 < x -> 2 ^ 52 <= m < 2 ^ 53 -> 2 ^ 52 <= m' < 2 ^ 53 ->
  m * 2 ^ (e + 1074) = x -> m' * 2 ^ (e' + 1074) = x -> m = m' /\ e = e'.
Proof.
  assert (A : forall m e m' e' x, 0 < x -> 2 ^ 52 <= m < 2 ^ 53 -> 2 ^ 52 <= m' < 2 ^ 53 -> m * 2 ^ (e + 1074) = x -> m' * 2 ^ (e' + 1074) = x -> ~ e < e').
  { intros m e m' e' x X M M' E E' L. assert (0 <= e + 1074).
    { destruct (Z_lt_le_dec (e + 1074) 0) as [N|N]; [|assumption]. rewrite (Z.pow_neg_r 2 _ N) in E. lia. }
    replace (e' + 1074) with ((e' - e) + (e + 1074)) in E' by lia. rewrite Z.pow_add_r in E' by lia.
    assert (P : 0 < 2 ^ (e + 1074)) by (apply Z.pow_pos_nonneg; lia).
    assert (Q : 2 ^ 1 <= 2 ^ (e' - e)) by (apply Z.pow_le_mono_r; lia). change (2 ^ 1) with 2 in Q.
    assert (m = m' * 2 ^ (e' - e)) by (apply (Z.mul_reg_r _ _ (2 ^ (e + 1074))); lia).
    change (2 ^ 53) with (2 * 2 ^ 52) in *. nia. }
  intros m e m' e' x X M M' E E'.
  assert (EE : e = e'). { pose proof (A _ _ _ _ _ X M M' E E'). pose proof (A _ _ _ _ _ X M' M E' E). lia. }
  split; [|assumption]. subst e'. assert (2 ^ (e + 1074) <> 0) by lia. apply (Z.mul_reg_r _ _ (2 ^ (e + 1074))); lia.
Qed.

Lemma shows_unique : forall o L v ps, shows o L v ps -> forall ps', shows o L v ps' -> ps = ps'.
Proof.
  intros o L. apply (shows_mut o L (fun v ps => forall ps', shows o L v ps' -> ps = ps') (fun vs pss => forall pss', shows_each o L vs pss' -> pss = pss')).
  - intros ps' B. inversion B; subst; reflexivity.
  - intros s ps' B. inversion B; subst; reflexivity.
  - intros s ps' B. inversion B; subst; reflexivity.
  - intros s ps' B. inversion B; subst; reflexivity.
  - intros n t N ps' B. inversion B as [| | | |? t' N'| | | | | | | | | | |]; subst. rewrite (num_fun 10 0 (Z.abs n) t t'); auto. lia.
  - intros n t N ps' B. inversion B as [| | | | |? t' N'| | | | | | | | | |]; subst. rewrite (num_fun 10 0 n t t'); auto. lia.
  - intros n t N ps' B. inversion B as [| | | | | |? t' N'| | | | | | | | |]; subst. rewrite (ptr_text_unique n t t'); auto.
  - intros n t N ps' B. inversion B as [| | | | | | |? t' N'| | | | | | | |]; subst. rewrite (dbl_text_unique L n t t'); auto.
  - intros a b pa pb _ IA _ IB ps' B. inversion B as [| | | | | | | |? ? pa' pb' A' B'| | | | | | |]; subst. rewrite (IA pa' A'), (IB pb' B'). reflexivity.
  - intros name elems size ps N _ IH ps' B. inversion B as [| | | | | | | | |? ? size' qs N' S'| | | | | |]; subst.
    rewrite (IH qs S'), (num_fun 10 0 (zlen elems) size size') by (lia || assumption). reflexivity.
  - intros n ps' B. inversion B; subst; reflexivity.
  - intros v LR ps' B. inversion B as [| | | | | | | | | | |? LR'|? t' C' D'|m e m' e' t' NL| |]; subst; [reflexivity| |contradiction].
    exfalso. destruct C' as [-> | ->]; cbn in LR; [tauto|discriminate].
  - intros v t C D ps' B. inversion B as [| | | | | | | | | | |? LR'|? t' C' D'|m e m' e' t' NL| |]; subst.
    + exfalso. destruct C as [-> | ->]; cbn in LR'; [tauto|discriminate].
    + rewrite (dbl_text_unique L v t t'); auto.
    + exfalso. destruct C as [C|C]; discriminate C.
  - intros m e m' e' t NL M E D ps' B. inversion B as [| | | | | | | | | | |? LR'|? t' C' D'|? ? m2 e2 t2 NL2 M2 E2 D2| |]; subst; [contradiction| |].
    + exfalso. destruct C' as [C'|C']; discriminate C'.
    + assert (X : 0 < 100 * (m * 2 ^ (e + 1074))).
      { assert (Y : ~ m * 2 ^ (e + 1074) < 4722366482869645 * 2 ^ (1074 - 72)) by (intros Y; apply NL; right; exact Y).
        assert (0 < 4722366482869645 * 2 ^ (1074 - 72)) by (vm_compute; reflexivity). lia. }
      destruct (normal_unique m' e' m2 e2 _ X M M2 E E2) as (-> & ->). rewrite (dbl_text_unique L _ t t2 D D2). reflexivity.
  - intros ts p t N ps' B. inversion B as [| | | | | | | | | | | | | |? ? t' N'|]; subst. rewrite (is_date_text_unique _ _ t t' N N'). reflexivity.
  - intros a d ps N ps' B. inversion B as [| | | | | | | | | | | | | | |? ? qs N']; subst. rewrite (dump_rows_unique _ _ _ ps qs N N'). reflexivity.
  - intros pss' B. inversion B; subst; reflexivity.
  - intros v vs p ps _ IV _ IS pss' B. inversion B as [|? ? q qs V S']; subst. rewrite (IV q V), (IS qs S'). reflexivity.
Qed.
Lemma shows_all_unique : forall o L vs pss pss', Forall2 (shows o L) vs pss -> Forall2 (shows o L) vs pss' -> pss = pss'.
Proof.
  intros o L vs pss pss' A. revert pss'. induction A as [|v ps vs pss V A IH]; intros pss' B; inversion B; subst; [reflexivity|].
  f_equal; [eapply shows_unique; eassumption|apply IH; assumption].
Qed.
Lemma prefix_text_unique : forall o h t t', prefix_text o h t -> prefix_text o h t' -> t = t'.
Proof.
  intros o h t t' A B. inversion A as [d th f ln fn D T F N G]; subst. inversion B as [d' th' f' ln' fn' D' T' F' N' G']; subst.
  rewrite (is_date_text_unique _ _ d d' D D'), (num_fun 10 0 _ th th' ltac:(lia) T T'), (file_text_unique _ _ f f' F F'),
    (num_fun 10 0 _ ln ln' ltac:(lia) N N'), (func_text_unique _ _ fn fn' G G'). reflexivity.
Qed.
