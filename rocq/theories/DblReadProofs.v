(* Proofs: the text that %.16g and %.08lf produce, and reading it back. *)
From Coq Require Import String ZArith List Bool Lia ZifyBool ZifyNat ZifyN.
From Verif Require Import Base BaseFacts NumSpec NumFacts DblFmt DblSpec DblProofs DblLibc DblLibcSpec DblLibcProofs.
Import ListNotations.
Open Scope Z_scope.

(* ---- digits ---- *)
Lemma digits_len : forall w n, zlen (digits w n) = Z.of_nat w.
Proof. intros w. induction w as [|w IH]; intros n; [reflexivity|]. cbn [digits]. rewrite zlen_app, IH. change (zlen [48 + n mod 10]) with 1. lia. Qed.
Lemma digits_value : forall w n, 0 <= n < 10 ^ Z.of_nat w -> value 10 0 (digits w n) = Some n.
Proof.
  intros w. induction w as [|w IH]; intros n H; [change (10 ^ Z.of_nat 0) with 1 in H; cbn; f_equal; lia|].
  rewrite Nat2Z.inj_succ, Z.pow_succ_r in H by lia. cbn [digits]. pose proof (Z.div_mod n 10 ltac:(lia)). pose proof (Z.mod_pos_bound n 10 ltac:(lia)).
  rewrite value_app, IH by lia. set (r := n mod 10) in *. cbn [value]. unfold digit_val.
  replace ((48 <=? 48 + r) && (48 + r <=? 57)) with true by lia. replace (48 + r - 48 <? 10) with true by lia. f_equal. lia.
Qed.
Lemma drop0_split : forall t, exists zs, t = zs ++ drop0 t /\ Forall (eq 48) zs /\ (drop0 t <> [] -> nth 0 (drop0 t) 48 <> 48).
Proof.
  intros t. induction t as [|c t IH]; [exists []; repeat split; [constructor|intros H; exfalso; apply H; reflexivity]|].
  cbn [drop0]. destruct (c =? 48) eqn:E.
  - destruct IH as (zs & E1 & F & N). exists (c :: zs). split; [cbn; f_equal; exact E1|]. split; [constructor; [lia|exact F]|exact N].
  - exists []. split; [reflexivity|]. split; [constructor|]. intros _. cbn. lia.
Qed.
Lemma trim_split : forall t, exists zs, t = trim t ++ zs /\ Forall (eq 48) zs /\ (trim t <> [] -> last (trim t) 48 <> 48).
Proof.
  intros t. unfold trim. destruct (drop0_split (rev t)) as (zs & E & F & N). exists (rev zs). split; [|split].
  - rewrite <- rev_app_distr, <- E, rev_involutive. reflexivity.
  - apply Forall_rev. exact F.
  - intros H. destruct (drop0 (rev t)) as [|c r]; [exfalso; apply H; reflexivity|]. cbn [rev]. rewrite last_last. apply N. discriminate.
Qed.
Lemma all_zeros : forall zs, Forall (eq 48) zs -> zs = repeat 48 (length zs).
Proof. intros zs F. induction F as [|z zs E F IH]; [reflexivity|]. cbn. rewrite <- E. f_equal. exact IH. Qed.

Lemma exp_numeral : forall X, -400 <= X <= 400 -> is_numeral 10 2 (Z.abs X) (digits (if Z.abs X <? 100 then 2 else 3) (Z.abs X)).
Proof.
  intros X B. destruct (Z.abs X <? 100) eqn:E.
  - assert (L : zlen (digits 2 (Z.abs X)) = 2) by apply digits_len. split; [apply digits_value; change (10 ^ Z.of_nat 2) with 100; lia|].
    split; [lia|]. split; [lia|]. intros H. lia.
  - assert (L : zlen (digits 3 (Z.abs X)) = 3) by apply digits_len.
    assert (V : value 10 0 (digits 3 (Z.abs X)) = Some (Z.abs X)) by (apply digits_value; change (10 ^ Z.of_nat 3) with 1000; lia).
    split; [exact V|]. split; [lia|]. split; [lia|]. intros _ H.
    destruct (digits 3 (Z.abs X)) as [|c r] eqn:D; [discriminate|]. cbn in H. subst c. cbn [value] in V. change (digit_val 48) with (Some 0) in V.
    cbn in V. pose proof (value_bound 10 r _ ltac:(lia) V) as VB. assert (zlen r = 2) by (rewrite zlen_cons in L; lia). rewrite H in VB. change (10 ^ 2) with 100 in VB. lia.
Qed.

Definition sci_shape (neg : bool) (n X : Z) : text :=
  minus neg ++ firstn 1 (digits 16 n) ++ dot (trim (skipn 1 (digits 16 n))) ++
  [101; if X <? 0 then 45 else 43] ++ digits (if Z.abs X <? 100 then 2 else 3) (Z.abs X).
Lemma sci_shape_ok : forall neg n X, 10 ^ 15 <= n < 10 ^ 16 -> -350 <= X <= 350 -> sci_text neg n (X - 15) (sci_shape neg n X).
Proof.
  intros neg n X N B. unfold sci_shape.
  assert (V : value 10 0 (digits 16 n) = Some n) by (apply digits_value; change (Z.of_nat 16) with 16; lia).
  assert (L : zlen (digits 16 n) = 16) by apply digits_len.
  destruct (digits 16 n) as [|d r] eqn:D; [discriminate|]. cbn [firstn skipn].
  assert (LR : zlen r = 15) by (rewrite zlen_cons in L; lia).
  destruct (trim_split r) as (zs & E & FZ & LN). set (f := trim r) in *. clearbody f.
  assert (D48 : d <> 48).
  { intros ->. cbn [value] in V. change (digit_val 48) with (Some 0) in V. cbn in V. pose proof (value_bound 10 r _ ltac:(lia) V) as VB. rewrite LR in VB. lia. }
  pose proof V as V2. rewrite E, app_comm_cons, value_app in V2. destruct (value 10 0 (d :: f)) as [w|] eqn:W; [|discriminate].
  rewrite (all_zeros zs FZ), value_zeros in V2 by lia. injection V2 as V2.
  assert (LE : zlen f + zlen zs = 15) by (rewrite E, zlen_app in LR; exact LR). fold (zlen zs) in V2.
  exists d, f, X, (digits (if Z.abs X <? 100 then 2 else 3) (Z.abs X)), w.
  pose proof (zlen_nonneg _ f) as F0. pose proof (zlen_nonneg _ zs) as Z0.
  split; [reflexivity|]. split; [exact W|]. split; [exact D48|]. split; [exact LN|]. split; [apply exp_numeral; lia|].
  split; [lia|]. replace (X - zlen f) with (X - 15 + zlen zs) by lia. rewrite u_add by lia. rewrite <- V2. ring.
Qed.
Lemma sci_form : forall neg n X, sci neg n X = if n =? 10 ^ 16 then sci_shape neg (10 ^ 15) (X + 1) else sci_shape neg n X.
Proof.
  intros neg n X. unfold sci, sci_shape, minus. destruct (n =? 10 ^ 16).
  - destruct (trim (skipn 1 (digits 16 (10 ^ 15)))); reflexivity.
  - destruct (trim (skipn 1 (digits 16 n))); reflexivity.
Qed.
Lemma sci_ok : forall neg n X, 10 ^ 15 <= n <= 10 ^ 16 -> -340 <= X <= 340 -> sci_text neg n (X - 15) (sci neg n X).
Proof.
  intros neg n X N B. rewrite sci_form. destruct (n =? 10 ^ 16) eqn:E.
  - assert (n = 10 ^ 16) by lia. subst n.
    destruct (sci_shape_ok neg (10 ^ 15) (X + 1)) as (d & f & X' & ex & D & E1 & E2 & E3 & E4 & E5 & E6 & E7); [split; [apply Z.le_refl|reflexivity]|lia|].
    exists d, f, X', ex, D. split; [exact E1|]. repeat (split; [assumption|]). rewrite E7.
    replace (X + 1 - 15) with (X - 15 + 1) by lia. rewrite (u_add (X - 15) 1) by lia. change (10 ^ 16) with (10 ^ 15 * 10 ^ 1). ring.
  - apply sci_shape_ok; lia.
Qed.

(* ---- the text determines and is determined by the value ---- *)
Lemma no_ten : forall d f D, value 10 0 (d :: f) = Some D -> d <> 48 -> (f <> [] -> last f 48 <> 48) -> 0 < D /\ D mod 10 <> 0.
Proof.
  intros d f D V N L.
  assert (G : forall t c a w, value 10 a (t ++ [c]) = Some w -> c <> 48 -> w mod 10 <> 0).
  { intros t c a w W C. rewrite value_app in W. destruct (value 10 a t) as [v|]; [|discriminate]. cbn [value] in W.
    destruct (digit_val c) as [x|] eqn:DX; [|discriminate]. destruct (x <? 10) eqn:X; [|discriminate]. injection W as <-.
    assert (0 < x < 10).
    { unfold digit_val in DX. destruct ((48 <=? c) && (c <=? 57)) eqn:Q; [injection DX as <-; lia|].
      destruct ((65 <=? c) && (c <=? 70)) eqn:Q2; [injection DX as <-; lia|discriminate]. }
    rewrite Z.add_comm, Z.mod_add by lia. rewrite Z.mod_small by lia. lia. }
  assert (M : D mod 10 <> 0).
  { destruct f as [|c r]; [apply (G [] d 0 D V N)|]. destruct (@exists_last _ (c :: r) ltac:(discriminate)) as (t & y & E).
    rewrite E in V, L. rewrite app_comm_cons in V. apply (G _ _ _ _ V). specialize (L ltac:(destruct t; discriminate)). rewrite last_last in L. exact L. }
  pose proof (value_bound 10 (d :: f) D ltac:(lia) V). split; [|exact M]. destruct (Z.eq_dec D 0) as [->|]; [exfalso; apply M; reflexivity|lia].
Qed.
Lemma ten_free : forall D D' j, 0 <= j -> D = D' * 10 ^ j -> D mod 10 <> 0 -> j = 0 /\ D = D'.
Proof.
  intros D D' j J E M. destruct (Z.eq_dec j 0) as [->|N]; [split; [reflexivity|]; rewrite E; change (10 ^ 0) with 1; lia|exfalso].
  apply M. rewrite E. replace j with (1 + (j - 1)) by lia. rewrite Z.pow_add_r by lia. change (10 ^ 1) with 10.
  replace (D' * (10 * 10 ^ (j - 1))) with (D' * 10 ^ (j - 1) * 10) by ring. apply Z.mod_mul. lia.
Qed.
Lemma sci_cmp : forall D D' a b, -400 <= a -> -400 <= b -> D mod 10 <> 0 -> D' mod 10 <> 0 -> D * u a = D' * u b -> D = D' /\ a = b.
Proof.
  intros D D' a b A B M M' E.
  destruct (Z_le_gt_dec a b) as [L|G].
  - replace b with (a + (b - a)) in E by lia. rewrite u_add in E by lia. pose proof (u_pos a A).
    assert (X : D = D' * 10 ^ (b - a)) by (apply (Z.mul_reg_r _ _ (u a)); [lia|rewrite E; ring]).
    destruct (ten_free D D' (b - a) ltac:(lia) X M) as [Y ->]. split; [reflexivity|lia].
  - replace a with (b + (a - b)) in E by lia. rewrite u_add in E by lia. pose proof (u_pos b B).
    assert (X : D' = D * 10 ^ (a - b)) by (apply (Z.mul_reg_r _ _ (u b)); [lia|rewrite <- E; ring]).
    destruct (ten_free D' D (a - b) ltac:(lia) X M') as [Y ->]. split; [reflexivity|lia].
Qed.
Lemma sci_fun : forall neg n k t t', sci_text neg n k t -> sci_text neg n k t' -> t = t'.
Proof.
  intros neg n k t t' (d & f & X & ex & D & -> & V & N & L & NX & B & E) (d' & f' & X' & ex' & D' & -> & V' & N' & L' & NX' & B' & E').
  destruct (no_ten d f D V N L) as [_ M]. destruct (no_ten d' f' D' V' N' L') as [_ M'].
  destruct (sci_cmp D D' _ _ B B' M M' ltac:(congruence)) as [-> XE].
  assert (DF : d :: f = d' :: f').
  { apply (is_numeral_unique 10 0 D'); [lia| |]; (split; [assumption|]; rewrite zlen_cons; split; [pose proof (zlen_nonneg _ f); pose proof (zlen_nonneg _ f'); lia|]; split; [pose proof (zlen_nonneg _ f); pose proof (zlen_nonneg _ f'); lia|]; intros _; assumption). }
  injection DF as -> ->. assert (X = X') by lia. subst X'. rewrite (is_numeral_unique 10 2 (Z.abs X) ex ex' ltac:(lia) NX NX'). reflexivity.
Qed.

(* ---- reading ---- *)
Definition digit (c : Z) : Prop := 48 <= c <= 57.
Lemma value_digits : forall t a w, value 10 a t = Some w -> Forall digit t.
Proof.
  intros t. induction t as [|c t IH]; intros a w H; [constructor|]. cbn [value] in H.
  destruct (digit_val c) as [x|] eqn:DX; [|discriminate]. destruct (x <? 10) eqn:X; [|discriminate]. constructor; [|exact (IH _ _ H)].
  unfold digit_val in DX. unfold digit. destruct ((48 <=? c) && (c <=? 57)) eqn:Q; [lia|].
  destruct ((65 <=? c) && (c <=? 70)) eqn:Q2; [injection DX as <-; lia|discriminate].
Qed.
Lemma cut_here : forall c a b, ~ In c a -> cut_at c (a ++ c :: b) = (a, Some b).
Proof.
  intros c a. induction a as [|x a IH]; intros b N; cbn [app cut_at]; [rewrite Z.eqb_refl; reflexivity|].
  replace (x =? c) with false; [|symmetry; apply Z.eqb_neq; intros ->; apply N; left; reflexivity].
  rewrite IH; [reflexivity|]. intros X. apply N. right. exact X.
Qed.
Lemma cut_none : forall c a, ~ In c a -> cut_at c a = (a, None).
Proof.
  intros c a. induction a as [|x a IH]; intros N; cbn [cut_at]; [reflexivity|].
  replace (x =? c) with false; [|symmetry; apply Z.eqb_neq; intros ->; apply N; left; reflexivity].
  rewrite IH; [reflexivity|]. intros X. apply N. right. exact X.
Qed.
Lemma digits_no : forall t c, Forall digit t -> ~ digit c -> ~ In c t.
Proof. intros t c F N I. rewrite Forall_forall in F. exact (N (F c I)). Qed.
Lemma read_mant_dot : forall a f n, a <> [] -> value 10 0 (a ++ f) = Some n -> read_mant (a ++ dot f) = Some (n, zlen f).
Proof.
  intros a f n A V. pose proof (value_digits _ _ _ V) as F. apply Forall_app in F. destruct F as [FA FF].
  assert (NA : ~ In 46 a) by (apply (digits_no a 46 FA); unfold digit; lia).
  unfold read_mant. destruct f as [|c f].
  - cbn [dot]. rewrite app_nil_r. rewrite (cut_none 46 a NA). rewrite V. reflexivity.
  - cbn [dot]. rewrite (cut_here 46 a (c :: f) NA). rewrite V. reflexivity.
Qed.
Lemma not_digit_e : ~ digit 101. Proof. unfold digit. lia. Qed.
Lemma no_e : forall a f n, value 10 0 (a ++ f) = Some n -> ~ In 101 (a ++ dot f).
Proof.
  intros a f n V. pose proof (value_digits _ _ _ V) as F. apply Forall_app in F. destruct F as [FA FF].
  intros I. apply in_app_iff in I. destruct I as [I|I]; [exact (digits_no a 101 FA not_digit_e I)|].
  destruct f as [|c f]; [exact I|]. destruct I as [I|I]; [discriminate|exact (digits_no _ 101 FF not_digit_e I)].
Qed.
Lemma read_minus : forall neg t v, read_abs t = Some v -> (neg = false -> hd 0 t <> 45) -> t <> [] ->
  read_num (minus neg ++ t) = Some (if neg then - v else v).
Proof.
  intros neg t v R H N. destruct neg; [cbn; rewrite R; reflexivity|]. cbn [minus app]. specialize (H eq_refl).
  destruct t as [|c t]; [exfalso; apply N; reflexivity|]. cbn [hd] in H. unfold read_num. replace (c =? 45) with false by lia. exact R.
Qed.
Lemma read_sci : forall neg n k t, sci_text neg n k t -> read_num t = Some (if neg then - (n * u k) else n * u k).
Proof.
  intros neg n k t (d & f & X & ex & D & -> & V & N & L & NX & B & E). rewrite <- E.
  pose proof (value_digits _ _ _ V) as FD. inversion FD as [|? ? DD DF]; subst.
  apply (read_minus neg ([d] ++ dot f ++ [101; if X <? 0 then 45 else 43] ++ ex)); [|intros _; cbn; unfold digit in DD; lia|discriminate].
  unfold read_abs. rewrite app_assoc. change ([101; if X <? 0 then 45 else 43] ++ ex) with (101 :: ((if X <? 0 then 45 else 43) :: ex)).
  rewrite (cut_here 101 ([d] ++ dot f)) by (apply (no_e [d] f D); exact V).
  rewrite (read_mant_dot [d] f D) by (discriminate || exact V). rewrite (proj1 NX). f_equal. f_equal. f_equal.
  destruct (X <? 0) eqn:Q; cbn; lia.
Qed.
Lemma read_fix : forall n t, fix_text n t -> read_num t = Some (n * u (-8)).
Proof.
  intros n t (f & -> & L & V). change (s2z "0." ++ f) with (minus false ++ [48] ++ 46 :: f).
  assert (F0 : f <> []) by (intros ->; discriminate).
  replace (46 :: f) with (dot f) by (destruct f; [exfalso; apply F0; reflexivity|reflexivity]).
  rewrite (read_minus false ([48] ++ dot f) (n * u (-8))); [reflexivity| |intros _; discriminate|discriminate].
  assert (V2 : value 10 0 ([48] ++ f) = Some n) by (cbn [value app]; change (digit_val 48) with (Some 0); cbn; exact V).
  unfold read_abs. rewrite (cut_none 101) by (apply (no_e [48] f n V2)). rewrite (read_mant_dot [48] f n) by (discriminate || exact V2). rewrite L. reflexivity.
Qed.
Lemma read_plain : forall neg I F t, 0 <= F < 10000 -> is_dbl_text neg I F t ->
  read_num t = Some (if neg then - ((10000 * I + F) * u (-4)) else (10000 * I + F) * u (-4)).
Proof.
  intros neg I F t FB (ti & NI & C).
  assert (HN : ti <> [] /\ (forall r, hd 0 (ti ++ r) <> 45)).
  { destruct NI as (V & L & _). destruct ti as [|c r]; [change (zlen (@nil Z)) with 0 in L; lia|]. split; [discriminate|]. intros r'. cbn.
    pose proof (value_digits _ _ _ V) as D. inversion D as [|? ? D1 _]; subst. unfold digit in D1. lia. }
  destruct HN as [HN HH]. destruct NI as (V & _). destruct C as [(-> & ->)|(ds & zs & FP & NF & L4 & FZ & L2 & LL & ->)].
  - fold (minus neg).
    replace (10000 * I + 0) with (10000 * I) by lia.
    replace (10000 * I * u (-4)) with (I * u (- 0)) by (change (- 0) with (-4 + 4); rewrite (u_add (-4) 4) by lia; change (10 ^ 4) with 10000; ring).
    assert (R : read_num (minus neg ++ (ti ++ dot [])) = Some (if neg then - (I * u (- 0)) else I * u (- 0))); [|cbn [dot] in R; rewrite app_nil_r in R; exact R].
    apply read_minus; [|intros _; apply HH|destruct ti; [contradiction|discriminate]].
    assert (V2 : value 10 0 (ti ++ []) = Some I) by (rewrite app_nil_r; exact V).
    unfold read_abs. rewrite (cut_none 101) by (apply (no_e ti [] I V2)). rewrite (read_mant_dot ti [] I HN V2). reflexivity.
  - fold (minus neg). destruct NF as (VF & _).
    pose proof VF as VF2. rewrite value_app in VF2. destruct (value 10 0 ds) as [w|] eqn:W; [|discriminate].
    rewrite (all_zeros zs FZ), value_zeros in VF2 by lia. injection VF2 as VF2. fold (zlen zs) in VF2. rewrite zlen_app in L4.
    pose proof (zlen_nonneg _ zs) as Z0.
    assert (V2 : value 10 0 (ti ++ ds) = Some (I * 10 ^ zlen ds + w)) by (rewrite value_app, V; apply value_shift_intro; exact W).
    assert (DN : ds <> []) by (intros ->; change (zlen (@nil Z)) with 0 in L2; lia).
    replace ([46] ++ ds) with (dot ds) by (destruct ds; [contradiction|reflexivity]).
    assert (EQ : (10000 * I + F) * u (-4) = (I * 10 ^ zlen ds + w) * u (- zlen ds)).
    { replace (- zlen ds) with (-4 + zlen zs) by lia. rewrite u_add by lia. rewrite <- VF2.
      replace 10000 with (10 ^ zlen ds * 10 ^ zlen zs) by (rewrite <- Z.pow_add_r by lia; rewrite L4; reflexivity). ring. }
    rewrite EQ.
    apply (read_minus neg (ti ++ dot ds)); [|intros _; apply HH|destruct ti; [contradiction|discriminate]].
    unfold read_abs. rewrite (cut_none 101) by (apply (no_e ti ds _ V2)). rewrite (read_mant_dot ti ds _ HN V2). reflexivity.
Qed.
