(* Proofs about the libc conversions and about reading the shown texts. *)
From Coq Require Import String ZArith List Bool Lia ZifyBool ZifyNat ZifyN.
From Verif Require Import Base BaseFacts NumSpec NumFacts DblFmt DblSpec DblProofs DblLibc DblLibcSpec.
Import ListNotations.
Open Scope Z_scope.

(* ---- rounding ---- *)
Definition nearest_int (p q n : Z) : Prop := 2 * Z.abs (n * q - p) <= q /\ (2 * Z.abs (n * q - p) = q -> Z.even n = true).
Lemma near_even_ok : forall p q, 0 < q -> nearest_int p q (near_even p q).
Proof.
  intros p q Q. unfold nearest_int, near_even. pose proof (Z.div_mod p q ltac:(lia)) as E. pose proof (Z.mod_pos_bound p q Q) as B.
  set (d := p / q) in *. set (r := p mod q) in *. clearbody d r. subst p.
  assert (EV : Z.even (d + 1) = negb (Z.even d)) by (rewrite Z.even_add; destruct (Z.even d); reflexivity).
  destruct (2 * r <? q) eqn:A; [split; [|intros H; exfalso]; lia|].
  destruct (q <? 2 * r) eqn:A2; [split; [|intros H; exfalso]; lia|].
  destruct (Z.even d) eqn:E2; split; intros; try lia; assumption.
Qed.
Lemma nearest_scale : forall p q n c, 0 < c -> nearest_int (p * c) (q * c) n -> nearest_int p q n.
Proof.
  intros p q n c C [A B]. unfold nearest_int. replace (n * (q * c) - p * c) with ((n * q - p) * c) in A, B by ring.
  rewrite Z.abs_mul, (Z.abs_eq c) in A, B by lia.
  set (a := Z.abs (n * q - p)) in *. split; [nia|]. intros E. apply B. rewrite <- E. ring.
Qed.
Lemma nearest_up : forall p q n c, 0 < c -> nearest_int p q n -> nearest_int (p * c) (q * c) n.
Proof.
  intros p q n c C [A B]. unfold nearest_int. replace (n * (q * c) - p * c) with ((n * q - p) * c) by ring.
  rewrite Z.abs_mul, (Z.abs_eq c) by lia. set (a := Z.abs (n * q - p)) in *. split; [nia|]. intros E. apply B. nia.
Qed.
(* rounding keeps the order *)
Lemma nearest_mono : forall p p' q n n', 0 < q -> p <= p' -> nearest_int p q n -> nearest_int p' q n' -> n <= n'.
Proof.
  intros p p' q n n' Q P [A1 A2] [B1 B2]. destruct (Z_le_gt_dec n n') as [L|G]; [exact L|exfalso].
  assert (D : n' + 1 <= n) by lia.
  assert (X : 2 * (n * q - p) <= q /\ 2 * (p' - n' * q) <= q) by lia.
  assert (n = n' + 1) by nia. subst n.
  assert (X2 : 2 * Z.abs ((n' + 1) * q - p) = q) by lia. assert (X3 : 2 * Z.abs (n' * q - p') = q) by lia.
  apply A2 in X2. apply B2 in X3. rewrite Z.even_add, X3 in X2. discriminate.
Qed.
Lemma nearest_fun : forall p q n n', 0 < q -> nearest_int p q n -> nearest_int p q n' -> n = n'.
Proof. intros p q n n' Q A B. pose proof (nearest_mono p p q n n' Q ltac:(lia) A B). pose proof (nearest_mono p p q n' n Q ltac:(lia) B A). lia. Qed.
Lemma nearest_exact : forall n q, 0 < q -> nearest_int (n * q) q n.
Proof. intros n q Q. unfold nearest_int. replace (n * q - n * q) with 0 by ring. cbn. split; intros; lia. Qed.

(* ---- the decimal exponent ---- *)
Lemma dec_down : forall fuel p q X, 0 < p -> p < q -> q <= p * 10 ^ Z.of_nat fuel ->
  exists n, 0 < n <= Z.of_nat fuel /\ dec_exp fuel p q X = (p * 10 ^ n, q, X - n) /\ q <= p * 10 ^ n < 10 * q.
Proof.
  intros fuel. induction fuel as [|fuel IH]; intros p q X P L B; [change (10 ^ Z.of_nat 0) with 1 in B; lia|].
  cbn [dec_exp]. replace (p <? q) with true by lia. rewrite Nat2Z.inj_succ, Z.pow_succ_r in B by lia.
  destruct (Z_lt_le_dec (10 * p) q) as [L2|L2].
  - destruct (IH (10 * p) q (X - 1) ltac:(lia) L2 ltac:(lia)) as (n & N & E & R). exists (n + 1).
    rewrite Z.pow_add_r by lia. change (10 ^ 1) with 10. split; [lia|]. split; [rewrite E; f_equal; [f_equal; ring|lia]|].
    replace (p * (10 ^ n * 10)) with (10 * p * 10 ^ n) by ring. exact R.
  - exists 1. change (10 ^ 1) with 10. split; [lia|]. split; [|lia].
    replace (p * 10) with (10 * p) by ring. destruct fuel as [|fuel]; cbn [dec_exp]; [reflexivity|].
    replace (10 * p <? q) with false by lia. replace (10 * q <=? 10 * p) with false by lia. reflexivity.
Qed.
Lemma dec_up : forall fuel p q X, 0 < q -> 10 * q <= p -> p < q * 10 ^ (Z.of_nat fuel + 1) ->
  exists n, 0 < n <= Z.of_nat fuel /\ dec_exp fuel p q X = (p, q * 10 ^ n, X + n) /\ q * 10 ^ n <= p < 10 * (q * 10 ^ n).
Proof.
  intros fuel. induction fuel as [|fuel IH]; intros p q X P L B; [change (10 ^ (Z.of_nat 0 + 1)) with 10 in B; lia|].
  cbn [dec_exp]. replace (p <? q) with false by lia. replace (10 * q <=? p) with true by lia.
  rewrite Nat2Z.inj_succ in B. replace (Z.succ (Z.of_nat fuel) + 1) with (Z.succ (Z.of_nat fuel + 1)) in B by lia. rewrite Z.pow_succ_r in B by lia.
  destruct (Z_lt_le_dec p (10 * (10 * q))) as [L2|L2].
  - exists 1. change (10 ^ 1) with 10. split; [lia|]. split; [|lia].
    replace (q * 10) with (10 * q) by ring. destruct fuel as [|fuel]; cbn [dec_exp]; [reflexivity|].
    replace (p <? 10 * q) with false by lia. replace (10 * (10 * q) <=? p) with false by lia. reflexivity.
  - destruct (IH p (10 * q) (X + 1) ltac:(lia) L2 ltac:(lia)) as (n & N & E & R). exists (n + 1).
    rewrite Z.pow_add_r by lia. change (10 ^ 1) with 10. split; [lia|]. split; [rewrite E; f_equal; [f_equal; ring|lia]|].
    replace (q * (10 ^ n * 10)) with (10 * q * 10 ^ n) by ring. exact R.
Qed.
Lemma dec_exp_ok : forall p q, 0 < p -> 0 < q -> q <= p * 10 ^ 340 -> p < q * 10 ^ 340 ->
  exists X, -340 <= X <= 340 /\ dec_exp 400 p q 0 = (p * 10 ^ Z.max 0 (- X), q * 10 ^ Z.max 0 X, X) /\
    q * 10 ^ Z.max 0 X <= p * 10 ^ Z.max 0 (- X) < 10 * (q * 10 ^ Z.max 0 X).
Proof.
  intros p q P Q B1 B2.
  assert (G : 10 ^ 340 <= 10 ^ Z.of_nat 400) by (apply Z.pow_le_mono_r; lia).
  assert (G2 : 10 ^ 340 <= 10 ^ (Z.of_nat 400 + 1)) by (apply Z.pow_le_mono_r; lia).
  set (A := 10 ^ 340) in *.
  destruct (Z_lt_le_dec p q) as [L|L].
  - destruct (dec_down 400 p q 0 P L ltac:(nia)) as (n & N & E & R). exists (- n).
    assert (NB : n <= 340).
    { destruct (Z_le_gt_dec n 340) as [Y|Y]; [exact Y|exfalso].
      assert (10 ^ 341 <= 10 ^ n) by (apply Z.pow_le_mono_r; lia). change (10 ^ 341) with (10 ^ (1 + 340)) in H.
      rewrite Z.pow_add_r in H by lia. fold A in H. change (10 ^ 1) with 10 in H. clearbody A. nia. }
    replace (Z.max 0 (- - n)) with n by lia. replace (Z.max 0 (- n)) with 0 by lia. change (10 ^ 0) with 1. rewrite Z.mul_1_r.
    split; [lia|]. split; [rewrite E; reflexivity|exact R].
  - destruct (Z_lt_le_dec p (10 * q)) as [L2|L2].
    + exists 0. clear G G2. change 400%nat with (Datatypes.S 399). generalize 399%nat as fuel. intros fuel. change (Z.max 0 (- 0)) with 0. change (Z.max 0 0) with 0. change (10 ^ 0) with 1. rewrite !Z.mul_1_r.
      split; [lia|]. split; [|lia]. cbn [dec_exp]. replace (p <? q) with false by lia. replace (10 * q <=? p) with false by lia. reflexivity.
    + destruct (dec_up 400 p q 0 Q L2 ltac:(nia)) as (n & N & E & R). exists n.
      assert (NB : n <= 340).
      { destruct (Z_le_gt_dec n 340) as [Y|Y]; [exact Y|exfalso].
        assert (10 ^ 340 <= 10 ^ n) by (apply Z.pow_le_mono_r; lia). fold A in H. clearbody A. nia. }
      replace (Z.max 0 (- n)) with 0 by lia. replace (Z.max 0 n) with n by lia. change (10 ^ 0) with 1. rewrite Z.mul_1_r.
      split; [lia|]. split; [rewrite E; reflexivity|exact R].
Qed.

(* ---- units ---- *)
Lemma u_pos : forall k, -400 <= k -> 0 < u k.
Proof. intros k K. unfold u. assert (0 < 10 ^ (k + 400)) by (apply Z.pow_pos_nonneg; lia). assert (0 < 2 ^ 1074) by (apply Z.pow_pos_nonneg; lia). nia. Qed.
Lemma u_add : forall k j, -400 <= k -> 0 <= j -> u (k + j) = 10 ^ j * u k.
Proof. intros k j K J. unfold u. replace (k + j + 400) with (j + (k + 400)) by lia. rewrite Z.pow_add_r by lia. ring. Qed.
Lemma u_mono : forall k j, -400 <= k -> k <= j -> u k <= u j.
Proof.
  intros k j K J. replace j with (k + (j - k)) by lia. rewrite u_add by lia.
  assert (0 < 10 ^ (j - k)) by (apply Z.pow_pos_nonneg; lia). pose proof (u_pos k K). nia.
Qed.
Lemma u_mono_inv : forall k j, -400 <= k -> -400 <= j -> u k < u j -> k < j.
Proof. intros k j K J H. destruct (Z_lt_le_dec k j) as [L|G]; [exact L|]. pose proof (u_mono j k J G). lia. Qed.
Lemma real_frac : forall m e, -1074 <= e -> real m e * 2 ^ Z.max 0 (- e) = m * 2 ^ Z.max 0 e * (2 ^ 1074 * 10 ^ 400).
Proof.
  intros m e E. unfold real, units.
  assert (H : 2 ^ (e + 1074) * 2 ^ Z.max 0 (- e) = 2 ^ Z.max 0 e * 2 ^ 1074) by (rewrite <- !Z.pow_add_r by lia; f_equal; lia).
  generalize dependent (2 ^ 1074). generalize (10 ^ 400) (2 ^ (e + 1074)) (2 ^ Z.max 0 (- e)) (2 ^ Z.max 0 e). intros a b c d p H.
  transitivity (m * (b * c) * a); [ring|]. rewrite H. ring.
Qed.

Definition normal (m e : Z) : Prop := 2 ^ 52 <= m < 2 ^ 53 /\ -1074 <= e <= 971.

Lemma pow_bounds : 2 ^ 1074 <= 10 ^ 340 /\ 2 ^ 1024 < 10 ^ 340.
Proof. split; vm_compute; congruence. Qed.
Lemma scale_pow : forall X, -340 <= X <= 340 -> forall c, c = 10 ^ (400 - Z.max 0 (- X) - 15) * 2 ^ 1074 -> 0 < c /\
  10 ^ Z.max 0 X * c = u (X - 15) /\ 10 ^ Z.max 0 (- X) * 10 ^ 15 * c = 2 ^ 1074 * 10 ^ 400.
Proof.
  intros X B c ->. assert (P : 0 < 10 ^ (400 - Z.max 0 (- X) - 15)) by (apply Z.pow_pos_nonneg; lia).
  assert (Q : 0 < 2 ^ 1074) by (apply Z.pow_pos_nonneg; lia).
  split; [apply Z.mul_pos_pos; assumption|]. clear P Q. unfold u. split.
  - rewrite Z.mul_assoc, <- Z.pow_add_r by lia. f_equal. f_equal. lia.
  - rewrite Z.mul_assoc, <- Z.pow_add_r, <- Z.pow_add_r by lia. replace (Z.max 0 (- X) + 15 + (400 - Z.max 0 (- X) - 15)) with 400 by lia. apply Z.mul_comm.
Qed.
Lemma g16_ok : forall neg m e, normal m e -> exists n X, -340 <= X <= 340 /\ sixteen m e n (X - 15) /\ g16 (DFin neg m e) = sci neg n X.
Proof.
  intros neg m e [M E]. unfold g16. set (p := m * 2 ^ Z.max 0 e). set (q := 2 ^ Z.max 0 (- e)).
  assert (Q : 0 < q) by (apply Z.pow_pos_nonneg; lia).
  assert (P1 : 1 <= 2 ^ Z.max 0 e) by (change 1 with (2 ^ 0) at 1; apply Z.pow_le_mono_r; lia).
  assert (P : 1 <= p) by (unfold p; change (2 ^ 52) with 4503599627370496 in M; nia).
  destruct pow_bounds as [B1 B2].
  assert (Q2 : q <= 2 ^ 1074) by (apply Z.pow_le_mono_r; lia).
  assert (P2 : p < 2 ^ 1024).
  { change 1024 with (53 + 971). rewrite Z.pow_add_r by lia.
    assert (2 ^ Z.max 0 e <= 2 ^ 971) by (apply Z.pow_le_mono_r; lia). unfold p. set (a := 2 ^ 971) in *. set (b := 2 ^ 53) in *. clearbody a b. nia. }
  assert (C1 : q <= p * 10 ^ 340) by (set (A := 10 ^ 340) in *; set (G := 2 ^ 1074) in *; clearbody A G; nia).
  assert (C2 : p < q * 10 ^ 340) by (set (A := 10 ^ 340) in *; set (G := 2 ^ 1024) in *; clearbody A G; nia).
  destruct (dec_exp_ok p q ltac:(lia) Q C1 C2) as (X & XB & -> & R).
  exists (near_even (p * 10 ^ Z.max 0 (- X) * 10 ^ 15) (q * 10 ^ Z.max 0 X)), X. split; [exact XB|]. split; [|reflexivity].
  pose proof (real_frac m e ltac:(lia)) as RF. fold q in RF. fold p in RF.
  destruct (scale_pow X XB _ eq_refl) as (CP & S1 & S2). set (c := 10 ^ (400 - Z.max 0 (- X) - 15) * 2 ^ 1074) in *. clearbody c.
  assert (T : 0 < 10 ^ Z.max 0 X) by (apply Z.pow_pos_nonneg; lia).
  pose proof (near_even_ok (p * 10 ^ Z.max 0 (- X) * 10 ^ 15) (q * 10 ^ Z.max 0 X) (Z.mul_pos_pos _ _ Q T)) as NE.
  set (n := near_even _ _) in *. clearbody n.
  apply (nearest_up _ _ _ c CP) in NE.
  replace (p * 10 ^ Z.max 0 (- X) * 10 ^ 15 * c) with (real m e * q) in NE by (rewrite RF, <- S2; ring).
  replace (q * 10 ^ Z.max 0 X * c) with (u (X - 15) * q) in NE by (rewrite <- S1; ring).
  apply (nearest_scale _ _ _ q Q) in NE. unfold sixteen. split; [|exact NE].
  replace (X - 15 + 15) with (X - 15 + 15) by lia. replace (X - 15 + 16) with ((X - 15 + 15) + 1) by lia.
  rewrite (u_add (X - 15 + 15) 1) by lia. rewrite (u_add (X - 15) 15) by lia. rewrite <- S1. change (10 ^ 1) with 10.
  assert (EQ : p * 10 ^ Z.max 0 (- X) * 10 ^ 15 * c = real m e * q) by (rewrite RF, <- S2; ring).
  assert (T15 : 0 < 10 ^ 15) by (apply Z.pow_pos_nonneg; lia).
  set (a := 10 ^ Z.max 0 X) in *. set (b := p * 10 ^ Z.max 0 (- X)) in *. set (d := 10 ^ 15) in *. set (r := real m e) in *. clearbody a b d r.
  assert (CD : 0 < d * c) by (apply Z.mul_pos_pos; assumption).
  split; [apply (Z.mul_le_mono_pos_r _ _ q Q)|apply (Z.mul_lt_mono_pos_r q _ _ Q)]; rewrite <- EQ.
  - replace (d * (a * c) * q) with (q * a * (d * c)) by ring. replace (b * d * c) with (b * (d * c)) by ring.
    apply Z.mul_le_mono_nonneg_r; [apply Z.lt_le_incl; exact CD|exact (proj1 R)].
  - replace (10 * (d * (a * c)) * q) with (10 * (q * a) * (d * c)) by ring. replace (b * d * c) with (b * (d * c)) by ring.
    apply Z.mul_lt_mono_pos_r; [exact CD|exact (proj2 R)].
Qed.

Lemma sixteen_range : forall m e n k, -400 <= k -> sixteen m e n k -> 10 ^ 15 <= n <= 10 ^ 16.
Proof.
  intros m e n k K ([B1 B2] & N & _). rewrite (u_add k 15) in B1 by lia. rewrite (u_add k 16) in B2 by lia.
  pose proof (u_pos k K). set (U := u k) in *. set (r := real m e) in *. clearbody U r.
  change (10 ^ 15) with 1000000000000000 in *. change (10 ^ 16) with 10000000000000000 in *.
  assert (2 * (n * U - r) <= U /\ 2 * (r - n * U) <= U) by lia. split; nia.
Qed.
Lemma sixteen_fun : forall m e n k n' k', -380 <= k -> -380 <= k' -> sixteen m e n k -> sixteen m e n' k' -> k = k' /\ n = n'.
Proof.
  intros m e n k n' k' K K' ([A1 A2] & NA) ([B1 B2] & NB).
  assert (E : k = k').
  { assert (k + 15 < k' + 16) by (apply u_mono_inv; lia). assert (k' + 15 < k + 16) by (apply u_mono_inv; lia). lia. }
  subst k'. split; [reflexivity|]. exact (nearest_fun (real m e) (u k) n n' (u_pos k ltac:(lia)) NA NB).
Qed.
