(* Proofs: what a shown double reads as, how near it is, and that the order is kept. *)
From Coq Require Import String ZArith List Bool Lia ZifyBool ZifyNat ZifyN.
From Verif Require Import Base BaseFacts NumSpec NumFacts DblFmt DblSpec DblProofs Stream StreamSpec StreamUnique DblLibc DblLibcSpec DblLibcProofs DblReadProofs.
Import ListNotations.
Open Scope Z_scope.

Lemma glibc_ok : libc_ok glibc.
Proof.
  intros d. cbn [gcvt16 glibc]. destruct d as [neg|neg| |neg m e];
    [destruct neg; vm_compute; congruence|destruct neg; vm_compute; congruence|vm_compute; congruence|].
  unfold g16. destruct (dec_exp 400 _ _ 0) as [[p q] X]. rewrite sci_form.
  assert (G : forall n Y, zlen (sci_shape neg n Y) <= 23).
  { intros n Y. unfold sci_shape. rewrite !zlen_app. pose proof (digits_len 16 n) as L. destruct (digits 16 n) as [|d r]; [discriminate|].
    cbn [firstn skipn]. destruct (trim_split r) as (zs & E & _). rewrite zlen_cons in L. rewrite E, zlen_app in L. pose proof (zlen_nonneg _ zs).
    assert (zlen (dot (trim r)) <= 1 + zlen (trim r)) by (destruct (trim r); [vm_compute; congruence|cbn [dot]; rewrite (zlen_cons _ 46); lia]).
    assert (zlen (minus neg) <= 1) by (destruct neg; vm_compute; congruence). change (zlen [d]) with 1. change (zlen [101; if Y <? 0 then 45 else 43]) with 2.
    assert (zlen (digits (if Z.abs Y <? 100 then 2 else 3) (Z.abs Y)) <= 3) by (rewrite digits_len; destruct (Z.abs Y <? 100); lia). lia. }
  destruct (_ =? 10 ^ 16); apply G.
Qed.

(* the value that is shown *)
Definition meas (m e v : Z) : Prop :=
  (subnormal_range m e /\ v = 0) \/
  (gcvt_range m e /\ exists n k, sixteen m e n k /\ -380 <= k /\ v = n * u k) \/
  (fixed_range m e /\ exists n, eight m e n /\ v = n * u (-8)) \/
  (plain_range m e /\ exists I F, truncates m e I F /\ decimals m e I F /\ v = (10000 * I + F) * u (-4)).

Definition cA : Z := 7555786372591432 * 2 ^ 998.
Definition cB : Z := 7378697629483821 * 2 ^ 1008.
Definition T400 : Z := 10 ^ 400.
Lemma T400_pos : 0 < T400. Proof. reflexivity. Qed.

Lemma f08_ok : forall m e, -1074 <= e -> exists n, eight m e n /\ f08 (DFin false m e) = digits 1 (n / 10 ^ 8) ++ [46] ++ digits 8 n.
Proof.
  intros m e E. unfold f08. set (p := m * 2 ^ Z.max 0 e). set (q := 2 ^ Z.max 0 (- e)).
  assert (Q : 0 < q) by (apply Z.pow_pos_nonneg; lia).
  exists (near_even (p * 10 ^ 8) q). split; [|reflexivity].
  pose proof (near_even_ok (p * 10 ^ 8) q Q) as NE. set (n := near_even _ _) in *. clearbody n.
  pose proof (real_frac m e E) as RF. fold q in RF. fold p in RF.
  assert (CP : 0 < u (-8)) by (apply u_pos; lia).
  apply (nearest_up _ _ _ (u (-8)) CP) in NE.
  replace (p * 10 ^ 8 * u (-8)) with (real m e * q) in NE.
  - rewrite (Z.mul_comm q) in NE. apply (nearest_scale _ _ _ q Q) in NE. exact NE.
  - rewrite RF. clear. replace (2 ^ 1074 * 10 ^ 400) with (10 ^ 8 * u (-8)) by (vm_compute; reflexivity). ring.
Qed.
Lemma nb10 : nearest_int (cA * T400) (u (-8)) 10.
Proof. split; [vm_compute; congruence|intros _; reflexivity]. Qed.
Lemma nb10000 : nearest_int (cB * T400) (u (-8)) 10000.
Proof. split; [vm_compute; congruence|intros _; reflexivity]. Qed.
Lemma eight_range : forall m e n, fixed_range m e -> eight m e n -> 10 <= n <= 10000.
Proof.
  intros m e n [A B] N. pose proof T400_pos as T. fold cA in A. fold cB in B.
  assert (X : cA * T400 <= real m e <= cB * T400) by (unfold real; fold T400; split; apply Z.mul_le_mono_nonneg_r; lia).
  assert (U : 0 < u (-8)) by (apply u_pos; lia). split.
  - exact (nearest_mono _ _ _ _ _ U (proj1 X) nb10 N).
  - exact (nearest_mono _ _ _ _ _ U (proj2 X) N nb10000).
Qed.
Lemma f08_text : forall m e, -1074 <= e -> fixed_range m e -> exists n, eight m e n /\ 10 <= n <= 10000 /\ fix_text n (f08 (DFin false m e)).
Proof.
  intros m e E R. destruct (f08_ok m e E) as (n & N & ->). pose proof (eight_range m e n R N) as B. exists n. split; [exact N|]. split; [exact B|].
  exists (digits 8 n). split; [|split; [apply (digits_len 8)|apply digits_value; change (10 ^ Z.of_nat 8) with 100000000; lia]].
  rewrite (Z.div_small n (10 ^ 8)) by (change (10 ^ 8) with 100000000; lia). reflexivity.
Qed.
Lemma fix_short : forall n t, fix_text n t -> firstn 29 t = t.
Proof.
  intros n t (f & -> & L & _). apply firstn_all2. rewrite app_length. unfold zlen in L. cbn [length s2z]. vm_compute (length (s2z "0.")). lia.
Qed.

Lemma shown : forall neg m e t, is_double (DFin neg m e) -> dbl_text glibc (DFin neg m e) t ->
  exists v, meas m e v /\ (fixed_range m e -> read_num t = Some v) /\ (~ fixed_range m e -> read_num t = Some (if neg then - v else v)).
Proof.
  intros neg m e t D T.
  assert (E : -1074 <= e) by (cbn in D; lia). pose proof big_order as (O1 & O2 & O3).
  inversion T as [| | |s m' e' R|s m' e' I F t' R DC TX|s m' e' R|s m' e' R]; subst.
  - exists 0. split; [left; auto|]. assert (RD : read_num (s2z "0") = Some 0) by (vm_compute; reflexivity).
    split; [intros _; exact RD|intros _; rewrite RD; destruct neg; reflexivity].
  - pose proof (dbl_truncates m e R) as (TR & _). pose proof (decimals_unique m e I F _ _ DC (dbl_decimals m e R)) as (-> & ->).
    exists ((10000 * dbl_I m e + dbl_F m e) * u (-4)). split; [right; right; right; split; [exact R|]; do 2 eexists; split; [exact TR|split; [exact DC|reflexivity]]|].
    split; [|intros _; apply read_plain; [exact (proj1 TR)|exact TX]].
    intros [_ X]. pose proof (plain_units m e R) as [Y _]. exfalso. apply (Z.lt_irrefl (units m e)). eapply Z.lt_le_trans; eassumption.
  - assert (NM : normal m e).
    { cbn in D. destruct D as [D|D]; [exact D|exfalso]. assert (U : units m e < 2 ^ 52) by (unfold units; destruct D as [D ->]; cbn; lia).
      destruct R as [R|R]; set (a := 2 ^ 52) in *; set (b := 2 ^ 1134) in *; [lia|]. assert (a < b) by reflexivity. lia. }
    destruct (g16_ok neg m e NM) as (n & X & XB & S6 & G).
    pose proof (sixteen_range m e n (X - 15) ltac:(lia) S6) as NB. pose proof (sci_ok neg n X NB XB) as ST.
    exists (n * u (X - 15)). split; [right; left; split; [exact R|]; do 2 eexists; split; [exact S6|split; [lia|reflexivity]]|].
    cbn [gcvt16 glibc]. rewrite G, (read_sci neg n _ _ ST). split; [|intros _; reflexivity].
    intros [X1 X2]. exfalso. destruct R as [[_ R]|R]; [apply (Z.lt_irrefl (units m e)); eapply Z.le_lt_trans; eassumption|].
    apply (Z.lt_irrefl (units m e)). eapply Z.lt_trans; [exact X2|]. eapply Z.lt_trans; [exact O3|exact R].
  - destruct (f08_text m e E R) as (n & N & B & FT). exists (n * u (-8)).
    split; [right; right; left; split; [exact R|]; exists n; split; [exact N|reflexivity]|].
    cbn [fmt_08lf glibc]. rewrite (fix_short n _ FT), (read_fix n _ FT). split; [reflexivity|]. intros H. exfalso. exact (H R).
Qed.

(* ---- how near ---- *)
Lemma meas_gcvt_near : forall m e n k, -380 <= k -> sixteen m e n k -> 2 * 10 ^ 15 * Z.abs (n * u k - real m e) <= real m e.
Proof.
  intros m e n k K ([B _] & N & _). rewrite (u_add k 15) in B by lia. set (a := Z.abs _) in *. set (r := real m e) in *. set (U := u k) in *. clearbody a r U.
  change (10 ^ 15) with 1000000000000000 in *. lia.
Qed.
Lemma meas_plain_near : forall m e I F, plain_range m e -> truncates m e I F ->
  let v := (10000 * I + F) * u (-4) in real m e < v + u (-4) /\ v * 2 ^ 53 <= real m e * (2 ^ 53 + 1).
Proof.
  intros m e I F R (F1 & _ & L & H). cbn zeta. assert (E : -66 <= e) by (destruct R as (_ & R & _); lia).
  assert (C : 0 < 2 ^ 1008 * 10 ^ 396) by reflexivity.
  assert (RR : real m e = 10000 * (m * 2 ^ (e + 66)) * (2 ^ 1008 * 10 ^ 396)).
  { unfold real, units. replace (e + 1074) with (e + 66 + 1008) by lia. rewrite Z.pow_add_r by lia.
    replace (10 ^ 400) with (10000 * 10 ^ 396) by reflexivity. generalize (2 ^ 1008) (10 ^ 396) (2 ^ (e + 66)). intros. ring. }
  assert (UU : u (-4) = 2 ^ 66 * (2 ^ 1008 * 10 ^ 396)) by (vm_compute; reflexivity).
  rewrite RR, UU. set (c := 2 ^ 1008 * 10 ^ 396) in *. set (x := m * 2 ^ (e + 66)) in *. set (a := 2 ^ 66) in *. set (b := 2 ^ 53) in *. clearbody c x a b. split.
  - replace ((10000 * I + F) * (a * c) + a * c) with ((10000 * I + F + 1) * a * c) by ring. apply Z.mul_lt_mono_pos_r; assumption.
  - replace ((10000 * I + F) * (a * c) * b) with ((10000 * I + F) * a * b * c) by ring. replace (10000 * x * c * (b + 1)) with (10000 * x * (b + 1) * c) by ring.
    apply Z.mul_le_mono_nonneg_r; [lia|exact H].
Qed.

(* ---- order ---- *)
Lemma nearest_dmono : forall p p' y y', p <= p' -> nearest p y -> nearest p' y' -> y <= y'.
Proof.
  intros p p' y y' P (q & k & -> & K & B & N & T) (q' & k' & -> & K' & B' & N' & T').
  assert (P2 : forall a b, 0 <= a -> a <= b -> 2 ^ a <= 2 ^ b) by (intros a b A L; apply Z.pow_le_mono_r; lia).
  assert (S53 : forall a, 0 <= a -> 2 ^ (53 + a) = 2 ^ 53 * 2 ^ a /\ 2 ^ (52 + a) = 2 ^ 52 * 2 ^ a /\ 0 < 2 ^ a) by (intros a A; rewrite !Z.pow_add_r by lia; split; [reflexivity|split; [reflexivity|apply Z.pow_pos_nonneg; lia]]).
  destruct (Z_lt_le_dec k' k) as [L|G].
  - exfalso. pose proof (P2 (53 + k') (52 + k) ltac:(lia) ltac:(lia)). destruct B as [[-> _]|B]; [lia|].
    destruct B' as [[-> B']|B']; [change (53 + 0) with 53 in *|]; lia.
  - destruct (Z.eq_dec k k') as [<-|D].
    + destruct (S53 k K) as (_ & _ & QP). apply Z.mul_le_mono_nonneg_r; [lia|].
      apply (nearest_mono p p' (2 ^ k) q q' QP P); split; assumption.
    + destruct (S53 k K) as (E1 & E2 & QP). destruct (S53 k' K') as (E3 & E4 & QP').
      assert (PB : p < 2 ^ 53 * 2 ^ k) by (destruct B as [[-> B]|B]; [change (2 ^ 0) with 1|]; lia).
      assert (PB' : 2 ^ 52 * 2 ^ k' <= p') by (destruct B' as [[-> B']|B']; lia).
      assert (Y1 : q <= 2 ^ 53).
      { apply (nearest_mono p (2 ^ 53 * 2 ^ k) (2 ^ k) q (2 ^ 53) QP ltac:(lia)); [split; assumption|apply nearest_exact; exact QP]. }
      assert (Y2 : 2 ^ 52 <= q').
      { apply (nearest_mono (2 ^ 52 * 2 ^ k') p' (2 ^ k') (2 ^ 52) q' QP' PB'); [apply nearest_exact; exact QP'|split; assumption]. }
      pose proof (P2 (1 + k) k' ltac:(lia) ltac:(lia)) as PP. rewrite Z.pow_add_r in PP by lia. change (2 ^ 1) with 2 in PP.
      change (2 ^ 53) with (2 * 2 ^ 52) in Y1. set (a := 2 ^ k) in *. set (b := 2 ^ k') in *. set (h := 2 ^ 52) in *. assert (HP : 0 < h) by reflexivity. clearbody a b h. clear - Y1 Y2 PP HP QP QP'.
      apply Z.le_trans with (2 * h * a); [apply Z.mul_le_mono_nonneg_r; lia|]. apply Z.le_trans with (h * b); [|apply Z.mul_le_mono_nonneg_r; lia].
      replace (2 * h * a) with (h * (2 * a)) by ring. apply Z.mul_le_mono_nonneg_l; lia.
Qed.
Lemma real_mono : forall m e m' e', units m e <= units m' e' -> real m e <= real m' e'.
Proof. intros m e m' e' H. unfold real. apply Z.mul_le_mono_nonneg_r; [exact (Z.lt_le_incl _ _ T400_pos)|exact H]. Qed.

Lemma order_gcvt : forall m e n k m' e' n' k', -380 <= k -> -380 <= k' -> units m e <= units m' e' ->
  sixteen m e n k -> sixteen m' e' n' k' -> n * u k <= n' * u k'.
Proof.
  intros m e n k m' e' n' k' K K' H S S'. pose proof (sixteen_range m e n k ltac:(lia) S) as NB. pose proof (sixteen_range m' e' n' k' ltac:(lia) S') as NB'.
  destruct S as ([A1 A2] & NA). destruct S' as ([B1 B2] & NB2). pose proof (real_mono _ _ _ _ H) as RM.
  assert (KK : k + 15 < k' + 16) by (apply u_mono_inv; lia).
  destruct (Z.eq_dec k k') as [<-|D].
  - pose proof (u_pos k ltac:(lia)). apply Z.mul_le_mono_nonneg_r; [lia|]. exact (nearest_mono _ _ (u k) n n' ltac:(lia) RM NA NB2).
  - assert (X1 : n * u k <= u (k + 16)) by (rewrite (u_add k 16) by lia; pose proof (u_pos k ltac:(lia)); apply Z.mul_le_mono_nonneg_r; lia).
    assert (X2 : u (k' + 15) <= n' * u k') by (rewrite (u_add k' 15) by lia; pose proof (u_pos k' ltac:(lia)); apply Z.mul_le_mono_nonneg_r; lia).
    pose proof (u_mono (k + 16) (k' + 15) ltac:(lia) ltac:(lia)). lia.
Qed.
Lemma order_plain : forall m e I F m' e' I' F', plain_range m e -> plain_range m' e' -> units m e <= units m' e' ->
  0 <= F < 10000 -> 0 <= F' < 10000 -> decimals m e I F -> decimals m' e' I' F' -> 10000 * I + F <= 10000 * I' + F'.
Proof.
  intros m e I F m' e' I' F' R R' H FB FB' (g & y & E & GB & N & FY) (g' & y' & E' & GB' & N' & FY').
  assert (XX : m * 2 ^ (e + 66) <= m' * 2 ^ (e' + 66)).
  { unfold units in H. destruct R as (_ & R & _). destruct R' as (_ & R' & _).
    replace (e + 1074) with (e + 66 + 1008) in H by lia. replace (e' + 1074) with (e' + 66 + 1008) in H by lia. rewrite (Z.pow_add_r 2 (e + 66) 1008), (Z.pow_add_r 2 (e' + 66) 1008) in H by lia.
    rewrite !Z.mul_assoc in H. apply Z.mul_le_mono_pos_r in H; [exact H|reflexivity]. }
  rewrite E, E' in XX. set (a := 2 ^ 66) in *. assert (0 < a) by reflexivity. clearbody a.
  assert (II : I <= I') by nia. destruct (Z.eq_dec I I') as [<-|D]; [|lia].
  pose proof (nearest_dmono (10000 * g) (10000 * g') y y' ltac:(lia) N N') as YY.
  assert (F <= F') by nia. lia.
Qed.
Lemma near1 : nearest (10000 * 7378697629483821) (2 ^ 66).
Proof.
  exists (2 ^ 52), 14. split; [reflexivity|]. split; [lia|]. split; [right; split; [vm_compute; congruence|reflexivity]|].
  split; [vm_compute; congruence|intros _; reflexivity].
Qed.
Lemma plain_bounds : forall m e I F, plain_range m e -> truncates m e I F -> decimals m e I F ->
  u (-4) <= (10000 * I + F) * u (-4) <= 2 ^ 60 * u 0.
Proof.
  intros m e I F R (FB & IB & _) (g & y & E & GB & N & FY). pose proof (plain_units m e R) as [UL UH].
  assert (EE : -66 <= e) by (destruct R as (_ & R & _); lia).
  assert (UX : units m e = m * 2 ^ (e + 66) * 2 ^ 1008).
  { unfold units. replace (e + 1074) with (e + 66 + 1008) by lia. rewrite Z.pow_add_r by lia. ring. }
  rewrite UX in UL, UH. change (2 ^ 1134) with (2 ^ 126 * 2 ^ 1008) in UH.
  apply Z.mul_le_mono_pos_r in UL; [|reflexivity]. apply Z.mul_le_mono_pos_r in UH; [|reflexivity]. rewrite E in UL, UH, IB.
  assert (U4 : 0 < u (-4)) by (apply u_pos; lia).
  assert (U0 : 2 ^ 60 * u 0 = 10000 * 2 ^ 60 * u (-4)) by (change 0 with (-4 + 4) at 1; rewrite (u_add (-4) 4) by lia; change (10 ^ 4) with 10000; ring).
  rewrite U0. change (2 ^ 126) with (2 ^ 60 * 2 ^ 66) in UH.
  assert (LO : 1 <= 10000 * I + F).
  { destruct (Z.eq_dec I 0) as [->|D].
    - pose proof (nearest_dmono (10000 * 7378697629483821) (10000 * g) (2 ^ 66) y ltac:(lia) near1 N) as YY. set (a := 2 ^ 66) in *. assert (0 < a) by reflexivity. clearbody a. nia.
    - assert (0 <= I); [|lia]. set (a := 2 ^ 66) in *. assert (0 < a) by reflexivity. assert (7378697629483821 < a) by reflexivity. clearbody a. nia. }
  assert (HI : 10000 * I + F <= 10000 * 2 ^ 60).
  { destruct (Z_lt_le_dec I (2 ^ 60)) as [L|L]; [lia|].
    assert (I = 2 ^ 60) by (set (a := 2 ^ 66) in *; assert (0 < a) by reflexivity; set (b := 2 ^ 60) in *; clearbody a b; nia). subst I.
    assert (g = 0) by lia. subst g. pose proof (nearest_dmono 0 0 y 0 ltac:(lia) N nearest_zero). set (a := 2 ^ 66) in *. assert (0 < a) by reflexivity. clearbody a. nia. }
  split; [|apply Z.mul_le_mono_nonneg_r; lia]. rewrite <- (Z.mul_1_l (u (-4))) at 1. apply Z.mul_le_mono_nonneg_r; lia.
Qed.
Lemma fixed_bounds : forall m e n, fixed_range m e -> eight m e n -> u (-7) <= n * u (-8) <= u (-4).
Proof.
  intros m e n R N. pose proof (eight_range m e n R N). pose proof (u_pos (-8) ltac:(lia)). change (-7) with (-8 + 1). change (-4) with (-8 + 4).
  rewrite !(u_add (-8)) by lia. change (10 ^ 1) with 10. change (10 ^ 4) with 10000. split; apply Z.mul_le_mono_nonneg_r; lia.
Qed.
Lemma small_bound : forall m e n k, -380 <= k -> units m e <= cA -> sixteen m e n k -> n * u k <= u (-7).
Proof.
  intros m e n k K H S. pose proof (sixteen_range m e n k ltac:(lia) S) as NB. destruct S as ([A _] & _).
  assert (X : real m e <= cA * T400) by (unfold real; apply Z.mul_le_mono_nonneg_r; [exact (Z.lt_le_incl _ _ T400_pos)|exact H]).
  assert (Y : cA * T400 < u (-7)) by (vm_compute; reflexivity).
  assert (KK : k + 15 < -7) by (apply u_mono_inv; [lia|lia|eapply Z.le_lt_trans; [exact A|eapply Z.le_lt_trans; eassumption]]).
  pose proof (u_mono (k + 16) (-7) ltac:(lia) ltac:(lia)) as M. rewrite (u_add k 16) in M by lia. pose proof (u_pos k ltac:(lia)).
  assert (n * u k <= 10 ^ 16 * u k) by (apply Z.mul_le_mono_nonneg_r; lia). lia.
Qed.
Lemma big_near : nearest_int (2 ^ 1134 * T400) (u 3) 1152921504606847.
Proof. split; [apply Z.leb_le; vm_compute; reflexivity|intros H; apply Z.eqb_eq in H; vm_compute in H; discriminate]. Qed.
Lemma big_bound : forall m e n k, -380 <= k -> 2 ^ 1134 < units m e -> sixteen m e n k -> 2 ^ 60 * u 0 <= n * u k.
Proof.
  intros m e n k K H S. pose proof (sixteen_range m e n k ltac:(lia) S) as NB. destruct S as ([_ A] & N).
  assert (X : 2 ^ 1134 * T400 <= real m e) by (unfold real; apply Z.mul_le_mono_nonneg_r; [exact (Z.lt_le_incl _ _ T400_pos)|apply Z.lt_le_incl; exact H]).
  assert (Y : u 18 < 2 ^ 1134 * T400) by (vm_compute; reflexivity).
  assert (KK : 18 < k + 16) by (apply u_mono_inv; [lia|lia|eapply Z.lt_trans; [exact Y|eapply Z.le_lt_trans; eassumption]]).
  destruct (Z.eq_dec k 3) as [->|D].
  - pose proof (nearest_mono _ _ (u 3) _ n (u_pos 3 ltac:(lia)) X big_near N) as NN. change 3 with (0 + 3). rewrite (u_add 0 3) by lia. change (10 ^ 3) with 1000.
    pose proof (u_pos 0 ltac:(lia)). rewrite Z.mul_assoc. apply Z.mul_le_mono_nonneg_r; [lia|]. change (2 ^ 60) with 1152921504606846976. lia.
  - assert (n * u k >= 10 ^ 15 * u k) by (pose proof (u_pos k ltac:(lia)); apply Z.le_ge; apply Z.mul_le_mono_nonneg_r; lia).
    rewrite <- (u_add k 15) in H0 by lia. pose proof (u_mono 19 (k + 15) ltac:(lia) ltac:(lia)) as M.
    assert (2 ^ 60 * u 0 <= u 19) by (vm_compute; congruence). lia.
Qed.

Lemma meas_pos : forall m e v, meas m e v -> 0 <= v.
Proof.
  intros m e v B. assert (U7 : 0 < u (-7)) by (apply u_pos; lia). assert (U4 : 0 < u (-4)) by (apply u_pos; lia).
  destruct B as [(_ & ->)|[(_ & n & k & S & K & ->)|[(R & n & N & ->)|(R & I & F & T & D & ->)]]]; [lia| | |].
  - pose proof (sixteen_range m e n k ltac:(lia) S). pose proof (u_pos k ltac:(lia)). change (10 ^ 15) with 1000000000000000 in *. nia.
  - pose proof (fixed_bounds _ _ _ R N). lia.
  - pose proof (plain_bounds _ _ _ _ R T D). lia.
Qed.
Lemma fixed_rangeb_ok : forall m e, fixed_rangeb m e = true <-> fixed_range m e.
Proof. intros m e. unfold fixed_rangeb, fixed_range. rewrite andb_true_iff, !Z.ltb_lt. tauto. Qed.
Lemma meas_order : forall m e v m' e' v', units m e <= units m' e' -> meas m e v -> meas m' e' v' -> v <= v'.
Proof.
  intros m e v m' e' v' H A B. pose proof big_order as (O1 & O2 & O3). fold cA in O1, O2. fold cB in O2, O3.
  assert (U7 : 0 < u (-7)) by (apply u_pos; lia). pose proof (u_mono (-7) (-4) ltac:(lia) ltac:(lia)) as U74.
  assert (U60 : u (-4) <= 2 ^ 60 * u 0) by (vm_compute; congruence).
  pose proof (meas_pos _ _ _ B) as POS.
  set (U6 := 2 ^ 60 * u 0) in *.
  destruct A as [(_ & ->)|[(R & n & k & S & K & ->)|[(R & n & N & ->)|(R & I & F & T & D & ->)]]]; [exact POS| | |].
  - destruct B as [(R' & ->)|[(R' & n' & k' & S' & K' & ->)|[(R' & n' & N' & ->)|(R' & I' & F' & T' & D' & ->)]]].
    + exfalso. unfold subnormal_range in R'. unfold gcvt_range in R. fold cA in R. set (a := 2 ^ 52) in *. set (b := 2 ^ 1134) in *. clearbody a b. generalize dependent cA. generalize dependent cB. intros. lia.
    + exact (order_gcvt _ _ _ _ _ _ _ _ K K' H S S').
    + unfold gcvt_range in R. fold cA in R. destruct R as [[_ R]|R].
      * pose proof (small_bound _ _ _ _ K R S). pose proof (fixed_bounds _ _ _ R' N'). lia.
      * exfalso. destruct R' as [_ R']. fold cB in R'. set (b := 2 ^ 1134) in *. clearbody b. generalize dependent cB. intros. lia.
    + unfold gcvt_range in R. fold cA in R. pose proof (plain_bounds _ _ _ _ R' T' D') as PB. destruct R as [[_ R]|R].
      * pose proof (small_bound _ _ _ _ K R S). lia.
      * exfalso. destruct (plain_units _ _ R') as [_ PU]. set (b := 2 ^ 1134) in *. clearbody b. lia.
  - pose proof (fixed_bounds _ _ _ R N) as FB. destruct R as [R1 R2]. fold cA in R1. fold cB in R2.
    destruct B as [(R' & ->)|[(R' & n' & k' & S' & K' & ->)|[(R' & n' & N' & ->)|(R' & I' & F' & T' & D' & ->)]]].
    + exfalso. unfold subnormal_range in R'. set (a := 2 ^ 52) in *. clearbody a. generalize dependent cA. intros. lia.
    + unfold gcvt_range in R'. fold cA in R'. destruct R' as [[_ R']|R'].
      * exfalso. generalize dependent cA. intros. lia.
      * pose proof (big_bound _ _ _ _ K' R' S') as BB. fold U6 in BB. lia.
    + apply Z.mul_le_mono_nonneg_r; [exact (Z.lt_le_incl _ _ (u_pos (-8) ltac:(lia)))|].
      exact (nearest_mono _ _ (u (-8)) n n' (u_pos (-8) ltac:(lia)) (real_mono _ _ _ _ H) N N').
    + pose proof (plain_bounds _ _ _ _ R' T' D') as PB. lia.
  - pose proof (plain_bounds _ _ _ _ R T D) as PB. destruct (plain_units _ _ R) as [PU PU2]. fold cB in PU.
    destruct B as [(R' & ->)|[(R' & n' & k' & S' & K' & ->)|[(R' & n' & N' & ->)|(R' & I' & F' & T' & D' & ->)]]].
    + exfalso. unfold subnormal_range in R'. set (a := 2 ^ 52) in *. clearbody a. generalize dependent cA. generalize dependent cB. intros. lia.
    + unfold gcvt_range in R'. fold cA in R'. destruct R' as [[_ R']|R'].
      * exfalso. generalize dependent cA. generalize dependent cB. intros. lia.
      * pose proof (big_bound _ _ _ _ K' R' S') as BB. fold U6 in BB. fold U6 in PB. lia.
    + exfalso. destruct R' as [_ R']. fold cB in R'. generalize dependent cB. intros. lia.
    + apply Z.mul_le_mono_nonneg_r; [exact (Z.lt_le_incl _ _ (u_pos (-4) ltac:(lia)))|].
      exact (order_plain _ _ _ _ _ _ _ _ R R' H (proj1 T) (proj1 T') D D').
Qed.
