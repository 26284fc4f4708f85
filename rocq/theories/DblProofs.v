(* write_double prints the truncated value. *)
From Coq Require Import String ZArith List Bool Lia ZifyBool ZifyNat ZifyN.
From Verif Require Import Base BaseFacts NumFmt NumSpec NumFacts NumFmtProofs DateProofs DblFmt DblSpec.
Import ListNotations.
Open Scope Z_scope.
Ltac Zify.zify_post_hook ::= Z.div_mod_to_equations.

(* A formatter call that writes [t], possibly followed by [junk] beyond the
   returned length. *)
Definition emits (f : text -> Z -> outcome (text * Z)) (t junk : text) : Prop :=
  forall dst off, 0 <= off -> off + zlen (t ++ junk) <= zlen dst ->
    f dst off = bind (blit dst off (t ++ junk)) (fun d => Ret (d, zlen t)).

Lemma pow2_pos : forall k, 0 <= k -> 0 < 2 ^ k.
Proof. intros. apply Z.pow_pos_nonneg; lia. Qed.

Lemma round_even_ok : forall p k, 0 <= p -> 0 <= k ->
  p / 2 ^ k <= round_even p k /\ -(2 ^ k) <= 2 * (round_even p k * 2 ^ k - p) <= 2 ^ k.
Proof.
  intros p k Hp Hk. unfold round_even. pose proof (pow2_pos k Hk) as HK.
  pose proof (Z.div_mod p (2 ^ k) ltac:(lia)) as E. pose proof (Z.mod_pos_bound p (2 ^ k) HK) as B.
  set (q := p / 2 ^ k) in *. set (r := p mod 2 ^ k) in *. set (K := 2 ^ k) in *. clearbody q r K.
  destruct (2 * r <? K) eqn:E1; [split; [lia|nia]|].
  destruct (K <? 2 * r) eqn:E2; [split; [lia|nia]|].
  destruct (q mod 2 =? 0); (split; [lia|nia]).
Qed.

Lemma frac_ok : forall f e, e < 0 -> 0 < f < 2 ^ (- e) -> f < 2 ^ 53 ->
  let '(q, e') := dmul_int f e 10000 in
  let F := trunc q e' in
  0 <= F < 10000 /\ f * 10000 < (F + 1) * 2 ^ (- e) /\
  F * 2 ^ (- e) * 2 ^ 53 <= f * 10000 * (2 ^ 53 + 1).
Proof.
  intros f e He Hf Hf53. unfold dmul_int.
  set (p := f * 10000). assert (Hp: 0 < p) by (unfold p; lia).
  set (k := Z.max 0 (Z.log2 p + 1 - 53)).
  pose proof (Z.log2_spec p Hp) as (L1 & L2).
  assert (LN: 0 <= Z.log2 p) by apply Z.log2_nonneg.
  assert (K14: k <= 14).
  { assert (Z.log2 p < 67); [|lia]. apply Z.log2_lt_pow2; [assumption|].
    change (2 ^ 67) with (2 ^ 53 * 16384). unfold p. lia. }
  assert (K0: 0 <= k) by lia.
  assert (KP: 0 < k -> 2 ^ (k + 52) <= p).
  { intros Hk. replace (k + 52) with (Z.log2 p) by lia. assumption. }
  assert (EK: e + k < 0).
  { destruct (Z_le_gt_dec k 0) as [|Hk]; [lia|]. specialize (KP ltac:(lia)).
    assert (p < 2 ^ (14 - e)).
    { replace (14 - e) with (14 + - e) by lia. rewrite Z.pow_add_r by lia.
      unfold p. change (2 ^ 14) with 16384. lia. }
    assert (2 ^ (k + 52) < 2 ^ (14 - e)) by lia.
    apply Z.pow_lt_mono_r_iff in H0; lia. }
  unfold trunc. destruct (0 <=? e + k) eqn:E0; [lia|]. clear E0.
  set (E := - (e + k)). assert (HE: 0 < E) by lia.
  assert (HD: 2 ^ (- e) = 2 ^ k * 2 ^ E).
  { rewrite <- Z.pow_add_r by lia. f_equal. lia. }
  pose proof (round_even_ok p k ltac:(lia) K0) as (R1 & R2).
  set (q := round_even p k) in *.
  pose proof (pow2_pos k K0) as PK. pose proof (pow2_pos E ltac:(lia)) as PE.
  assert (R0: 0 <= q) by (pose proof (Z.div_pos p (2 ^ k) ltac:(lia) PK); lia).
  set (F := q / 2 ^ E).
  assert (F1: F * 2 ^ E <= q < (F + 1) * 2 ^ E).
  { unfold F. pose proof (Z.div_mod q (2 ^ E) ltac:(lia)). pose proof (Z.mod_pos_bound q (2 ^ E) PE). nia. }
  assert (P1: p < (p / 2 ^ k + 1) * 2 ^ k).
  { pose proof (Z.div_mod p (2 ^ k) ltac:(lia)). pose proof (Z.mod_pos_bound p (2 ^ k) PK). nia. }
  assert (F0: 0 <= F) by (apply Z.div_pos; lia).
  assert (LOW: p < (F + 1) * 2 ^ (- e)).
  { rewrite HD. assert (p / 2 ^ k + 1 <= (F + 1) * 2 ^ E) by lia. nia. }
  assert (FD: F * 2 ^ (- e) <= q * 2 ^ k).
  { rewrite HD. nia. }
  assert (UP: 2 * (F * 2 ^ (- e)) <= 2 * p + 2 ^ k) by lia.
  assert (T14: 2 ^ k <= 2 ^ 14) by (apply Z.pow_le_mono_r; lia). change (2 ^ 14) with 16384 in T14.
  split; [|split].
  - split; [assumption|]. unfold p in UP. nia.
  - unfold p in LOW. assumption.
  - destruct (Z_le_gt_dec k 0) as [Hk|Hk].
    + assert (k = 0) by lia. clearbody k. subst k. rewrite Z.pow_0_r in *.
      assert (F * 2 ^ (- e) <= p) by lia. unfold p in *. nia.
    + specialize (KP ltac:(lia)). replace (k + 52) with (k - 1 + 53) in KP by lia. rewrite Z.pow_add_r in KP by lia.
      assert (K2: 2 ^ k = 2 * 2 ^ (k - 1)). { replace k with (1 + (k - 1)) at 1 by lia. rewrite Z.pow_add_r by lia. reflexivity. }
      assert (F * 2 ^ (- e) <= p + 2 ^ (k - 1)) by lia.
      fold p. assert (2 ^ (k - 1) * 2 ^ 53 <= p) by lia.
      change (2 ^ 53) with 9007199254740992 in *. lia.
Qed.

Definition dbl_I (m e : Z) : Z := modf_int m e.
Definition dbl_F (m e : Z) : Z :=
  let '(q, e') := dmul_int (modf_frac m e) e 10000 in
  if modf_frac m e =? 0 then 0 else trunc q e'.

Lemma dbl_truncates : forall m e, plain_range m e ->
  truncates m e (dbl_I m e) (dbl_F m e) /\ 0 <= dbl_I m e <= 2 ^ 60.
Proof.
  intros m e (Hm & He & Hlo & Hhi). unfold truncates, dbl_I, dbl_F, modf_int, modf_frac. cbv zeta.
  destruct (0 <=? e) eqn:E0.
  - destruct (dmul_int 0 e 10000) as [q e']. rewrite Z.eqb_refl.
    rewrite Z.pow_add_r by lia. pose proof (pow2_pos e ltac:(lia)).
    assert (m * 2 ^ e <= 2 ^ 60).
    { destruct (Z.eq_dec e 8) as [->|Hn]; [rewrite (Hhi eq_refl); vm_compute; congruence|].
      assert (2 ^ e <= 2 ^ 7) by (apply Z.pow_le_mono_r; lia).
      change (2 ^ 60) with (2 ^ 53 * 2 ^ 7). apply Z.mul_le_mono_nonneg; lia. }
    set (x := m * 2 ^ e) in *. replace (m * (2 ^ e * 2 ^ 66)) with (x * 2 ^ 66) by (unfold x; ring).
    assert (0 <= x) by (unfold x; nia). clearbody x.
    change (2 ^ 66) with 73786976294838206464. change (2 ^ 53) with 9007199254740992. lia.
  - set (D := 2 ^ (- e)). assert (PD: 0 < D) by (apply pow2_pos; lia).
    assert (HS: D * 2 ^ (e + 66) = 2 ^ 66). { unfold D. rewrite <- Z.pow_add_r by lia. f_equal. lia. }
    set (S := 2 ^ (e + 66)) in *. assert (PS: 0 < S) by (apply pow2_pos; lia).
    pose proof (Z.div_mod m D ltac:(lia)) as DM. pose proof (Z.mod_pos_bound m D PD) as DB.
    set (f := m mod D) in *. set (I := m / D) in *.
    assert (HI: 0 <= I <= 2 ^ 60).
    { unfold I. split; [apply Z.div_pos; lia|]. assert (1 <= D) by lia.
      assert (m / D <= m / 1) by (apply Z.div_le_compat_l; lia). rewrite Z.div_1_r in *.
      change (2 ^ 60) with (2 ^ 53 * 2 ^ 7). lia. }
    assert (HF: exists F, (let '(q, e') := dmul_int f e 10000 in if f =? 0 then 0 else trunc q e') = F /\
       0 <= F < 10000 /\ f * 10000 < (F + 1) * D /\ F * D * 2 ^ 53 <= f * 10000 * (2 ^ 53 + 1)).
    { eexists; split; [reflexivity|]. destruct (f =? 0) eqn:F0.
      - destruct (dmul_int f e 10000) as [q e']. assert (f = 0) by lia. lia.
      - assert (1 <= D) by lia. assert (f < 2 ^ 53) by (assert (0 <= I) by lia; nia).
        pose proof (frac_ok f e ltac:(lia) ltac:(fold D; lia) ltac:(assumption)) as G.
        destruct (dmul_int f e 10000) as [q e']. exact G. }
    destruct HF as (F & -> & F1 & F2 & F3).
    split; [|exact HI]. rewrite <- HS.
    split; [assumption|]. clearbody f I S D.
    assert (EX: m * S = (I * D + f) * S) by (rewrite DM; ring). rewrite EX.
    split; [split; nia|]. split.
    + replace (10000 * ((I * D + f) * S)) with ((10000 * I * D + f * 10000) * S) by ring.
      replace ((10000 * I + F + 1) * (D * S)) with ((10000 * I * D + (F + 1) * D) * S) by ring.
      apply Z.mul_lt_mono_pos_r; lia.
    + replace ((10000 * I + F) * (D * S) * 2 ^ 53) with ((10000 * I * D * 2 ^ 53 + F * D * 2 ^ 53) * S) by ring.
      replace (10000 * ((I * D + f) * S) * (2 ^ 53 + 1)) with ((10000 * I * D * (2 ^ 53 + 1) + f * 10000 * (2 ^ 53 + 1)) * S) by ring.
      apply Z.mul_le_mono_nonneg_r; [lia|].
      assert (10000 * I * D * 2 ^ 53 <= 10000 * I * D * (2 ^ 53 + 1)).
      { apply Z.mul_le_mono_nonneg_l; [|lia]. assert (0 <= I * D) by nia. lia. }
      lia.
Qed.

(* exactly *)
Lemma nearest_unique : forall p y y', nearest p y -> nearest p y' -> y = y'.
Proof.
  intros p y y' (q & k & -> & K & B & N & T) (q' & k' & -> & K' & B' & N' & T').
  assert (EK : k = k').
  { destruct B as [(-> & B)|B]; destruct B' as [(-> & B')|B']; try reflexivity.
    - assert (H : 2 ^ (52 + k') < 2 ^ 53) by lia. apply Z.pow_lt_mono_r_iff in H; lia.
    - assert (H : 2 ^ (52 + k) < 2 ^ 53) by lia. apply Z.pow_lt_mono_r_iff in H; lia.
    - assert (H : 2 ^ (52 + k) < 2 ^ (53 + k')) by lia. apply Z.pow_lt_mono_r_iff in H; [|lia|lia].
      assert (H' : 2 ^ (52 + k') < 2 ^ (53 + k)) by lia. apply Z.pow_lt_mono_r_iff in H'; lia. }
  subst k'. clear B B'. pose proof (pow2_pos k K) as P. set (E := 2 ^ k) in *. clearbody E.
  f_equal. destruct (Z.eq_dec q q') as [|D]; [assumption|exfalso].
  assert (C : q' = q + 1 \/ q = q' + 1) by nia.
  destruct C as [-> | ->].
  - assert (Z.even q = true) by (apply T; lia). assert (Z.even (q + 1) = true) by (apply T'; lia). rewrite Z.even_add in *. rewrite H in *. discriminate.
  - assert (Z.even q' = true) by (apply T'; lia). assert (Z.even (q' + 1) = true) by (apply T; lia). rewrite Z.even_add in *. rewrite H in *. discriminate.
Qed.
Lemma round_even_tie : forall p k, 0 <= k -> 2 * Z.abs (round_even p k * 2 ^ k - p) = 2 ^ k -> Z.even (round_even p k) = true.
Proof.
  intros p k Hk. unfold round_even. pose proof (pow2_pos k Hk) as HK.
  pose proof (Z.div_mod p (2 ^ k) ltac:(lia)) as E. pose proof (Z.mod_pos_bound p (2 ^ k) HK) as B.
  set (q := p / 2 ^ k) in *. set (r := p mod 2 ^ k) in *. set (K := 2 ^ k) in *. clearbody q r K.
  destruct (2 * r <? K) eqn:E1; [intros; exfalso; nia|].
  destruct (K <? 2 * r) eqn:E2; [intros; exfalso; nia|].
  intros _. rewrite !Zmod_even. destruct (Z.even q) eqn:EV; cbn [Z.eqb]; [exact EV|]. rewrite Z.even_add, EV. reflexivity.
Qed.
Lemma dmul_nearest : forall f e n s q e', 0 < f -> 0 < n -> 0 <= s -> dmul_int f e n = (q, e') ->
  e <= e' /\ nearest (f * n * 2 ^ s) (q * 2 ^ (e' - e + s)).
Proof.
  intros f e n s q e' Hf Hn Hs H. unfold dmul_int in H. set (p := f * n) in *. assert (Hp : 0 < p) by (unfold p; nia).
  set (k := Z.max 0 (Z.log2 p + 1 - 53)) in *. injection H as <- <-. clearbody p.
  pose proof (Z.log2_spec p Hp) as (L1 & L2). assert (LN: 0 <= Z.log2 p) by apply Z.log2_nonneg.
  assert (K0 : 0 <= k) by lia. split; [lia|]. replace (e + k - e + s) with (k + s) by lia. pose proof (pow2_pos s Hs) as PS.
  destruct (Z_le_gt_dec k 0) as [Hk|Hk].
  - assert (E0 : k = 0) by lia. rewrite E0. clear K0 Hk. unfold round_even. rewrite Z.pow_0_r, Z.div_1_r, Z.mod_1_r. cbn [Z.mul Z.ltb Z.compare Z.add].
    set (j := Z.max 0 (Z.log2 p + s - 52)). exists (p * 2 ^ (s - j)), j.
    assert (SJ : 2 ^ s = 2 ^ (s - j) * 2 ^ j) by (rewrite <- Z.pow_add_r by lia; f_equal; lia).
    split; [rewrite SJ; ring|]. split; [lia|]. pose proof (pow2_pos j ltac:(lia)). rewrite Z.sub_diag. cbn [Z.abs Z.mul]. split; [|split; lia].
    assert (A1 : 2 ^ (Z.log2 p + s) <= p * 2 ^ s) by (rewrite Z.pow_add_r by lia; apply Z.mul_le_mono_nonneg_r; lia).
    assert (A2 : p * 2 ^ s < 2 ^ (Z.log2 p + 1 + s)) by (rewrite (Z.pow_add_r 2 (Z.log2 p + 1)) by lia; apply Z.mul_lt_mono_pos_r; lia).
    destruct (Z_le_gt_dec j 0) as [J|J].
    + left. split; [lia|]. assert (2 ^ (Z.log2 p + 1 + s) <= 2 ^ 53) by (apply Z.pow_le_mono_r; lia). lia.
    + right. replace (52 + j) with (Z.log2 p + s) by lia. replace (53 + j) with (Z.log2 p + 1 + s) by lia. lia.
  - exists (round_even p k), (k + s). pose proof (round_even_ok p k ltac:(lia) K0) as (_ & R). pose proof (round_even_tie p k K0) as T.
    split; [reflexivity|]. split; [lia|]. rewrite (Z.pow_add_r 2 k s) by lia.
    split; [right; replace (52 + (k + s)) with (Z.log2 p + s) by lia; replace (53 + (k + s)) with (Z.succ (Z.log2 p) + s) by lia;
      rewrite !Z.pow_add_r by lia; split; [apply Z.mul_le_mono_nonneg_r; lia|apply Z.mul_lt_mono_pos_r; lia]|].
    replace (round_even p k * (2 ^ k * 2 ^ s) - p * 2 ^ s) with ((round_even p k * 2 ^ k - p) * 2 ^ s) by ring.
    rewrite Z.abs_mul, (Z.abs_eq (2 ^ s)) by lia. rewrite Z.mul_assoc. split.
    + apply Z.mul_le_mono_nonneg_r; lia.
    + intros E. apply T. apply Z.mul_reg_r in E; lia.
Qed.
Lemma nearest_zero : nearest 0 0.
Proof. exists 0, 0. cbn. lia. Qed.
Lemma dbl_decimals : forall m e, plain_range m e -> decimals m e (dbl_I m e) (dbl_F m e).
Proof.
  intros m e (Hm & He & _ & _). unfold decimals, dbl_I, dbl_F, modf_int, modf_frac.
  destruct (0 <=? e) eqn:E0.
  - destruct (dmul_int 0 e 10000) as [q e']. rewrite Z.eqb_refl. exists 0, 0. split; [rewrite Z.pow_add_r by lia; ring|].
    split; [lia|]. split; [exact nearest_zero|lia].
  - set (D := 2 ^ (- e)). assert (PD: 0 < D) by (apply pow2_pos; lia). set (s := e + 66).
    assert (HS: D * 2 ^ s = 2 ^ 66). { unfold D. rewrite <- Z.pow_add_r by lia. f_equal. lia. }
    pose proof (pow2_pos s ltac:(lia)) as PS.
    pose proof (Z.div_mod m D ltac:(lia)) as DM. pose proof (Z.mod_pos_bound m D PD) as DB.
    set (f := m mod D) in *. set (I := m / D) in *.
    assert (EX : m * 2 ^ s = I * 2 ^ 66 + f * 2 ^ s) by (rewrite <- HS, DM; ring).
    assert (GB : 0 <= f * 2 ^ s < 2 ^ 66) by (rewrite <- HS; nia).
    destruct (f =? 0) eqn:F0.
    { destruct (dmul_int f e 10000) as [q e']. assert (f = 0) as -> by lia. exists 0, 0. rewrite Z.mul_0_l in EX. split; [lia|]. split; [lia|]. split; [exact nearest_zero|lia]. }
    destruct (dmul_int f e 10000) as [q e'] eqn:DE.
    destruct (dmul_nearest f e 10000 s q e' ltac:(lia) ltac:(lia) ltac:(lia) DE) as (LE & NE).
    exists (f * 2 ^ s), (q * 2 ^ (e' - e + s)). split; [exact EX|]. split; [exact GB|]. split; [replace (10000 * (f * 2 ^ s)) with (f * 10000 * 2 ^ s) by ring; exact NE|].
    replace (e' - e + s) with (e' + 66) by lia. unfold trunc. destruct (0 <=? e') eqn:E1.
    + rewrite Z.pow_add_r by lia. assert (0 < 2 ^ 66) by lia. nia.
    + assert (Q : 2 ^ 66 = 2 ^ (- e') * 2 ^ (e' + 66)) by (rewrite <- Z.pow_add_r by lia; f_equal; lia).
      pose proof (pow2_pos (- e') ltac:(lia)) as P1. pose proof (pow2_pos (e' + 66) ltac:(lia)) as P2.
      pose proof (Z.div_mod q (2 ^ (- e')) ltac:(lia)) as DQ. pose proof (Z.mod_pos_bound q (2 ^ (- e')) P1) as BQ. rewrite Q.
      set (F := q / 2 ^ (- e')) in *. set (A := 2 ^ (- e')) in *. set (B := 2 ^ (e' + 66)) in *. clearbody F A B. rewrite !Z.mul_assoc. split; [apply Z.mul_le_mono_nonneg_r; nia|apply Z.mul_lt_mono_pos_r; nia].
Qed.
Lemma decimals_unique : forall m e I F I' F', decimals m e I F -> decimals m e I' F' -> I = I' /\ F = F'.
Proof.
  intros m e I F I' F' (g & y & E & G & N & B) (g' & y' & E' & G' & N' & B').
  assert (I = I' /\ g = g') as (-> & ->) by lia. rewrite (nearest_unique _ _ _ N N') in *. lia.
Qed.

(* the branch tests *)
Lemma plain_not_subnormal : forall m e, plain_range m e -> dlt m e 1 (-1022) = false.
Proof.
  intros m e (Hm & He & _). unfold dlt. cbv zeta. rewrite Z.min_r by lia.
  replace (-1022 - -1022) with 0 by lia. rewrite Z.pow_0_r.
  pose proof (pow2_pos (e - -1022) ltac:(lia)). apply Z.ltb_ge. nia.
Qed.
Lemma plain_not_small : forall m e, plain_range m e -> dlt m e (fst c_1em4) (snd c_1em4) = false.
Proof.
  intros m e (Hm & He & Hlo & _). unfold dlt, c_1em4. cbn [fst snd]. cbv zeta. rewrite Z.min_r by lia.
  replace (-66 - -66) with 0 by lia. rewrite Z.pow_0_r. apply Z.ltb_ge.
  destruct (Z.eq_dec e (-66)) as [->|Hn]; [rewrite Z.sub_diag, Z.pow_0_r; specialize (Hlo eq_refl); lia|].
  assert (2 ^ 1 <= 2 ^ (e - -66)) by (apply Z.pow_le_mono_r; lia). change (2 ^ 1) with 2 in *.
  change (2 ^ 52) with 4503599627370496 in *. nia.
Qed.
Lemma plain_not_big : forall m e, plain_range m e -> dlt (fst c_2p60) (snd c_2p60) m e = false.
Proof.
  intros m e (Hm & He & _ & Hhi). unfold dlt, c_2p60. cbn [fst snd]. cbv zeta. rewrite Z.min_r by lia.
  rewrite Z.sub_diag, Z.pow_0_r. apply Z.ltb_ge.
  destruct (Z.eq_dec e 8) as [->|Hn]; [rewrite (Hhi eq_refl); vm_compute; congruence|].
  assert (2 ^ 53 <= 2 ^ (60 - e)) by (apply Z.pow_le_mono_r; lia). lia.
Qed.

Lemma blit_read : forall (dst d : text) off x i, blit dst off x = Ret d -> 0 <= i < zlen x -> rd d (off + i) = rd x i.
Proof.
  intros dst d off x i H Hi. apply blit_inv in H. destruct H as (H1 & H2 & ->).
  rewrite rd_app_r by (rewrite zlen_firstn; lia). rewrite zlen_firstn by lia.
  replace (off + i - off) with i by lia. rewrite rd_app_l by lia. reflexivity.
Qed.

Lemma len4 : forall t : text, zlen t = 4 -> exists a b c d, t = [a; b; c; d].
Proof.
  intros t H. unfold zlen in H. destruct t as [|a [|b [|c [|d [|x t]]]]]; cbn [length] in H; try lia. exists a, b, c, d; reflexivity.
Qed.

Lemma trim_ok : forall dst d off P a b c d4, blit dst off (P ++ [46; a; b; c; d4]) = Ret d ->
  exists ds zs, [a; b; c; d4] = ds ++ zs /\ Forall (eq 48) zs /\ 2 <= zlen ds /\ (2 < zlen ds -> last ds 48 <> 48) /\
    trim_zeros 40 d off (zlen P + (1 + 4) - 1) (zlen P + 2) (1 + 4) = Ret (1 + zlen ds).
Proof.
  intros dst d off P a b c d4 H.
  assert (RD: forall i x, 0 <= i < 5 -> nth_error [46; a; b; c; d4] (Z.to_nat i) = Some x -> rd d (off + (zlen P + i)) = Ret x).
  { intros i x Hi Hx. rewrite (blit_read dst d off _ (zlen P + i) H).
    - rewrite rd_app_r by lia. replace (zlen P + i - zlen P) with i by lia. apply rd_ret; [lia|assumption].
    - pose proof (zlen_nonneg _ P). rewrite zlen_app. change (zlen [46; a; b; c; d4]) with 5. lia. }
  replace (zlen P + (1 + 4) - 1) with (zlen P + 4) by lia.
  assert (LP: zlen P + 2 <? zlen P + 4 = true) by lia.
  assert (LP3: zlen P + 2 <? zlen P + 4 - 1 = true) by lia.
  assert (LP2: zlen P + 2 <? zlen P + 4 - 1 - 1 = false) by lia.
  cbn [trim_zeros]. rewrite LP. rewrite (RD 4 d4) by (lia || reflexivity). cbn [bind].
  destruct (d4 =? 48) eqn:E4.
  - rewrite LP3. replace (off + (zlen P + 4 - 1)) with (off + (zlen P + 3)) by lia.
    rewrite (RD 3 c) by (lia || reflexivity). cbn [bind]. destruct (c =? 48) eqn:E3.
    + rewrite LP2. exists [a; b], [c; d4]. split; [reflexivity|].
      split; [repeat constructor; lia|]. split; [rewrite !zlen_cons, zlen_nil; lia|].
      split; [rewrite !zlen_cons, zlen_nil; lia|]. reflexivity.
    + exists [a; b; c], [d4]. split; [reflexivity|].
      split; [repeat constructor; lia|]. split; [rewrite !zlen_cons, zlen_nil; lia|].
      split; [intros _; cbn; lia|]. reflexivity.
  - exists [a; b; c; d4], []. split; [reflexivity|]. split; [constructor|].
    split; [rewrite !zlen_cons, zlen_nil; lia|]. split; [intros _; cbn; lia|]. reflexivity.
Qed.

Lemma write_double_plain : forall L neg m e, plain_range m e ->
  exists t junk, is_dbl_text neg (dbl_I m e) (dbl_F m e) t /\ zlen (t ++ junk) <= 25 /\
    emits (fun dst off => write_double L dst off (DFin neg m e)) t junk.
Proof.
  intros L neg m e H. destruct (dbl_truncates m e H) as ((F1 & _) & HI).
  destruct (numeral_exists 0 (dbl_I m e)) as (ti & Ni); [unfold is_u64; lia|lia|].
  destruct (numeral_exists 4 (dbl_F m e)) as (tf & Nf); [unfold is_u64; lia|lia|].
  pose proof (numeral_len_fix 4 (dbl_F m e) tf ltac:(lia) ltac:(lia) Nf) as Lf.
  assert (Li: 1 <= zlen ti <= 19).
  { split; [destruct Ni; tauto|]. pose proof (is_numeral_len 10 0 (dbl_I m e) ti 19 ltac:(lia) ltac:(lia) Ni ltac:(lia)). lia. }
  set (sg := if neg then [45] else [] : text).
  assert (Lsg: zlen sg = if neg then 1 else 0) by (unfold sg; destruct neg; reflexivity).
  assert (CORE: forall dst off, write_double L dst off (DFin neg m e) =
     let! dst := if neg then wr dst off 45 else Ret dst in
     let! (dst, base_offset) := write_dec_u 0 dst (off + zlen sg) (dbl_I m e) in
        if 0 <? dbl_F m e then
          let! dst := wr dst (off + zlen sg + base_offset) 46 in
          let! (dst, n) := write_dec_u 4 dst (off + zlen sg + base_offset + 1) (dbl_F m e) in
          let fo := 1 + n in
          let! fo := trim_zeros 40 dst off (zlen sg + base_offset + fo - 1) (zlen sg + base_offset + 2) fo in
          Ret (dst, zlen sg + base_offset + fo)
        else Ret (dst, zlen sg + base_offset)).
  { intros dst off. rewrite Lsg. unfold write_double.
    rewrite (plain_not_subnormal m e H), (plain_not_small m e H), (plain_not_big m e H). cbn [orb].
    unfold dbl_I, dbl_F. destruct (dmul_int (modf_frac m e) e 10000) as [q e']. reflexivity. }
  pose proof (write_dec_numeral 0 (dbl_I m e) ti ltac:(unfold is_u64; lia) ltac:(lia) Ni) as WI.
  pose proof (write_dec_numeral 4 (dbl_F m e) tf ltac:(unfold is_u64; lia) ltac:(lia) Nf) as WF. rewrite Lf in WF.
  assert (SG: forall dst off, 0 <= off -> off + zlen sg <= zlen dst ->
     exists d, (if neg then wr dst off 45 else Ret dst) = Ret d /\ blit dst off sg = Ret d).
  { intros dst off Ho Hr. unfold sg in *. destruct neg.
    - unfold wr. rewrite blit_ret by (rewrite ?zlen_cons, ?zlen_nil in *; lia). eauto.
    - exists dst. split; [reflexivity|]. apply blit_nil. rewrite zlen_nil in Hr. lia. }
  destruct (0 <? dbl_F m e) eqn:EF.
  - destruct (len4 tf Lf) as (a & b & c & d & ->).
    (* the trim result is the same for every destination *)
    destruct (trim_ok (repeat 0 (length ((sg ++ ti) ++ [46; a; b; c; d]))) ((sg ++ ti) ++ [46; a; b; c; d]) 0 (sg ++ ti) a b c d) as (ds & zs & Edz & Hz & Hd2 & Hl & _).
    { replace (repeat 0 (length ((sg ++ ti) ++ [46; a; b; c; d]))) with ([] ++ repeat 0 (length ((sg ++ ti) ++ [46; a; b; c; d])) ++ []) by (rewrite app_nil_r; reflexivity).
      rewrite blit_splice; [rewrite app_nil_r; reflexivity|reflexivity|]. unfold zlen. rewrite repeat_length. reflexivity. }
    exists (sg ++ ti ++ [46] ++ ds), zs.
    assert (EX: (sg ++ ti ++ [46] ++ ds) ++ zs = (sg ++ ti) ++ [46; a; b; c; d]).
    { rewrite <- !app_assoc. rewrite <- Edz. reflexivity. }
    split.
    { exists ti. split; [assumption|]. right. exists ds, zs. rewrite <- Edz. repeat split; try assumption; try lia; try apply Nf. }
    assert (LX: zlen ((sg ++ ti) ++ [46; a; b; c; d]) = zlen sg + zlen ti + 5) by (rewrite !zlen_app; reflexivity).
    rewrite EX. split; [rewrite LX, Lsg; destruct neg; lia|].
    intros dst off Ho Hr. rewrite EX in *. rewrite CORE. rewrite LX in Hr.
    cbv beta. destruct (SG dst off Ho ltac:(lia)) as (d1 & SG1 & B). match goal with |- bind ?x _ = _ => replace x with (Ret d1) by (symmetry; exact SG1) end. cbn [bind].
    rewrite WI. st B ti. unfold wr. st B [46]. rewrite WF. st B [a; b; c; d]. cbv zeta.
    replace (((sg ++ ti) ++ [46]) ++ [a; b; c; d]) with ((sg ++ ti) ++ [46; a; b; c; d]) in B by (rewrite <- !app_assoc; reflexivity).
    destruct (trim_ok _ _ _ _ _ _ _ _ B) as (ds' & zs' & Edz' & Hz' & Hd2' & Hl' & TR).
    rewrite zlen_app in TR. rewrite TR. cbn [bind]. rewrite B. cbn [bind].
    assert (zlen ds' = zlen ds).
    { (* both are the shortest prefix *)
      rewrite Edz in Edz'. clear - Edz Edz' Hz Hz' Hd2 Hd2' Hl Hl'.
      assert (G: forall x y x' y' : text, x ++ y = x' ++ y' -> Forall (eq 48) y -> 2 <= zlen x -> (2 < zlen x' -> last x' 48 <> 48) -> zlen x' <= zlen x).
      { intros x y x' y' E Hy H2 HL. destruct (Z_le_gt_dec (zlen x') (zlen x)) as [|G]; [assumption|exfalso].
        specialize (HL ltac:(lia)). apply HL.
        assert (exists w, x' = x ++ w /\ y = w ++ y') as (w & -> & ->).
        { exists (skipn (length x) x'). assert (firstn (length x) x' = x).
          { transitivity (firstn (length x) (x' ++ y')). { rewrite firstn_app. replace (length x - length x')%nat with 0%nat by (unfold zlen in G; lia). rewrite firstn_O, app_nil_r. reflexivity. }
            rewrite <- E. rewrite firstn_app, firstn_all, Nat.sub_diag, firstn_O, app_nil_r. reflexivity. }
          assert (E1: x' = x ++ skipn (length x) x') by (rewrite <- (firstn_skipn (length x) x') at 1; congruence).
          split; [assumption|]. rewrite E1, <- app_assoc in E. apply app_inv_head in E. assumption. }
        apply Forall_app in Hy. destruct Hy as (Hw & _). rewrite zlen_app in G.
        destruct (exists_last (l := w)) as (w0 & z & ->). { intros ->. rewrite zlen_nil in G. lia. }
        rewrite app_assoc, last_last. apply Forall_app in Hw. destruct Hw as (_ & Hw). inversion Hw. congruence. }
      pose proof (G ds zs ds' zs' Edz' Hz Hd2 Hl'). pose proof (G ds' zs' ds zs (eq_sym Edz') Hz' Hd2' Hl). lia. }
    f_equal. f_equal. rewrite !zlen_app, zlen_cons, zlen_nil. lia.
  - exists (sg ++ ti), []. split. { exists ti. split; [assumption|]. left. split; [lia|reflexivity]. }
    rewrite app_nil_r. split; [rewrite zlen_app, Lsg; destruct neg; lia|].
    intros dst off Ho Hr. rewrite app_nil_r in *. rewrite CORE. rewrite zlen_app in Hr.
    cbv beta. destruct (SG dst off Ho ltac:(lia)) as (d1 & SG1 & B). match goal with |- bind ?x _ = _ => replace x with (Ret d1) by (symmetry; exact SG1) end. cbn [bind].
    rewrite WI. st B ti. rewrite B. cbn [bind]. rewrite zlen_app. reflexivity.
Qed.

(* the buffer form of [emits] *)
Lemma emits_splice : forall f t junk, emits f t junk ->
  forall pre old post, zlen old = zlen (t ++ junk) ->
  f (pre ++ old ++ post) (zlen pre) = Ret (pre ++ t ++ junk ++ post, zlen t).
Proof.
  intros f t junk H pre old post Ho. rewrite H.
  - rewrite blit_splice by (reflexivity || assumption). cbn [bind]. rewrite <- app_assoc. reflexivity.
  - apply zlen_nonneg.
  - rewrite !zlen_app, Ho, zlen_app. pose proof (zlen_nonneg _ post). lia.
Qed.

Lemma numeral_head : forall w n t, is_numeral 10 w n t -> 48 <= hd 0 t <= 57.
Proof.
  intros w n t (V & Hl & _). destruct t as [|a t]; [rewrite zlen_nil in Hl; lia|]. cbn [hd].
  cbn [value] in V. destruct (digit_val a) as [d|] eqn:D; [|discriminate].
  destruct (d <? 10) eqn:E; [|discriminate]. unfold digit_val in D.
  destruct ((48 <=? a) && (a <=? 57)) eqn:E1; [lia|].
  destruct ((65 <=? a) && (a <=? 70)) eqn:E2; [|discriminate]. injection D as <-. lia.
Qed.
Lemma dbl_text_sign : forall neg I F t, is_dbl_text neg I F t -> (hd 0 t = 45 <-> neg = true).
Proof.
  intros neg I F t (ti & Ni & T). pose proof (numeral_head _ _ _ Ni) as H.
  assert (L: ti <> []) by (intros ->; cbn in H; lia).
  destruct T as [(_ & ->)|(ds & zs & _ & _ & _ & _ & _ & _ & ->)]; destruct neg; cbn [app hd]; try tauto;
    (destruct ti as [|a ti]; [congruence|]); cbn [app hd] in *; split; intros; try lia; discriminate.
Qed.

(* Values a double can take *)
Definition is_double (d : dbl) : Prop :=
  match d with
  | DFin _ m e => (2 ^ 52 <= m < 2 ^ 53 /\ -1074 <= e <= 971) \/ (0 < m < 2 ^ 52 /\ e = -1074)
  | _ => True
  end.
(* gcvt with 16 digits needs at most 23 bytes (sign, 16 digits, point, e+308) *)
Definition libc_ok (L : libc) : Prop := forall d, zlen (gcvt16 L d) <= 23.

Lemma double_cases : forall m e, 2 ^ 52 <= m < 2 ^ 53 /\ -1074 <= e <= 971 ->
  dlt m e (fst c_1em4) (snd c_1em4) = false -> dlt (fst c_2p60) (snd c_2p60) m e = false -> plain_range m e.
Proof.
  intros m e (Hm & He) S B. unfold dlt, c_1em4, c_2p60 in *. cbn [fst snd] in *. cbv zeta in *.
  apply Z.ltb_ge in S, B. change (2 ^ 52) with 4503599627370496 in *. change (2 ^ 53) with 9007199254740992 in *.
  assert (E1: -66 <= e).
  { destruct (Z_le_gt_dec (-66) e) as [|G]; [assumption|exfalso].
    rewrite Z.min_l, Z.sub_diag, Z.pow_0_r in S by lia.
    assert (2 ^ 1 <= 2 ^ (-66 - e)) by (apply Z.pow_le_mono_r; lia). change (2 ^ 1) with 2 in *. lia. }
  assert (E2: e <= 8).
  { destruct (Z_le_gt_dec e 8) as [|G]; [assumption|exfalso].
    destruct (Z_le_gt_dec e 60) as [G'|G'].
    - rewrite Z.min_r, Z.sub_diag, Z.pow_0_r in B by lia.
      assert (2 ^ (60 - e) <= 2 ^ 51) by (apply Z.pow_le_mono_r; lia). change (2 ^ 51) with 2251799813685248 in *. lia.
    - rewrite Z.min_l, Z.sub_diag, Z.pow_0_r in B by lia. assert (0 < 2 ^ (e - 60)) by (apply pow2_pos; lia). nia. }
  unfold plain_range. change (2 ^ 52) with 4503599627370496. change (2 ^ 53) with 9007199254740992.
  split; [lia|]. split; [lia|]. split; intros ->.
  - change (Z.min (-66) (-66)) with (-66) in S. rewrite Z.sub_diag, Z.pow_0_r in S. lia.
  - change (Z.min 60 8) with 8 in B. rewrite Z.sub_diag, Z.pow_0_r in B. change (2 ^ (60 - 8)) with 4503599627370496 in B. lia.
Qed.

(* Whatever the value, at most 30 bytes are touched. *)
Lemma write_double_fits : forall L d, libc_ok L -> is_double d ->
  exists t junk, zlen (t ++ junk) <= 30 /\ emits (fun dst off => write_double L dst off d) t junk.
Proof.
  intros L d HL Hd. destruct d as [n|n| |neg m e]; cbn [is_double] in Hd.
  - exists [48], []. split; [vm_compute; congruence|]. intros dst off Ho Hr. reflexivity.
  - exists (s2z "inf"), []. split; [vm_compute; congruence|]. intros dst off Ho Hr. reflexivity.
  - exists (s2z "nan"), []. split; [vm_compute; congruence|]. intros dst off Ho Hr. reflexivity.
  - destruct (dlt m e 1 (-1022)) eqn:SUB.
    { exists [48], []. split; [vm_compute; congruence|]. intros dst off Ho Hr. unfold write_double. rewrite SUB. reflexivity. }
    destruct (dlt m e (fst c_1em4) (snd c_1em4) || dlt (fst c_2p60) (snd c_2p60) m e) eqn:RNG.
    + exists (if dlt m e (fst c_1em4) (snd c_1em4) && dlt (fst c_1em7) (snd c_1em7) m e
                 then firstn 29 (fmt_08lf L (DFin false m e))
                 else gcvt16 L (DFin neg m e)), [0]. split.
      * rewrite zlen_app. change (zlen [0]) with 1.
        destruct (dlt m e (fst c_1em4) (snd c_1em4) && dlt (fst c_1em7) (snd c_1em7) m e).
        -- unfold zlen. pose proof (firstn_le_length 29 (fmt_08lf L (DFin false m e))). lia.
        -- pose proof (HL (DFin neg m e)). lia.
      * intros dst off Ho Hr. unfold write_double. rewrite SUB, RNG. reflexivity.
    + apply orb_false_iff in RNG. destruct RNG as (R1 & R2).
      assert (P: plain_range m e).
      { apply double_cases; try assumption. destruct Hd as [|(Hm & ->)]; [assumption|exfalso].
        unfold dlt in SUB. cbv zeta in SUB. change (Z.min (-1074) (-1022)) with (-1074) in SUB.
        rewrite Z.sub_diag, Z.pow_0_r in SUB. change (1 * 2 ^ (-1022 - -1074)) with (2 ^ 52) in SUB. lia. }
      destruct (write_double_plain L neg m e P) as (t & junk & _ & HLn & E). exists t, junk. split; [lia|exact E].
Qed.

(* between 1e-7 and 1e-4 the sign is not looked at *)
Lemma write_double_tiny_sign : forall L dst off m e, dlt m e 1 (-1022) = false ->
  dlt m e (fst c_1em4) (snd c_1em4) = true -> dlt (fst c_1em7) (snd c_1em7) m e = true ->
  write_double L dst off (DFin true m e) = write_double L dst off (DFin false m e).
Proof. intros L dst off m e S A B. unfold write_double. rewrite S, A, B. reflexivity. Qed.
