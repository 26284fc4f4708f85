(* Lemmas about numerals (NumSpec.v). *)
From Coq Require Import String ZArith List Bool Lia ZifyBool ZifyNat ZifyN.
From Verif Require Import Base BaseFacts NumSpec.
Import ListNotations.
Open Scope Z_scope.
Ltac Zify.zify_post_hook ::= Z.div_mod_to_equations.

Lemma digit_val_range : forall c d, digit_val c = Some d -> 0 <= d < 16.
Proof.
  intros c d. unfold digit_val.
  destruct ((48 <=? c) && (c <=? 57)) eqn:E; [intros H; inversion H; lia|].
  destruct ((65 <=? c) && (c <=? 70)) eqn:E2; intros H; inversion H; lia.
Qed.

Lemma digit_val_inj : forall c c' d, digit_val c = Some d -> digit_val c' = Some d -> c = c'.
Proof.
  intros c c' d. unfold digit_val.
  destruct ((48 <=? c) && (c <=? 57)) eqn:E;
  destruct ((48 <=? c') && (c' <=? 57)) eqn:E';
  destruct ((65 <=? c) && (c <=? 70)) eqn:E2;
  destruct ((65 <=? c') && (c' <=? 70)) eqn:E2';
  intros H H'; inversion H; inversion H'; lia.
Qed.

Lemma value_app : forall base a b acc,
  value base acc (a ++ b) =
  match value base acc a with Some v => value base v b | None => None end.
Proof.
  induction a as [|c a IH]; intros b acc; simpl; [reflexivity|].
  destruct (digit_val c) as [d|]; [|reflexivity].
  destruct (d <? base); [apply IH|reflexivity].
Qed.

Lemma value_shift : forall base t acc v,
  value base acc t = Some v ->
  exists w, value base 0 t = Some w /\ v = acc * base ^ zlen t + w.
Proof.
  intros base t. induction t as [|c t IH]; intros acc v H; cbn [value length app nth] in *.
  - inversion H; subst. exists 0. rewrite ?zlen_nil. simpl. split; [reflexivity|lia].
  - destruct (digit_val c) as [d|] eqn:Ed; [|discriminate].
    destruct (d <? base) eqn:El; [|discriminate].
    destruct (IH _ _ H) as (w & Hw & ->).
    destruct (value base d t) as [v'|] eqn:Ev.
    + destruct (IH _ _ Ev) as (w' & Hw' & ->).
      rewrite Hw in Hw'. inversion Hw'; subst w'.
      exists (d * base ^ zlen t + w). rewrite zlen_cons, Z.pow_add_r by (pose proof (zlen_nonneg _ t); lia).
      replace (0 * base + d) with d by lia. split; [assumption|]. lia.
    + exfalso. revert Hw Ev. clear. revert d. 
      assert (G: forall acc1 acc2, value base acc1 t <> None -> value base acc2 t <> None).
      { induction t as [|c t IH]; intros a1 a2; simpl; [congruence|].
        destruct (digit_val c); [|congruence]. destruct (z <? base); [|congruence]. apply IH. }
      intros d Hw Ev. apply (G 0 d) in Ev; [assumption|congruence].
Qed.

Lemma value_shift_intro : forall base t acc w,
  value base 0 t = Some w -> value base acc t = Some (acc * base ^ zlen t + w).
Proof.
  intros base t acc w H.
  destruct (value base acc t) as [v|] eqn:E.
  - destruct (value_shift _ _ _ _ E) as (w' & Hw & ->). congruence.
  - exfalso.
      assert (G: forall acc1 acc2, value base acc1 t <> None -> value base acc2 t <> None).
      { clear. induction t as [|c t IH]; intros a1 a2; simpl; [congruence|].
        destruct (digit_val c); [|congruence]. destruct (z <? base); [|congruence]. apply IH. }
    apply (G 0 acc); congruence.
Qed.

Lemma value_bound : forall base t w, 1 < base ->
  value base 0 t = Some w -> 0 <= w < base ^ zlen t.
Proof.
  intros base t. induction t as [|c t IH]; intros w Hb H; cbn [value length app nth] in *.
  - inversion H; subst. rewrite ?zlen_nil. simpl. lia.
  - destruct (digit_val c) as [d|] eqn:Ed; [|discriminate].
    destruct (d <? base) eqn:El; [|discriminate].
    destruct (value_shift _ _ _ _ H) as (w' & Hw & ->).
    specialize (IH _ Hb Hw). pose proof (digit_val_range _ _ Ed).
    rewrite zlen_cons, Z.pow_add_r by (pose proof (zlen_nonneg _ t); lia).
    rewrite Z.pow_1_r. nia.
Qed.

Lemma value_inj : forall base t1 t2 w, 1 < base ->
  length t1 = length t2 ->
  value base 0 t1 = Some w -> value base 0 t2 = Some w -> t1 = t2.
Proof.
  intros base t1. induction t1 as [|c1 t1 IH]; intros [|c2 t2] w Hb Hl H1 H2; cbn [value length app nth] in *; try discriminate; [reflexivity|].
  destruct (digit_val c1) as [d1|] eqn:E1; [|discriminate].
  destruct (d1 <? base) eqn:L1; [|discriminate].
  destruct (digit_val c2) as [d2|] eqn:E2; [|discriminate].
  destruct (d2 <? base) eqn:L2; [|discriminate].
  destruct (value_shift _ _ _ _ H1) as (w1 & Hw1 & Q1).
  destruct (value_shift _ _ _ _ H2) as (w2 & Hw2 & Q2).
  pose proof (value_bound _ _ _ Hb Hw1). pose proof (value_bound _ _ _ Hb Hw2).
  assert (zlen t1 = zlen t2) by (unfold zlen; lia).
  rewrite H3 in *. cbn [value length app nth] in *.
  assert (d1 = d2) by nia.
  subst d2. assert (c1 = c2) by (eapply digit_val_inj; eauto). subst c2.
  assert (w1 = w2) by lia. subst w2.
  rewrite (IH t2 w1); auto.
Qed.

Lemma lead_nonzero_bound : forall base t w, 1 < base -> 1 <= zlen t ->
  value base 0 t = Some w -> nth 0 t 0 <> 48 -> base ^ (zlen t - 1) <= w.
Proof.
  intros base [|c t] w Hb Hl H Hn; [rewrite zlen_nil in Hl; lia|]. cbn [value length app nth] in *.
  destruct (digit_val c) as [d|] eqn:E; [|discriminate].
  destruct (d <? base) eqn:L; [|discriminate].
  destruct (value_shift _ _ _ _ H) as (w' & Hw & ->).
  pose proof (value_bound _ _ _ Hb Hw).
  assert (1 <= d).
  { pose proof (digit_val_range _ _ E). assert (d <> 0); [|lia]. intros ->. apply Hn.
    apply (digit_val_inj c 48 0 E). reflexivity. }
  rewrite zlen_cons. replace (1 + zlen t - 1) with (zlen t) by lia. nia.
Qed.

Lemma is_numeral_unique : forall base w n t1 t2, 1 < base ->
  is_numeral base w n t1 -> is_numeral base w n t2 -> t1 = t2.
Proof.
  assert (A: forall base w n t1 t2, 1 < base ->
    is_numeral base w n t1 -> is_numeral base w n t2 -> ~ zlen t1 < zlen t2).
  { intros base w n t1 t2 Hb (V1 & L1 & W1 & _) (V2 & L2 & W2 & N2) Hlt.
    specialize (N2 ltac:(lia)).
    pose proof (lead_nonzero_bound _ _ _ Hb L2 V2 N2).
    pose proof (value_bound _ _ _ Hb V1).
    assert (base ^ zlen t1 <= base ^ (zlen t2 - 1)) by (apply Z.pow_le_mono_r; lia).
    lia. }
  intros base w n t1 t2 Hb H1 H2.
  pose proof (A _ _ _ _ _ Hb H1 H2). pose proof (A _ _ _ _ _ Hb H2 H1).
  destruct H1 as (V1 & _), H2 as (V2 & _).
  eapply value_inj; eauto. unfold zlen in *; lia.
Qed.

(* Number of digits is bounded by any exponent that covers the value. *)
Lemma is_numeral_len : forall base w n t k, 1 < base -> 1 <= k ->
  is_numeral base w n t -> n < base ^ k -> zlen t <= Z.max w k.
Proof.
  intros base w n t k Hb Hk (V & L & W & N) Hn.
  destruct (Z_le_gt_dec (zlen t) (Z.max w k)) as [|G]; [assumption|exfalso].
  specialize (N ltac:(lia)).
  pose proof (lead_nonzero_bound _ _ _ Hb L V N).
  assert (base ^ k <= base ^ (zlen t - 1)) by (apply Z.pow_le_mono_r; lia). lia.
Qed.

Lemma value_zeros : forall base k acc, 1 < base ->
  value base acc (repeat 48 k) = Some (acc * base ^ Z.of_nat k).
Proof.
  intros base k. induction k as [|k IH]; intros acc Hb.
  - simpl. f_equal. lia.
  - simpl repeat. simpl value. change (digit_val 48) with (Some 0).
    destruct (0 <? base) eqn:E; [|lia]. rewrite IH by assumption. f_equal.
    replace (Z.of_nat (S k)) with (1 + Z.of_nat k) by lia.
    rewrite Z.pow_add_r by lia. ring.
Qed.

(* Numerals exist. *)
Lemma numeral_exists_fix : forall base k n, 1 < base <= 16 ->
  0 <= n < base ^ Z.of_nat k -> exists t, value base 0 t = Some n /\ zlen t = Z.of_nat k.
Proof.
  intros base k. induction k as [|k IH]; intros n Hb Hn.
  - exists []. cbn [value length app nth] in *. split; [f_equal; lia|reflexivity].
  - replace (Z.of_nat (S k)) with (Z.of_nat k + 1) in Hn by lia.
    rewrite Z.pow_add_r, Z.pow_1_r in Hn by lia.
    destruct (IH (n / base) Hb) as (t & Ht & Hl).
    { split; [apply Z.div_pos; lia|]. apply Z.div_lt_upper_bound; nia. }
    pose proof (Z.mod_pos_bound n base ltac:(lia)).
    assert (D: exists c, digit_val c = Some (n mod base)).
    { exists (if n mod base <? 10 then 48 + n mod base else 55 + n mod base).
      generalize dependent (n mod base). intros m Hm. unfold digit_val.
      destruct (m <? 10) eqn:E.
      - destruct ((48 <=? 48 + m) && (48 + m <=? 57)) eqn:E1; [f_equal; lia|lia].
      - destruct ((48 <=? 55 + m) && (55 + m <=? 57)) eqn:E1; [lia|].
        destruct ((65 <=? 55 + m) && (55 + m <=? 70)) eqn:E2; [f_equal; lia|lia]. }
    destruct D as (c & Hc).
    exists (t ++ [c]). split.
    + rewrite value_app, Ht. simpl. rewrite Hc.
      destruct (n mod base <? base) eqn:E; [|lia]. f_equal.
      pose proof (Z.div_mod n base ltac:(lia)). lia.
    + rewrite zlen_app, Hl, zlen_cons, zlen_nil. lia.
Qed.
