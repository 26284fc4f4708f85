(* Properties C113 and C114: the text of every double, what it reads as, its order. *)
From Coq Require Import String ZArith List Bool Lia ZifyBool.
From Verif Require Import Base BaseFacts NumSpec DblFmt DblSpec DblProofs Stream StreamSpec StreamProofs StreamUnique
  DblLibc DblLibcSpec DblLibcProofs DblReadProofs DblOrderProofs.
Import ListNotations.
Open Scope Z_scope.

Lemma prints_text : forall d, is_double d -> exists t, dbl_text glibc d t /\ prints glibc d t.
Proof.
  intros d D. destruct (w_dbl glibc d glibc_ok D) as (t & junk & T & L & W). exists t. split; [exact T|]. exists junk. split; [exact L|exact W].
Qed.
Lemma gcvt16_is : forall d, gcvt16 glibc d = g16 d. Proof. intros d. unfold glibc. cbn [gcvt16]. reflexivity. Qed.
Lemma fmt_08lf_is : forall d, fmt_08lf glibc d = f08 d. Proof. intros d. unfold glibc. cbn [fmt_08lf]. reflexivity. Qed.
Lemma g16_text : forall neg m e, gcvt_range m e -> dbl_text glibc (DFin neg m e) (g16 (DFin neg m e)).
Proof. intros neg m e R. rewrite <- gcvt16_is. apply dt_gcvt. exact R. Qed.
Lemma f08_dbl : forall neg m e, fixed_range m e -> dbl_text glibc (DFin neg m e) (firstn 29 (f08 (DFin false m e))).
Proof. intros neg m e R. rewrite <- fmt_08lf_is. apply dt_fixed. exact R. Qed.
Lemma gcvt_normal : forall neg m e, is_double (DFin neg m e) -> gcvt_range m e -> normal m e.
Proof.
  intros neg m e D R. cbn in D. destruct D as [D|D]; [exact D|exfalso]. assert (U : units m e < 2 ^ 52) by (unfold units; destruct D as [D ->]; cbn; lia).
  destruct R as [[R _]|R]; apply (Z.lt_irrefl (units m e)).
  - eapply Z.lt_le_trans; [exact U|exact R].
  - eapply Z.lt_trans; [exact U|]. eapply Z.lt_trans; [|exact R]. reflexivity.
Qed.

(* glibc's texts keep within the bounds the theorems for any libc ask for. *)
Theorem C113_glibc : libc_ok glibc.
Proof. exact glibc_ok. Qed.
Print Assumptions C113_glibc.

(* The largest and the smallest doubles: sixteen digits, correctly rounded, in the
   one form with an exponent. *)
Theorem C113_scientific : forall neg m e, is_double (DFin neg m e) -> gcvt_range m e ->
  exists n k t, sixteen m e n k /\ -380 <= k /\ sci_text neg n k t /\ prints glibc (DFin neg m e) t /\
    (forall n' k' t', -380 <= k' -> sixteen m e n' k' -> sci_text neg n' k' t' -> t' = t).
Proof.
  intros neg m e D R. destruct (prints_text _ D) as (t & T & P).
  assert (TG : t = g16 (DFin neg m e)) by exact (dbl_text_unique glibc (DFin neg m e) t _ T (g16_text neg m e R)). subst t.
  destruct (g16_ok neg m e (gcvt_normal neg m e D R)) as (n & X & XB & S6 & G).
  pose proof (sixteen_range m e n (X - 15) ltac:(lia) S6) as NB. pose proof (sci_ok neg n X NB XB) as ST. rewrite <- G in ST.
  exists n, (X - 15), (g16 (DFin neg m e)). split; [exact S6|]. split; [lia|]. split; [exact ST|]. split; [exact P|].
  intros n' k' t' K' S' ST'. destruct (sixteen_fun m e n (X - 15) n' k' ltac:(lia) K' S6 S') as (<- & <-). exact (sci_fun _ _ _ _ _ ST' ST).
Qed.
Print Assumptions C113_scientific.

(* The exponent is such that %g uses that form (below -4 or at least 16). *)
Theorem C113_form : forall m e n k, gcvt_range m e -> sixteen m e n k -> -380 <= k -> k + 15 <= -8 \/ 18 <= k + 15.
Proof.
  intros m e n k R ([A B] & _) K. unfold gcvt_range in R. fold cA in R. destruct R as [[_ R]|R].
  - left. assert (X : real m e <= cA * T400) by (unfold real; apply Z.mul_le_mono_nonneg_r; [exact (Z.lt_le_incl _ _ T400_pos)|exact R]).
    assert (Y : cA * T400 < u (-7)) by (vm_compute; reflexivity).
    assert (k + 15 < -7) by (apply u_mono_inv; [lia|lia|eapply Z.le_lt_trans; [exact A|eapply Z.le_lt_trans; eassumption]]). lia.
  - right. assert (X : 2 ^ 1134 * T400 <= real m e) by (unfold real; apply Z.mul_le_mono_nonneg_r; [exact (Z.lt_le_incl _ _ T400_pos)|apply Z.lt_le_incl; exact R]).
    assert (Y : u 18 < 2 ^ 1134 * T400) by (vm_compute; reflexivity).
    assert (18 < k + 16) by (apply u_mono_inv; [lia|lia|eapply Z.lt_trans; [exact Y|eapply Z.le_lt_trans; eassumption]]). lia.
Qed.
Print Assumptions C113_form.

(* Between 0.0000001 and 0.0001: eight decimals, correctly rounded, no sign. *)
Theorem C113_fixed : forall neg m e, is_double (DFin neg m e) -> fixed_range m e ->
  exists n t, eight m e n /\ 10 <= n <= 10000 /\ fix_text n t /\ prints glibc (DFin neg m e) t.
Proof.
  intros neg m e D R. destruct (prints_text _ D) as (t & T & P).
  assert (E : -1074 <= e) by (cbn in D; lia). destruct (f08_text m e E R) as (n & N & B & FT).
  assert (TG : t = firstn 29 (f08 (DFin false m e))) by exact (dbl_text_unique glibc (DFin neg m e) t _ T (f08_dbl neg m e R)).
  rewrite (fix_short n _ FT) in TG. subst t. exists n, (f08 (DFin false m e)). auto.
Qed.
Print Assumptions C113_fixed.

(* Reading the text back gives: 0 for a subnormal number; a value within half a unit
   of the sixteenth digit; within half a unit of the eighth decimal; or not more
   than one ten-thousandth below (and not above but for one rounding). *)
Theorem C113_read : forall neg m e, is_double (DFin neg m e) -> exists t v, prints glibc (DFin neg m e) t /\
  read_num t = Some (if neg && negb (fixed_rangeb m e) then - v else v) /\
  (subnormal_range m e -> v = 0) /\
  (gcvt_range m e -> 2 * 10 ^ 15 * Z.abs (v - real m e) <= real m e) /\
  (fixed_range m e -> 2 * Z.abs (v - real m e) <= u (-8)) /\
  (plain_range m e -> real m e < v + u (-4) /\ v * 2 ^ 53 <= real m e * (2 ^ 53 + 1)).
Proof.
  intros neg m e D. destruct (prints_text _ D) as (t & T & P). destruct (shown neg m e t D T) as (v & M & R1 & R2).
  exists t, v. split; [exact P|]. split.
  { destruct (fixed_rangeb m e) eqn:F; [rewrite andb_false_r; apply R1; apply fixed_rangeb_ok; exact F|].
    rewrite andb_true_r. apply R2. intros X. apply fixed_rangeb_ok in X. congruence. }
  pose proof big_order as (O1 & O2 & O3). fold cA in O1, O2. fold cB in O2, O3.
  destruct M as [(R & ->)|[(R & n & k & S & K & ->)|[(R & n & N & ->)|(R & I & F & TR & DC & ->)]]].
  - split; [reflexivity|]. unfold subnormal_range in R. split; [|split].
    + intros X. exfalso. unfold gcvt_range in X. fold cA in X. set (a := 2 ^ 52) in *. set (b := 2 ^ 1134) in *. clearbody a b. generalize dependent cA. generalize dependent cB. intros. lia.
    + intros [X _]. exfalso. fold cA in X. set (a := 2 ^ 52) in *. clearbody a. generalize dependent cA. intros. lia.
    + intros X. exfalso. destruct (plain_units m e X) as [Y _]. fold cB in Y. set (a := 2 ^ 52) in *. clearbody a. generalize dependent cA. generalize dependent cB. intros. lia.
  - unfold gcvt_range in R. fold cA in R. split; [|split; [|split]].
    + intros X. exfalso. unfold subnormal_range in X. set (a := 2 ^ 52) in *. set (b := 2 ^ 1134) in *. clearbody a b. generalize dependent cA. generalize dependent cB. intros. lia.
    + intros _. exact (meas_gcvt_near m e n k K S).
    + intros [X Y]. exfalso. fold cA in X. fold cB in Y. set (b := 2 ^ 1134) in *. clearbody b. generalize dependent cA. generalize dependent cB. intros. lia.
    + intros X. exfalso. destruct (plain_units m e X) as [Y Y2]. fold cB in Y. set (b := 2 ^ 1134) in *. clearbody b. generalize dependent cA. generalize dependent cB. intros. lia.
  - pose proof R as [X Y]. fold cA in X. fold cB in Y. split; [|split; [|split]].
    + intros Z. exfalso. unfold subnormal_range in Z. set (a := 2 ^ 52) in *. clearbody a. generalize dependent cA. intros. lia.
    + intros Z. exfalso. unfold gcvt_range in Z. fold cA in Z. set (b := 2 ^ 1134) in *. clearbody b. generalize dependent cA. generalize dependent cB. intros. lia.
    + intros _. exact (proj1 N).
    + intros Z. exfalso. destruct (plain_units m e Z) as [Y1 _]. fold cB in Y1. generalize dependent cB. intros. lia.
  - destruct (plain_units m e R) as [Y Y2]. fold cB in Y. split; [|split; [|split]].
    + intros Z. exfalso. unfold subnormal_range in Z. set (a := 2 ^ 52) in *. clearbody a. generalize dependent cA. generalize dependent cB. intros. lia.
    + intros Z. exfalso. unfold gcvt_range in Z. fold cA in Z. set (b := 2 ^ 1134) in *. clearbody b. generalize dependent cA. generalize dependent cB. intros. lia.
    + intros [_ Z]. exfalso. fold cB in Z. generalize dependent cB. intros. lia.
    + intros _. exact (meas_plain_near m e I F R TR).
Qed.
Print Assumptions C113_read.

(* 2^1023, 2^-1022, 2^60 + 256, and a number that is rounded up to a power of ten *)
Example C113_texts :
  prints glibc (DFin true (2 ^ 52) 971) (s2z "-8.98846567431158e+307") /\ prints glibc (DFin false (2 ^ 52) (-1074)) (s2z "2.225073858507201e-308") /\
  prints glibc (DFin false (2 ^ 52 + 1) 8) (s2z "1.152921504606847e+18") /\ prints glibc (DFin false 7555786372591432 (-76)) (s2z "1e-07") /\
  prints glibc (DFin true 7378697629483820 (-67)) (s2z "0.00005000").
Proof.
  assert (H : forall d t, is_double d -> dbl_text glibc d t -> prints glibc d t).
  { intros d t D T. destruct (prints_text d D) as (t' & T' & P). rewrite (dbl_text_unique glibc d t t' T T'). exact P. }
  split; [|split; [|split; [|split]]]; (apply H; [cbn; lia|]).
  - replace (s2z "-8.98846567431158e+307") with (g16 (DFin true (2 ^ 52) 971)) by (vm_compute; reflexivity). apply g16_text. right. reflexivity.
  - replace (s2z "2.225073858507201e-308") with (g16 (DFin false (2 ^ 52) (-1074))) by (vm_compute; reflexivity). apply g16_text. left. split; apply Z.leb_le; vm_compute; reflexivity.
  - replace (s2z "1.152921504606847e+18") with (g16 (DFin false (2 ^ 52 + 1) 8)) by (vm_compute; reflexivity). apply g16_text. right. reflexivity.
  - replace (s2z "1e-07") with (g16 (DFin false 7555786372591432 (-76))) by (vm_compute; reflexivity). apply g16_text. left. split; apply Z.leb_le; vm_compute; reflexivity.
  - replace (s2z "0.00005000") with (firstn 29 (f08 (DFin false 7378697629483820 (-67)))) by (vm_compute; reflexivity). apply f08_dbl. split; reflexivity.
Qed.
Example C113_read_ex : read_num (s2z "-8.98846567431158e+307") = Some (- (898846567431158 * u 293)) /\ read_num (s2z "1e-07") = Some (u (-7)) /\
  read_num (s2z "0.00005000") = Some (5000 * u (-8)) /\ read_num (s2z "-3.14") = Some (- (314 * u (-2))).
Proof. split; [|split; [|split]]; vm_compute; reflexivity. Qed.

(* ---- C114 ---- *)
(* Of two numbers the larger is never shown as the smaller, in whatever forms they are
   shown, if neither is a negative number whose sign is not written. *)
Theorem C114_order_partial : forall d d' x x', is_double d -> is_double d' -> signed d = Some x -> signed d' = Some x' ->
  sign_written d -> sign_written d' -> x <= x' ->
  exists t t' v v', prints glibc d t /\ prints glibc d' t' /\ read_num t = Some v /\ read_num t' = Some v' /\ v <= v'.
Proof.
  assert (G : forall d x, is_double d -> signed d = Some x -> sign_written d ->
    exists t v y, prints glibc d t /\ read_num t = Some (if negative d then - v else v) /\ x = (if negative d then - y else y) /\ 0 <= y /\ exists m e, y = units m e /\ meas m e v).
  { intros d x D S N. destruct (prints_text d D) as (t & T & P). destruct d as [s|s| |s m e]; cbn in S; try discriminate; injection S as <-.
    - exists t, 0, 0. split; [exact P|]. split; [inversion T; subst; destruct s; vm_compute; reflexivity|]. split; [destruct s; reflexivity|]. split; [lia|].
      exists 0, (-1074). split; [reflexivity|]. left. split; [unfold subnormal_range, units; reflexivity|reflexivity].
    - destruct (shown s m e t D T) as (v & M & R1 & R2). exists t, v, (units m e). split; [exact P|]. split.
      + cbn [negative]. destruct (fixed_rangeb m e) eqn:F; [|apply R2; intros X; apply fixed_rangeb_ok in X; congruence].
        apply fixed_rangeb_ok in F. rewrite (R1 F). destruct s; [exfalso; exact (N m e eq_refl F)|reflexivity].
      + cbn [negative]. split; [destruct s; reflexivity|]. split; [|exists m, e; auto].
        unfold units. cbn in D. apply Z.mul_nonneg_nonneg; [lia|]. apply Z.pow_nonneg. lia. }
  intros d d' x x' D D' S S' N N' L. destruct (G d x D S N) as (t & v & y & P & R & X & Y & m & e & U & M).
  destruct (G d' x' D' S' N') as (t' & v' & y' & P' & R' & X' & Y' & m' & e' & U' & M').
  exists t, t', (if negative d then - v else v), (if negative d' then - v' else v'). split; [exact P|]. split; [exact P'|]. split; [exact R|]. split; [exact R'|].
  pose proof (meas_pos _ _ _ M) as V0. pose proof (meas_pos _ _ _ M') as V0'. destruct (negative d), (negative d').
  - assert (O : y' <= y) by lia. rewrite U, U' in O. pose proof (meas_order m' e' v' m e v O M' M). lia.
  - lia.
  - assert (y = 0 /\ y' = 0) as (-> & ->) by lia.
    assert (Z0 : meas 0 (-1074) 0) by (left; split; [unfold subnormal_range, units; reflexivity|reflexivity]).
    assert (O : units m e <= units 0 (-1074)) by (rewrite <- U; change (units 0 (-1074)) with 0; lia).
    assert (O' : units m' e' <= units 0 (-1074)) by (rewrite <- U'; change (units 0 (-1074)) with 0; lia).
    pose proof (meas_order m e v 0 (-1074) 0 O M Z0).
    pose proof (meas_order m' e' v' 0 (-1074) 0 O' M' Z0). lia.
  - assert (O : y <= y') by lia. rewrite U, U' in O. exact (meas_order m e v m' e' v' O M M').
Qed.
Print Assumptions C114_order_partial.
Example C114_order_ex : is_double (DFin false 7378697629483820 (-66)) /\ is_double (DFin false 7378697629483821 (-66)) /\
  units 7378697629483820 (-66) <= units 7378697629483821 (-66) /\ fixed_range 7378697629483820 (-66) /\ plain_range 7378697629483821 (-66).
Proof.
  split; [cbn; lia|]. split; [cbn; lia|]. split; [apply Z.leb_le; vm_compute; reflexivity|]. split; [split; reflexivity|]. unfold plain_range. lia.
Qed.
Example C114_order_hypotheses : signed (DFin true 5 60) = Some (- units 5 60) /\ sign_written (DFin true 5 60) /\ sign_written (DFin false 7378697629483820 (-67)) /\
  ~ sign_written (DFin true 7378697629483820 (-67)).
Proof.
  split; [reflexivity|]. split; [|split].
  - intros m e E [_ H]. injection E as <- <-. revert H. apply Z.le_ngt. apply Z.leb_le. vm_compute. reflexivity.
  - intros m e E. discriminate E.
  - intros H. apply (H _ _ eq_refl). split; reflexivity.
Qed.
(* With a sign it is false: -0.00005 is shown as 0.00005000, which is more than 0. *)
Theorem C114_order_refuted : exists d d' t t' v v', is_double d /\ is_double d' /\ negative d = true /\ size d' = Some 0 /\
  prints glibc d t /\ prints glibc d' t' /\ read_num t = Some v /\ read_num t' = Some v' /\ v' < v.
Proof.
  exists (DFin true 7378697629483820 (-67)), (DZero false), (s2z "0.00005000"), (s2z "0"), (5000 * u (-8)), 0.
  split; [cbn; lia|]. split; [exact I|]. split; [reflexivity|]. split; [reflexivity|].
  split; [exact (proj2 (proj2 (proj2 (proj2 C113_texts))))|].
  split; [|split; [exact (proj1 (proj2 (proj2 C113_read_ex)))|split; [vm_compute; reflexivity|reflexivity]]].
  destruct (prints_text (DZero false) I) as (t & T & P). inversion T; subst. exact P.
Qed.
Print Assumptions C114_order_refuted.

(* ---- C62 with glibc ---- *)
(* Outside that range the sign is written exactly for the negative numbers, and inside
   it never: both have the same text. *)
Theorem C62_exact : forall neg m e, is_double (DFin neg m e) -> ~ subnormal_range m e ->
  exists t, prints glibc (DFin neg m e) t /\ (hd 0 t = 45 <-> neg = true /\ ~ fixed_range m e) /\
    (fixed_range m e -> prints glibc (DFin (negb neg) m e) t).
Proof.
  intros neg m e D NS. destruct (prints_text _ D) as (t & T & P). exists t. split; [exact P|].
  assert (DN : is_double (DFin (negb neg) m e)) by exact D.
  assert (SAME : fixed_range m e -> t = firstn 29 (f08 (DFin false m e))) by (intros F; exact (dbl_text_unique glibc (DFin neg m e) t _ T (f08_dbl neg m e F))).
  assert (E : -1074 <= e) by (cbn in D; lia).
  split.
  - destruct (fixed_rangeb m e) eqn:FB.
    + apply fixed_rangeb_ok in FB. split; [|intros (_ & X); contradiction]. intros H. exfalso.
      destruct (f08_text m e E FB) as (n & _ & _ & FT). rewrite (SAME FB), (fix_short n _ FT) in H. destruct FT as (g & FE & _). rewrite FE in H. discriminate H.
    + assert (NF : ~ fixed_range m e) by (intros X; apply fixed_rangeb_ok in X; congruence).
      transitivity (neg = true); [|tauto]. inversion T; subst; try contradiction.
      * match goal with H : is_dbl_text neg _ _ _ |- _ => exact (dbl_text_sign _ _ _ _ H) end.
      * rewrite gcvt16_is. match goal with G : gcvt_range m e |- _ => destruct (g16_ok neg m e (gcvt_normal neg m e D G)) as (n & X & XB & S6 & GG); pose proof (sixteen_range m e n (X - 15) ltac:(lia) S6) as NB; pose proof (sci_ok neg n X NB XB) as ST end.
        rewrite GG. destruct ST as (d0 & f & X0 & ex & D0 & -> & V & _). unfold minus. destruct neg; [cbn; tauto|]. cbn. split; [|discriminate]. intros ->. cbn in V. discriminate V.
  - intros F. destruct (prints_text _ DN) as (t' & T' & P'). rewrite (SAME F). rewrite (dbl_text_unique glibc (DFin (negb neg) m e) t' _ T' (f08_dbl (negb neg) m e F)) in P'. exact P'.
Qed.
Print Assumptions C62_exact.
Example C62_exact_hypotheses : ~ subnormal_range 7378697629483820 (-67) /\ fixed_range 7378697629483820 (-67) /\ ~ subnormal_range (2 ^ 52) 971 /\ ~ fixed_range (2 ^ 52) 971.
Proof.
  split; [intros H; revert H; apply Z.le_ngt; apply Z.leb_le; vm_compute; reflexivity|]. split; [split; reflexivity|].
  split; [intros H; revert H; apply Z.le_ngt; apply Z.leb_le; vm_compute; reflexivity|]. intros [_ H]. revert H. apply Z.le_ngt. apply Z.leb_le. vm_compute. reflexivity.
Qed.
