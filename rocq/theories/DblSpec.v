(* What the printed form of a floating point number should be. *)
From Coq Require Import String ZArith List Bool.
From Verif Require Import Base NumSpec.
Import ListNotations.
Open Scope Z_scope.

(* A double m * 2^e in the range 0.0001 <= x <= 2^60 (53-bit significand;
   7378697629483821 * 2^-66 is the double 0.0001). *)
Definition plain_range (m e : Z) : Prop :=
  2 ^ 52 <= m < 2 ^ 53 /\ -66 <= e <= 8 /\
  (e = -66 -> 7378697629483821 <= m) /\ (e = 8 -> m = 2 ^ 52).

(* [I].[F] with F in ten-thousandths: no point when F = 0, otherwise four
   decimals from which up to two trailing zeros are dropped. *)
Definition is_dbl_text (neg : bool) (I F : Z) (t : text) : Prop :=
  exists ti, is_numeral 10 0 I ti /\
  ((F = 0 /\ t = (if neg then [45] else []) ++ ti) \/
   (exists ds zs, 0 < F /\ is_numeral 10 4 F (ds ++ zs) /\ zlen (ds ++ zs) = 4 /\
      Forall (eq 48) zs /\ 2 <= zlen ds /\ (2 < zlen ds -> last ds 48 <> 48) /\
      t = (if neg then [45] else []) ++ ti ++ [46] ++ ds)).

(* I.F is x = m * 2^e truncated to four decimals, up to the rounding of one
   double operation (relative 2^-53).  Both sides are scaled by 2^66. *)
Definition truncates (m e I F : Z) : Prop :=
  let x := m * 2 ^ (e + 66) in
  0 <= F < 10000 /\
  I * 2 ^ 66 <= x < (I + 1) * 2 ^ 66 /\
  10000 * x < (10000 * I + F + 1) * 2 ^ 66 /\
  (10000 * I + F) * 2 ^ 66 * 2 ^ 53 <= 10000 * x * (2 ^ 53 + 1).

(* [y] is the double nearest to the integer p >= 0, ties to even *)
Definition nearest (p y : Z) : Prop :=
  exists q k, y = q * 2 ^ k /\ 0 <= k /\ ((k = 0 /\ 0 <= p < 2 ^ 53) \/ 2 ^ (52 + k) <= p < 2 ^ (53 + k)) /\
    2 * Z.abs (y - p) <= 2 ^ k /\ (2 * Z.abs (y - p) = 2 ^ k -> Z.even q = true).
(* Exactly: I is the integral part of x, F the integral part of the double
   nearest to 10000 times the fraction g.  All values scaled by 2^66. *)
Definition decimals (m e I F : Z) : Prop :=
  exists g y, m * 2 ^ (e + 66) = I * 2 ^ 66 + g /\ 0 <= g < 2 ^ 66 /\
    nearest (10000 * g) y /\ F * 2 ^ 66 <= y < (F + 1) * 2 ^ 66.

(* The ranges in which x does not look like that, in units of the smallest
   double: 7555786372591432 * 2^-76 is the double 0.0000001. *)
Definition units (m e : Z) : Z := m * 2 ^ (e + 1074).
Definition subnormal_range (m e : Z) : Prop := units m e < 2 ^ 52.
Definition fixed_range (m e : Z) : Prop := 7555786372591432 * 2 ^ 998 < units m e < 7378697629483821 * 2 ^ 1008.
Definition gcvt_range (m e : Z) : Prop := 2 ^ 52 <= units m e <= 7555786372591432 * 2 ^ 998 \/ 2 ^ 1134 < units m e.
