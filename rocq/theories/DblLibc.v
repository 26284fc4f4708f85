(* The libc conversions that write_double_unsafe calls for very small and very
   large doubles (fn_fmt.h:276, 280), as glibc computes them: gcvt with 16 digits is
   sprintf with %.16g; both conversions round the exact value to nearest, ties to
   even.  The exponents that occur here (C113_form) make %g choose the form with
   an exponent, so only that form is written down. *)
From Coq Require Import String ZArith List Bool.
From Verif Require Import Base DblFmt.
Import ListNotations.
Open Scope Z_scope.

(* p / q rounded to nearest, ties to even *)
Definition near_even (p q : Z) : Z :=
  let d := p / q in
  let r := p mod q in
  if 2 * r <? q then d else if q <? 2 * r then d + 1 else if Z.even d then d else d + 1.

(* p / q = p' / q' * 10^(X' - X) with 1 <= p' / q' < 10 *)
Fixpoint dec_exp (fuel : nat) (p q X : Z) : Z * Z * Z :=
  match fuel with
  | O => (p, q, X)
  | S fuel' =>
      if p <? q then dec_exp fuel' (10 * p) q (X - 1)
      else if 10 * q <=? p then dec_exp fuel' p (10 * q) (X + 1)
      else (p, q, X)
  end.

(* the last [w] decimal digits of [n] *)
Fixpoint digits (w : nat) (n : Z) : text :=
  match w with O => [] | S w' => digits w' (n / 10) ++ [48 + n mod 10] end.
Fixpoint drop0 (t : text) : text :=
  match t with c :: t' => if c =? 48 then drop0 t' else t | [] => [] end.
(* without trailing zeros *)
Definition trim (t : text) : text := rev (drop0 (rev t)).

(* %.16g of n * 10^(X-15), 10^15 <= n <= 10^16, in the form with an exponent *)
Definition sci (neg : bool) (n X : Z) : text :=
  let '(n, X) := if n =? 10 ^ 16 then (10 ^ 15, X + 1) else (n, X) in
  let ds := digits 16 n in
  (if neg then [45] else []) ++ firstn 1 ds ++
  match trim (skipn 1 ds) with [] => [] | f => 46 :: f end ++
  [101; if X <? 0 then 45 else 43] ++ digits (if Z.abs X <? 100 then 2 else 3) (Z.abs X).

Definition g16 (d : dbl) : text :=
  match d with
  | DFin neg m e =>
      let '(p, q, X) := dec_exp 400 (m * 2 ^ Z.max 0 e) (2 ^ Z.max 0 (- e)) 0 in
      sci neg (near_even (p * 10 ^ 15) q) X
  | DZero neg => if neg then s2z "-0" else s2z "0"
  | DInf neg => if neg then s2z "-inf" else s2z "inf"
  | DNan => s2z "nan"
  end.
(* %.08lf of a value below 9.5 *)
Definition f08 (d : dbl) : text :=
  match d with
  | DFin neg m e =>
      let n := near_even (m * 2 ^ Z.max 0 e * 10 ^ 8) (2 ^ Z.max 0 (- e)) in
      (if neg then [45] else []) ++ digits 1 (n / 10 ^ 8) ++ [46] ++ digits 8 n
  | DZero neg => (if neg then [45] else []) ++ s2z "0.00000000"
  | DInf neg => if neg then s2z "-inf" else s2z "inf"
  | DNan => s2z "nan"
  end.
Definition glibc : libc := mkLibc g16 f08.
