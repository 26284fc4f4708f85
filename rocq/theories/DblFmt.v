(* Model of write_double_unsafe / write_float_unsafe (src/include/fn_fmt.h:249-317). *)
From Coq Require Import String ZArith List Bool.
From Verif Require Import Base NumFmt.
Import ListNotations.
Open Scope Z_scope.

(* An IEEE double (or float): DFin s m e is (-1)^s * m * 2^e with m > 0. *)
Inductive dbl :=
| DZero (neg : bool)
| DInf (neg : bool)
| DNan
| DFin (neg : bool) (m e : Z).

(* libc conversions used for very small and very large values: gcvt with 16
   digits and printf's %.08lf.  Their text is a parameter of the model. *)
Record libc := mkLibc { gcvt16 : dbl -> text; fmt_08lf : dbl -> text }.

(* m1 * 2^e1 < m2 * 2^e2 for non-negative m *)
Definition dlt (m1 e1 m2 e2 : Z) : bool :=
  let e := Z.min e1 e2 in m1 * 2 ^ (e1 - e) <? m2 * 2 ^ (e2 - e).

(* the double constants of lines 272 and 274: 0.0001, 0.0000001 and
   0xFFFFFFFFFFFFFFF, which converts to 2^60 *)
Definition c_1em4 : Z * Z := (7378697629483821, -66).
Definition c_1em7 : Z * Z := (7555786372591432, -76).
Definition c_2p60 : Z * Z := (1, 60).

(* round p / 2^k to nearest, ties to even *)
Definition round_even (p k : Z) : Z :=
  let q := p / 2 ^ k in
  let r := p mod 2 ^ k in
  if 2 * r <? 2 ^ k then q
  else if 2 ^ k <? 2 * r then q + 1
  else if q mod 2 =? 0 then q else q + 1.

(* IEEE product of f * 2^e (0 < f < 2^53) and the integer n, as a pair (q, e');
   no overflow or subnormal result occurs for the operands of line 294. *)
Definition dmul_int (f e n : Z) : Z * Z :=
  let p := f * n in
  let k := Z.max 0 (Z.log2 p + 1 - 53) in
  (round_even p k, e + k).

(* conversion of q * 2^e to unsigned long long: truncation *)
Definition trunc (q e : Z) : Z := if 0 <=? e then q * 2 ^ e else q / 2 ^ (- e).

(* modf of m * 2^e: integral part as an integer, fraction as f * 2^e *)
Definition modf_int (m e : Z) : Z := if 0 <=? e then m * 2 ^ e else m / 2 ^ (- e).
Definition modf_frac (m e : Z) : Z := if 0 <=? e then 0 else m mod 2 ^ (- e).

(* fn_fmt.h:300-308; [i] is the loop index relative to dst, [low] the bound *)
Fixpoint trim_zeros (fuel : nat) (dst : text) (off i low fo : Z) : outcome Z :=
  match fuel with
  | O => Fuel
  | S fuel' =>
      if low <? i then
        let! c := rd dst (off + i) in
        if c =? 48 then trim_zeros fuel' dst off (i - 1) low (fo - 1)
        else Ret fo
      else Ret fo
  end.

(* fn_fmt.h:249-312 *)
Definition write_double (L : libc) (dst : text) (off : Z) (number : dbl) : outcome (text * Z) :=
  match number with
  | DZero _ => let! dst := wr dst off 48 in Ret (dst, 1)
  | DInf _ => let! dst := blit dst off (s2z "inf") in Ret (dst, 3)
  | DNan => let! dst := blit dst off (s2z "nan") in Ret (dst, 3)
  | DFin neg m e =>
      if dlt m e 1 (-1022) then  (* FP_SUBNORMAL *)
        let! dst := wr dst off 48 in Ret (dst, 1)
      else if dlt m e (fst c_1em4) (snd c_1em4) || dlt (fst c_2p60) (snd c_2p60) m e then
        let s := if dlt m e (fst c_1em4) (snd c_1em4) && dlt (fst c_1em7) (snd c_1em7) m e
                 then firstn 29 (fmt_08lf L (DFin false m e))
                 else gcvt16 L (DFin neg m e) in
        let! dst := blit dst off (s ++ [0]) in
        Ret (dst, zlen s)
      else
        let! dst := if neg then wr dst off 45 else Ret dst in
        let neg_offset := if neg then 1 else 0 in
        let f := modf_frac m e in
        let '(q, e') := dmul_int f e 10000 in
        let fractpart := if f =? 0 then 0 else trunc q e' in
        let! (dst, base_offset) := write_dec_u 0 dst (off + neg_offset) (modf_int m e) in
        if 0 <? fractpart then
          let! dst := wr dst (off + neg_offset + base_offset) 46 in
          let! (dst, n) := write_dec_u 4 dst (off + neg_offset + base_offset + 1) fractpart in
          let fo := 1 + n in
          let! fo := trim_zeros 40 dst off (neg_offset + base_offset + fo - 1) (neg_offset + base_offset + 2) fo in
          Ret (dst, neg_offset + base_offset + fo)
        else Ret (dst, neg_offset + base_offset)
  end.

(* fn_fmt.h:314-317; a float converts to double exactly *)
Definition write_float := write_double.
