(* Property theorems C07-C10: integer and pointer text. *)
From Coq Require Import String ZArith List Bool.
From Verif Require Import Base NumFmt NumSpec NumFmtProofs.
Import ListNotations.
Open Scope Z_scope.

(* C07.  For every 64-bit value and width there is a numeral (at most 20 digits
   or the width), and the call replaces exactly that many bytes by it. *)
Theorem C07_unsigned_decimal : forall wide n, is_u64 n -> wide <= 30 ->
  (exists t, is_numeral 10 wide n t /\ zlen t <= Z.max wide 20) /\
  forall t pre old post,
    is_numeral 10 wide n t -> zlen old = zlen t ->
    write_dec_u wide (pre ++ old ++ post) (zlen pre) n = Ret (pre ++ t ++ post, zlen t).
Proof. exact write_dec_u_correct. Qed.
Print Assumptions C07_unsigned_decimal.

(* hypotheses met: 2^64-1 at width 4, inside a larger buffer *)
Example C07_example :
  is_u64 18446744073709551615 /\
  is_numeral 10 4 18446744073709551615 (s2z "18446744073709551615") /\
  write_dec_u 4 (s2z "<" ++ repeat 0 20 ++ s2z ">") 1 18446744073709551615
    = Ret (s2z "<18446744073709551615>", 20) /\
  write_dec_u 4 (s2z "____") 0 7 = Ret (s2z "0007", 4).
Proof.
  repeat split; try (vm_compute; congruence); try (vm_compute; reflexivity).
Qed.

(* C08, all values but LLONG_MIN.  Missing: LLONG_MIN, refuted below. *)
Theorem C08_signed_decimal_partial : forall wide n, is_ll n -> n <> LLONG_MIN -> wide <= 30 ->
  forall t pre old post,
    is_numeral 10 (if n <? 0 then wide - 1 else wide) (Z.abs n) t ->
    zlen old = zlen (if n <? 0 then 45 :: t else t) ->
    write_dec_s wide (pre ++ old ++ post) (zlen pre) n =
      Ret (pre ++ (if n <? 0 then 45 :: t else t) ++ post, zlen (if n <? 0 then 45 :: t else t)).
Proof. exact write_dec_s_correct. Qed.
Print Assumptions C08_signed_decimal_partial.

Example C08_example :
  is_ll (-9223372036854775807) /\
  write_dec_s 0 (repeat 0 22) 1 (-9223372036854775807)
    = Ret ([0] ++ s2z "-9223372036854775807" ++ [0], 20) /\
  write_dec_s 5 (repeat 0 5) 0 (-42) = Ret (s2z "-0042", 5).
Proof. repeat split; vm_compute; congruence. Qed.

(* C08 is false at LLONG_MIN: the negation overflows (undefined behaviour) in
   any buffer with room. *)
Theorem C08_signed_decimal_refuted : exists n, is_ll n /\
  forall wide pre o post, write_dec_s wide (pre ++ o :: post) (zlen pre) n = Ub.
Proof. exists LLONG_MIN. split; [split; vm_compute; congruence | exact write_dec_s_min]. Qed.
Print Assumptions C08_signed_decimal_refuted.

(* C09 for non-zero numbers.  Missing: number 0, refuted below. *)
Theorem C09_hex_partial : forall wide n, 0 < n < 2 ^ 64 ->
  (exists t, is_numeral 16 wide n t /\ zlen t <= Z.max wide 16) /\
  forall t pre old post, is_numeral 16 wide n t -> zlen old = zlen t ->
    write_hex wide (pre ++ old ++ post) (zlen pre) n = Ret (pre ++ t ++ post, zlen t).
Proof. exact write_hex_correct. Qed.
Print Assumptions C09_hex_partial.

Example C09_example :
  write_hex 2 (repeat 0 2) 0 10 = Ret (s2z "0A", 2) /\
  write_hex 0 (repeat 0 18) 1 (2 ^ 64 - 1) = Ret ([0] ++ s2z "FFFFFFFFFFFFFFFF" ++ [0], 16) /\
  write_hex 7 (repeat 0 7) 0 4660 = Ret (s2z "0001234", 7).
Proof. repeat split; vm_compute; congruence. Qed.

(* The pointer part of C09 is complete: nullptr takes its own branch. *)
Theorem C09_pointer : 
  (forall pre old post, zlen old = 4 ->
    write_pointer (pre ++ old ++ post) (zlen pre) 0 = Ret (pre ++ s2z "null" ++ post, 4)) /\
  (forall p, 0 < p < 2 ^ 64 -> forall t pre old post,
    is_numeral 16 0 p t -> zlen old = 2 + zlen t ->
    write_pointer (pre ++ old ++ post) (zlen pre) p
      = Ret (pre ++ s2z "0x" ++ t ++ post, 2 + zlen t)).
Proof. exact (conj write_pointer_null write_pointer_correct). Qed.
Print Assumptions C09_pointer.

Example C09_pointer_example :
  write_pointer (repeat 0 30) 0 (140737488355328 + 255) = Ret (s2z "0x8000000000FF" ++ repeat 0 16, 14).
Proof. vm_compute. reflexivity. Qed.

(* C09 is false at 0: __builtin_clzll(0) is undefined. *)
Theorem C09_hex_refuted : exists n, is_u64 n /\ forall wide dst off, write_hex wide dst off n = Ub.
Proof. exists 0. split; [split; vm_compute; congruence | exact write_hex_zero]. Qed.
Print Assumptions C09_hex_refuted.

(* C10 with what actually happens for every non-zero number: digits are
   right-aligned and the padding bytes keep their old content; with
   wide <= number of digits the padding is empty and the output is exact.
   Missing: padding with '0' and number 0, both refuted below. *)
Theorem C10_binary_partial : forall wide n, 0 < n < 2 ^ 64 ->
  forall t, is_numeral 2 0 n t ->
  forall pre stale old post,
    zlen old = zlen t -> zlen stale = Z.max 0 (wide - zlen t) ->
    write_bin wide (pre ++ stale ++ old ++ post) (zlen pre) n =
      Ret (pre ++ stale ++ t ++ post, Z.max wide (zlen t)).
Proof. exact write_bin_general. Qed.
Print Assumptions C10_binary_partial.

Example C10_example :
  is_numeral 2 0 10 (s2z "1010") /\ write_bin 0 (repeat 0 6) 1 10 = Ret ([0] ++ s2z "1010" ++ [0], 4).
Proof. repeat split; vm_compute; congruence. Qed.

(* C10 is false: width 8 for 10 leaves four bytes of the old buffer content. *)
Theorem C10_binary_refuted : exists wide n dst r,
  0 < n < 2 ^ 64 /\ zlen dst = wide /\
  write_bin wide dst 0 n = Ret (r, wide) /\ ~ is_numeral 2 wide n r.
Proof.
  exists 8, 10, (s2z "????????"), (s2z "????1010").
  repeat split; try (vm_compute; congruence).
  intros (V & _). vm_compute in V. discriminate.
Qed.
Print Assumptions C10_binary_refuted.
