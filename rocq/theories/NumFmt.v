(* Model of the integer formatters of src/include/fn_fmt.h (non-WIN32 branches). *)
From Coq Require Import String ZArith List Bool.
From Verif Require Import Base.
Import ListNotations.
Open Scope Z_scope.

(* Content of a local array that has not been written yet (fn_fmt.h:108). *)
Definition UNINIT : Z := -1.

(* memcpy source operand: [n] bytes of [l] from [off]. *)
Definition slice (l : text) (off n : Z) : outcome text :=
  if (off <? 0) || (n <? 0) || (zlen l <? off + n) then Ub
  else Ret (firstn (Z.to_nat n) (skipn (Z.to_nat off) l)).

(* fn_fmt.h:95-105 *)
Definition dec_lut : text := s2z (
  "00010203040506070809" ++
  "10111213141516171819" ++
  "20212223242526272829" ++
  "30313233343536373839" ++
  "40414243444546474849" ++
  "50515253545556575859" ++
  "60616263646566676869" ++
  "70717273747576777879" ++
  "80818283848586878889" ++
  "90919293949596979899").

(* fn_fmt.h:107 *)
Definition dec_buf_len : Z := 30.

(* fn_fmt.h:112-121, the do-while loop writing two digits per turn. *)
Fixpoint dec_loop (fuel : nat) (buf : text) (write_index number : Z) : outcome (text * Z) :=
  match fuel with
  | O => Fuel
  | S fuel' =>
      let m1 := number / 100 in
      let m2 := number mod 100 in
      let m2 := m2 + m2 in
      let number := m1 in
      let! c1 := rd dec_lut (m2 + 1) in
      let! buf := wr buf (write_index - 1) c1 in
      let! c0 := rd dec_lut m2 in
      let! buf := wr buf (write_index - 2) c0 in
      let write_index := write_index - 2 in
      if number =? 0 then Ret (buf, write_index)
      else dec_loop fuel' buf write_index number
  end.

(* fn_fmt.h:126-130, zero padding up to WIDE. *)
Fixpoint dec_pad (fuel : nat) (wide : Z) (buf : text) (write_index : Z) : outcome (text * Z) :=
  if dec_buf_len - write_index <? wide then
    match fuel with
    | O => Fuel
    | S fuel' =>
        let write_index := write_index - 1 in
        let! buf := wr buf write_index 48 in
        dec_pad fuel' wide buf write_index
    end
  else Ret (buf, write_index).

(* fn_fmt.h:92-133 write_dec_unsafe<WIDE>(char*, unsigned long long).
   [dst]/[off] stand for the destination object and the pointer's offset in it. *)
Definition write_dec_u (wide : Z) (dst : text) (off number : Z) : outcome (text * Z) :=
  let buf := repeat UNINIT (Z.to_nat dec_buf_len) in
  let! (buf, write_index) := dec_loop 16 buf dec_buf_len number in
  let! c := rd buf write_index in
  let write_index := if c =? 48 then write_index + 1 else write_index in
  let! (buf, write_index) := dec_pad 32 wide buf write_index in
  let! bytes := slice buf write_index (dec_buf_len - write_index) in
  let! dst := blit dst off bytes in
  Ret (dst, dec_buf_len - write_index).

(* fn_fmt.h:79-89 write_dec_unsafe<WIDE>(char*, long long); the negation of
   LLONG_MIN overflows. *)
Definition write_dec_s (wide : Z) (dst : text) (off number : Z) : outcome (text * Z) :=
  if number <? 0 then
    let! dst := wr dst off 45 in
    let! number := ll_chk (- number) in
    let! (dst, n) := write_dec_u (wide - 1) dst (off + 1) (u64 number) in
    Ret (dst, 1 + n)
  else write_dec_u wide dst off (u64 number).

(* fn_fmt.h:139-157 *)
Definition hex1_lut : text := s2z "0123456789ABCDEFGHI".
Definition hex_lut : text := s2z (
  "000102030405060708090A0B0C0D0E0F" ++
  "101112131415161718191A1B1C1D1E1F" ++
  "202122232425262728292A2B2C2D2E2F" ++
  "303132333435363738393A3B3C3D3E3F" ++
  "404142434445464748494A4B4C4D4E4F" ++
  "505152535455565758595A5B5C5D5E5F" ++
  "606162636465666768696A6B6C6D6E6F" ++
  "707172737475767778797A7B7C7D7E7F" ++
  "808182838485868788898A8B8C8D8E8F" ++
  "909192939495969798999A9B9C9D9E9F" ++
  "A0A1A2A3A4A5A6A7A8A9AAABACADAEAF" ++
  "B0B1B2B3B4B5B6B7B8B9BABBBCBDBEBF" ++
  "C0C1C2C3C4C5C6C7C8C9CACBCCCDCECF" ++
  "D0D1D2D3D4D5D6D7D8D9DADBDCDDDEDF" ++
  "E0E1E2E3E4E5E6E7E8E9EAEBECEDEEEF" ++
  "F0F1F2F3F4F5F6F7F8F9FAFBFCFDFEFF").

(* fn_fmt.h:163 and 228: sizeof(number)*8 - __builtin_clzll(number);
   __builtin_clzll(0) is undefined. *)
Definition bit_width (number : Z) : outcome Z :=
  if number =? 0 then Ub else Ret (Z.log2 number + 1).

(* fn_fmt.h:199-206 *)
Fixpoint hex_loop (fuel : nat) (dst : text) (off cur_wide number : Z) : outcome (text * Z * Z) :=
  if negb (number =? 0) && (2 <=? cur_wide) then
    match fuel with
    | O => Fuel
    | S fuel' =>
        let m2 := (number mod 256) * 2 in
        let number := number / 256 in
        let! c1 := rd hex_lut (m2 + 1) in
        let! dst := wr dst (off + cur_wide - 1) c1 in
        let! c0 := rd hex_lut m2 in
        let! dst := wr dst (off + cur_wide - 2) c0 in
        hex_loop fuel' dst off (cur_wide - 2) number
    end
  else Ret (dst, cur_wide, number).

(* fn_fmt.h:212-215, [cur] is the value of cur_wide before the test. *)
Fixpoint hex_fill (cur : nat) (dst : text) (off : Z) : outcome text :=
  match cur with
  | O => Ret dst
  | S cur' =>
      let! dst := wr dst (off + Z.of_nat cur') 48 in
      hex_fill cur' dst off
  end.

(* fn_fmt.h:136-217 write_hex_unsafe<WIDE>.  Simplification: the switch of
   lines 175-193 is the function (bits + 3) / 4 it tabulates for 1..64. *)
Definition write_hex (wide : Z) (dst : text) (off number : Z) : outcome (text * Z) :=
  let! bits := bit_width number in
  let real_wide := (bits + 3) / 4 in
  let real_wide := if real_wide <? wide then wide else real_wide in
  let! (dst, cur_wide, number) := hex_loop 16 dst off real_wide number in
  let! (dst, cur_wide) :=
    if negb (number =? 0) then
      let! c := rd hex1_lut (number mod 16) in
      let! dst := wr dst off c in
      Ret (dst, cur_wide - 1)
    else Ret (dst, cur_wide) in
  let! dst := hex_fill (Z.to_nat cur_wide) dst off in
  Ret (dst, real_wide).

(* fn_fmt.h:223-224 *)
Definition bin_lut : text := s2z "0123456789abcdefghijk".

(* fn_fmt.h:239-245 *)
Fixpoint bin_loop (fuel : nat) (dst : text) (off cur_wide number : Z) : outcome text :=
  match fuel with
  | O => Fuel
  | S fuel' =>
      let m2 := number mod 2 in
      let number := number / 2 in
      let! c := rd bin_lut m2 in
      let! dst := wr dst (off + cur_wide - 1) c in
      let cur_wide := cur_wide - 1 in
      if number =? 0 then Ret dst else bin_loop fuel' dst off cur_wide number
  end.

(* fn_fmt.h:220-247 write_bin_unsafe<WIDE> *)
Definition write_bin (wide : Z) (dst : text) (off number : Z) : outcome (text * Z) :=
  let! real_wide := bit_width number in
  let real_wide := if real_wide <? wide then wide else real_wide in
  let! dst := bin_loop 65 dst off real_wide number in
  Ret (dst, real_wide).

(* fn_fmt.h:388-399 write_pointer_unsafe; [ptr] is the address, 0 is nullptr. *)
Definition write_pointer (dst : text) (off ptr : Z) : outcome (text * Z) :=
  if ptr =? 0 then
    let! dst := blit dst off (s2z "null") in
    Ret (dst, 4)
  else
    let! dst := blit dst off (s2z "0x") in
    let! (dst, n) := write_hex 0 dst (off + 2) ptr in
    Ret (dst, 2 + n).
