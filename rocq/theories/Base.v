(* Outcomes, bytes and buffers shared by all models.
   Nothing in this file models a particular source line; it fixes how C++
   arrays, undefined behaviour and unbounded loops are represented. *)
From Coq Require Import String Ascii ZArith List Bool Lia.
Import ListNotations.
Open Scope Z_scope.

(* Result of running a piece of C++: a value, undefined behaviour, or a loop
   that has not finished within the given fuel. *)
Inductive outcome (A : Type) : Type :=
| Ret (a : A)
| Ub
| Fuel.
Arguments Ret {A} a.
Arguments Ub {A}.
Arguments Fuel {A}.

Definition bind {A B : Type} (m : outcome A) (f : A -> outcome B) : outcome B :=
  match m with
  | Ret a => f a
  | Ub => Ub
  | Fuel => Fuel
  end.

Notation "'let!' x ':=' m 'in' k" := (bind m (fun x => k))
  (at level 200, x pattern, m at level 100, k at level 200, right associativity).

(* Bytes are integers 0..255; text literals are written as strings. *)
Definition byte := Z.
Definition text := list Z.

Definition is_byte (c : Z) : Prop := 0 <= c <= 255.

Fixpoint s2z (s : string) : text :=
  match s with
  | EmptyString => []
  | String a s' => Z.of_N (N_of_ascii a) :: s2z s'
  end.

Definition zlen {A : Type} (l : list A) : Z := Z.of_nat (length l).
Global Arguments zlen : simpl never.

(* Array read: outside the array is undefined behaviour. *)
Definition rd {A : Type} (l : list A) (i : Z) : outcome A :=
  if i <? 0 then Ub
  else match nth_error l (Z.to_nat i) with
       | Some v => Ret v
       | None => Ub
       end.

(* memcpy of [bs] to position [off] of the array [l]. *)
Definition blit {A : Type} (l : list A) (off : Z) (bs : list A) : outcome (list A) :=
  if (off <? 0) || (zlen l <? off + zlen bs) then Ub
  else Ret (firstn (Z.to_nat off) l ++ bs ++ skipn (Z.to_nat (off + zlen bs)) l).

(* Array write of one element. *)
Definition wr {A : Type} (l : list A) (i : Z) (v : A) : outcome (list A) :=
  blit l i [v].

(* C++ machine integer ranges. *)
Definition LLONG_MIN : Z := - 2 ^ 63.
Definition LLONG_MAX : Z := 2 ^ 63 - 1.
Definition INT_MIN : Z := - 2 ^ 31.
Definition INT_MAX : Z := 2 ^ 31 - 1.
Definition is_ll (z : Z) : Prop := LLONG_MIN <= z <= LLONG_MAX.
Definition is_int (z : Z) : Prop := INT_MIN <= z <= INT_MAX.
Definition is_u64 (z : Z) : Prop := 0 <= z < 2 ^ 64.

(* Conversions to unsigned types reduce modulo the width. *)
Definition u64 (z : Z) : Z := z mod 2 ^ 64.
Definition u32 (z : Z) : Z := z mod 2 ^ 32.
(* Conversion to a signed 64-bit / 32-bit type (two's complement, as on every
   compiler the project supports). *)
Definition ll_of (z : Z) : Z := (z + 2 ^ 63) mod 2 ^ 64 - 2 ^ 63.
Definition int_of (z : Z) : Z := (z + 2 ^ 31) mod 2 ^ 32 - 2 ^ 31.

(* Signed arithmetic that overflows is undefined. *)
Definition ll_chk (z : Z) : outcome Z :=
  if (LLONG_MIN <=? z) && (z <=? LLONG_MAX) then Ret z else Ub.
