(* What a positional numeral is, independently of any formatter. *)
From Coq Require Import ZArith List Bool.
From Verif Require Import Base.
Import ListNotations.
Open Scope Z_scope.

(* value of one digit character *)
Definition digit_val (c : Z) : option Z :=
  if (48 <=? c) && (c <=? 57) then Some (c - 48)
  else if (65 <=? c) && (c <=? 70) then Some (c - 55)
  else None.

(* reading a digit string from the left *)
Fixpoint value (base acc : Z) (t : text) : option Z :=
  match t with
  | [] => Some acc
  | c :: r =>
      match digit_val c with
      | Some d => if d <? base then value base (acc * base + d) r else None
      | None => None
      end
  end.

(* [t] denotes [n] in [base], has at least [wide] digits, and has a leading
   zero only as far as the width (or the single digit 0) requires. *)
Definition is_numeral (base wide n : Z) (t : text) : Prop :=
  value base 0 t = Some n /\
  1 <= zlen t /\ wide <= zlen t /\
  (Z.max wide 1 < zlen t -> nth 0 t 0 <> 48).
