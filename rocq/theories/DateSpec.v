(* The Gregorian calendar and the layout of a printed timestamp. *)
From Coq Require Import String ZArith List Bool.
From Verif Require Import Base NumSpec.
Import ListNotations.
Open Scope Z_scope.

Definition leap (y : Z) : bool :=
  (y mod 4 =? 0) && (negb (y mod 100 =? 0) || (y mod 400 =? 0)).
Definition month_days (y m : Z) : Z :=
  nth (Z.to_nat m) [0; 31; if leap y then 29 else 28; 31; 30; 31; 30; 31; 31; 30; 31; 30; 31] 0.
Definition valid_date (y m d : Z) : Prop := 1 <= m <= 12 /\ 1 <= d <= month_days y m.

(* days from 0000-01-01 to the first of January of year y *)
Definition year_start (y : Z) : Z := 365 * y + (y + 3) / 4 - (y + 99) / 100 + (y + 399) / 400.
Fixpoint month_start (y : Z) (m : nat) : Z :=
  match m with
  | O => 0
  | S m' => month_start y m' + month_days y (Z.of_nat m')
  end.
(* day number, 0 = 1970-01-01 *)
Definition day_number (y m d : Z) : Z :=
  year_start y + month_start y (Z.to_nat m) + (d - 1) - year_start 1970.

(* "[YYYYMMDD hh:mm:ss.mmm]" of a local time given in seconds *)
Definition is_date_text (local ms : Z) (t : text) : Prop :=
  exists y m d Y M D h mi s x,
    valid_date y m d /\ day_number y m d = local / 86400 /\
    is_numeral 10 4 y Y /\ is_numeral 10 2 m M /\ is_numeral 10 2 d D /\
    is_numeral 10 2 (local mod 86400 / 3600) h /\
    is_numeral 10 2 (local mod 3600 / 60) mi /\
    is_numeral 10 2 (local mod 60) s /\
    is_numeral 10 3 (Z.min ms 999) x /\
    t = [91] ++ Y ++ M ++ D ++ [32] ++ h ++ [58] ++ mi ++ [58] ++ s ++ [46] ++ x ++ [93].
