(* What the texts of doubles mean, and what rounding to decimal digits is. *)
From Coq Require Import String ZArith List Bool.
From Verif Require Import Base NumSpec DblFmt DblSpec.
Import ListNotations.
Open Scope Z_scope.

(* All values are counted in units of 10^-400 * 2^-1074. *)
Definition u (k : Z) : Z := 10 ^ (k + 400) * 2 ^ 1074.   (* 10^k *)
Definition real (m e : Z) : Z := units m e * 10 ^ 400.   (* m * 2^e *)

(* n * 10^k is x rounded to 16 significant digits, ties to even *)
Definition sixteen (m e n k : Z) : Prop :=
  u (k + 15) <= real m e < u (k + 16) /\
  2 * Z.abs (n * u k - real m e) <= u k /\ (2 * Z.abs (n * u k - real m e) = u k -> Z.even n = true).
(* n * 10^-8 is x rounded to 8 decimals, ties to even *)
Definition eight (m e n : Z) : Prop :=
  2 * Z.abs (n * u (-8) - real m e) <= u (-8) /\ (2 * Z.abs (n * u (-8) - real m e) = u (-8) -> Z.even n = true).

Definition minus (neg : bool) : text := if neg then [45] else [].
Definition dot (f : text) : text := match f with [] => [] | _ => 46 :: f end.
(* d.fff e+XX: one digit that is not zero, the point and digits only if needed, the
   last not zero, the sign and at least two digits of the exponent; all together
   the value is n * 10^k *)
Definition sci_text (neg : bool) (n k : Z) (t : text) : Prop :=
  exists d f X ex D, t = minus neg ++ [d] ++ dot f ++ [101; if X <? 0 then 45 else 43] ++ ex /\
    value 10 0 (d :: f) = Some D /\ d <> 48 /\ (f <> [] -> last f 48 <> 48) /\
    is_numeral 10 2 (Z.abs X) ex /\ -400 <= X - zlen f /\ D * u (X - zlen f) = n * u k.
(* 0.dddddddd *)
Definition fix_text (n : Z) (t : text) : Prop :=
  exists f, t = s2z "0." ++ f /\ zlen f = 8 /\ value 10 0 f = Some n.

(* reading a number: [-] digits [. digits] [e sign digits] *)
Fixpoint cut_at (c : Z) (t : text) : text * option text :=
  match t with
  | [] => ([], None)
  | x :: r => if x =? c then ([], Some r) else let (a, b) := cut_at c r in (x :: a, b)
  end.
Definition read_mant (t : text) : option (Z * Z) :=   (* digits, number of decimals *)
  let (a, b) := cut_at 46 t in
  match value 10 0 (a ++ match b with Some f => f | None => [] end) with
  | Some n => Some (n, match b with Some f => zlen f | None => 0 end)
  | None => None
  end.
Definition read_abs (t : text) : option Z :=
  let (a, b) := cut_at 101 t in
  match read_mant a, b with
  | Some (n, k), None => Some (n * u (- k))
  | Some (n, k), Some (s :: ex) =>
      match value 10 0 ex with
      | Some X => Some (n * u ((if s =? 45 then - X else X) - k))
      | None => None
      end
  | _, _ => None
  end.
Definition read_num (t : text) : option Z :=
  match t with
  | c :: r => if c =? 45 then option_map Z.opp (read_abs r) else read_abs t
  | [] => None
  end.

(* write_double_unsafe with this libc puts [t] into the buffer and returns its length;
   it may dirty up to 30 bytes *)
Definition prints (L : libc) (d : dbl) (t : text) : Prop :=
  exists junk, zlen (t ++ junk) <= 30 /\ forall pre old post, zlen old = zlen (t ++ junk) ->
    write_double L (pre ++ old ++ post) (zlen pre) d = Ret (pre ++ t ++ junk ++ post, zlen t).
(* |x| of a finite double in units of the smallest *)
Definition size (d : dbl) : option Z :=
  match d with DZero _ => Some 0 | DFin _ m e => Some (units m e) | _ => None end.
Definition negative (d : dbl) : bool := match d with DZero s | DInf s | DFin s _ _ => s | DNan => false end.
(* the value with its sign *)
Definition signed (d : dbl) : option Z := option_map (fun x => if negative d then - x else x) (size d).
(* not a negative number that is shown without its sign *)
Definition sign_written (d : dbl) : Prop := forall m e, d = DFin true m e -> ~ fixed_range m e.
Definition fixed_rangeb (m e : Z) : bool :=
  (7555786372591432 * 2 ^ 998 <? units m e) && (units m e <? 7378697629483821 * 2 ^ 1008).
