(* How a configuration is written: lines, values, options. *)
From Coq Require Import String ZArith List Bool.
From Verif Require Import Base LoggerState ParseVal.
Import ListNotations.
Open Scope Z_scope.

(* ---- characters ---- *)
Definition blank (c : Z) : Prop := In c [32; 9; 11; 12].
Definition in_line (c : Z) : Prop := c <> 0 /\ c <> 13 /\ c <> 10.
Definition plain (c : Z) : Prop := in_line c /\ c <> 35.          (* not a number sign *)
Definition digit (c : Z) : Prop := 48 <= c <= 57.
Definition lower (c : Z) : Prop := 97 <= c <= 122.

(* the line ends: line feed, carriage return, or both *)
Definition line_end (eol : text) : Prop := eol = [10] \/ eol = [13] \/ eol = [13; 10].

(* ---- values ---- *)
(* a value as the parser should see it: one line, no comment, no outer blanks *)
Definition value (v : text) : Prop :=
  Forall plain v /\ (forall c r, v = c :: r -> ~ blank c) /\ (forall c r, v = r ++ [c] -> ~ blank c).
(* [written v w]: w is v as it stands between the colon with its blanks and the end of the line *)
Inductive written (v : text) : text -> Prop :=
| written_bare : forall b tail,
    value v -> (forall c r, v = c :: r -> ~ In c [34; 91; 123]) ->
    Forall blank b -> (tail = [] \/ exists r, tail = 35 :: r /\ Forall in_line r) ->
    written v (v ++ b ++ tail)
| written_closed : forall o c b1 b2 tail,
    value v -> In (o, c) [(34, 34); (91, 93); (123, 125)] -> ~ In c v ->
    Forall blank b1 -> Forall blank b2 -> Forall in_line tail ->
    written v (o :: b1 ++ v ++ b2 ++ c :: tail).

(* ---- lines ---- *)
Definition dashes (s : text) : Prop := s = [] \/ exists r, s = 45 :: r /\ Forall (fun c => c = 45 \/ blank c) r.
Definition key_word (k : text) : Prop :=
  exists c r, k = c :: r /\ lower c /\ Forall (fun c => lower c \/ digit c \/ c = 95) r.
(* key : value, [n] columns in *)
Definition is_line (eol : text) (n : Z) (k v : text) (t : text) : Prop :=
  exists lead dash b1 b2 w,
    t = lead ++ dash ++ k ++ b1 ++ 58 :: b2 ++ w ++ eol /\
    Forall blank lead /\ zlen lead = n /\ dashes dash /\ key_word k /\
    Forall (fun c => c = 32 \/ c = 9) b1 /\ Forall blank b2 /\ written v w.
(* an empty line or a comment *)
Definition is_gap (eol : text) (t : text) : Prop :=
  exists lead dash tail, t = lead ++ dash ++ tail ++ eol /\ Forall blank lead /\ dashes dash /\
    (tail = [] \/ exists r, tail = 35 :: r /\ Forall in_line r).
