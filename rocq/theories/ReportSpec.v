(* Lines of a text and the report of a rejected configuration. *)
From Coq Require Import String ZArith List Bool.
From Verif Require Import Base NumSpec.
Import ListNotations.
Open Scope Z_scope.

(* ---- lines, by positions ---- *)
Definition no_nl (x : text) : Prop := Forall (fun c => c <> 10 /\ c <> 13) x.
(* [e] ends a line and [r] follows it *)
Inductive newline : text -> text -> Prop :=
| nl_crlf : forall r, newline [13; 10] r
| nl_lfcr : forall r, newline [10; 13] r
| nl_lf : forall r, hd 0 r <> 13 -> newline [10] r
| nl_cr : forall r, hd 0 r <> 10 -> newline [13] r.
(* a line from [p] that ends with its newline before [q]; the last line, from [p] *)
Definition line_to (t : text) (p q : Z) : Prop :=
  exists a x e r, t = a ++ x ++ e ++ r /\ p = zlen a /\ no_nl x /\ newline e r /\ q = zlen (a ++ x ++ e).
Definition last_line (t : text) (p : Z) : Prop :=
  exists a x, t = a ++ x /\ p = zlen a /\ no_nl x.
(* line [n], counted from one, begins at position [p] *)
Inductive line_start (t : text) : Z -> Z -> Prop :=
| ls_first : line_start t 1 0
| ls_next : forall n p q, line_start t n p -> line_to t p q -> line_start t (n + 1) q.

(* position [p] is the start of line [n], which is not empty *)
Definition on_line (t : text) (n p : Z) : Prop := line_start t n p /\ p < zlen t.
(* position [q] is right behind line [n] *)
Definition behind_line (t : text) (n q : Z) : Prop :=
  exists p, on_line t n p /\ (line_to t p q \/ last_line t p /\ q = zlen t).

(* ---- what is quoted from position [p] on ---- *)
(* all of the rest, or its first 380 bytes and then up to the end of the line *)
Definition quoted (t : text) (p : Z) (q : text) : Prop :=
  exists a r, t = a ++ q ++ r /\ zlen a = p /\
    ((r = [] /\ zlen q <= 380) \/
     exists x y, q = x ++ y /\ zlen x = 380 /\ ~ In 10 y /\ (r = [] \/ exists r', r = 10 :: r')).

Definition printed (code : Z) (msg : text) (n : Z) (q out : text) : Prop :=
  exists c l, is_numeral 10 1 code c /\ is_numeral 10 1 n l /\
    out = s2z "ParseLogger has error:<" ++ c ++ [32] ++ msg ++ s2z "> in line:[" ++ l ++ s2z "]  before:" ++ [10] ++ q ++ [10].

(* ---- where the report points to ---- *)
(* keys that are not allowed where they stand *)
Definition misplaced : list Z := [30; 32; 33].
(* a number of channels out of range, numbers out of sequence, too many devices,
   errors of the syntax, of definitions, of addresses and of the device type *)
Definition wrong_line : list Z := [5; 9; 10; 11; 22; 23; 24; 25; 26; 27; 28; 29; 31].
Definition place (t : text) (code n p : Z) : Prop :=
  (In code wrong_line /\ on_line t n p) \/
  (In code misplaced /\ behind_line t (n - 1) p) \/
  (* no channel at all *)
  (code = 5 /\ p = zlen t /\ (line_start t n p \/ behind_line t (n - 1) p)).
