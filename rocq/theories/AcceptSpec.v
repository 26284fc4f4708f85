(* What every line of an accepted configuration looks like. *)
From Coq Require Import String ZArith List Bool.
From Verif Require Import Base TextSpec ReportSpec.
Import ListNotations.
Open Scope Z_scope.

(* blanks and dashes before the key *)
Definition leading (s : text) : Prop := Forall (fun c => c = 45 \/ blank c) s.
(* an empty line or a comment *)
Definition gap_line (x : text) : Prop :=
  exists s c, x = s ++ c /\ leading s /\ (c = [] \/ exists r, c = 35 :: r).
(* a line with the key [k] *)
Definition key_line (k x : text) : Prop :=
  exists s w v, x = s ++ k ++ w ++ 58 :: v /\ leading s /\ key_word k /\ Forall (fun c => c = 32 \/ c = 9) w.

(* the line from position [p] on, without its newline, is [x] *)
Definition line_text (t : text) (p : Z) (x : text) : Prop :=
  exists a y, t = a ++ x ++ y /\ p = zlen a /\ no_nl x /\ (y = [] \/ hd 0 y = 10 \/ hd 0 y = 13).
