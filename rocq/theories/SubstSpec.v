(* What define and var lines do to the rest of the text. *)
From Coq Require Import String ZArith List Bool.
From Verif Require Import Base TextSpec.
Import ListNotations.
Open Scope Z_scope.

Definition name_char (c : Z) : Prop := 97 <= c <= 122 \/ 65 <= c <= 90 \/ digit c \/ c = 95.
Definition word (w : text) : Prop := w <> [] /\ Forall name_char w.
(* the text does not go on with a name *)
Definition word_end (s : text) : Prop := forall c r, s = c :: r -> ~ name_char c.
(* [s] starts at a word boundary behind [pre] *)
Definition boundary (pre s : text) : Prop :=
  forall p c d r, pre = p ++ [c] -> s = d :: r -> ~ (name_char c /\ name_char d).
(* v filled up with spaces to the length of k *)
Definition filled (k v : text) : text := v ++ repeat 32 (length k - length v).

(* every whole word k becomes v, all else stays *)
Inductive macro (k v : text) : text -> text -> Prop :=
| mc_nil : macro k v [] []
| mc_other : forall c s s', ~ name_char c -> macro k v s s' -> macro k v (c :: s) (c :: s')
| mc_key : forall s s', word_end s -> macro k v s s' -> macro k v (k ++ s) (v ++ s')
| mc_word : forall w s s', word w -> w <> k -> word_end s -> macro k v s s' -> macro k v (w ++ s) (w ++ s').

(* from left to right every k (that ends a word, if asked) becomes v *)
Definition hit (k : text) (bounded : bool) (s : text) : Prop :=
  exists r, s = k ++ r /\ (bounded = true -> word_end r).
Inductive var_in (k v : text) (bounded : bool) : text -> text -> Prop :=
| vi_nil : var_in k v bounded [] []
| vi_skip : forall c s s', ~ hit k bounded (c :: s) -> var_in k v bounded s s' -> var_in k v bounded (c :: s) (c :: s')
| vi_hit : forall s s', hit k bounded (k ++ s) -> var_in k v bounded s s' -> var_in k v bounded (k ++ s) (v ++ s').
Definition braced (x : text) : text := [36; 123] ++ x ++ [125].       (* ${x} *)
Definition dollar (x : text) : text := 36 :: x.                       (* $x *)
Inductive vars : list (text * text) -> text -> text -> Prop :=
| vs_nil : forall s, vars [] s s
| vs_cons : forall x v l s s1 s2 s',
    var_in (braced x) (filled (braced x) v) false s s1 -> var_in (dollar x) (filled (dollar x) v) true s1 s2 ->
    vars l s2 s' -> vars ((x, v) :: l) s s'.

(* x=v, x=v, ... *)
Definition var_name (x : text) : Prop := word x /\ ~ digit (hd 0 x).
Definition var_value (v : text) : Prop := ~ In 44 v /\ (forall c r, v = r ++ [c] -> ~ blank c).
Definition item_text (x v t : text) : Prop :=
  exists b1 b2 b3, t = b1 ++ x ++ b2 ++ 61 :: v ++ b3 /\ Forall (fun c => c = 32 \/ c = 9) b1 /\ Forall blank b2 /\ Forall blank b3.
Inductive vars_text : list (text * text) -> text -> Prop :=
| vt_nil : forall b, Forall (fun c => c = 32 \/ c = 9) b -> vars_text [] b
| vt_one : forall x v t, item_text x v t -> vars_text [(x, v)] t
| vt_cons : forall x v t y l u, item_text x v t -> vars_text (y :: l) u -> vars_text ((x, v) :: y :: l) (t ++ 44 :: u).

(* k stands in s as a whole word *)
Definition whole (k s : text) : Prop :=
  exists a r, s = a ++ k ++ r /\ word_end r /\ (forall b c, a = b ++ [c] -> ~ name_char c).
(* k stands in s, and the word ends with it *)
Definition ending (k s : text) : Prop := exists a r, s = a ++ k ++ r /\ word_end r.
