(* Model of the line lexer Lex of the configuration parser, fn_parse.h:934-1134.
   [b] is the text followed by its NUL, pointers are positions in it, and NULL is
   -1.  The int counters blank_, chars_ and line_no_ are unbounded (texts below
   2^31 bytes do not overflow them). *)
From Coq Require Import String ZArith List Bool.
From Verif Require Import Base ParseVal.
Import ListNotations.
Open Scope Z_scope.

(* ParseErrorCode, fn_parse.h:17-35 (and E_ codes of fn_data.h:488-511) *)
Definition PEC_NONE := 0.
Definition PEC_NONSUPPORT_SYNTAX := 22.
Definition PEC_ILLEGAL_KEY := 23.
Definition PEC_ILLEGAL_VAR_NAME := 24.
Definition PEC_ILLEGAL_VAR_VALUE := 25.
Definition PEC_NOT_CLOSURE := 26.
Definition PEC_ILLEGAL_ADDR_IP := 27.
Definition PEC_ILLEGAL_ADDR_PORT := 28.
Definition PEC_DEFINED_TARGET_TOO_LONG := 29.
Definition PEC_UNDEFINED_DEVICE_KEY := 30.
Definition PEC_UNDEFINED_DEVICE_TYPE := 31.
Definition PEC_UNDEFINED_CHANNEL_KEY := 32.
Definition PEC_UNDEFINED_GLOBAL_KEY := 33.
Definition E_INVALID_CHANNEL_SIZE := 5.
Definition E_CHANNEL_NOT_SEQUENCE := 9.
Definition E_OUT_OF_DEVICE_SIZE := 10.
Definition E_DEVICE_NOT_SEQUENCE := 11.

(* BlockType, fn_parse.h:117-125 *)
Inductive block := BNone | BKey | BPreSep | BPreVal | BVal | BClean.

(* Line, fn_parse.h:170-181 *)
Record line := mkLine {
  l_blank : Z;
  l_chars : Z;
  l_block : block;
  l_stack : Z;
  l_key : Z;
  l_kb : Z;
  l_ke : Z;
  l_vb : Z;
  l_ve : Z
}.
(* memset, 936 *)
Definition line0 : line := mkLine 0 0 BNone 0 RK_NULL (-1) (-1) (-1) (-1).

(* bytes of b between two positions *)
Definition sub (b : text) (i j : Z) : outcome text :=
  if (0 <=? i) && (i <=? j) && (j <=? zlen b)
  then Ret (firstn (Z.to_nat (j - i)) (skipn (Z.to_nat i) b))
  else Ub.

(* trailing blanks of the value, 978-987; n bounds the number of rounds *)
Fixpoint trim (n : nat) (b : text) (vb ve : Z) : outcome Z :=
  if ve <=? vb then Ret ve
  else
    let! c := rd b (ve - 1) in
    if is_blank c then
      match n with
      | O => Fuel
      | S n' => trim n' b vb (ve - 1)
      end
    else Ret ve.

(* One round of the loop 941-1131: go on, or return a code; [cur] is current_ and
   the last component counts the line. *)
Inductive lres :=
| More (cur : Z) (l : line)
| Done (code : Z) (cur : Z) (l : line) (lines : Z).

Definition set_block (l : line) (k : block) : line :=
  mkLine (l_blank l) (l_chars l) k (l_stack l) (l_key l) (l_kb l) (l_ke l) (l_vb l) (l_ve l).
Definition set_val (l : line) (k : block) (vb ve : Z) : line :=
  mkLine (l_blank l) (l_chars l) k (l_stack l) (l_key l) (l_kb l) (l_ke l) vb ve.

(* 955-1008, ch ends the line or starts a comment; cur is behind ch *)
Definition lex_end (b : text) (ch cur : Z) (l : line) : outcome lres :=
  let closed l :=
    let! ve := trim (Z.to_nat (l_ve l - l_vb l)) b (l_vb l) (l_ve l) in
    let l := set_val l (l_block l) (l_vb l) ve in
    if (ch =? 13) || (ch =? 10) then
      let! nx := rd b cur in
      Ret (Done PEC_NONE (if ((nx =? 13) || (nx =? 10)) && negb (nx =? ch) then cur + 1 else cur) l 1)
    else if ch =? 0 then Ret (Done PEC_NONE (cur - 1) l 1)
    else Ret (More cur (set_block l BClean)) in
  match l_block l with
  | BVal => if negb (l_stack l =? 0) then Ret (Done PEC_NOT_CLOSURE cur l 0)
            else closed (set_val l BClean (l_vb l) (cur - 1))
  | BPreVal => closed (set_val l BClean (cur - 1) (cur - 1))
  | BNone | BClean => closed l
  | BKey | BPreSep => Ret (Done PEC_NOT_CLOSURE cur l 0)
  end.

(* 1108-1129, inside a value *)
Definition lex_val (ch cur : Z) (l : line) : lres :=
  if (l_vb l =? cur - 1) && is_blank ch then More cur (set_val l BVal cur (l_ve l))
  else if negb (l_stack l =? 0) && (ch =? l_stack l) then More cur (set_val l BClean (l_vb l) (cur - 1))
  else More cur l.

(* 1077-1105, between ':' and the value *)
Definition lex_pre_val (ch cur : Z) (l : line) : lres :=
  let opened stack vb :=
    mkLine (l_blank l) (l_chars l) BVal stack (l_key l) (l_kb l) (l_ke l) vb (l_ve l) in
  if is_blank ch then More cur l
  else if ch =? 34 then More cur (opened 34 cur)          (* double quote *)
  else if ch =? 91 then More cur (opened 93 cur)          (* '[' *)
  else if ch =? 123 then More cur (opened 125 cur)        (* '{' *)
  else lex_val ch cur (opened 0 (cur - 1)).

(* 1062-1075, between the key and ':' *)
Definition lex_pre_sep (ch cur : Z) (l : line) : lres :=
  if ch =? 58 then More cur (set_block l BPreVal)
  else if (ch =? 32) || (ch =? 9) then More cur l
  else Done PEC_NONSUPPORT_SYNTAX cur l 0.

(* 1044-1059, inside the key *)
Definition lex_key (b : text) (ch cur : Z) (l : line) : outcome lres :=
  if is_lower ch || (ch =? 95) || is_number ch then Ret (More cur l)
  else
    let! name := sub b (l_kb l) (cur - 1) in
    let! key := parse_reserve name in
    let l := mkLine (l_blank l) (l_chars l) BPreSep (l_stack l) key (l_kb l) (cur - 1) (l_vb l) (l_ve l) in
    if key =? RK_NULL then Ret (Done PEC_ILLEGAL_KEY cur l 0)
    else Ret (lex_pre_sep ch cur l).

(* 1011-1042, before the key *)
Definition lex_none (b : text) (ch cur : Z) (l : line) : outcome lres :=
  if is_blank ch then
    Ret (More cur (if l_blank l =? l_chars l - 1
                   then mkLine (l_blank l + 1) (l_chars l) (l_block l) (l_stack l) (l_key l) (l_kb l) (l_ke l) (l_vb l) (l_ve l)
                   else l))
  else if ch =? 45 then Ret (More cur l)
  else if negb (is_lower ch) then Ret (Done PEC_ILLEGAL_KEY cur l 0)
  else lex_key b ch cur
         (mkLine (l_blank l) (l_chars l) BKey (l_stack l) (l_key l) (cur - 1) (l_ke l) (l_vb l) (l_ve l)).

Definition lex_step (b : text) (cur : Z) (l : line) : outcome lres :=
  let! ch := rd b cur in
  let cur := cur + 1 in
  let l := mkLine (l_blank l) (l_chars l + 1) (l_block l) (l_stack l) (l_key l) (l_kb l) (l_ke l) (l_vb l) (l_ve l) in
  match l_block l with
  | BClean => if negb (is_bound ch) then Ret (More cur l) else lex_end b ch cur l
  | k =>
      if is_soft ch then lex_end b ch cur l
      else match k with
           | BNone => lex_none b ch cur l
           | BKey => lex_key b ch cur l
           | BPreSep => Ret (lex_pre_sep ch cur l)
           | BPreVal => Ret (lex_pre_val ch cur l)
           | _ => Ret (lex_val ch cur l)
           end
  end.

Fixpoint lex_loop (fuel : nat) (b : text) (cur : Z) (l : line) : outcome (Z * Z * line * Z) :=
  match fuel with
  | O => Fuel
  | S fuel' =>
      let! r := lex_step b cur l in
      match r with
      | More cur l => lex_loop fuel' b cur l
      | Done code cur l n => Ret (code, cur, l, n)
      end
  end.

(* Lex, 934-1134: the code, the new current_, the line and the lines counted *)
Definition lex (fuel : nat) (b : text) (cur end_ : Z) : outcome (Z * Z * line * Z) :=
  if end_ <=? cur then Ret (PEC_NONE, cur, line0, 0)
  else lex_loop fuel b cur line0.
