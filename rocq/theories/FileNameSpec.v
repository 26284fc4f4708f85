(* What file name templates mean. *)
From Coq Require Import String ZArith List Bool.
From Verif Require Import Base NumSpec FileName.
Import ListNotations.
Open Scope Z_scope.

Inductive esc := EPName | EPid | EYear | EMon | EDay | EHour | EMin | ESec | EDate.
Inductive tok := Lit (t : text) | Esc (e : esc).

(* how an escape is written in a template *)
Definition esc_src (e : esc) : text :=
  match e with
  | EPName => s2z "$PNAME" | EPid => s2z "$PID" | EYear => s2z "$YEAR" | EMon => s2z "$MON"
  | EDay => s2z "$DAY" | EHour => s2z "$HOUR" | EMin => s2z "$MIN" | ESec => s2z "$SEC"
  | EDate => s2z "%F"
  end.
Definition tok_src (k : tok) : text := match k with Lit t => t | Esc e => esc_src e end.
Definition source (l : list tok) : text := concat (map tok_src l).

(* plain text: no '$' and no '%' *)
Definition plain (t : text) : Prop := ~ In 36 t /\ ~ In 37 t.
Definition plain_tok (k : tok) : Prop := match k with Lit t => plain t | Esc _ => True end.

(* what it stands for *)
Definition esc_val (v : fenv) (t : clock) (e : esc) (x : text) : Prop :=
  match e with
  | EPName => x = v_name v
  | EPid => is_numeral 10 6 (v_pid v) x
  | EYear => is_numeral 10 4 (k_year t + 1900) x
  | EMon => is_numeral 10 2 (k_mon t + 1) x
  | EDay => is_numeral 10 2 (k_mday t) x
  | EHour => is_numeral 10 2 (k_hour t) x
  | EMin => is_numeral 10 2 (k_min t) x
  | ESec => is_numeral 10 2 (k_sec t) x
  | EDate => exists y m d, is_numeral 10 4 (k_year t + 1900) y /\ is_numeral 10 2 (k_mon t + 1) m /\
                           is_numeral 10 2 (k_mday t) d /\ x = y ++ [45] ++ m ++ [45] ++ d
  end.
Definition tok_val (v : fenv) (t : clock) (k : tok) (x : text) : Prop :=
  match k with Lit s => x = s | Esc e => esc_val v t e x end.

(* the fields of a calendar time and a process id *)
Definition valid_clock (t : clock) : Prop :=
  0 <= k_year t + 1900 /\ 0 <= k_mon t < 12 /\ 1 <= k_mday t <= 31 /\ 0 <= k_hour t < 24 /\
  0 <= k_min t < 60 /\ 0 <= k_sec t <= 60.

(* the documented default *)
Definition default_toks (chan dev : text) : list tok :=
  [Esc EPName; Lit [95]; Esc EYear; Esc EMon; Esc EDay; Lit [95]; Esc EPid; Lit [46]; Lit chan; Lit dev].
