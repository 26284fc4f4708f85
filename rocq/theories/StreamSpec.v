(* What streaming should produce, in terms of text only. *)
From Coq Require Import String ZArith List Bool.
From Verif Require Import Base NumSpec DateSpec DblFmt DblSpec Stream.
Import ListNotations.
Open Scope Z_scope.

(* A value contributes pieces of text: one that is cut at the capacity, one
   that is appended whole or not at all (it asks for [need] free bytes), or
   blanks up to a column. *)
Inductive piece :=
| PCut (t : text)
| PWhole (need : Z) (t : text)
| PAlign (col : Z).

Definition feed (cap : Z) (T : text) (p : piece) : text :=
  match p with
  | PCut t => T ++ firstn (Z.to_nat (cap - zlen T)) t
  | PWhole need t => if zlen T + need <=? cap then T ++ t else T
  | PAlign col => if zlen T + col <? cap then T ++ repeat 32 (Z.to_nat (col - zlen T)) else T
  end.
Definition feed_all (cap : Z) (T : text) (ps : list piece) : text := fold_left (feed cap) ps T.

Definition sign (n : Z) : text := if n <? 0 then [45] else [].

Inductive ptr_text : Z -> text -> Prop :=
| pt_null : ptr_text 0 (s2z "null")
| pt_hex : forall p t, 0 < p -> is_numeral 16 0 p t -> ptr_text p (s2z "0x" ++ t).

(* text of a double; outside 0.0001..2^60 it is a libc conversion or "0" *)
Inductive dbl_text (L : libc) : dbl -> text -> Prop :=
| dt_zero : forall s, dbl_text L (DZero s) (s2z "0")
| dt_inf : forall s, dbl_text L (DInf s) (s2z "inf")
| dt_nan : dbl_text L DNan (s2z "nan")
| dt_sub : forall s m e, subnormal_range m e -> dbl_text L (DFin s m e) (s2z "0")
| dt_plain : forall s m e I F t, plain_range m e -> decimals m e I F -> is_dbl_text s I F t ->
    dbl_text L (DFin s m e) t
| dt_gcvt : forall s m e, gcvt_range m e -> dbl_text L (DFin s m e) (gcvt16 L (DFin s m e))
| dt_fixed : forall s m e, fixed_range m e -> dbl_text L (DFin s m e) (firstn 29 (fmt_08lf L (DFin false m e))).

(* one row of the binary dump: printable bytes as themselves, others as a dot;
   then two hexadecimal digits each *)
Definition shown_char (c : Z) : text := if (32 <=? c) && (c <=? 126) then [32; c; 32] else s2z " . ".
Inductive hex_bytes : text -> list piece -> Prop :=
| hb_nil : hex_bytes [] []
| hb_cons : forall c r h ps, is_numeral 16 2 c h -> hex_bytes r ps -> hex_bytes (c :: r) (PWhole 31 (h ++ [32]) :: ps).
Definition bar : text := [13; 10; 9; 91].
Inductive dump_rows : nat -> Z -> text -> list piece -> Prop :=
| dr_nil : forall a d, dump_rows 0 a d []
| dr_row : forall n a d p hs ps, ptr_text a p -> hex_bytes (firstn 32 d) hs -> dump_rows n (a + 32) (skipn 32 d) ps ->
    dump_rows (S n) a d
      ([PCut bar; PWhole 30 p; PCut (s2z ": ")] ++ map (fun c => PCut (shown_char c)) (firstn 32 d) ++
       [PCut bar; PWhole 30 p; PCut (s2z ": ")] ++ hs ++ ps).

(* a ratio that is not at least 0.000001 *)
Definition low_ratio (v : dbl) : Prop :=
  match v with
  | DZero _ => True
  | DInf neg => neg = true
  | DNan => False
  | DFin neg m e => neg = true \/ m * 2 ^ (e + 1074) < 4722366482869645 * 2 ^ (1074 - 72)
  end.

Fixpoint join (sep : list piece) (l : list (list piece)) : list piece :=
  match l with
  | [] => []
  | [x] => x
  | x :: l' => x ++ sep ++ join sep l'
  end.

(* the pieces of a value; [o] is the offset of local time from UTC *)
Inductive shows (o : Z) (L : libc) : sval -> list piece -> Prop :=
| sh_null : shows o L SNullCstr [PCut (s2z "null")]
| sh_str : forall s, shows o L (SStr s) [PCut s]
| sh_char : forall c, shows o L (SChar c) [PCut [c]]
| sh_bool : forall b, shows o L (SBool b) [PCut (s2z (if b then "true" else "false"))]
| sh_ll : forall n t, is_numeral 10 0 (Z.abs n) t -> shows o L (SLL n) [PWhole 30 (sign n ++ t)]
| sh_ull : forall n t, is_numeral 10 0 n t -> shows o L (SULL n) [PWhole 30 t]
| sh_ptr : forall p t, ptr_text p t -> shows o L (SPtr p) [PWhole 30 t]
| sh_dbl : forall d t, dbl_text L d t -> shows o L (SDbl d) [PWhole 30 t]
| sh_pair : forall a b pa pb, shows o L a pa -> shows o L b pb ->
    shows o L (SPair a b) ([PCut (s2z "<")] ++ pa ++ [PCut (s2z ":")] ++ pb ++ [PCut (s2z ">")])
| sh_cont : forall name elems size ps, is_numeral 10 0 (zlen elems) size ->
    shows_each o L (firstn 5 elems) ps ->
    shows o L (SCont name elems)
      ([PCut name; PCut (s2z "("); PWhole 30 size; PCut (s2z ")[")] ++
       join [PCut (s2z ", ")] ps ++
       (if 5 <? zlen elems then [PCut (s2z "..., ")] else []) ++ [PCut (s2z "]")])
| sh_blank : forall n, shows o L (SBlank n) [PAlign n]
| sh_percent_low : forall v, low_ratio v -> shows o L (SPercent v) [PWhole 41 (s2z "00.00%")]
| sh_percent_special : forall v t, v = DNan \/ v = DInf false -> dbl_text L v t -> shows o L (SPercent v) [PWhole 41 (t ++ s2z "%")]
| sh_percent : forall m e m' e' t, ~ low_ratio (DFin false m e) ->
    (* m' * 2^e' is one hundred times m * 2^e, as a double *)
    2 ^ 52 <= m' < 2 ^ 53 -> m' * 2 ^ (e' + 1074) = 100 * (m * 2 ^ (e + 1074)) ->
    dbl_text L (DFin false m' e') t -> shows o L (SPercent (DFin false m e)) [PWhole 41 (t ++ s2z "%")]
| sh_date : forall ts p t, is_date_text (ts + o) (p mod 2 ^ 32) t -> shows o L (SDate ts p) [PWhole 41 t]
| sh_bin : forall a d ps, dump_rows (Z.to_nat (zlen d / 32 + 1)) a d ps ->
    shows o L (SBin a d) ([PCut bar] ++ ps ++ [PCut [13; 10; 9; 93; 13; 10; 9]])
with shows_each (o : Z) (L : libc) : list sval -> list (list piece) -> Prop :=
| se_nil : shows_each o L [] []
| se_cons : forall v vs p ps, shows o L v p -> shows_each o L vs ps -> shows_each o L (v :: vs) (p :: ps).

(* number of path separators *)
Definition is_sep (c : Z) : bool := (c =? 47) || (c =? 92).
Definition seps (t : text) : Z := zlen (filter is_sep t).

(* the prefix of a record, field by field *)
Definition field (on : bool) (t : text) : text := if on then t else [].
Definition prio_name (p : Z) : text :=
  s2z (nth (Z.to_nat p) ["[TRACE]"; "[DEBUG]"; "[INFO ]"; "[WARN ]"; "[ERROR]"; "[ALARM]"; "[FATAL]"]%string EmptyString).
Inductive file_text : option text -> Z -> text -> Prop :=
| ft_none : forall f n, (f = None \/ n <= 0) -> file_text f n (s2z "nofile")
| ft_short : forall f n s, 0 < n -> (* fewer than three separators: all of it *)
    s = firstn (Z.to_nat n) f -> seps s < 3 -> file_text (Some f) n s
| ft_cut : forall f n a c s, 0 < n -> firstn (Z.to_nat n) f = a ++ [c] ++ s -> is_sep c = true -> seps s = 2 ->
    file_text (Some f) n s.
Inductive func_text : option text -> Z -> text -> Prop :=
| fn_none : forall f n, (f = None \/ n <= 0) -> func_text f n (s2z "null")
| fn_some : forall f n, 0 < n -> func_text (Some f) n (firstn (Z.to_nat n) f).
Inductive prefix_text (o : Z) (h : head) : text -> Prop :=
| pf : forall date thread file line func,
    is_date_text (h_ts h + o) (h_precise h) date ->
    is_numeral 10 0 (h_thread h) thread -> file_text (h_file h) (h_file_len h) file ->
    is_numeral 10 0 (h_line h) line -> func_text (h_func h) (h_func_len h) func ->
    prefix_text o h
      (field (Z.testbit (h_prefix h) 0) date ++
       field (Z.testbit (h_prefix h) 1) (prio_name (h_priority h)) ++
       field (Z.testbit (h_prefix h) 2) (s2z "[" ++ thread ++ s2z "]") ++
       field (Z.testbit (h_prefix h) 3) (s2z "[" ++ firstn (Z.to_nat (h_name_len h)) (h_name h) ++ s2z "]") ++
       field (Z.testbit (h_prefix h) 4) (s2z "[" ++ firstn (Z.to_nat (h_desc_len h)) (h_desc h) ++ s2z "]") ++
       field (Z.testbit (h_prefix h) 5) (s2z "[" ++ file ++ s2z ":" ++ line ++ s2z "]") ++
       field (Z.testbit (h_prefix h) 6) (s2z "(" ++ func ++ s2z ")") ++ s2z " ").
