(* Model of the configuration parser above the line lexer: macros, variables,
   ParseDevice, ParseChannel and ParseLogger, fn_parse.h:750-926 and 1136-1512. *)
From Coq Require Import String ZArith List Bool.
From Verif Require Import Base LoggerState FileName ParseVal Lexer.
Import ListNotations.
Open Scope Z_scope.

(* ---- substitution in the text ---- *)
Fixpoint starts (key s : text) : bool :=
  match key, s with
  | [], _ => true
  | a :: k, c :: r => (a =? c) && starts k r
  | _, [] => false
  end.
(* std::string::find(key, pos) *)
Fixpoint find_sub (key s : text) : option nat :=
  if starts key s then Some O
  else match s with
       | [] => None
       | _ :: r => option_map S (find_sub key r)
       end.
Definition find_sub_from (key s : text) (pos : nat) : option nat :=
  if (length s <? pos)%nat then None
  else option_map (Nat.add pos) (find_sub key (skipn pos s)).

(* the loop of PredefinedInplace, fn_parse.h:763-808; key and val have one length *)
Fixpoint inplace_loop (fuel : nat) (t : text) (pos : nat) (key val : text) (pre_bound suffix_bound : bool)
  : outcome text :=
  match fuel with
  | O => Fuel
  | S fuel' =>
      match find_sub_from key t pos with
      | None => Ret t
      | Some p =>
          if pre_bound && negb (p =? 0)%nat && is_name (nth (p - 1) t 0)
          then inplace_loop fuel' t (S p) key val pre_bound suffix_bound
          else if suffix_bound && negb (p + length val =? length t)%nat && is_name (nth (p + length val) t 0)
          then inplace_loop fuel' t (S p) key val pre_bound suffix_bound
          else inplace_loop fuel' (replace t p (length val) val) p key val pre_bound suffix_bound
      end
  end.
(* PredefinedInplace, fn_parse.h:750-811 *)
Definition inplace (fuel : nat) (t : text) (pos : nat) (key val : text) (pre_bound suffix_bound : bool)
  : outcome (Z * text) :=
  if (length key <? length val)%nat then Ret (PEC_DEFINED_TARGET_TOO_LONG, t)
  else
    let val := val ++ repeat 32 (length key - length val) in
    let! t := inplace_loop fuel t pos key val pre_bound suffix_bound in
    Ret (0, t).

(* PredefinedMacro, fn_parse.h:812-844; [v] is the value, [pos] its end in the text *)
Definition predefined_macro (fuel : nat) (t : text) (pos : nat) (v : text) : outcome (Z * text) :=
  match find 32 v with
  | None => Ret (PEC_NOT_CLOSURE, t)
  | Some sep =>
      let symbol := firstn sep v in
      if zlen symbol =? 0 then Ret (PEC_NOT_CLOSURE, t)
      else
        let content := drop_while is_blank (skipn sep v) in
        inplace fuel t pos symbol content true true
  end.

(* popping blanks at the end of a string *)
Definition rtrim (s : text) : text := rev (drop_while is_blank (rev s)).

(* PredefinedVar, fn_parse.h:846-926 *)
Fixpoint var_loop (fuel rounds : nat) (t : text) (pos : nat) (v : text) (offset : nat) : outcome (Z * text) :=
  match rounds with
  | O => Fuel
  | S rounds' =>
      if (length v <=? offset)%nat then Ret (PEC_NONE, t)
      else if (nth offset v 0 =? 32) || (nth offset v 0 =? 9) then var_loop fuel rounds' t pos v (S offset)
      else
        let dot := match find_from 44 v offset with Some d => d | None => length v end in
        match find_from 61 v offset with
        | None => Ret (PEC_ILLEGAL_VAR_VALUE, t)
        | Some sep =>
            if (dot <=? sep)%nat then Ret (PEC_ILLEGAL_VAR_VALUE, t)
            else
              let var := rtrim (substr v offset (sep - offset)) in
              if zlen var =? 0 then Ret (PEC_DEFINED_TARGET_TOO_LONG, t)
              else if negb (is_name_first (hd 0 var)) then Ret (PEC_ILLEGAL_VAR_NAME, t)
              else
                (* 894-898: the loop tests line.at(offset), not line.at(sep) *)
                let sep := if is_blank (nth offset v 0) then dot else S sep in
                let val := rtrim (substr v sep (dot - sep)) in
                let! r := inplace fuel t pos ([36; 123] ++ var ++ [125]) val false false in
                let '(ret, t) := r in
                if negb (ret =? 0) then Ret (ret, t)
                else
                  let! r := inplace fuel t pos (36 :: var) val false true in
                  let '(ret, t) := r in
                  if negb (ret =? 0) then Ret (ret, t)
                  else var_loop fuel rounds' t pos v (S dot)
        end
  end.
Definition predefined_var (fuel : nat) (t : text) (pos : nat) (v : text) : outcome (Z * text) :=
  var_loop fuel (S (length v)) t pos v 0.

(* ---- the parsed configuration ---- *)
(* Device, fn_data.h:205-229: the text before the NUL of out_file_ and out_path_ *)
Record pdev := mkPdev {
  pd_id : Z;
  pd_in : Z;
  pd_out : Z;
  pd_cfg : list Z;
  pd_file : text;
  pd_path : text
}.
(* Channel, fn_data.h:300-329, as far as the parser sets it; [pc_devs] are the
   first device_size_ devices *)
Record pchan := mkPchan {
  pc_id : Z;
  pc_type : Z;
  pc_virtual : Z;
  pc_cfg : list Z;
  pc_devs : list pdev
}.
(* memset of a new device and a new channel, 1374 and 1490 *)
Definition dev0 (id : Z) : pdev := mkPdev id 0 0 (repeat 0 15) [] [].
Definition chan0 (id : Z) : pchan := mkPchan id 0 0 (repeat 0 7) [].

(* LexState, fn_parse.h:183-202; [s_chs] are the first channel_size_ channels,
   [s_name] and [s_desc] the first name_len_ and desc_len_ bytes *)
Record lstate := mkLs {
  s_text : text;
  s_cur : Z;
  s_end : Z;
  s_no : Z;
  s_chs : list pchan;
  s_shm : Z;
  s_hot : bool;
  s_name : text;
  s_desc : text
}.
Definition set_cur (s : lstate) (cur no : Z) : lstate :=
  mkLs (s_text s) cur (s_end s) no (s_chs s) (s_shm s) (s_hot s) (s_name s) (s_desc s).
Definition set_text (s : lstate) (t : text) : lstate :=
  mkLs t (s_cur s) (s_end s) (s_no s) (s_chs s) (s_shm s) (s_hot s) (s_name s) (s_desc s).
Definition set_chs (s : lstate) (chs : list pchan) : lstate :=
  mkLs (s_text s) (s_cur s) (s_end s) (s_no s) chs (s_shm s) (s_hot s) (s_name s) (s_desc s).

(* the characters from text.data() to its NUL *)
Definition buf (s : lstate) : text := s_text s ++ [0].
Definition lex_at (fuel : nat) (s : lstate) : outcome (Z * lstate * line) :=
  let! r := lex fuel (buf s) (s_cur s) (s_end s) in
  let '(code, cur, l, n) := r in
  Ret (code, set_cur s cur (s_no s + n), l).

(* a store into config_fields_ *)
Definition cput (l : list Z) (i v : Z) : list Z :=
  firstn (Z.to_nat i) l ++ v :: skipn (S (Z.to_nat i)) l.
Definition bool_of (b : bool) : Z := if b then 1 else 0.

Definition dput (d : pdev) (i v : Z) : pdev :=
  mkPdev (pd_id d) (pd_in d) (pd_out d) (cput (pd_cfg d) i v) (pd_file d) (pd_path d).
Definition put (d : pdev) (i : Z) (o : outcome Z) : outcome (Z * pdev) :=
  let! v := o in Ret (PEC_NONE, dput d i v).
(* ~x, stored as long long *)
Definition flip (o : outcome Z) : outcome Z := let! v := o in Ret (ll_of (Z.lnot v)).
Definition as_ll (o : outcome Z) : outcome Z := let! v := o in Ret (ll_of v).
(* atoll(..) * 1000 * 1000 *)
Definition limit_size (e : penv) (o : outcome Z) : outcome Z :=
  let! v := o in
  if (LLONG_MIN <=? v * 1000) && (v * 1000 <=? LLONG_MAX)
     && (LLONG_MIN <=? v * 1000 * 1000) && (v * 1000 * 1000 <=? LLONG_MAX)
  then Ret (v * 1000 * 1000) else x_arith e.

(* The switch of ParseDevice, 1164-1286.  [v] is the value, [w] all text from the
   start of the value, [rest] all text from its end.  A code other than PEC_NONE
   makes ParseDevice return it. *)
Definition device_key (e : penv) (d : pdev) (key : Z) (v w rest : text) : outcome (Z * pdev) :=
  if key =? RK_IN_TYPE then
    Ret (PEC_NONE, mkPdev (pd_id d) (parse_in_type v) (pd_out d) (pd_cfg d) (pd_file d) (pd_path d))
  else if key =? RK_OUT_TYPE then
    let d := mkPdev (pd_id d) (pd_in d) (parse_out_type v) (pd_cfg d) (pd_file d) (pd_path d) in
    Ret (if pd_out d =? DEVICE_OUT_NULL then PEC_UNDEFINED_DEVICE_TYPE else PEC_NONE, d)
  else if key =? RK_DISABLE then put d DEVICE_CFG_ABLE (Ret (bool_of (negb (parse_bool v))))
  else if key =? RK_PRIORITY then put d DEVICE_CFG_PRIORITY (Ret (parse_priority v))
  else if key =? RK_CATEGORY then put d DEVICE_CFG_CATEGORY (atoll w)
  else if key =? RK_CATEGORY_EXTEND then put d DEVICE_CFG_CATEGORY_EXTEND (atoll w)
  else if key =? RK_CATEGORY_WLIST then put d DEVICE_CFG_CATEGORY_MASK (as_ll (parse_bit_array e v rest))
  else if key =? RK_CATEGORY_BLIST then put d DEVICE_CFG_CATEGORY_MASK (flip (parse_bit_array e v rest))
  else if key =? RK_CATEGORY_WMASK then put d DEVICE_CFG_CATEGORY_MASK (atoll w)
  else if key =? RK_CATEGORY_BMASK then put d DEVICE_CFG_CATEGORY_MASK (flip (atoll w))
  else if key =? RK_IDENTIFY then put d DEVICE_CFG_IDENTIFY (atoll w)
  else if key =? RK_IDENTIFY_EXTEND then put d DEVICE_CFG_IDENTIFY_EXTEND (atoll w)
  else if key =? RK_IDENTIFY_WLIST then put d DEVICE_CFG_IDENTIFY_MASK (as_ll (parse_bit_array e v rest))
  else if key =? RK_IDENTIFY_BLIST then put d DEVICE_CFG_IDENTIFY_MASK (flip (parse_bit_array e v rest))
  else if key =? RK_IDENTIFY_WMASK then put d DEVICE_CFG_IDENTIFY_MASK (atoll w)
  else if key =? RK_IDENTIFY_BMASK then put d DEVICE_CFG_IDENTIFY_MASK (flip (atoll w))
  else if key =? RK_LIMIT_SIZE then put d DEVICE_CFG_FILE_LIMIT_SIZE (limit_size e (atoll w))
  else if key =? RK_ROLLBACK then put d DEVICE_CFG_FILE_ROLLBACK (atoll w)
  else if key =? RK_ROLLDAILY then put d DEVICE_CFG_FILE_ROLLDAILY (Ret (bool_of (parse_bool v)))
  else if key =? RK_ROLLHOURLY then put d DEVICE_CFG_FILE_ROLLHOURLY (Ret (bool_of (parse_bool v)))
  else if key =? RK_FILE_STUFF_UP then put d DEVICE_CFG_FILE_STUFF_UP (Ret (bool_of (parse_bool v)))
  else if key =? RK_PATH then
    Ret (PEC_NONE, if (zlen v <? 200 - 1) && (1 <=? zlen v)
                   then mkPdev (pd_id d) (pd_in d) (pd_out d) (pd_cfg d) (pd_file d) v else d)
  else if key =? RK_FILE then
    Ret (PEC_NONE, if (zlen v <? 50 - 1) && (1 <=? zlen v)
                   then mkPdev (pd_id d) (pd_in d) (pd_out d) (pd_cfg d) v (pd_path d) else d)
  else if key =? RK_UDP_ADDR then
    let able := negb (fld (pd_cfg d) DEVICE_CFG_ABLE =? 0) in
    let! r := parse_address e v able in
    let '(ip, port) := r in
    let d := dput (dput d DEVICE_CFG_UDP_IP ip) DEVICE_CFG_UDP_PORT port in
    Ret (if able && (pd_in d =? DEVICE_IN_NULL) && (ip =? 0) then PEC_ILLEGAL_ADDR_IP
         else if able && (port =? 0) then PEC_ILLEGAL_ADDR_PORT
         else PEC_NONE, d)
  else Ret (PEC_UNDEFINED_DEVICE_KEY, d).

(* value, text from its start and text from its end, of a lexed line *)
Definition line_val (b : text) (l : line) : outcome (text * text * text) :=
  let! v := sub b (l_vb l) (l_ve l) in
  let! w := sub b (l_vb l) (zlen b) in
  let! rest := sub b (l_ve l) (zlen b) in
  Ret (v, w, rest).

(* ParseDevice, fn_parse.h:1136-1290.  When a line is given back (current_ reset,
   1158 and others) its line number is taken back; only UNDEFINED_DEVICE_KEY and
   lexer errors do not reset both. *)
Fixpoint parse_device (fuel : nat) (e : penv) (s : lstate) (d : pdev) (indent : Z)
  : outcome (Z * lstate * pdev) :=
  match fuel with
  | O => Fuel
  | S fuel' =>
      let cur := s_cur s in
      let! r := lex_at fuel' s in
      let '(ret, s1, l) := r in
      let again s d := if s_cur s <? s_end s then parse_device fuel' e s d indent else Ret (0, s, d) in
      if negb (ret =? PEC_NONE) then Ret (ret, set_cur s1 cur (s_no s1), d)
      else if l_ke l - l_kb l =? 0 then
        if s_end s1 <=? s_cur s1 then Ret (ret, s1, d) else again s1 d
      else if l_blank l <=? indent then Ret (0, set_cur s1 cur (s_no s1 - 1), d)
      else
        let! v := line_val (buf s1) l in
        let '(v, w, rest) := v in
        let! r := device_key e d (l_key l) v w rest in
        let '(ret, d) := r in
        if ret =? PEC_NONE then again s1 d
        else if ret =? PEC_UNDEFINED_DEVICE_KEY then Ret (ret, s1, d)
        else Ret (ret, set_cur s1 cur (s_no s1 - 1), d)
  end.

Definition cputc (c : pchan) (i v : Z) : pchan :=
  mkPchan (pc_id c) (pc_type c) (pc_virtual c) (cput (pc_cfg c) i v) (pc_devs c).
Definition putc (c : pchan) (i : Z) (o : outcome Z) : outcome (Z * pchan) :=
  let! v := o in Ret (PEC_NONE, cputc c i v).

(* The switch of ParseChannel without RK_DEVICE, 1317-1359 and 1394 *)
Definition channel_key (e : penv) (c : pchan) (key : Z) (v w rest : text) : outcome (Z * pchan) :=
  if key =? RK_SYNC then
    Ret (PEC_NONE, mkPchan (pc_id c) (parse_channel_type v) (pc_virtual c) (pc_cfg c) (pc_devs c))
  else if key =? RK_PRIORITY then putc c CHANNEL_CFG_PRIORITY (Ret (parse_priority v))
  else if key =? RK_CATEGORY then putc c CHANNEL_CFG_CATEGORY (atoi w)
  else if key =? RK_CATEGORY_EXTEND then putc c CHANNEL_CFG_CATEGORY_EXTEND (atoi w)
  else if key =? RK_CATEGORY_WLIST then putc c CHANNEL_CFG_CATEGORY_MASK (as_ll (parse_bit_array e v rest))
  else if key =? RK_CATEGORY_BLIST then putc c CHANNEL_CFG_CATEGORY_MASK (flip (parse_bit_array e v rest))
  else if key =? RK_CATEGORY_WMASK then putc c CHANNEL_CFG_CATEGORY_MASK (atoll w)
  else if key =? RK_CATEGORY_BMASK then putc c CHANNEL_CFG_CATEGORY_MASK (flip (atoll w))
  else if key =? RK_IDENTIFY then putc c CHANNEL_CFG_IDENTIFY (atoi w)
  else if key =? RK_IDENTIFY_EXTEND then putc c CHANNEL_CFG_IDENTIFY_EXTEND (atoi w)
  else if key =? RK_IDENTIFY_WLIST then putc c CHANNEL_CFG_IDENTIFY_MASK (as_ll (parse_bit_array e v rest))
  else if key =? RK_IDENTIFY_BLIST then putc c CHANNEL_CFG_IDENTIFY_MASK (flip (parse_bit_array e v rest))
  else if key =? RK_IDENTIFY_WMASK then putc c CHANNEL_CFG_IDENTIFY_MASK (atoll w)
  else if key =? RK_IDENTIFY_BMASK then putc c CHANNEL_CFG_IDENTIFY_MASK (flip (atoll w))
  else Ret (PEC_UNDEFINED_CHANNEL_KEY, c).

(* devices_[device_size_++] = d, then virtual_device_id_, 1373-1384 *)
Definition add_dev (c : pchan) (d : pdev) : pchan :=
  mkPchan (pc_id c) (pc_type c)
    (if pd_out d =? DEVICE_OUT_VIRTUAL then pd_id d else pc_virtual c)
    (pc_cfg c) (pc_devs c ++ [d]).

(* ParseChannel, fn_parse.h:1291-1400 *)
Fixpoint parse_channel (fuel : nat) (e : penv) (s : lstate) (c : pchan) (indent : Z)
  : outcome (Z * lstate * pchan) :=
  match fuel with
  | O => Fuel
  | S fuel' =>
      let cur := s_cur s in
      let! r := lex_at fuel' s in
      let '(ret, s1, l) := r in
      let again s c := if s_cur s <? s_end s then parse_channel fuel' e s c indent else Ret (0, s, c) in
      if negb (ret =? PEC_NONE) then Ret (ret, set_cur s1 cur (s_no s1), c)
      else if l_ke l - l_kb l =? 0 then
        if s_end s1 <=? s_cur s1 then Ret (ret, s1, c) else again s1 c
      else if l_blank l <=? indent then Ret (0, set_cur s1 cur (s_no s1 - 1), c)
      else
        let! v := line_val (buf s1) l in
        let '(v, w, rest) := v in
        if l_key l =? RK_DEVICE then
          let! id := atoi w in
          if x_maxdev e <=? zlen (pc_devs c) then Ret (E_OUT_OF_DEVICE_SIZE, set_cur s1 cur (s_no s1 - 1), c)
          else if negb (id =? zlen (pc_devs c)) then Ret (E_DEVICE_NOT_SEQUENCE, set_cur s1 cur (s_no s1 - 1), c)
          else
            let! r := parse_device fuel' e s1 (dev0 id) (l_blank l) in
            let '(ret, s2, d) := r in
            let c := add_dev c d in
            if negb (ret =? PEC_NONE) then Ret (ret, s2, c) else again s2 c
        else
          let! r := channel_key e c (l_key l) v w rest in
          let '(ret, c) := r in
          if ret =? PEC_NONE then again s1 c else Ret (ret, s1, c)
  end.

(* ParseLogger, fn_parse.h:1402-1512.  [s_end] is first + text.length(), which is
   behind the NUL when a UTF-8 byte order mark is skipped.
   One round of the loop 1423-1508: go on, or return a code. *)
Inductive lnext :=
| Next (s : lstate)
| Stop (code : Z) (s : lstate).
Definition again (s : lstate) : lnext :=
  if s_cur s <? s_end s then Next s
  else Stop (if zlen (s_chs s) =? 0 then E_INVALID_CHANNEL_SIZE else PEC_NONE) s.
Definition logger_line (fuel : nat) (e : penv) (s : lstate) : outcome lnext :=
  let cur := s_cur s in
  let! r := lex_at fuel s in
  let '(ret, s1, l) := r in
  if negb (ret =? PEC_NONE) then Ret (Stop ret (set_cur s1 cur (s_no s1)))
  else if l_ke l - l_kb l =? 0 then
    if s_end s1 <=? s_cur s1 then Ret (Stop ret s1) else Ret (again s1)
  else
    let! v := line_val (buf s1) l in
    let '(v, w, rest) := v in
    let k := l_key l in
    if k =? RK_HOT_UPDATE then
      Ret (again (mkLs (s_text s1) (s_cur s1) (s_end s1) (s_no s1) (s_chs s1) (s_shm s1) (parse_bool v) (s_name s1) (s_desc s1)))
    else if (k =? RK_DEFINE) || (k =? RK_VARIABLE) then
      let! r := (if k =? RK_DEFINE then predefined_macro fuel (s_text s1) (Z.to_nat (l_ve l)) v
                 else predefined_var fuel (s_text s1) (Z.to_nat (l_ve l)) v) in
      let '(ret, t) := r in
      let s2 := set_text s1 t in
      if negb (ret =? PEC_NONE) then Ret (Stop ret (set_cur s2 cur (s_no s1 - 1))) else Ret (again s2)
    else if k =? RK_LOGGER_NAME then
      Ret (again (mkLs (s_text s1) (s_cur s1) (s_end s1) (s_no s1) (s_chs s1) (s_shm s1) (s_hot s1)
               (match parse_string v 250 with Some n => n | None => [] end) (s_desc s1)))
    else if k =? PK_LOGGER_DESC then
      Ret (again (mkLs (s_text s1) (s_cur s1) (s_end s1) (s_no s1) (s_chs s1) (s_shm s1) (s_hot s1) (s_name s1)
               (match parse_string v 50 with Some n => n | None => [] end)))
    else if k =? RK_SHM_KEY then
      let! n := parse_number v in
      Ret (again (mkLs (s_text s1) (s_cur s1) (s_end s1) (s_no s1) (s_chs s1) n (s_hot s1) (s_name s1) (s_desc s1)))
    else if k =? RK_CHANNEL then
      let! id := atoi w in
      if x_maxch e <=? zlen (s_chs s1) then Ret (Stop E_INVALID_CHANNEL_SIZE (set_cur s1 cur (s_no s1 - 1)))
      else if negb (zlen (s_chs s1) =? id) then Ret (Stop E_CHANNEL_NOT_SEQUENCE (set_cur s1 cur (s_no s1 - 1)))
      else
        let! r := parse_channel fuel e s1 (chan0 id) (l_blank l) in
        let '(ret, s2, c) := r in
        let s2 := set_chs s2 (s_chs s2 ++ [c]) in
        if negb (ret =? 0) then Ret (Stop ret s2) else Ret (again s2)
    else Ret (Stop PEC_UNDEFINED_GLOBAL_KEY s1).
Fixpoint logger_loop (fuel : nat) (e : penv) (s : lstate) : outcome (Z * lstate) :=
  match fuel with
  | O => Fuel
  | S fuel' =>
      let! r := logger_line fuel' e s in
      match r with
      | Next s => logger_loop fuel' e s
      | Stop code s => Ret (code, s)
      end
  end.

Definition has_bom (t : text) : bool := starts [239; 187; 191] t.
(* [shm] is what the fresh LexState holds in shm_key_: new LexState (fn_load.h:169)
   does not initialise it and ParseLogger does not either (1402-1422) *)
Definition parse_logger (fuel : nat) (e : penv) (shm : Z) (t : text) : outcome (Z * lstate) :=
  let first := if has_bom t then 3 else 0 in
  logger_loop fuel e (mkLs t first (first + zlen t) 1 [] shm false [] []).

(* C++: undefined arithmetic is undefined; the default maxima of fn_data.h:47-53 *)
Definition std_env : penv := mkPenv (fun _ => None) Ub 2 20.
