(* The parsers of single keys and values of the configuration file,
   fn_parse.h:203-749.
   A pair of pointers (begin, end) into the text is represented by the bytes
   between them; a C function that keeps reading until a terminator is given all
   bytes up to and including the NUL behind the text.  Reading behind the last
   byte given is undefined. *)
From Coq Require Import String ZArith List Bool.
From Verif Require Import Base LoggerState FileName.
Import ListNotations.
Open Scope Z_scope.

(* What the parser takes from outside the text.
   [x_dns] is gethostbyname reduced to the first IPv4 address (fn_parse.h:636-655);
   [x_arith] is what a shift by 64 or more, or an overflowing multiplication,
   delivers: Ub in C++ (see [std_env]);  [x_maxch] and [x_maxdev] are
   FN_LOG_MAX_CHANNEL_SIZE and FN_LOG_MAX_DEVICE_SIZE (fn_data.h:47-53). *)
Record penv := mkPenv {
  x_dns : text -> option Z;
  x_arith : outcome Z;
  x_maxch : Z;
  x_maxdev : Z
}.

(* ---- character classes, fn_parse.h:203-288 ---- *)
Definition is_number (c : Z) : bool := (48 <=? c) && (c <=? 57).
Definition is_blank (c : Z) : bool := (c =? 32) || (c =? 9) || (c =? 11) || (c =? 12).
Definition is_soft (c : Z) : bool := (c =? 0) || (c =? 13) || (c =? 10) || (c =? 35).
Definition is_bound (c : Z) : bool := (c =? 0) || (c =? 13) || (c =? 10).
Definition is_lower (c : Z) : bool := (97 <=? c) && (c <=? 122).
Definition is_upper (c : Z) : bool := (65 <=? c) && (c <=? 90).
Definition is_name (c : Z) : bool := is_lower c || is_upper c || is_number c || (c =? 95).
Definition is_name_first (c : Z) : bool := is_lower c || is_upper c || (c =? 95).

(* ---- ReseveKey, fn_parse.h:127-163 ---- *)
Definition RK_NULL := 0.
Definition RK_SHM_KEY := 1.
Definition RK_CHANNEL := 2.
Definition RK_DEFINE := 3.
Definition RK_VARIABLE := 4.
Definition RK_DEVICE := 5.
Definition RK_SYNC := 6.
Definition RK_DISABLE := 7.
Definition RK_HOT_UPDATE := 8.
Definition RK_LOGGER_NAME := 9.
Definition PK_LOGGER_DESC := 10.
Definition RK_PRIORITY := 11.
Definition RK_CATEGORY := 12.
Definition RK_CATEGORY_EXTEND := 13.
Definition RK_CATEGORY_WLIST := 14.
Definition RK_CATEGORY_BLIST := 15.
Definition RK_CATEGORY_WMASK := 16.
Definition RK_CATEGORY_BMASK := 17.
Definition RK_IDENTIFY := 18.
Definition RK_IDENTIFY_EXTEND := 19.
Definition RK_IDENTIFY_WLIST := 20.
Definition RK_IDENTIFY_BLIST := 21.
Definition RK_IDENTIFY_WMASK := 22.
Definition RK_IDENTIFY_BMASK := 23.
Definition RK_IN_TYPE := 24.
Definition RK_OUT_TYPE := 25.
Definition RK_FILE := 26.
Definition RK_PATH := 27.
Definition RK_LIMIT_SIZE := 28.
Definition RK_ROLLBACK := 29.
Definition RK_ROLLDAILY := 30.
Definition RK_ROLLHOURLY := 31.
Definition RK_FILE_STUFF_UP := 32.
Definition RK_UDP_ADDR := 33.

(* ParseReserve, fn_parse.h:290-465; [k] is the key *)
Definition parse_reserve (k : text) : outcome Z :=
  if zlen k <? 2 then Ret RK_NULL else
  let! c0 := rd k 0 in
  let! c1 := rd k 1 in
  if c0 =? 99 then                                             (* 'c' *)
    if c1 =? 104 then Ret RK_CHANNEL
    else if c1 =? 97 then
      if 11 <? zlen k then
        let! c9 := rd k 9 in
        if c9 =? 101 then Ret RK_CATEGORY_EXTEND
        else if c9 =? 119 then
          let! c10 := rd k 10 in
          if c10 =? 108 then Ret RK_CATEGORY_WLIST
          else if c10 =? 109 then Ret RK_CATEGORY_WMASK else Ret RK_NULL
        else if c9 =? 98 then
          let! c10 := rd k 10 in
          if c10 =? 108 then Ret RK_CATEGORY_BLIST
          else if c10 =? 109 then Ret RK_CATEGORY_BMASK else Ret RK_NULL
        else Ret RK_NULL
      else Ret RK_CATEGORY
    else Ret RK_NULL
  else if c0 =? 100 then                                       (* 'd' *)
    if zlen k <? 3 then Ret RK_NULL else
    let! c2 := rd k 2 in
    if c2 =? 102 then Ret RK_DEFINE
    else if c1 =? 101 then Ret RK_DEVICE
    else if c1 =? 105 then Ret RK_DISABLE
    else Ret RK_NULL
  else if c0 =? 102 then Ret RK_FILE                           (* 'f' *)
  else if c0 =? 104 then Ret RK_HOT_UPDATE                     (* 'h' *)
  else if c0 =? 105 then                                       (* 'i' *)
    if c1 =? 110 then Ret RK_IN_TYPE
    else if 11 <? zlen k then
      let! c9 := rd k 9 in
      if c9 =? 101 then Ret RK_IDENTIFY_EXTEND
      else if c9 =? 119 then
        let! c10 := rd k 10 in
        if c10 =? 108 then Ret RK_IDENTIFY_WLIST
        else if c10 =? 109 then Ret RK_IDENTIFY_WMASK else Ret RK_NULL
      else if c9 =? 98 then
        let! c10 := rd k 10 in
        if c10 =? 108 then Ret RK_IDENTIFY_BLIST
        else if c10 =? 109 then Ret RK_IDENTIFY_BMASK else Ret RK_NULL
      else Ret RK_NULL
    else Ret RK_IDENTIFY
  else if c0 =? 108 then                                       (* 'l' *)
    if c1 =? 105 then Ret RK_LIMIT_SIZE
    else if 8 <? zlen k then
      let! c7 := rd k 7 in
      if c7 =? 110 then Ret RK_LOGGER_NAME
      else if c7 =? 100 then Ret PK_LOGGER_DESC
      else Ret RK_NULL
    else Ret RK_NULL
  else if c0 =? 112 then                                       (* 'p' *)
    if c1 =? 114 then Ret RK_PRIORITY
    else if c1 =? 97 then Ret RK_PATH
    else Ret RK_NULL
  else if c0 =? 114 then                                       (* 'r' *)
    if 6 <? zlen k then
      let! c4 := rd k 4 in
      if c4 =? 98 then Ret RK_ROLLBACK
      else if c4 =? 100 then Ret RK_ROLLDAILY
      else if c4 =? 104 then Ret RK_ROLLHOURLY
      else Ret RK_NULL
    else Ret RK_NULL
  else if c0 =? 111 then Ret RK_OUT_TYPE                       (* 'o' *)
  else if c0 =? 115 then                                       (* 's' *)
    if c1 =? 121 then Ret RK_SYNC
    else if c1 =? 116 then Ret RK_FILE_STUFF_UP
    else Ret RK_SHM_KEY
  else if c0 =? 117 then Ret RK_UDP_ADDR                       (* 'u' *)
  else if c0 =? 118 then Ret RK_VARIABLE                       (* 'v' *)
  else Ret RK_NULL.

(* ---- the C library's number readers ---- *)
(* isspace *)
Definition is_space (c : Z) : bool := (c =? 32) || ((9 <=? c) && (c <=? 13)).
Fixpoint skip_spaces (s : text) : text :=
  match s with
  | [] => []
  | c :: r => if is_space c then skip_spaces r else s
  end.
(* value of a digit in bases up to 16 *)
Definition digit_val (c : Z) : Z :=
  if is_number c then c - 48
  else if (97 <=? c) && (c <=? 102) then c - 87
  else if (65 <=? c) && (c <=? 70) then c - 55
  else 99.
(* the digits at the start of s; the bytes given end before a non-digit is seen: Ub *)
Fixpoint digits_of (base : Z) (s : text) (acc : Z) : outcome Z :=
  match s with
  | [] => Ub
  | c :: r => if digit_val c <? base then digits_of base r (acc * base + digit_val c) else Ret acc
  end.
Definition clamp (v : Z) : Z :=
  if v <? LLONG_MIN then LLONG_MIN else if LLONG_MAX <? v then LLONG_MAX else v.
(* strtoll(s, NULL, 10) and strtoll(s, NULL, 0): saturating *)
Definition strtoll10 (s : text) : outcome Z :=
  match skip_spaces s with
  | [] => Ub
  | c :: r =>
      if c =? 45 then let! v := digits_of 10 r 0 in Ret (clamp (- v))
      else if c =? 43 then let! v := digits_of 10 r 0 in Ret (clamp v)
      else let! v := digits_of 10 (c :: r) 0 in Ret (clamp v)
  end.
(* the prefix 0x counts only when a hexadecimal digit follows it *)
Definition auto_base (s : text) : outcome Z :=
  match s with
  | [] => Ub
  | c :: r =>
      if c =? 48 then
        match r with
        | x :: d :: r' =>
            if ((x =? 120) || (x =? 88)) && (digit_val d <? 16)
            then digits_of 16 (d :: r') 0 else digits_of 8 s 0
        | _ => digits_of 8 s 0
        end
      else digits_of 10 s 0
  end.
Definition strtoll0 (s : text) : outcome Z :=
  match skip_spaces s with
  | [] => Ub
  | c :: r =>
      if c =? 45 then let! v := auto_base r in Ret (clamp (- v))
      else if c =? 43 then let! v := auto_base r in Ret (clamp v)
      else let! v := auto_base (c :: r) in Ret (clamp v)
  end.
(* atoll(s) and atoi(s) as in glibc on LP64: strtol, the second cut to int *)
Definition atoll (s : text) : outcome Z := strtoll10 s.
Definition atoi (s : text) : outcome Z := let! v := strtoll10 s in Ret (int_of v).

(* ---- values; [v] is the value ---- *)
(* ParsePriority, fn_parse.h:467-492 *)
Definition parse_priority (v : text) : Z :=
  match v with
  | [] => PRIORITY_TRACE
  | c :: _ =>
      if (c =? 116) || (c =? 84) || (c =? 110) || (c =? 78) then PRIORITY_TRACE
      else if (c =? 100) || (c =? 68) then PRIORITY_DEBUG
      else if (c =? 105) || (c =? 73) then PRIORITY_INFO
      else if (c =? 119) || (c =? 87) then PRIORITY_WARN
      else if (c =? 101) || (c =? 69) then PRIORITY_ERROR
      else if (c =? 97) || (c =? 65) then PRIORITY_ALARM
      else if (c =? 102) || (c =? 70) then PRIORITY_FATAL
      else PRIORITY_TRACE
  end.
(* ParseBool, fn_parse.h:494-505 *)
Definition parse_bool (v : text) : bool :=
  match v with
  | [] => false
  | c :: _ => negb ((c =? 48) || (c =? 102) || (c =? 70))
  end.
(* ParseNumber, fn_parse.h:507-523: the value is copied and NUL-terminated *)
Definition parse_number (v : text) : outcome Z :=
  match v with
  | [] => Ret 0
  | _ => if 40 <? zlen v then Ret 0 else strtoll0 (v ++ [0])
  end.
(* ParseString, fn_parse.h:525-540: None leaves the buffer, with length 0 *)
Definition parse_string (v : text) (buffer_len : Z) : option text :=
  match v with
  | [] => None
  | _ => Some (firstn (Z.to_nat (buffer_len - 1)) v)
  end.
(* ParseChannelType, fn_parse.h:541-548 *)
Definition parse_channel_type (v : text) : Z :=
  match v with
  | c :: _ => if c =? 115 then CHANNEL_SYNC else CHANNEL_ASYNC
  | [] => CHANNEL_ASYNC
  end.
(* ParseInType, fn_parse.h:550-562 *)
Definition parse_in_type (v : text) : Z :=
  match v with
  | c :: _ => if (c =? 117) || (c =? 85) then DEVICE_IN_UDP else DEVICE_IN_NULL
  | [] => DEVICE_IN_NULL
  end.
(* ParseOutType, fn_parse.h:564-586 *)
Definition parse_out_type (v : text) : Z :=
  match v with
  | [] => DEVICE_OUT_NULL
  | c :: _ =>
      if (c =? 101) || (c =? 69) then DEVICE_OUT_EMPTY
      else if (c =? 102) || (c =? 70) then DEVICE_OUT_FILE
      else if (c =? 110) || (c =? 78) then DEVICE_OUT_NULL
      else if (c =? 117) || (c =? 85) then DEVICE_OUT_UDP
      else if (c =? 115) || (c =? 83) then DEVICE_OUT_SCREEN
      else if (c =? 118) || (c =? 86) then DEVICE_OUT_VIRTUAL
      else DEVICE_OUT_NULL
  end.

(* ---- addresses ---- *)
Fixpoint drop_while (p : Z -> bool) (s : text) : text :=
  match s with
  | [] => []
  | c :: r => if p c then drop_while p r else s
  end.
Fixpoint take_while (p : Z -> bool) (s : text) : text :=
  match s with
  | [] => []
  | c :: r => if p c then c :: take_while p r else []
  end.
(* One part of an inet_addr argument made of digits: octal after a leading 0. *)
Fixpoint plain_num (base : Z) (s : text) (acc : Z) : option Z :=
  match s with
  | [] => Some acc
  | c :: r => if digit_val c <? base then plain_num base r (acc * base + digit_val c) else None
  end.
Definition addr_part (s : text) : option Z :=
  match s with
  | [] => None
  | c :: _ => plain_num (if c =? 48 then 8 else 10) s 0
  end.
Fixpoint split_dots (s : text) (acc : text) : list text :=
  match s with
  | [] => [acc]
  | c :: r => if c =? 46 then acc :: split_dots r [] else split_dots r (acc ++ [c])
  end.
Definition INADDR_NONE := 4294967295.
(* inet_addr of a string of digits and dots (the only ones that reach it,
   fn_parse.h:596-605,663): one to four parts, all but the last below 256 and the
   last filling the remaining bytes.  The result is in network byte order; as a
   number on a little-endian machine the first part is the lowest byte. *)
Definition swap32 (v : Z) : Z :=
  v mod 256 * 2 ^ 24 + v / 2 ^ 8 mod 256 * 2 ^ 16 + v / 2 ^ 16 mod 256 * 2 ^ 8 + v / 2 ^ 24 mod 256.
Definition byte_part (o : option Z) : option Z :=
  match o with Some v => if v <? 256 then Some v else None | None => None end.
Definition inet_addr (s : text) : Z :=
  let r :=
    match map addr_part (split_dots s []) with
    | [Some a] => if a <? 2 ^ 32 then Some a else None
    | [a; Some b] =>
        match byte_part a with
        | Some a => if b <? 2 ^ 24 then Some (a * 2 ^ 24 + b) else None
        | None => None
        end
    | [a; b; Some c] =>
        match byte_part a, byte_part b with
        | Some a, Some b => if c <? 2 ^ 16 then Some (a * 2 ^ 24 + b * 2 ^ 16 + c) else None
        | _, _ => None
        end
    | [a; b; c; d] =>
        match byte_part a, byte_part b, byte_part c, byte_part d with
        | Some a, Some b, Some c, Some d => Some (a * 2 ^ 24 + b * 2 ^ 16 + c * 2 ^ 8 + d)
        | _, _, _, _ => None
        end
    | _ => None
    end in
  match r with Some v => swap32 v | None => INADDR_NONE end.

(* ParseAddresIP, fn_parse.h:588-667: the address and the bytes after it.
   (The two loops read the byte at end before comparing; it is inside the text
   or its NUL.) *)
Definition parse_address_ip (e : penv) (v : text) (parse_dn : bool) : Z * text :=
  match v with
  | [] => (0, [])
  | _ =>
      let s := drop_while is_blank v in
      let host c := negb (is_blank c || (c =? 58)) in
      let dn := take_while host s in
      let rest := drop_while host s in
      if zlen dn <=? 0 then (0, [])
      else if existsb (fun c => negb (is_number c) && negb (c =? 46)) dn then
        if parse_dn then
          match x_dns e dn with
          | Some ip => (ip, rest)
          | None => (0, [])
          end
        else (0, [])
      else (inet_addr dn, rest)
  end.
Definition swap16 (v : Z) : Z := v mod 256 * 256 + v / 256 mod 256.
(* ParseAddres, fn_parse.h:670-698: (ip, port); the port digits are copied and
   NUL-terminated; htons on a little-endian machine *)
Definition parse_address (e : penv) (v : text) (parse_dn : bool) : outcome (Z * Z) :=
  match v with
  | [] => Ret (0, 0)
  | _ =>
      let '(ip, s) := parse_address_ip e v parse_dn in
      match drop_while (fun c => (c <? 49) || (57 <? c)) s with
      | [] => Ret (0, 0)
      | p =>
          if 40 <=? zlen p then Ret (0, 0)
          else let! n := atoi (p ++ [0]) in Ret (ip, swap16 (n mod 2 ^ 16))
      end
  end.

(* ---- bit lists, fn_parse.h:700-749 ---- *)
(* 1ULL << i *)
Definition shl1 (e : penv) (i : Z) : outcome Z :=
  if (0 <=? i) && (i <? 64) then Ret (2 ^ i) else x_arith e.
(* the loop 741-744 over n consecutive bits *)
Fixpoint set_bits (n : nat) (i bitmap : Z) : Z :=
  match n with
  | O => bitmap
  | S n' => set_bits n' (i + 1) (Z.lor bitmap (2 ^ i))
  end.
Definition set_range (e : penv) (bitmap first last : Z) : outcome Z :=
  let lo := Z.min first last in
  let hi := Z.max first last in
  if (0 <=? lo) && (hi <? 64) then Ret (set_bits (Z.to_nat (hi - lo + 1)) lo bitmap)
  else x_arith e.
Definition set_bit (e : penv) (bitmap i : Z) : outcome Z :=
  let! b := shl1 e i in Ret (Z.lor bitmap b).
(* ParseBitArray; [s] is the value from offset to end, [rest] the text behind it *)
Fixpoint bit_loop (fuel : nat) (e : penv) (s rest : text) (bitmap : Z) : outcome Z :=
  match fuel with
  | O => Fuel
  | S fuel' =>
      match drop_while (fun c => negb (is_number c)) s with
      | [] => Ret bitmap
      | s1 =>
          let! first := atoi (s1 ++ rest) in
          let s2 := drop_while (fun c => is_number c || is_blank c) s1 in
          if negb (hd 0 s2 =? 45) then
            let! b := set_bit e bitmap first in
            bit_loop fuel' e s2 rest b
          else
            let s3 := drop_while (fun c => negb (is_number c) && negb (c =? 44)) s2 in
            if negb (is_number (hd 0 s3)) then
              let! b := set_bit e bitmap first in
              bit_loop fuel' e s3 rest b
            else
              let! last := atoi (s3 ++ rest) in
              let! b := set_range e bitmap first last in
              bit_loop fuel' e s3 rest b
      end
  end.
Definition parse_bit_array (e : penv) (v rest : text) : outcome Z :=
  bit_loop (S (length v)) e v rest 0.
