(* Model of LogStream (src/include/fn_stream.h) on one record's content buffer,
   of the end of PushChannel that terminates the text, and of LOG_FORMAT. *)
From Coq Require Import String ZArith List Bool.
From Verif Require Import Base NumFmt DateFmt DblFmt.
Import ListNotations.
Open Scope Z_scope.

(* What the formatters depend on: the time zone, libc's float texts, and
   LogData::LOG_SIZE (fn_data.h:55-57,128). *)
Record env := mkEnv { e_zone : zone; e_libc : libc; e_cap : Z }.

(* LogData::content_ and content_len_ (fn_data.h:143-145), and the date cache
   of the writing thread (fn_fmt.h:321-322). *)
Record strm := mkStrm { s_buf : text; s_len : Z; s_cache : cache }.

(* fn_stream.h:205-210 write_char_unsafe *)
Definition write_char_unsafe (st : strm) (ch : Z) : outcome strm :=
  let! buf := wr (s_buf st) (s_len st) ch in
  Ret (mkStrm buf (s_len st + 1) (s_cache st)).

(* memcpy's source: [n] bytes at the start of [src] *)
Definition take (src : text) (n : Z) : outcome text := slice src 0 n.

(* fn_stream.h:211-216 write_buffer_unsafe *)
Definition write_buffer_unsafe (st : strm) (src : text) (src_len : Z) : outcome strm :=
  let! bytes := take src src_len in
  let! buf := blit (s_buf st) (s_len st) bytes in
  Ret (mkStrm buf (s_len st + src_len) (s_cache st)).

(* fn_stream.h:218-227 write_buffer *)
Definition write_buffer (E : env) (st : strm) (src : text) (src_len : Z) : outcome strm :=
  if (0 <? src_len) && (s_len st <? e_cap E) then
    let src_len := Z.min src_len (e_cap E - s_len st) in
    write_buffer_unsafe st src src_len
  else Ret st.
(* a string literal with its length *)
Definition write_lit (E : env) (st : strm) (s : text) : outcome strm := write_buffer E st s (zlen s).

(* content_len_ += formatter(content_ + content_len_, ...) *)
Definition advance (st : strm) (f : text -> Z -> outcome (text * Z)) : outcome strm :=
  let! (buf, n) := f (s_buf st) (s_len st) in
  Ret (mkStrm buf (s_len st + n) (s_cache st)).
(* the guard of fn_stream.h:233,242,261,349,357 *)
Definition guarded (E : env) (st : strm) (f : text -> Z -> outcome (text * Z)) : outcome strm :=
  if s_len st + 30 <=? e_cap E then advance st f else Ret st.

(* fn_stream.h:230-247 write_longlong, write_ulonglong *)
Definition write_longlong (wide : Z) (E : env) (st : strm) (n : Z) : outcome strm :=
  guarded E st (fun dst off => write_dec_s wide dst off n).
Definition write_ulonglong (wide : Z) (E : env) (st : strm) (n : Z) : outcome strm :=
  guarded E st (fun dst off => write_dec_u wide dst off n).
(* fn_stream.h:259-266 *)
Definition stream_pointer (E : env) (st : strm) (p : Z) : outcome strm :=
  guarded E st (fun dst off => write_pointer dst off p).
(* fn_stream.h:347-361 *)
Definition stream_double (E : env) (st : strm) (d : dbl) : outcome strm :=
  guarded E st (fun dst off => write_double (e_libc E) dst off d).

(* write_date advancing the cache *)
Definition advance_date (E : env) (st : strm) (ts precise : Z) : outcome strm :=
  let! (c, buf, n) := write_date (e_zone E) (s_cache st) (s_buf st) (s_len st) ts precise in
  Ret (mkStrm buf (s_len st + n) c).

(* ---- write_binary, fn_stream.h:268-312 ---- *)
(* isprint in the C locale *)
Definition isprint (c : Z) : bool := (32 <=? c) && (c <=? 126).

(* fn_stream.h:280-292 *)
Fixpoint bin_chars (E : env) (st : strm) (row : text) : outcome strm :=
  match row with
  | [] => Ret st
  | c :: row' =>
      let! st :=
        if isprint c then
          let! st := write_lit E st [32] in
          let! st := write_buffer E st [c] 1 in
          write_lit E st [32]
        else write_lit E st (s2z " . ") in
      bin_chars E st row'
  end.
(* fn_stream.h:299-308 *)
Fixpoint bin_hex (E : env) (st : strm) (row : text) : outcome strm :=
  match row with
  | [] => Ret st
  | c :: row' =>
      if e_cap E <=? s_len st + 30 then Ret st
      else
        let! st := advance st (fun dst off => write_hex 2 dst off c) in
        let! st := write_lit E st [32] in
        bin_hex E st row'
  end.
Definition crlf_tab : text := [13; 10; 9].
(* fn_stream.h:275-309; [data] are the bytes from row i on, [n] the number of
   rows still to print *)
Fixpoint bin_rows (n : nat) (E : env) (st : strm) (addr : Z) (data : text) : outcome strm :=
  match n with
  | O => Ret st
  | S n' =>
      let row := firstn 32 data in
      let! st := write_lit E st (crlf_tab ++ [91]) in
      let! st := stream_pointer E st addr in
      let! st := write_lit E st (s2z ": ") in
      let! st := bin_chars E st row in
      let! st := write_lit E st (crlf_tab ++ [91]) in
      let! st := if s_len st + 8 <=? e_cap E then stream_pointer E st addr else Ret st in
      let! st := write_lit E st (s2z ": ") in
      let! st := bin_hex E st row in
      bin_rows n' E st (addr + 32) (skipn 32 data)
  end.
Definition write_binary (E : env) (st : strm) (addr : Z) (data : text) : outcome strm :=
  let! st := write_lit E st (crlf_tab ++ [91]) in
  let! st := bin_rows (Z.to_nat (zlen data / 32 + 1)) E st addr data in
  write_lit E st (crlf_tab ++ [93] ++ crlf_tab).

(* ---- streamed values ---- *)
(* The arguments operator<< takes.  Every signed integer type goes through
   long long, every unsigned one (and unsigned char) through unsigned long long
   (fn_stream.h:333-345).  A string is given by the bytes strlen sees (const
   char pointers) or by all its bytes (std::string).  SPercent carries the float. *)
Inductive sval :=
| SNullCstr
| SStr (s : text)
| SChar (c : Z)
| SBool (b : bool)
| SLL (n : Z)
| SULL (n : Z)
| SPtr (p : Z)
| SDbl (d : dbl)
| SPair (a b : sval)
| SCont (name : text) (elems : list sval)
| SBlank (n : Z)
| SPercent (v : dbl)
| SDate (ts precise : Z)
| SBin (addr : Z) (data : text).

Definition MAX_CONTAINER_DEPTH : Z := 5. (* fn_stream.h:73 *)

(* fn_stream.h:426-430 *)
Fixpoint blanks (n : nat) (st : strm) : outcome strm :=
  match n with
  | O => Ret st
  | S n' => let! st := write_char_unsafe st 32 in blanks n' st
  end.

(* v < 0.000001 for a float v; the double constant is 4722366482869645 * 2^-72 *)
Definition percent_small (v : dbl) : bool :=
  match v with
  | DZero _ => true
  | DInf neg => neg
  | DNan => false
  | DFin neg m e => neg || dlt m e 4722366482869645 (-72)
  end.
(* v * 100.0 as a double, exact for a float v (24 + 7 significant bits);
   normalised to a 53-bit significand *)
Definition times100 (v : dbl) : dbl :=
  match v with
  | DFin neg m e =>
      let p := m * 100 in
      let k := 52 - Z.log2 p in
      DFin neg (p * 2 ^ k) (e - k)
  | _ => v
  end.

Fixpoint stream_val (E : env) (st : strm) (v : sval) {struct v} : outcome strm :=
  match v with
  | SNullCstr => write_buffer E st (s2z "null") 4                 (* 314-328 *)
  | SStr s => write_buffer E st s (int_of (zlen s))               (* 314-328, 420 *)
  | SChar c => write_buffer E st [c] 1                            (* 331 *)
  | SBool b => if b then write_buffer E st (s2z "true") 4 else write_buffer E st (s2z "false") 5 (* 334 *)
  | SLL n => write_longlong 0 E st n                              (* 343 *)
  | SULL n => write_ulonglong 0 E st n                            (* 345 *)
  | SPtr p => stream_pointer E st p                               (* 329-332 *)
  | SDbl d => stream_double E st d                                (* 347-361 *)
  | SPair a b =>                                                  (* 365 *)
      let! st := write_buffer E st [60] 1 in
      let! st := stream_val E st a in
      let! st := write_buffer E st [58] 1 in
      let! st := stream_val E st b in
      write_buffer E st [62] 1
  | SCont name elems =>                                           (* 367-391 *)
      let! st := write_buffer E st name (zlen name) in
      let! st := write_buffer E st [40] 1 in
      let! st := write_ulonglong 0 E st (zlen elems) in
      let! st := write_buffer E st (s2z ")[") 2 in
      let! st :=
        (fix each (l : list sval) (input_count : Z) (st : strm) {struct l} : outcome strm :=
           match l with
           | [] => Ret st
           | x :: l' =>
               if MAX_CONTAINER_DEPTH <=? input_count then write_lit E st (s2z "..., ")
               else
                 let! st := if 0 <? input_count then write_lit E st (s2z ", ") else Ret st in
                 let! st := stream_val E st x in
                 each l' (input_count + 1) st
           end) elems 0 st in
      write_lit E st [93]
  | SBlank n =>                                                   (* 422-432 *)
      if s_len st + n <? e_cap E then blanks (Z.to_nat (n - s_len st)) st else Ret st
  | SPercent v =>                                                 (* 433-448 *)
      if s_len st + 40 <? e_cap E then
        if percent_small v then write_buffer E st (s2z "00.00%") 6
        else
          let! st := advance st (fun dst off => write_double (e_libc E) dst off (times100 v)) in
          write_char_unsafe st 37
      else Ret st
  | SDate ts p =>                                                 (* 450-458 *)
      if s_len st + 40 <? e_cap E then advance_date E st ts (u32 p) else Ret st
  | SBin addr data => write_binary E st addr data                 (* 268-312 *)
  end.

Fixpoint stream_all (E : env) (st : strm) (vs : list sval) : outcome strm :=
  match vs with
  | [] => Ret st
  | v :: vs' => let! st := stream_val E st v in stream_all E st vs'
  end.

(* ---- the end of PushChannel, fn_channel.h:494-497 ---- *)
Definition push_text (E : env) (st : strm) : outcome strm :=
  let len := Z.min (s_len st) (e_cap E - 2) in
  let! buf := wr (s_buf st) len 10 in
  let! buf := wr buf (len + 1) 0 in
  Ret (mkStrm buf (len + 1) (s_cache st)).

(* ---- LOG_FORMAT, fn_macro.h:208-222 ---- *)
(* snprintf into [size] bytes: on success ([ret] is the full length) the text
   cut to size-1 bytes and a NUL; on error ([ret] < 0) some bytes that fit. *)
Inductive snprintf_result := SnOk (full : text) | SnErr (ret : Z) (junk : text).
Definition snprintf (dst : text) (off size : Z) (r : snprintf_result) : outcome (text * Z) :=
  match r with
  | SnOk full =>
      if 0 <? size then
        let! dst := blit dst off (firstn (Z.to_nat (size - 1)) full ++ [0]) in Ret (dst, zlen full)
      else Ret (dst, zlen full)
  | SnErr ret junk => let! dst := blit dst off (firstn (Z.to_nat size) junk) in Ret (dst, ret)
  end.
Definition log_format (E : env) (st : strm) (r : snprintf_result) : outcome strm :=
  let room := e_cap E - s_len st in
  let! (buf, n) := snprintf (s_buf st) (s_len st) room r in
  let n := if n <? 0 then 0 else n in
  let n := if room <=? n then room - 1 else n in
  Ret (mkStrm buf (s_len st + n) (s_cache st)).

(* ---- the prefix, fn_stream.h:86-174 ---- *)
(* fn_file.h:394-413 short_path; [k] is last - path *)
Fixpoint short_loop (k : nat) (path : text) (count : Z) : outcome Z :=
  match k with
  | O => Ret 0
  | S k' =>
      let! c := rd path (Z.of_nat k') in
      if (c =? 47) || (c =? 92) then
        let count := count - 1 in
        if count <=? 0 then Ret (Z.of_nat k' + 1) else short_loop k' path count
      else short_loop k' path count
  end.
Definition short_path (path : option text) (len : Z) : outcome Z :=
  match path with
  | None => Ret 0
  | Some path => if len <=? 0 then Ret 0 else short_loop (Z.to_nat len) path 3
  end.

(* PRIORITY_RENDER[..].priority_name_, fn_fmt.h:27-36 *)
Definition priority_names : list text :=
  map s2z ["[TRACE]"; "[DEBUG]"; "[INFO ]"; "[WARN ]"; "[ERROR]"; "[ALARM]"; "[FATAL]"]%string.
(* fn_fmt.h:370-375 *)
Definition write_log_priority (dst : text) (off priority : Z) : outcome (text * Z) :=
  let! name := rd priority_names (Z.rem priority 7) in
  let! dst := blit dst off name in
  Ret (dst, zlen name).
(* fn_fmt.h:377-386 *)
Definition write_log_thread (dst : text) (off thread : Z) : outcome (text * Z) :=
  let! dst := wr dst off 91 in
  let! (dst, n) := write_dec_u 0 dst (off + 1) thread in
  let! dst := wr dst (off + 1 + n) 93 in
  Ret (dst, 1 + n + 1).

(* The arguments of the constructor and the record fields set by InitLogData
   (fn_channel.h:274-324): time, thread id, logger name and description. *)
Record head := mkHead {
  h_prefix : Z; h_ts : Z; h_precise : Z; h_priority : Z; h_thread : Z;
  h_name : text; h_name_len : Z; h_desc : text; h_desc_len : Z;
  h_file : option text; h_file_len : Z; h_line : Z;
  h_func : option text; h_func_len : Z }.

Definition has (prefix bit : Z) : bool := negb (Z.land prefix bit =? 0).

(* InitLogData's effect on the text, fn_channel.h:286-287,322 *)
Definition init_text (buf : text) (c : cache) : outcome strm :=
  let! buf := wr buf 0 0 in
  let! buf := wr buf 0 0 in
  Ret (mkStrm buf 0 c).

(* fn_stream.h:117-174; returns the stream and prefix_len_ *)
Definition write_prefix (E : env) (h : head) (st : strm) : outcome (strm * Z) :=
  if h_prefix h =? 0 then Ret (st, s_len st) else
  let! st := if has (h_prefix h) 1 then advance_date E st (h_ts h) (u32 (h_precise h)) else Ret st in
  let! st := if has (h_prefix h) 2 then advance st (fun d o => write_log_priority d o (h_priority h)) else Ret st in
  let! st := if has (h_prefix h) 4 then advance st (fun d o => write_log_thread d o (h_thread h)) else Ret st in
  let! st := if has (h_prefix h) 8 then
      let! st := write_char_unsafe st 91 in
      let! st := write_buffer_unsafe st (h_name h) (h_name_len h) in
      write_char_unsafe st 93
    else Ret st in
  let! st := if has (h_prefix h) 16 then
      let! st := write_char_unsafe st 91 in
      let! st := write_buffer_unsafe st (h_desc h) (h_desc_len h) in
      write_char_unsafe st 93
    else Ret st in
  let! st := if has (h_prefix h) 32 then
      let! st := write_char_unsafe st 91 in
      let! st :=
        match h_file h with
        | Some file =>
            if 0 <? h_file_len h then
              let! jump := short_path (Some file) (h_file_len h) in
              write_buffer_unsafe st (skipn (Z.to_nat jump) file) (h_file_len h - jump)
            else write_buffer_unsafe st (s2z "nofile") 6
        | None => write_buffer_unsafe st (s2z "nofile") 6
        end in
      let! st := write_char_unsafe st 58 in
      let! st := write_ulonglong 0 E st (u64 (h_line h)) in
      write_char_unsafe st 93
    else Ret st in
  let! st := if has (h_prefix h) 64 then
      let! st := write_char_unsafe st 40 in
      let! st :=
        match h_func h with
        | Some func =>
            if 0 <? h_func_len h then write_buffer_unsafe st func (h_func_len h)
            else write_buffer_unsafe st (s2z "null") 4
        | None => write_buffer_unsafe st (s2z "null") 4
        end in
      write_char_unsafe st 41
    else Ret st in
  let! st := write_char_unsafe st 32 in
  Ret (st, s_len st).
