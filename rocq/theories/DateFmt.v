(* Model of write_date_unsafe (src/include/fn_fmt.h:319-368) with its
   thread-local date cache, and of the libc calendar calls it uses. *)
From Coq Require Import String ZArith List Bool.
From Verif Require Import Base NumFmt.
Import ListNotations.
Open Scope Z_scope.

(* The fields of struct tm that are used (tm_hour.. are recomputed from the
   timestamp; tm_isdst is handed from localtime to mktime). *)
Record tm := mkTm { tm_year : Z; tm_mon : Z; tm_mday : Z; tm_isdst : bool }.

(* A time zone with two offsets (local = UTC + offset) that changes between them
   at arbitrary times; z_isdst is the flag that localtime_r gives to an instant.
   Simplification of the tz database, where a zone may have more than two. *)
Record zone := mkZones { z_isdst : Z -> bool; z_std : Z; z_dst : Z }.
(* a single change; constant if both offsets are the same *)
Definition mkZone (change std dst : Z) : zone := mkZones (fun t => change <=? t) std dst.
Definition z_off (z : zone) (isdst : bool) : Z := if isdst then z_dst z else z_std z.

(* libc's day number -> (year, month 1..12, day): the 400-year era algorithm. *)
Definition civil (days : Z) : Z * Z * Z :=
  let z := days + 719468 in
  let era := z / 146097 in
  let doe := z mod 146097 in
  let yoe := (doe - doe / 1460 + doe / 36524 - doe / 146096) / 365 in
  let doy := doe - (365 * yoe + yoe / 4 - yoe / 100) in
  let mp := (5 * doy + 2) / 153 in
  let d := doy - (153 * mp + 2) / 5 + 1 in
  let m := if mp <? 10 then mp + 3 else mp - 9 in
  (yoe + era * 400 + (if m <=? 2 then 1 else 0), m, d).

(* inverse, as mktime uses it *)
Definition days_of_civil (y m d : Z) : Z :=
  let y := if m <=? 2 then y - 1 else y in
  let era := y / 400 in
  let yoe := y mod 400 in
  let doy := (153 * (if 2 <? m then m - 3 else m + 9) + 2) / 5 + d - 1 in
  let doe := yoe * 365 + yoe / 4 - yoe / 100 + doy in
  era * 146097 + doe - 719468.

(* fn_file.h:351-366 FileHandler::time_to_tm (localtime_r) *)
Definition time_to_tm (z : zone) (t : Z) : tm :=
  let isdst := z_isdst z t in
  let '(y, m, d) := civil ((t + z_off z isdst) / 86400) in
  mkTm (y - 1900) (m - 1) d isdst.

(* mktime of a tm with hour, minute and second zeroed (fn_fmt.h:328-332); as
   glibc does, the stated tm_isdst selects the offset. *)
Definition mktime_midnight (z : zone) (t : tm) : Z :=
  days_of_civil (tm_year t + 1900) (tm_mon t + 1) (tm_mday t) * 86400 - z_off z (tm_isdst t).

(* fn_fmt.h:321-322, the thread-local cache *)
Record cache := mkCache { cache_date : tm; cache_timestamp : Z }.
Definition cache_init : cache := mkCache (mkTm 0 0 0 false) 0.

(* fn_fmt.h:324-334 *)
Definition date_cache (z : zone) (c : cache) (timestamp : Z) : outcome (cache * Z) :=
  let! day_second := ll_chk (timestamp - cache_timestamp c) in
  if (day_second <? 0) || (24 * 60 * 60 <=? day_second) then
    let d := time_to_tm z timestamp in
    let ct := mktime_midnight z d in
    let! day_second := ll_chk (timestamp - ct) in
    Ret (mkCache d ct, day_second)
  else Ret (c, day_second).

(* fn_fmt.h:336-367: the bytes, once the cache is up to date; [precise] is an
   unsigned int.  Returns the cache, the destination and write_bytes. *)
Definition put_date (c : cache) (day_second : Z) (dst : text) (off precise : Z) : outcome (cache * text * Z) :=
  let w := off in
  let! dst := wr dst w 91 in let w := w + 1 in
  let! (dst, n) := write_dec_u 4 dst w (u64 (u64 (tm_year (cache_date c)) + 1900)) in let w := w + n in
  let! (dst, n) := write_dec_u 2 dst w (u64 (u64 (tm_mon (cache_date c)) + 1)) in let w := w + n in
  let! (dst, n) := write_dec_u 2 dst w (u64 (tm_mday (cache_date c))) in let w := w + n in
  let! dst := wr dst w 32 in let w := w + 1 in
  let! (dst, n) := write_dec_u 2 dst w (u64 day_second / 3600) in let w := w + n in
  let! dst := wr dst w 58 in let w := w + 1 in
  let day_second := Z.rem day_second 3600 in
  let! (dst, n) := write_dec_u 2 dst w (u64 day_second / 60) in let w := w + n in
  let! dst := wr dst w 58 in let w := w + 1 in
  let day_second := Z.rem day_second 60 in
  let! (dst, n) := write_dec_u 2 dst w (u64 day_second) in let w := w + n in
  let! dst := wr dst w 46 in let w := w + 1 in
  let precise := if 1000 <=? precise then 999 else precise in
  let! (dst, n) := write_dec_u 3 dst w precise in let w := w + n in
  let! dst := wr dst w 93 in let w := w + 1 in
  if negb (w - off =? 23) then Ret (c, dst, 0) else Ret (c, dst, w - off).

(* fn_fmt.h:319-368 *)
Definition write_date (z : zone) (c : cache) (dst : text) (off timestamp precise : Z)
  : outcome (cache * text * Z) :=
  let! (c, day_second) := date_cache z c timestamp in
  put_date c day_second dst off precise.

(* The thread's earlier calls: only their timestamps influence the cache. *)
Fixpoint date_history (z : zone) (c : cache) (ts : list Z) : outcome cache :=
  match ts with
  | [] => Ret c
  | t :: rest => let! (c, _) := date_cache z c t in date_history z c rest
  end.
