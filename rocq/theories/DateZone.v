(* write_date_unsafe (src/include/fn_fmt.h:319-368) in an arbitrary time zone:
   any number of changes of the offset, and any answers of mktime. *)
From Coq Require Import String ZArith List Bool.
From Verif Require Import Base NumFmt DateFmt.
Import ListNotations.
Open Scope Z_scope.

(* What libc knows of the zone.  [tz_off t] and [tz_dst t] are the offset (local
   minus UTC, in seconds) and the flag tm_isdst that localtime_r gives to the
   instant t; [tz_mk day b] is what mktime answers for 00:00:00 on the day
   numbered [day] (0 = 1970-01-01) with tm_isdst = b.  All three are arbitrary
   functions here. *)
Record tz := mkTz { tz_off : Z -> Z; tz_dst : Z -> bool; tz_mk : Z -> bool -> Z }.

(* fn_file.h:351-366 FileHandler::time_to_tm (localtime_r) *)
Definition tz_time_to_tm (z : tz) (t : Z) : tm :=
  let '(y, m, d) := civil ((t + tz_off z t) / 86400) in
  mkTm (y - 1900) (m - 1) d (tz_dst z t).

(* fn_fmt.h:327-331: mktime of the date with hour, minute and second zeroed *)
Definition tz_midnight (z : tz) (t : tm) : Z :=
  tz_mk z (days_of_civil (tm_year t + 1900) (tm_mon t + 1) (tm_mday t)) (tm_isdst t).

(* fn_fmt.h:324-333 *)
Definition tz_date_cache (z : tz) (c : cache) (timestamp : Z) : outcome (cache * Z) :=
  let! day_second := ll_chk (timestamp - cache_timestamp c) in
  if (day_second <? 0) || (24 * 60 * 60 <=? day_second) then
    let d := tz_time_to_tm z timestamp in
    let ct := tz_midnight z d in
    let! day_second := ll_chk (timestamp - ct) in
    Ret (mkCache d ct, day_second)
  else Ret (c, day_second).

(* fn_fmt.h:319-368 *)
Definition tz_write_date (z : tz) (c : cache) (dst : text) (off timestamp precise : Z)
  : outcome (cache * text * Z) :=
  let! (c, day_second) := tz_date_cache z c timestamp in
  put_date c day_second dst off precise.

(* the earlier calls of the thread (fn_fmt.h:321-322, the cache is thread-local) *)
Fixpoint tz_history (z : tz) (c : cache) (ts : list Z) : outcome cache :=
  match ts with
  | [] => Ret c
  | t :: rest => let! (c, _) := tz_date_cache z c t in tz_history z c rest
  end.

(* the zones of DateFmt.v, with two offsets, among these *)
Definition tz_of_zone (z : zone) : tz :=
  mkTz (fun t => z_off z (z_isdst z t)) (z_isdst z) (fun day b => day * 86400 - z_off z b).
