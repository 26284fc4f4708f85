(* What the printed time of an arbitrary time zone should be: which instant the
   date in use was looked up for, and days on which the clocks do not change. *)
From Coq Require Import String ZArith List Bool.
From Verif Require Import Base DateFmt DateZone.
Import ListNotations.
Open Scope Z_scope.

(* the local day on which the instant t falls *)
Definition day_of (z : tz) (t : Z) : Z := (t + tz_off z t) / 86400.
(* the instant at which that day would begin if its offset were always that of t *)
Definition start_of (z : tz) (t : Z) : Z := day_of z t * 86400 - tz_off z t.

(* mktime undoes localtime_r: asked for the midnight before t, with the flag
   that t has, it answers by the offset that t has *)
Definition steady (z : tz) (t : Z) : Prop := tz_mk z (day_of z t) (tz_dst z t) = start_of z t.

(* The instant for which the calendar was last asked, when a thread prints the
   instants ts one after the other: an instant less than a day behind the
   beginning of the day in use is not looked up.  None: never asked, which
   happens in the first 24 hours of 1970 only. *)
Definition keeps (z : tz) (f : option Z) (t : Z) : bool :=
  match f with
  | None => (0 <=? t) && (t <? 86400)
  | Some f => (start_of z f <=? t) && (t <? start_of z f + 86400)
  end.
Definition asked (z : tz) (f : option Z) (ts : list Z) : option Z :=
  fold_left (fun f t => if keeps z f t then f else Some t) ts f.

(* the whole day of t has the offset and the flag of t, and no other instant is
   its midnight *)
Definition calm (z : tz) (t : Z) : Prop :=
  (forall u, start_of z t <= u < start_of z t + 86400 -> tz_off z u = tz_off z t /\ tz_dst z u = tz_dst z t) /\
  (forall u, u + tz_off z u = day_of z t * 86400 -> tz_dst z u = tz_dst z t -> u = start_of z t).

(* the contract of mktime in the C standard: where some instant has the fields
   asked for, it answers such an instant *)
Definition mktime_contract (z : tz) : Prop := forall day b u,
  u + tz_off z u = day * 86400 -> tz_dst z u = b ->
  tz_mk z day b + tz_off z (tz_mk z day b) = day * 86400 /\ tz_dst z (tz_mk z day b) = b.
