(* DispatchLog (fn_channel.h:53-95) while HotUpdateLogger adds a device to the channel:

     memcpy(&dst_chl.devices_[dst_chl.device_size_++], &src_dvc, sizeof(src_dvc))    (fn_load.h:378)

   device_size_ is stored first, then the words of the device in the order of memory,
   fn_data.h:223-: out_type_, in_type_, then config_fields_.  The slot held zeros before
   (fn_parse.h:1494 clears a channel, and an update only adds devices).

   On a synchronous channel another thread can dispatch a record meanwhile.  The devices that
   were there before are not changed here (see C129 for that), so their part of the loop is
   [dispatch] of Filter.v; what matters is the last round of the loop.

   Simplified: one device is added; out_file_, out_path_ and the like, which are copied before
   config_fields_, are left out; the copy goes from the first to the last word. *)
From Coq Require Import ZArith List Bool Arith.
From Verif Require Import Base LoggerState Filter Torn.
Import ListNotations.
Open Scope Z_scope.

(* the words that the update stores, in this order: device_size_, out_type_, in_type_, config_fields_ *)
Definition slot_new (n : Z) (d : device) (w : nat) : Z :=
  match w with
  | 0%nat => n + 1
  | 1%nat => d_out d
  | 2%nat => d_in d
  | S (S (S a)) => nth a (d_cfg d) 0
  end.
Definition slot_old (n : Z) (w : nat) : Z := match w with 0%nat => n | _ => 0 end.

(* the loop from device n on, n the number of devices before *)
Definition last_round (n : Z) (r : rec) (ids : list Z) : prog (list Z) :=
  Load 0%nat (fun size => (* 55 *)
    if size <=? n then Done (Ret ids)
    else Load 3%nat (fun able => (* 58 *)
      if able =? 0 then Done (Ret ids)
      else Load 2%nat (fun x => (* 62 *)
        if negb (x =? DEVICE_IN_NULL) then Done (Ret ids)
        else Load 4%nat (fun prio => (* 66 *)
          if r_priority r <? prio then Done (Ret ids)
          else load_settings (fun k => (5 + k)%nat) (r_category r) (r_identify r) (fun o => (* 70-92 *)
            match o with
            | Ret true => Done (Ret ids)
            | Ret false => Done (Ret (ids ++ [n])) (* 93 *)
            | Ub => Done Ub
            | Fuel => Done Fuel
            end))))).
(* the devices that put out record r while device d is added to channel ch *)
Definition adding (sched : list bool) (ch : channel) (d : device) (r : rec) : option (outcome (list Z)) :=
  match dispatch ch r with
  | Ret ids => meet sched (last_round (c_size ch) r ids) 18 0 (slot_old (c_size ch)) (slot_new (c_size ch) d)
  | Ub => Some Ub
  | Fuel => Some Fuel
  end.
