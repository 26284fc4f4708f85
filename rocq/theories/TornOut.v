(* DispatchLog (fn_channel.h:53-95) while the settings of the channel are being replaced
   by HotUpdateLogger (fn_load.h:342-374), words and schedules as in Torn.v.

   On a synchronous channel every thread that logs dispatches its record and then looks
   for an update, so one thread can dispatch while another updates.  On an asynchronous
   channel one thread does both, one after the other.

   Simplified as in Torn.v. *)
From Coq Require Import ZArith List Bool Arith.
From Verif Require Import Base LoggerState Filter Torn.
Import ListNotations.
Open Scope Z_scope.

(* the loop from device j on; [acc]: the devices that have put out the record, the last first *)
Fixpoint out_loop (ins : list Z) (j : nat) (r : rec) (acc : list Z) : prog (list Z) :=
  match ins with
  | [] => Done (Ret (rev acc))
  | x :: rest =>
      let next := out_loop rest (S j) r acc in
      Load (dev_word j 0) (fun able => (* 58 *)
        if able =? 0 then next
        else if negb (x =? DEVICE_IN_NULL) then next (* 62 *)
        else Load (dev_word j 1) (fun prio => (* 66 *)
          if r_priority r <? prio then next
          else load_settings (fun n => dev_word j (2 + n)) (r_category r) (r_identify r) (fun o => (* 70-92 *)
            match o with
            | Ret true => next
            | Ret false => out_loop rest (S j) r (Z.of_nat j :: acc) (* 93 *)
            | Ub => Done Ub
            | Fuel => Done Fuel
            end)))
  end.
(* the devices that put out record r while channel [ch] becomes [ch'] *)
Definition dispatch_during (sched : list bool) (ch ch' : channel) (r : rec) : option (outcome (list Z)) :=
  meet sched (out_loop (map d_in (firstn (Z.to_nat (c_size ch)) (c_devs ch))) 0 r [])
    (words (Z.to_nat (c_size ch))) 0 (words_of ch) (words_of ch').
