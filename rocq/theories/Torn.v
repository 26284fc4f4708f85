(* A log statement that is made while the settings of its channel are being replaced:
   the loads of BlockInput (fn_channel.h:329-426) against the stores of
   HotUpdateLogger (fn_load.h:342-374).

   The settings of a channel are words in memory: config_fields_ of the channel at
   0..6, config_fields_ of device j at 7 + 15 j ...  HotUpdateLogger stores them in this
   order, the words of a device by memcpy (369), here from the first to the last.
   Loads and stores of one word are atomic (AtomicLoadC, fn_data.h:449-453).

   Simplified: the new file has as many devices as the channel (otherwise see C51),
   one update at a time; in_type_ is not changed by an update (369). *)
From Coq Require Import ZArith List Bool Arith.
From Verif Require Import Base LoggerState Filter.
Import ListNotations.
Open Scope Z_scope.

Definition ch_word (i : nat) : nat := i.
Definition dev_word (j i : nat) : nat := (7 + 15 * j + i)%nat.
Definition words (n : nat) : nat := (7 + 15 * n)%nat.

(* a program that loads words *)
Inductive prog (A : Type) :=
| Done (r : outcome A)
| Load (a : nat) (k : Z -> prog A).
Arguments Done {A} r.
Arguments Load {A} a k.

(* the four tests 361-376 and 401-416 *)
Definition settings_reject (cat cat_n cat_m idn idn_n idn_m c i : Z) : outcome bool :=
  let! r := window_reject cat cat_n c in
  if r then Ret true else
  let! r := window_reject idn idn_n i in
  if r then Ret true else
  let! r := mask_reject cat_m c in
  if r then Ret true else mask_reject idn_m i.
(* the loads 354-359 and 393-398, then the tests *)
Definition load_settings {A} (at_ : nat -> nat) (c i : Z) (k : outcome bool -> prog A) : prog A :=
  Load (at_ 0%nat) (fun cat => Load (at_ 1%nat) (fun cat_n => Load (at_ 2%nat) (fun cat_m =>
  Load (at_ 3%nat) (fun idn => Load (at_ 4%nat) (fun idn_n => Load (at_ 5%nat) (fun idn_m =>
  k (settings_reject cat cat_n cat_m idn idn_n idn_m c i))))))).

(* the loop 380-419 from device j on; [ins] are the in_type_ of the devices *)
Fixpoint dev_loop (ins : list Z) (j : nat) (p c i : Z) : prog bool :=
  match ins with
  | [] => Done (Ret true)
  | x :: rest =>
      let next := dev_loop rest (S j) p c i in
      Load (dev_word j 0) (fun able => Load (dev_word j 1) (fun prio =>
        if (able =? 0) || (p <? prio) then next
        else if negb (x =? DEVICE_IN_NULL) then next
        else load_settings (fun n => dev_word j (2 + n)) c i (fun o =>
          match o with
          | Ret true => next
          | Ret false => Done (Ret false)
          | Ub => Done Ub
          | Fuel => Done Fuel
          end)))
  end.
(* BlockInput from line 344 on *)
Definition block_prog (ins : list Z) (p c i : Z) : prog bool :=
  Load (ch_word 0) (fun prio =>
    if p <? prio then Done (Ret true)
    else
      let p := if PRIORITY_MAX <=? p then PRIORITY_FATAL else p in
      load_settings (fun n => ch_word (1 + n)) c i (fun o =>
        match o with
        | Ret true => Done (Ret true)
        | Ret false => dev_loop ins 0 p c i
        | Ub => Done Ub
        | Fuel => Done Fuel
        end)).

(* the words of a channel *)
Definition words_of (ch : channel) (a : nat) : Z :=
  if Nat.ltb a 7 then nth a (c_cfg ch) 0
  else nth ((a - 7) mod 15) (d_cfg (nth ((a - 7) / 15) (c_devs ch) (mkDevice 0 0 []))) 0.

(* [pos] words of [total] have been stored.  A schedule says who is next: true for the
   log statement, false for the update *)
Fixpoint meet {A} (sched : list bool) (g : prog A) (total pos : nat) (old new : nat -> Z) : option (outcome A) :=
  match g with
  | Done r => Some r
  | Load a k =>
      match sched with
      | [] => None
      | true :: sched' => meet sched' (k (if Nat.ltb a pos then new a else old a)) total pos old new
      | false :: sched' => meet sched' g total (if Nat.ltb pos total then S pos else pos) old new
      end
  end.
(* what BlockInput returns while channel [ch] becomes [ch'] *)
Definition block_during (sched : list bool) (ch ch' : channel) (p c i : Z) : option (outcome bool) :=
  meet sched (block_prog (map d_in (firstn (Z.to_nat (c_size ch)) (c_devs ch))) p c i)
    (words (Z.to_nat (c_size ch))) 0 (words_of ch) (words_of ch').
