(* What the calls of fn_log.h should do to a device, to a channel and to routing. *)
From Coq Require Import ZArith List Bool.
From Verif Require Import Base LoggerState FilterSpec Bulk.
Import ListNotations.
Open Scope Z_scope.

(* a settings block with entry [n] replaced *)
Fixpoint with_entry (n : nat) (v : Z) (l : list Z) : list Z :=
  match l, n with
  | [], _ => []
  | _ :: r, O => v :: r
  | x :: r, S m => x :: with_entry m v r
  end.
Definition of_kind (k : kind) (d : device) : bool :=
  d_out d =? match k with Screen => 1 | File => 2 | Udp => 3 end.
Definition retune (d : device) (f : list Z -> list Z) : device := mkDevice (d_in d) (d_out d) (f (d_cfg d)).

(* the device and the channel settings after a call *)
Definition dev_then (b : bulk) (d : device) : device :=
  match b with
  | EnableAll k on => if of_kind k d then retune d (with_entry 0 (if on then 1 else 0)) else d
  | AllPriority k p => if of_kind k d then retune d (with_entry 1 p) else d
  | AllCategory k s n => if of_kind k d then retune d (fun l => with_entry 3 n (with_entry 2 s l)) else d
  | FileLimit v => if of_kind File d then retune d (with_entry 8 v) else d
  | FileRollback v => if of_kind File d then retune d (with_entry 9 v) else d
  | ChannelPriority _ | ChannelCategory _ _ => d
  end.
Definition chan_then (b : bulk) (l : list Z) : list Z :=
  match b with
  | ChannelPriority p => with_entry 0 p l
  | ChannelCategory s n => with_entry 2 n (with_entry 1 s l)
  | _ => l
  end.
(* the channel after a call: its first c_size devices and its settings change as
   said, all other fields and unused devices stay *)
Definition channel_then (b : bulk) (ch : channel) : channel :=
  mkChannel (c_type ch) (c_virtual ch) (c_size ch) (c_state ch) (chan_then b (c_cfg ch))
    (map (dev_then b) (firstn (Z.to_nat (c_size ch)) (c_devs ch)) ++ skipn (Z.to_nat (c_size ch)) (c_devs ch))
    (c_log ch) (c_dlog ch).

(* accepts a record, the priority (the category) left aside *)
Definition accepts_but_priority (d : device) (c i : Z) : Prop :=
  let f k := nth k (d_cfg d) 0 in
  in_window (f 2%nat) (f 3%nat) c /\ in_window (f 5%nat) (f 6%nat) i /\ in_mask (f 4%nat) c /\ in_mask (f 7%nat) i.
Definition accepts_but_window (d : device) (p c i : Z) : Prop :=
  let f k := nth k (d_cfg d) 0 in
  f 1%nat <= p /\ in_window (f 5%nat) (f 6%nat) i /\ in_mask (f 4%nat) c /\ in_mask (f 7%nat) i.

(* the devices that a record goes to after a call; [ids] are those before *)
Definition goes_to (b : bulk) (ch : channel) (ids : list Z) (p c i j : Z) : Prop :=
  exists d, has_device ch j d /\
  match b with
  | EnableAll k on =>
      if of_kind k d then on = true /\ d_in d = 0 /\ device_accepts d p c i else In j ids
  | AllPriority k q =>
      if of_kind k d then device_on d /\ q <= p /\ accepts_but_priority d c i else In j ids
  | AllCategory k s n =>
      if of_kind k d then device_on d /\ in_window s n c /\ accepts_but_window d p c i else In j ids
  | _ => In j ids
  end.
(* what the channel itself lets through after a call *)
Definition lets_in (b : bulk) (ch : channel) (p c i : Z) : Prop :=
  let f k := nth k (c_cfg ch) 0 in
  match b with
  | ChannelPriority q =>
      q <= p /\ in_window (f 1%nat) (f 2%nat) c /\ in_window (f 4%nat) (f 5%nat) i /\ in_mask (f 3%nat) c /\ in_mask (f 6%nat) i
  | ChannelCategory s n =>
      f 0%nat <= p /\ in_window s n c /\ in_window (f 4%nat) (f 5%nat) i /\ in_mask (f 3%nat) c /\ in_mask (f 6%nat) i
  | _ => channel_accepts ch p c i
  end.
(* the C++ parameters are int *)
Definition int_args (b : bulk) : Prop :=
  match b with
  | AllCategory _ s n | ChannelCategory s n => - 2 ^ 31 <= s < 2 ^ 31 /\ - 2 ^ 31 <= n < 2 ^ 31
  | _ => True
  end.
