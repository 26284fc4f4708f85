(* What the documented filters mean, independently of the code. *)
From Coq Require Import ZArith List Bool.
From Verif Require Import Base LoggerState.
Import ListNotations.
Open Scope Z_scope.

(* a [begin, begin+count) window; count <= 0 switches it off *)
Definition in_window (begin count x : Z) : Prop := count <= 0 \/ begin <= x < begin + count.
(* a bit list; the empty list switches it off *)
Definition in_mask (mask x : Z) : Prop :=
  mask mod 2 ^ 64 = 0 \/ (0 <= x <= 63 /\ Z.testbit mask x = true).

(* priority, windows and masks of one settings block *)
Definition accepts (prio cat cat_n cat_m idn idn_n idn_m p c i : Z) : Prop :=
  prio <= p /\ in_window cat cat_n c /\ in_window idn idn_n i /\ in_mask cat_m c /\ in_mask idn_m i.

(* the same at the settings of a device / a channel *)
Definition device_accepts (d : device) (p c i : Z) : Prop :=
  let f k := nth k (d_cfg d) 0 in
  accepts (f 1%nat) (f 2%nat) (f 3%nat) (f 4%nat) (f 5%nat) (f 6%nat) (f 7%nat) p c i.
Definition channel_accepts (ch : channel) (p c i : Z) : Prop :=
  let f k := nth k (c_cfg ch) 0 in
  accepts (f 0%nat) (f 1%nat) (f 2%nat) (f 3%nat) (f 4%nat) (f 5%nat) (f 6%nat) p c i.

(* device takes part in output: enabled and not an input device *)
Definition device_on (d : device) : Prop := nth 0 (d_cfg d) 0 <> 0 /\ d_in d = 0.

(* The i-th of the channel's devices (only the first c_size count). *)
Definition has_device (ch : channel) (i : Z) (d : device) : Prop :=
  0 <= i < c_size ch /\ nth_error (c_devs ch) (Z.to_nat i) = Some d.

(* Values for which the settings block has a defined meaning in C++: a mask is
   only combined with 0..63, and the end of a window is a long long. *)
Definition in_scope (cat cat_n cat_m idn idn_n idn_m c i : Z) : Prop :=
  (cat_m mod 2 ^ 64 <> 0 -> 0 <= c <= 63) /\ (idn_m mod 2 ^ 64 <> 0 -> 0 <= i <= 63) /\
  (0 < cat_n -> is_ll (cat + cat_n)) /\ (0 < idn_n -> is_ll (idn + idn_n)).
Definition device_scope (d : device) (c i : Z) : Prop :=
  let f k := nth k (d_cfg d) 0 in
  in_scope (f 2%nat) (f 3%nat) (f 4%nat) (f 5%nat) (f 6%nat) (f 7%nat) c i.
Definition channel_scope (ch : channel) (c i : Z) : Prop :=
  let f k := nth k (c_cfg ch) 0 in
  in_scope (f 1%nat) (f 2%nat) (f 3%nat) (f 4%nat) (f 5%nat) (f 6%nat) c i.
Definition devices_scope (ch : channel) (c i : Z) : Prop :=
  forall k d, has_device ch k d -> device_scope d c i.

(* A structurally sound channel: no more devices counted than stored. *)
Definition sound_channel (ch : channel) : Prop := 0 <= c_size ch <= zlen (c_devs ch).

(* Documented admission: the logger and channel run, the channel accepts, and
   some active device accepts (priorities above FATAL count as FATAL there). *)
Definition admitted (lg : logger) (k p c i : Z) : Prop :=
  g_shm lg = true /\ g_state lg = 2 /\ 0 <= k < g_size lg /\
  exists ch, nth_error (g_chs lg) (Z.to_nat k) = Some ch /\
    c_state ch = 1 /\ channel_accepts ch p c i /\
    exists j d, has_device ch j d /\ device_on d /\ device_accepts d (Z.min p 6) c i.
