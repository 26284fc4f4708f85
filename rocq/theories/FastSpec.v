(* What the comments at the head of default_config_text (fn_macro.h:55-64) promise. *)
From Coq Require Import String ZArith List Bool.
From Verif Require Import Base LoggerState ParseVal Filter.
Import ListNotations.
Open Scope Z_scope.

(* the devices of the two channels: kind and file name *)
Definition places : list (list (Z * text)) :=
  [[(DEVICE_OUT_FILE, s2z "$PNAME"); (DEVICE_OUT_FILE, s2z "$PNAME_error"); (DEVICE_OUT_SCREEN, [])];
   [(DEVICE_OUT_FILE, s2z "$PNAME_sync"); (DEVICE_OUT_FILE, s2z "$PNAME_sync_info"); (DEVICE_OUT_SCREEN, [])]].
(* the least priority that device [j] of channel [k] takes; in the debug variant
   the screens show debug lines and every file but the error file takes all *)
Definition least (debug : bool) (k j : Z) : Z :=
  if debug then (if j =? 2 then 1 else if (k =? 0) && (j =? 1) then 4 else 0)
  else if j =? 0 then 0 else if j =? 2 then 2 else if k =? 0 then 4 else 2.
(* channel 0 is asynchronous and channel 1 synchronous; both run, let every
   statement of a priority through and hand it to the devices that take it *)
Definition serves (debug : bool) (l : logger) : Prop :=
  (forall k p c i, block_input l k p c i = Ret (negb ((0 <=? k) && (k <? 2) && (0 <=? p)))) /\
  exists c0 c1, g_chs l = [c0; c1] /\ c_type c0 = CHANNEL_ASYNC /\ c_type c1 = CHANNEL_SYNC /\
    (forall r, dispatch c0 r = Ret (filter (fun j => least debug 0 j <=? r_priority r) [0; 1; 2])) /\
    (forall r, dispatch c1 r = Ret (filter (fun j => least debug 1 j <=? r_priority r) [0; 1; 2])).
