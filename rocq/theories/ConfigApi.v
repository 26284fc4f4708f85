(* Model of the run-time configuration calls of src/include/fn_core.h:264-369.
   The enum arguments are integers (their C++ type is unsigned). *)
From Coq Require Import ZArith List Bool.
From Verif Require Import Base LoggerState.
Import ListNotations.
Open Scope Z_scope.

(* every call dereferences logger.shm_ first *)
Definition deref_shm {A} (lg : logger) (k : outcome A) : outcome A :=
  if g_shm lg then k else Ub.

Definition set_dev (ch : channel) (device_id : Z) (d : device) : outcome channel :=
  let! devs := wr (c_devs ch) device_id d in
  Ret (mkChannel (c_type ch) (c_virtual ch) (c_size ch) (c_state ch) (c_cfg ch) devs (c_log ch) (c_dlog ch)).
Definition set_cfg (ch : channel) (field v : Z) : outcome channel :=
  let! cfg := wr (c_cfg ch) field v in
  Ret (mkChannel (c_type ch) (c_virtual ch) (c_size ch) (c_state ch) cfg (c_devs ch) (c_log ch) (c_dlog ch)).
Definition set_ch (lg : logger) (channel_id : Z) (ch : channel) : outcome logger :=
  let! chs := wr (g_chs lg) channel_id ch in
  Ret (mkLogger (g_shm lg) (g_state lg) (g_size lg) chs).
Definition set_dcfg (d : device) (field v : Z) : outcome device :=
  let! cfg := wr (d_cfg d) field v in
  Ret (mkDevice (d_in d) (d_out d) cfg).

(* fn_core.h:264-276 *)
Definition get_channel_log (lg : logger) (channel_id field : Z) : outcome Z :=
  deref_shm lg (
    if (g_size lg <=? channel_id) || (channel_id <? 0) then Ret 0
    else
      let! ch := rd (g_chs lg) channel_id in
      if CHANNEL_LOG_MAX_ID <=? field then Ret 0
      else rd (c_log ch) field).

(* fn_core.h:278-290 *)
Definition set_channel_config (lg : logger) (channel_id field val : Z) : outcome logger :=
  deref_shm lg (
    if (g_size lg <=? channel_id) || (channel_id <? 0) then Ret lg
    else
      let! ch := rd (g_chs lg) channel_id in
      if CHANNEL_CFG_MAX_ID <=? field then Ret lg
      else
        let! ch := set_cfg ch field val in
        set_ch lg channel_id ch).

(* fn_core.h:292-308 *)
Definition get_device_log (lg : logger) (channel_id device_id field : Z) : outcome Z :=
  deref_shm lg (
    if (g_size lg <=? channel_id) || (channel_id <? 0) then Ret 0
    else
      let! ch := rd (g_chs lg) channel_id in
      if DEVICE_LOG_MAX_ID <=? field then Ret 0
      else if (c_size ch <=? device_id) || (device_id <? 0) then Ret 0
      else
        let! dl := rd (c_dlog ch) device_id in
        rd dl field).

(* fn_core.h:310-326 *)
Definition set_device_config (lg : logger) (channel_id device_id field val : Z) : outcome logger :=
  deref_shm lg (
    if (g_size lg <=? channel_id) || (channel_id <? 0) then Ret lg
    else if DEVICE_CFG_MAX_ID <=? field then Ret lg
    else
      let! ch := rd (g_chs lg) channel_id in
      if (c_size ch <=? device_id) || (device_id <? 0) then Ret lg
      else
        let! d := rd (c_devs ch) device_id in
        let! d := set_dcfg d field val in
        let! ch := set_dev ch device_id d in
        set_ch lg channel_id ch).

(* fn_core.h:328-344 *)
Definition get_device_config (lg : logger) (channel_id device_id field : Z) : outcome Z :=
  deref_shm lg (
    if (g_size lg <=? channel_id) || (channel_id <? 0) then Ret 0
    else if DEVICE_CFG_MAX_ID <=? field then Ret 0
    else
      let! ch := rd (g_chs lg) channel_id in
      if (c_size ch <=? device_id) || (device_id <? 0) then Ret 0
      else
        let! d := rd (c_devs ch) device_id in
        rd (d_cfg d) field).

(* fn_core.h:346-353, the loop over the channels [i, i + n) *)
Fixpoint batch_channels (n : nat) (i : Z) (lg : logger) (cce v : Z) : outcome logger :=
  match n with
  | O => Ret lg
  | S n' =>
      let! ch := rd (g_chs lg) i in
      let! ch := set_cfg ch cce v in
      let! lg := set_ch lg i ch in
      batch_channels n' (i + 1) lg cce v
  end.
Definition batch_set_channel_config (lg : logger) (cce v : Z) : outcome logger :=
  deref_shm lg (batch_channels (Z.to_nat (g_size lg)) 0 lg cce v).

(* fn_core.h:360-367, the loop over the devices [j, j + n) of one channel *)
Fixpoint batch_devices (n : nat) (j : Z) (ch : channel) (out_type dce v : Z) : outcome channel :=
  match n with
  | O => Ret ch
  | S n' =>
      let! d := rd (c_devs ch) j in
      if (d_out d =? out_type) || (out_type =? DEVICE_OUT_NULL) then
        let! d := set_dcfg d dce v in
        let! ch := set_dev ch j d in
        batch_devices n' (j + 1) ch out_type dce v
      else batch_devices n' (j + 1) ch out_type dce v
  end.
(* fn_core.h:355-369 *)
Fixpoint batch_channels_dev (n : nat) (i : Z) (lg : logger) (out_type dce v : Z) : outcome logger :=
  match n with
  | O => Ret lg
  | S n' =>
      let! ch := rd (g_chs lg) i in
      let! ch := batch_devices (Z.to_nat (c_size ch)) 0 ch out_type dce v in
      let! lg := set_ch lg i ch in
      batch_channels_dev n' (i + 1) lg out_type dce v
  end.
Definition batch_set_device_config (lg : logger) (out_type dce v : Z) : outcome logger :=
  deref_shm lg (batch_channels_dev (Z.to_nat (g_size lg)) 0 lg out_type dce v).

(* A call of the configuration interface. *)
Inductive cfg_op :=
| SetChannel (channel_id field v : Z)
| SetDevice (channel_id device_id field v : Z)
| BatchChannel (field v : Z)
| BatchDevice (out_type field v : Z).

Definition cfg_step (lg : logger) (o : cfg_op) : outcome logger :=
  match o with
  | SetChannel c f v => set_channel_config lg c f v
  | SetDevice c d f v => set_device_config lg c d f v
  | BatchChannel f v => batch_set_channel_config lg f v
  | BatchDevice t f v => batch_set_device_config lg t f v
  end.

Fixpoint cfg_run (lg : logger) (ops : list cfg_op) : outcome logger :=
  match ops with
  | [] => Ret lg
  | o :: rest => let! lg := cfg_step lg o in cfg_run lg rest
  end.
