(* Model of the admission filter, the dispatch filter and the virtual-device hook:
   src/include/fn_channel.h, fn_out_virtual_device.h, fn_stream.h. *)
From Coq Require Import ZArith List Bool.
From Verif Require Import Base LoggerState.
Import ListNotations.
Open Scope Z_scope.

(* The expression  count > 0 && (x < begin || x >= begin + count)
   (fn_channel.h:77,81,361,365,401,405; fn_out_virtual_device.h:45,50);
   begin + count is a signed addition evaluated only if x >= begin. *)
Definition window_reject (begin count x : Z) : outcome bool :=
  if 0 <? count then
    if x <? begin then Ret true
    else let! e := ll_chk (begin + count) in Ret (e <=? x)
  else Ret false.

(* The expression  mask && (mask & (1ULL << (unsigned int)x)) == 0
   (fn_channel.h:85,89,369,373,409,413; fn_out_virtual_device.h:54,58);
   a shift by 64 or more is undefined. *)
Definition mask_reject (mask x : Z) : outcome bool :=
  if u64 mask =? 0 then Ret false
  else if 64 <=? u32 x then Ub
  else Ret (Z.land (u64 mask) (2 ^ u32 x) =? 0).

(* The record's filter-relevant fields (fn_data.h:132-134). *)
Record rec := mkRec { r_priority : Z; r_category : Z; r_identify : Z }.

(* fn_channel.h:380-419, the device loop of BlockInput; returns need_write. *)
Fixpoint block_devices (devs : list device) (priority category identify : Z) : outcome bool :=
  match devs with
  | [] => Ret false
  | d :: rest =>
      let fields := d_cfg d in
      let next := block_devices rest priority category identify in
      if (fld fields DEVICE_CFG_ABLE =? 0) || (priority <? fld fields DEVICE_CFG_PRIORITY) then next
      else if negb (d_in d =? DEVICE_IN_NULL) then next
      else
        let! r := window_reject (fld fields DEVICE_CFG_CATEGORY) (fld fields DEVICE_CFG_CATEGORY_EXTEND) category in
        if r then next else
        let! r := window_reject (fld fields DEVICE_CFG_IDENTIFY) (fld fields DEVICE_CFG_IDENTIFY_EXTEND) identify in
        if r then next else
        let! r := mask_reject (fld fields DEVICE_CFG_CATEGORY_MASK) category in
        if r then next else
        let! r := mask_reject (fld fields DEVICE_CFG_IDENTIFY_MASK) identify in
        if r then next else
        Ret true
  end.

(* fn_channel.h:329-426 BlockInput; true means blocked.  The device loop runs
   over the first device_size_ entries of devices_. *)
Definition block_input (lg : logger) (channel_id priority category identify : Z) : outcome bool :=
  if negb (g_shm lg) || (g_size lg <=? channel_id) || (channel_id <? 0) then Ret true
  else if negb (g_state lg =? LOGGER_STATE_RUNNING) then Ret true
  else
    let! ch := rd (g_chs lg) channel_id in
    if negb (c_state ch =? CHANNEL_STATE_RUNNING) then Ret true
    else if priority <? fld (c_cfg ch) CHANNEL_CFG_PRIORITY then Ret true
    else
      let priority := if PRIORITY_MAX <=? priority then PRIORITY_FATAL else priority in
      let! r := window_reject (fld (c_cfg ch) CHANNEL_CFG_CATEGORY) (fld (c_cfg ch) CHANNEL_CFG_CATEGORY_EXTEND) category in
      if r then Ret true else
      let! r := window_reject (fld (c_cfg ch) CHANNEL_CFG_IDENTIFY) (fld (c_cfg ch) CHANNEL_CFG_IDENTIFY_EXTEND) identify in
      if r then Ret true else
      let! r := mask_reject (fld (c_cfg ch) CHANNEL_CFG_CATEGORY_MASK) category in
      if r then Ret true else
      let! r := mask_reject (fld (c_cfg ch) CHANNEL_CFG_IDENTIFY_MASK) identify in
      if r then Ret true else
      let! need_write := block_devices (firstn (Z.to_nat (c_size ch)) (c_devs ch)) priority category identify in
      Ret (negb need_write).

(* Which output routine a device's EnterProcDevice call runs
   (fn_channel.h:23-50); virtual and unknown types run none. *)
Inductive routine := OutScreen | OutFile | OutUdp | OutEmpty.
Definition enter_proc_device (d : device) : option routine :=
  if d_out d =? DEVICE_OUT_SCREEN then Some OutScreen
  else if d_out d =? DEVICE_OUT_FILE then Some OutFile
  else if d_out d =? DEVICE_OUT_UDP then Some OutUdp
  else if d_out d =? DEVICE_OUT_VIRTUAL then None
  else if d_out d =? DEVICE_OUT_EMPTY then Some OutEmpty
  else None.

(* fn_channel.h:55-94, the loop of DispatchLog from device_id on; the result
   is the sequence of device ids for which EnterProcDevice is called. *)
Fixpoint dispatch_from (device_id : Z) (devs : list device) (r : rec) : outcome (list Z) :=
  match devs with
  | [] => Ret []
  | d :: rest =>
      let cfg := d_cfg d in
      let next := dispatch_from (device_id + 1) rest r in
      if fld cfg DEVICE_CFG_ABLE =? 0 then next
      else if negb (d_in d =? DEVICE_IN_NULL) then next
      else if r_priority r <? fld cfg DEVICE_CFG_PRIORITY then next
      else
        let! b := window_reject (fld cfg DEVICE_CFG_CATEGORY) (fld cfg DEVICE_CFG_CATEGORY_EXTEND) (r_category r) in
        if b then next else
        let! b := window_reject (fld cfg DEVICE_CFG_IDENTIFY) (fld cfg DEVICE_CFG_IDENTIFY_EXTEND) (r_identify r) in
        if b then next else
        let! b := mask_reject (fld cfg DEVICE_CFG_CATEGORY_MASK) (r_category r) in
        if b then next else
        let! b := mask_reject (fld cfg DEVICE_CFG_IDENTIFY_MASK) (r_identify r) in
        if b then next else
        let! ids := next in Ret (device_id :: ids)
  end.

(* fn_channel.h:53-95 DispatchLog *)
Definition dispatch (ch : channel) (r : rec) : outcome (list Z) :=
  dispatch_from 0 (firstn (Z.to_nat (c_size ch)) (c_devs ch)) r.

(* fn_out_virtual_device.h:32-71 EnterProcOutVirtualDevice with a hook
   registered: Some id if the hook is called (after the three counter updates
   of lines 66-68, whose index must be inside DeviceLogFields). *)
Definition enter_virtual (ch : channel) (device_id : Z) (r : rec) : outcome (option Z) :=
  let! d := rd (c_devs ch) device_id in
  let fields := d_cfg d in
  let! b := window_reject (fld fields DEVICE_CFG_CATEGORY) (fld fields DEVICE_CFG_CATEGORY_EXTEND) (r_category r) in
  if b then Ret None else
  let! b := window_reject (fld fields DEVICE_CFG_IDENTIFY) (fld fields DEVICE_CFG_IDENTIFY_EXTEND) (r_identify r) in
  if b then Ret None else
  let! b := mask_reject (fld fields DEVICE_CFG_CATEGORY_MASK) (r_category r) in
  if b then Ret None else
  let! b := mask_reject (fld fields DEVICE_CFG_IDENTIFY_MASK) (r_identify r) in
  if b then Ret None else
  let idx := DEVICE_LOG_PRIORITY + r_priority r in
  if (0 <=? idx) && (idx <? DEVICE_LOG_MAX_ID) then Ret (Some device_id) else Ub.

(* fn_stream.h:180-194, the hook part of ~LogStream; [hook] says whether a hook
   is registered. *)
Definition stream_hook (hook : bool) (ch : channel) (r : rec) : outcome (option Z) :=
  if hook then
    if 0 <=? c_virtual ch then
      let! d := rd (c_devs ch) (c_virtual ch) in
      if fld (d_cfg d) DEVICE_CFG_PRIORITY <=? r_priority r
      then enter_virtual ch (c_virtual ch) r
      else Ret None
    else Ret None
  else Ret None.
