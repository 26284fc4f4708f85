(* The calls of fn_log.h that set one thing for all channels or for all devices of a kind. *)
From Coq Require Import ZArith List Bool.
From Verif Require Import Base LoggerState ConfigApi.
Import ListNotations.
Open Scope Z_scope.

Inductive kind := Screen | File | Udp.
(* fn_log.h:24-26, 29-31, 42-47: the device type that each name passes *)
Definition out_of (k : kind) : Z :=
  match k with Screen => DEVICE_OUT_SCREEN | File => DEVICE_OUT_FILE | Udp => DEVICE_OUT_UDP end.

Inductive bulk :=
| EnableAll (k : kind) (on : bool)          (* EnableAllFileDevice, ...ScreenDevice, ...UDPDevice *)
| AllPriority (k : kind) (p : Z)            (* SetAllFilePriority(logger, priority), ...Screen..., ...UDP... *)
| AllCategory (k : kind) (begin count : Z)  (* SetAllFilePriority(logger, begin, count), SetAllScreenCategory, SetAllUDPCategory *)
| ChannelPriority (p : Z)                   (* SetAllChannelPriority *)
| ChannelCategory (begin count : Z)         (* SetAllChannelCategory *)
| FileLimit (limit : Z)                     (* SetAllFileLimitSize *)
| FileRollback (count : Z).                 (* SetAllFileRollbackCount *)

(* fn_log.h:24-47, the batch calls that each one makes, in order; the macros
   BatchSetChannelCategoryMacro and BatchSetDeviceCategoryMacro are 33-38 *)
Definition bulk_ops (b : bulk) : list cfg_op :=
  match b with
  | EnableAll k on => [BatchDevice (out_of k) DEVICE_CFG_ABLE (if on then 1 else 0)]
  | AllPriority k p => [BatchDevice (out_of k) DEVICE_CFG_PRIORITY p]
  | AllCategory k begin count =>
      [BatchDevice (out_of k) DEVICE_CFG_CATEGORY begin; BatchDevice (out_of k) DEVICE_CFG_CATEGORY_EXTEND count]
  | ChannelPriority p => [BatchChannel CHANNEL_CFG_PRIORITY p]
  | ChannelCategory begin count =>
      [BatchChannel CHANNEL_CFG_CATEGORY begin; BatchChannel CHANNEL_CFG_CATEGORY_EXTEND count]
  | FileLimit limit => [BatchDevice DEVICE_OUT_FILE DEVICE_CFG_FILE_LIMIT_SIZE limit]
  | FileRollback count => [BatchDevice DEVICE_OUT_FILE DEVICE_CFG_FILE_ROLLBACK count]
  end.
Definition bulk_set (lg : logger) (b : bulk) : outcome logger := cfg_run lg (bulk_ops b).
(* fn_log.h:42: the overload of SetAllFilePriority with two numbers *)
Definition set_all_file_priority (lg : logger) (begin count : Z) : outcome logger := bulk_set lg (AllCategory File begin count).
