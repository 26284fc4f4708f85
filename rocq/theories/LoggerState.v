(* The part of FNLog::Logger / SHMLogger / Channel / Device that the filters and
   the run-time configuration calls read and write (src/include/fn_data.h). *)
From Coq Require Import ZArith List Bool.
From Verif Require Import Base.
Import ListNotations.
Open Scope Z_scope.

(* fn_data.h:85-95 LogPriority *)
Definition PRIORITY_TRACE := 0.
Definition PRIORITY_DEBUG := 1.
Definition PRIORITY_INFO := 2.
Definition PRIORITY_WARN := 3.
Definition PRIORITY_ERROR := 4.
Definition PRIORITY_ALARM := 5.
Definition PRIORITY_FATAL := 6.
Definition PRIORITY_MAX := 7.

(* fn_data.h:148-162 DeviceInType, DeviceOutType *)
Definition DEVICE_IN_NULL := 0.
Definition DEVICE_IN_UDP := 1.
Definition DEVICE_OUT_NULL := 0.
Definition DEVICE_OUT_SCREEN := 1.
Definition DEVICE_OUT_FILE := 2.
Definition DEVICE_OUT_UDP := 3.
Definition DEVICE_OUT_VIRTUAL := 4.
Definition DEVICE_OUT_EMPTY := 5.

(* fn_data.h:165-183 DeviceConfigEnum *)
Definition DEVICE_CFG_ABLE := 0.
Definition DEVICE_CFG_PRIORITY := 1.
Definition DEVICE_CFG_CATEGORY := 2.
Definition DEVICE_CFG_CATEGORY_EXTEND := 3.
Definition DEVICE_CFG_CATEGORY_MASK := 4.
Definition DEVICE_CFG_IDENTIFY := 5.
Definition DEVICE_CFG_IDENTIFY_EXTEND := 6.
Definition DEVICE_CFG_IDENTIFY_MASK := 7.
Definition DEVICE_CFG_FILE_LIMIT_SIZE := 8.
Definition DEVICE_CFG_FILE_ROLLBACK := 9.
Definition DEVICE_CFG_FILE_ROLLDAILY := 10.
Definition DEVICE_CFG_FILE_ROLLHOURLY := 11.
Definition DEVICE_CFG_FILE_STUFF_UP := 12.
Definition DEVICE_CFG_UDP_IP := 13.
Definition DEVICE_CFG_UDP_PORT := 14.
Definition DEVICE_CFG_MAX_ID := 15.

(* fn_data.h:185-200 DeviceLogEnum *)
Definition DEVICE_LOG_CUR_FILE_SIZE := 0.
Definition DEVICE_LOG_CUR_FILE_CREATE_TIMESTAMP := 1.
Definition DEVICE_LOG_CUR_FILE_CREATE_DAY := 2.
Definition DEVICE_LOG_CUR_FILE_CREATE_HOUR := 3.
Definition DEVICE_LOG_LAST_TRY_CREATE_TIMESTAMP := 4.
Definition DEVICE_LOG_LAST_TRY_CREATE_ERROR := 5.
Definition DEVICE_LOG_LAST_TRY_CREATE_CNT := 6.
Definition DEVICE_LOG_PRIORITY := 7.
Definition DEVICE_LOG_PRIORITY_MAX := 14.
Definition DEVICE_LOG_TOTAL_WRITE_LINE := 15.
Definition DEVICE_LOG_TOTAL_WRITE_BYTE := 16.
Definition DEVICE_LOG_TOTAL_LOSE_LINE := 17.
Definition DEVICE_LOG_MAX_ID := 18.

(* fn_data.h:232-236 ChannelType *)
Definition CHANNEL_ASYNC := 0.
Definition CHANNEL_SYNC := 1.

(* fn_data.h:238-248 ChannelConfigEnum *)
Definition CHANNEL_CFG_PRIORITY := 0.
Definition CHANNEL_CFG_CATEGORY := 1.
Definition CHANNEL_CFG_CATEGORY_EXTEND := 2.
Definition CHANNEL_CFG_CATEGORY_MASK := 3.
Definition CHANNEL_CFG_IDENTIFY := 4.
Definition CHANNEL_CFG_IDENTIFY_EXTEND := 5.
Definition CHANNEL_CFG_IDENTIFY_MASK := 6.
Definition CHANNEL_CFG_MAX_ID := 7.

(* fn_data.h:251-270 ChannelLogEnum *)
Definition CHANNEL_LOG_WAIT_COUNT := 0.
Definition CHANNEL_LOG_HOLD := 1.
Definition CHANNEL_LOG_PUSH := 2.
Definition CHANNEL_LOG_PRIORITY := 3.
Definition CHANNEL_LOG_PRIORITY_MAX := 10.
Definition CHANNEL_LOG_BOUND := 18.
Definition CHANNEL_LOG_PROCESSED := 19.
Definition CHANNEL_LOG_PROCESSED_BYTES := 20.
Definition CHANNEL_LOG_MAX_PROC_QUE_SIZE := 21.
Definition CHANNEL_LOG_MAX_DELAY_TIME_S := 22.
Definition CHANNEL_LOG_HOTUPDATE_CHECK := 23.
Definition CHANNEL_LOG_HOTUPDATE_CHANGE := 24.
Definition CHANNEL_LOG_MAX_ID := 25.

(* fn_data.h:272-278 ChannelState, 332-338 LoggerState *)
Definition CHANNEL_STATE_NULL := 0.
Definition CHANNEL_STATE_RUNNING := 1.
Definition CHANNEL_STATE_WAITING_FINISH := 2.
Definition CHANNEL_STATE_FINISH := 3.
Definition LOGGER_STATE_UNINIT := 0.
Definition LOGGER_STATE_INITING := 1.
Definition LOGGER_STATE_RUNNING := 2.
Definition LOGGER_STATE_CLOSING := 3.

(* fn_data.h:205-229 Device; file and path strings are in DeviceFiles (FileDev.v). *)
Record device := mkDevice {
  d_in : Z;            (* in_type_ *)
  d_out : Z;           (* out_type_ *)
  d_cfg : list Z       (* config_fields_[DEVICE_CFG_MAX_ID] *)
}.

(* fn_data.h:300-329 Channel *)
Record channel := mkChannel {
  c_type : Z;                  (* channel_type_ *)
  c_virtual : Z;               (* virtual_device_id_ *)
  c_size : Z;                  (* device_size_ *)
  c_state : Z;                 (* channel_state_ *)
  c_cfg : list Z;              (* config_fields_[CHANNEL_CFG_MAX_ID] *)
  c_devs : list device;        (* devices_[MAX_DEVICE_SIZE] *)
  c_log : list Z;              (* channel_log_fields_[CHANNEL_LOG_MAX_ID] *)
  c_dlog : list (list Z)       (* device_log_fields_[MAX_DEVICE_SIZE][DEVICE_LOG_MAX_ID] *)
}.

(* fn_data.h:342-352 SHMLogger and 389-433 Logger.  [g_shm] is false while the
   shm_ pointer is NULL. *)
Record logger := mkLogger {
  g_shm : bool;
  g_state : Z;                 (* logger_state_ *)
  g_size : Z;                  (* shm_->channel_size_ *)
  g_chs : list channel         (* shm_->channels_[MAX_CHANNEL_SIZE] *)
}.

(* Reading a configuration word with a constant in-range index
   (AtomicLoadC, fn_data.h:449-453). *)
Definition fld (cfg : list Z) (i : Z) : Z := nth (Z.to_nat i) cfg 0.
