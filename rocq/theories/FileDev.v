(* The file device: FileHandler::rollback (fn_file.h:370-392), OpenFileDevice and
   EnterProcOutFileDevice (fn_out_file_device.h:192-339).

   The file system is a map from paths to contents; directories, permissions and
   other processes are not modelled, except that opening a file may fail and that
   fwrite may take fewer bytes than asked, as given by [io].  rename and remove of
   an existing file succeed.  Bytes handed to fwrite are counted as in the file
   (stdio buffering is not modelled).  The log fields are unbounded integers. *)
From Coq Require Import String ZArith List Bool.
From Verif Require Import Base LoggerState DateFmt FileName.
Import ListNotations.
Open Scope Z_scope.

Definition fs := text -> option text.
Definition fset (f : fs) (p : text) (c : option text) : fs := fun q => if teq q p then c else f q.

(* ::rename(2) *)
Definition rename (f : fs) (a b : text) : fs :=
  match f a with
  | None => f
  | Some c => if teq a b then f else fset (fset f a None) b (Some c)
  end.

(* fn_file.h:380-387: find_last_not_of("0123456789") and the dot before it *)
Definition is_digit (c : Z) : bool := (48 <=? c) && (c <=? 57).
Fixpoint drop_digits (r : text) : text :=
  match r with
  | c :: r' => if is_digit c then drop_digits r' else r
  | [] => []
  end.
Definition roll_base (path : text) : text :=
  match drop_digits (rev path) with
  | c :: r => if c =? 46 then rev r else path
  | [] => path
  end.
Definition roll_next (path : text) (depth : Z) : text := roll_base path ++ [46] ++ to_string depth.

(* fn_file.h:370-392; depth + 1 is an int *)
Fixpoint rollback (fuel : nat) (f : fs) (path : text) (depth max_depth : Z) : outcome fs :=
  match fuel with
  | O => Fuel
  | S fuel' =>
      match f path with
      | None => Ret f                                            (* 372-375 *)
      | Some _ =>
          if max_depth <? depth then Ret (fset f path None)      (* 376-379 *)
          else if INT_MAX <? depth + 1 then Ub
          else
            let next := roll_next path depth in
            let! f := rollback fuel' f next (depth + 1) max_depth in
            Ret (rename f path next)
      end
  end.

(* ---- the device ---- *)
Record dconf := mkDconf {
  dc_cfg : list Z;      (* Device::config_fields_, fn_data.h:165-183 *)
  dc_file : text;       (* out_file_ *)
  dc_path : text;       (* out_path_ *)
  dc_chan : Z;          (* channel_id_ *)
  dc_dev : Z            (* device_id_ *)
}.
Record denv := mkDenv { e_env : fenv; e_zone : zone; e_fuel : nat }.
Record drec := mkRec { r_ts : Z; r_prio : Z; r_text : text }.
Record io := mkIo {
  io_open : bool;       (* fopen and fstat succeed *)
  io_wr : Z             (* bytes fwrite takes *)
}.
Record dstate := mkDstate {
  d_fs : fs;
  d_open : option text; (* the FileHandler: path of the open file *)
  d_log : Z -> Z        (* device_log_fields_[device_id] *)
}.

(* AtomicStoreDeviceLog, AtomicIncDeviceLog, fn_data.h:477-485 *)
Definition lset (l : Z -> Z) (i v : Z) : Z -> Z := fun j => if j =? i then v else l j.
Definition linc (l : Z -> Z) (i v : Z) : Z -> Z := lset l i (l i + v).

(* localtime_r, fn_file.h:351-366 *)
Definition clock_of (z : zone) (ts : Z) : clock :=
  let t := time_to_tm z ts in
  let l := ts + z_off z (tm_isdst t) in
  mkClock (tm_year t) (tm_mon t) (tm_mday t) (l mod 86400 / 3600) (l mod 3600 / 60) (l mod 60).

(* fn_out_file_device.h:254-263: mktime with minutes and seconds cleared, then with
   the hour cleared too.  tm_isdst keeps the value localtime gave. *)
Definition create_day (z : zone) (ts : Z) : Z := mktime_midnight z (time_to_tm z ts).
Definition create_hour (z : zone) (ts : Z) : Z := create_day z ts + k_hour (clock_of z ts) * 3600.

(* 265-277; creating directories is part of [io_open] *)
Definition dev_path (e : denv) (c : dconf) (ts : Z) : outcome text :=
  let t := clock_of (e_zone e) ts in
  let! name := make_file_name (e_fuel e) (e_env e) t (dc_file c) (dc_chan c) (dc_dev c) in
  let! path := make_path_name (e_fuel e) (e_env e) t (dc_path c) in
  let path := map (fun ch => if ch =? 92 then 47 else ch) path in
  Ret (match path with
       | [] => name
       | _ => (if last path 0 =? 47 then path else path ++ [47]) ++ name
       end).

(* 200-234: whether the open file must be closed and whether for its size *)
Definition limit_out (c : dconf) (l : Z -> Z) (r : drec) : bool :=
  (0 <? fld (dc_cfg c) DEVICE_CFG_FILE_LIMIT_SIZE) && (0 <? fld (dc_cfg c) DEVICE_CFG_FILE_ROLLBACK) &&
  (fld (dc_cfg c) DEVICE_CFG_FILE_LIMIT_SIZE <? l DEVICE_LOG_CUR_FILE_SIZE + zlen (r_text r)).
Definition close_file (c : dconf) (l : Z -> Z) (r : drec) : bool :=
  if limit_out c l r then true
  else if negb (fld (dc_cfg c) DEVICE_CFG_FILE_ROLLDAILY =? 0) then
    (r_ts r <? l DEVICE_LOG_CUR_FILE_CREATE_DAY) || (l DEVICE_LOG_CUR_FILE_CREATE_DAY + 24 * 3600 <=? r_ts r)
  else if negb (fld (dc_cfg c) DEVICE_CFG_FILE_ROLLHOURLY =? 0) then
    (r_ts r <? l DEVICE_LOG_CUR_FILE_CREATE_HOUR) || (l DEVICE_LOG_CUR_FILE_CREATE_HOUR + 3600 <=? r_ts r)
  else false.

(* 279-284, 299-304 *)
Definition open_failed (l : Z -> Z) (err ts : Z) : Z -> Z :=
  lset (lset l DEVICE_LOG_LAST_TRY_CREATE_ERROR err) DEVICE_LOG_LAST_TRY_CREATE_TIMESTAMP ts.

(* 286-296 *)
Definition roll_files (e : denv) (c : dconf) (lim : bool) (f : fs) (path : text) : outcome fs :=
  let roll := fld (dc_cfg c) DEVICE_CFG_FILE_ROLLBACK in
  if ((0 <? roll) || (0 <? fld (dc_cfg c) DEVICE_CFG_FILE_LIMIT_SIZE)) &&
     ((fld (dc_cfg c) DEVICE_CFG_FILE_STUFF_UP =? 0) || lim)
  then rollback (e_fuel e) f path 1 (int_of (if 0 <? roll then roll else 1))
  else Ret f.

(* 192-315 *)
Definition open_device (e : denv) (c : dconf) (s : dstate) (r : drec) (i : io) : outcome dstate :=
  let lim := limit_out c (d_log s) r in
  let s := if close_file c (d_log s) r
           then mkDstate (d_fs s) None (lset (d_log s) DEVICE_LOG_CUR_FILE_SIZE 0)
           else s in
  match d_open s with
  | Some _ => Ret s
  | None =>
      let! path := dev_path e c (r_ts r) in
      if 250 <=? zlen path then Ret (mkDstate (d_fs s) None (open_failed (d_log s) 1 (r_ts r)))
      else
        let! f := roll_files e c lim (d_fs s) path in
        if negb (io_open i) then Ret (mkDstate f None (open_failed (d_log s) 2 (r_ts r)))
        else
          let old := match f path with Some t => t | None => [] end in
          let l := linc (d_log s) DEVICE_LOG_LAST_TRY_CREATE_CNT 1 in
          let l := open_failed l 0 0 in
          let l := lset l DEVICE_LOG_CUR_FILE_CREATE_TIMESTAMP (r_ts r) in
          let l := lset l DEVICE_LOG_CUR_FILE_CREATE_DAY (create_day (e_zone e) (r_ts r)) in
          let l := lset l DEVICE_LOG_CUR_FILE_CREATE_HOUR (create_hour (e_zone e) (r_ts r)) in
          let l := lset l DEVICE_LOG_CUR_FILE_SIZE (zlen old) in
          Ret (mkDstate (fset f path (Some old)) (Some path) l)
  end.

(* FileHandler::write, fn_file.h:180-189 *)
Definition file_write (s : dstate) (t : text) (i : io) : dstate :=
  match d_open s with
  | None => s
  | Some p =>
      if zlen t <=? 0 then s
      else
        let n := Z.max 0 (Z.min (io_wr i) (zlen t)) in
        let old := match d_fs s p with Some c => c | None => [] end in
        mkDstate (fset (d_fs s) p (Some (old ++ firstn (Z.to_nat n) t)))
                 (if n =? zlen t then Some p else None) (d_log s)
  end.

(* EnterProcOutFileDevice, fn_out_file_device.h:319-339 *)
Definition dev_step (e : denv) (c : dconf) (s : dstate) (r : drec) (i : io) : outcome dstate :=
  let waiting := match d_open s with
                 | None => r_ts r <? d_log s DEVICE_LOG_LAST_TRY_CREATE_TIMESTAMP + 5
                 | Some _ => false
                 end in
  if waiting then Ret s
  else
    let! s := open_device e c s r i in
    match d_open s with
    | None => Ret s
    | Some _ =>
        let s := file_write s (r_text r) i in
        let k := DEVICE_LOG_PRIORITY + r_prio r in
        if (k <? 0) || (DEVICE_LOG_MAX_ID <=? k) then Ub
        else
          let l := linc (d_log s) DEVICE_LOG_TOTAL_WRITE_LINE 1 in
          let l := linc l DEVICE_LOG_TOTAL_WRITE_BYTE (zlen (r_text r)) in
          let l := linc l DEVICE_LOG_CUR_FILE_SIZE (zlen (r_text r)) in
          let l := linc l k (zlen (r_text r)) in
          Ret (mkDstate (d_fs s) (d_open s) l)
    end.

Fixpoint dev_run (e : denv) (c : dconf) (s : dstate) (l : list (drec * io)) : outcome dstate :=
  match l with
  | [] => Ret s
  | (r, i) :: l => let! s := dev_step e c s r i in dev_run e c s l
  end.
