(* Loading a configuration into a logger, hot update and the life cycle:
   fn_load.h:22-36, 142-383 and fn_core.h:28-261, 373-422.
   The calls are modelled one at a time, as the recursive state_lock_ orders them;
   the writer threads' side of StopLogger is in Stop.v, attaching to an existing
   shared memory segment in Recover.v.  Not modelled: the texts printed, the rings,
   the open file and socket handles. *)
From Coq Require Import String ZArith List Bool.
From Verif Require Import Base LoggerState ParseVal Lexer ParseCfg.
Import ListNotations.
Open Scope Z_scope.

(* fn_data.h:488-527 *)
Definition E_LOGGER_IN_USE := 1.
Definition E_LOGGER_NOT_INIT := 2.
Definition E_LOGGER_NOT_RUNNING := 3.
Definition E_INVALID_CONFIG_PATH := 4.
Definition E_INVALID_CHANNEL_SYNC := 6.
Definition E_INVALID_CHANNEL_STATE := 7.
Definition E_CHANNEL_THREAD_FAILED := 8.
Definition E_VERSION_MISMATCH := 16.
Definition E_DISABLE_HOTUPDATE := 17.
Definition E_NO_CONFIG_PATH := 18.
Definition E_CONFIG_NO_CHANGE := 19.

(* Channel, fn_data.h:300-329: [lc_p] what the parser sets (its device list are the
   first device_size_ devices), then channel_state_, yaml_mtime_, last_hot_check_,
   channel_log_fields_ and device_log_fields_ *)
Record lchan := mkLchan {
  lc_p : pchan;
  lc_state : Z;
  lc_mtime : Z;
  lc_check : Z;
  lc_log : list Z;
  lc_dlog : list (list Z)
}.
(* SHMLogger, fn_data.h:342-352: [sm_seg] is the segment's id when the memory was
   attached with shmat and None when it came from new *)
Record shmem := mkShmem {
  sm_seg : option Z;
  sm_size : Z;
  sm_chans : list lchan      (* channels_[MAX_CHANNEL_SIZE] *)
}.
(* Logger, fn_data.h:389-433 *)
Record lg := mkLg {
  lg_state : Z;
  lg_hot : bool;
  lg_path : text;
  lg_name : text;
  lg_desc : text;
  lg_key : Z;
  lg_shm : option shmem
}.
(* what surrounds the logger: parser environment, parser fuel, what a fresh
   LexState holds in shm_key_, and the result of LoadSharedMemory for a key *)
Record lenv := mkLenv {
  y_pe : penv;
  y_fuel : nat;
  y_old : Z;
  y_attach : Z -> Z * option shmem
}.

(* memset to zero *)
Definition zero_chan (e : lenv) : lchan :=
  mkLchan (chan0 0) 0 0 0 (repeat 0 25) (repeat (repeat 0 18) (Z.to_nat (x_maxdev (y_pe e)))).
(* new SHMLogger and ResetSHMLogger, fn_load.h:22-36, 41-46 *)
Definition fresh_shm (e : lenv) : shmem :=
  mkShmem None 0 (repeat (zero_chan e) (Z.to_nat (x_maxch (y_pe e)))).
(* LoadSharedMemory, fn_load.h:38-141 *)
Definition load_shm (e : lenv) (key : Z) : Z * option shmem :=
  if key <=? 0 then (0, Some (fresh_shm e)) else y_attach e key.
(* UnloadSharedMemory, fn_load.h:142-159: shmdt and shmctl for a positive key,
   else delete; deleting an attached segment is undefined.  shmdt of memory that
   is not attached fails and the memory is lost. *)
Definition unload (g : lg) : outcome lg :=
  match lg_shm g with
  | None => Ret g
  | Some m =>
      let g' := mkLg (lg_state g) (lg_hot g) (lg_path g) (lg_name g) (lg_desc g) (lg_key g) None in
      if 0 <? lg_key g then Ret g'
      else match sm_seg m with Some _ => Ub | None => Ret g' end
  end.

(* InitLogger, fn_core.h:373-393; [name] is the process name *)
Definition init_logger (name : text) : lg :=
  mkLg LOGGER_STATE_UNINIT false [] (firstn 249 name) [] 0 None.

(* the channels after the two memcpy of fn_load.h:222-232: the parsed ones with the
   counters that were there; behind them what ParseLogger cleared (1413) *)
Fixpoint take_chans (e : lenv) (new : list pchan) (old : list lchan) : list lchan :=
  match old with
  | [] => []
  | o :: old' =>
      match new with
      | p :: new' => mkLchan p 0 0 0 (lc_log o) (lc_dlog o) :: take_chans e new' old'
      | [] => zero_chan e :: take_chans e [] old'
      end
  end.

Definition set_shm (g : lg) (m : shmem) : lg :=
  mkLg (lg_state g) (lg_hot g) (lg_path g) (lg_name g) (lg_desc g) (lg_key g) (Some m).
Definition set_state (g : lg) (st : Z) : lg :=
  mkLg st (lg_hot g) (lg_path g) (lg_name g) (lg_desc g) (lg_key g) (lg_shm g).

(* InitFromYMAL, fn_load.h:162-245 *)
Definition init_yaml (e : lenv) (g : lg) (t path : text) : outcome (Z * lg) :=
  if negb (lg_state g =? LOGGER_STATE_UNINIT) then Ret (E_LOGGER_IN_USE, g)
  else
    let! r := parse_logger (y_fuel e) (y_pe e) (y_old e) t in
    let '(ret, s) := r in
    if negb (ret =? PEC_NONE) then Ret (ret, g)
    else
      let g := mkLg (lg_state g) (s_hot s) path
                 (if 0 <? zlen (s_name s) then s_name s else lg_name g)
                 (if 0 <? zlen (s_desc s) then s_desc s else lg_desc g) (s_shm s) (lg_shm g) in
      let '(ret, m) := match lg_shm g with Some m => (0, Some m) | None => load_shm e (lg_key g) end in
      match m with
      | None => Ret (ret, g)
      | Some m =>
          if negb (ret =? 0) then Ret (ret, g)
          else
            let m := mkShmem (sm_seg m) (zlen (s_chs s)) (take_chans e (s_chs s) (sm_chans m)) in
            let g := set_shm g m in
            Ret (if (x_maxch (y_pe e) <? sm_size m) || (sm_size m <=? 0) then E_INVALID_CHANNEL_SIZE else 0, g)
      end.

Definition set_mtime (t : Z) (c : lchan) : lchan :=
  mkLchan (lc_p c) (lc_state c) t (lc_check c) (lc_log c) (lc_dlog c).
Definition first_chans (f : lchan -> lchan) (m : shmem) : shmem :=
  let n := Z.to_nat (sm_size m) in
  mkShmem (sm_seg m) (sm_size m) (map f (firstn n (sm_chans m)) ++ skipn n (sm_chans m)).
(* InitFromYMALFile, fn_load.h:247-275; [file] is the modification time and the
   content of the file at [path], None when it cannot be opened *)
Definition init_file (e : lenv) (g : lg) (path : text) (file : option (Z * text)) : outcome (Z * lg) :=
  match file with
  | None => Ret (E_INVALID_CONFIG_PATH, g)
  | Some (mtime, t) =>
      let! r := init_yaml e g t path in
      let '(ret, g) := r in
      if negb (ret =? 0) then Ret (ret, g)
      else match lg_shm g with
           | None => Ub
           | Some m => Ret (0, set_shm g (first_chans (set_mtime mtime) m))
           end
  end.

(* ---- hot update ---- *)
Definition inc (l : list Z) (i v : Z) : list Z := cput l i (fld l i + v).
Definition set_dev_cfg (d : pdev) (cfg : list Z) : pdev :=
  mkPdev (pd_id d) (pd_in d) (pd_out d) cfg (pd_file d) (pd_path d).
Definition put_nth {A} (l : list A) (i : nat) (x : A) : list A := firstn i l ++ x :: skipn (S i) l.
(* the loop 347-372 from device [i] on: a code, and the devices so far *)
Fixpoint hot_devs (maxdev i : Z) (src dst : list pdev) : outcome (Z * list pdev) :=
  match src with
  | [] => Ret (0, dst)
  | s :: src' =>
      if negb (pd_id s =? i) then Ret (E_VERSION_MISMATCH, dst)
      else
        match nth_error dst (Z.to_nat i) with
        | Some d =>
            if negb (pd_id d =? i) then Ret (E_VERSION_MISMATCH, dst)
            else hot_devs maxdev (i + 1) src' (put_nth dst (Z.to_nat i) (set_dev_cfg d (pd_cfg s)))
        | None =>
            if negb (zlen dst =? i) then Ret (E_VERSION_MISMATCH, dst)
            else if maxdev <=? zlen dst then Ub
            else hot_devs maxdev (i + 1) src' (dst ++ [s])
        end
  end.
(* HotUpdateLogger, fn_load.h:277-383; [now] is the time, [file] as above.  The
   state and hot_update_ are tested twice (298, 323 and 329); called alone both
   tests see the same. *)
Definition hot_update (e : lenv) (g : lg) (id now : Z) (file : option (Z * text)) : outcome (Z * lg) :=
  match lg_shm g with
  | None => Ub
  | Some m =>
      if sm_size m <=? id then Ret (E_INVALID_CHANNEL_SIZE, g)
      else if negb (lg_hot g) then Ret (E_DISABLE_HOTUPDATE, g)
      else if zlen (lg_path g) =? 0 then Ret (E_NO_CONFIG_PATH, g)
      else
        match nth_error (sm_chans m) (Z.to_nat id) with
        | None => Ub
        | Some c =>
            let put c := set_shm g (mkShmem (sm_seg m) (sm_size m) (put_nth (sm_chans m) (Z.to_nat id) c)) in
            if now - lc_check c <? 5 then Ret (0, g)
            else
              let c := mkLchan (lc_p c) (lc_state c) (lc_mtime c) now (inc (lc_log c) CHANNEL_LOG_HOTUPDATE_CHECK 1) (lc_dlog c) in
              match file with
              | None => Ret (E_INVALID_CONFIG_PATH, put c)
              | Some (mtime, t) =>
                  if mtime =? lc_mtime c then Ret (E_CONFIG_NO_CHANGE, put c)
                  else if negb (lg_state g =? LOGGER_STATE_RUNNING) then Ret (E_LOGGER_NOT_RUNNING, put c)
                  else
                    let! r := parse_logger (y_fuel e) (y_pe e) (y_old e) t in
                    let '(ret, s) := r in
                    if negb (ret =? PEC_NONE) then Ret (ret, put c)
                    else
                      let c := set_mtime mtime c in
                      let done c :=
                        let g := put c in
                        mkLg (lg_state g) (s_hot s) (lg_path g) (lg_name g) (lg_desc g) (lg_key g) (lg_shm g) in
                      (* channels_ behind channel_size_ is cleared, 1413 *)
                      let src := nth (Z.to_nat id) (s_chs s) (chan0 0) in
                      let p := lc_p c in
                      if negb (pc_id p =? pc_id src) || negb (pc_id src =? id) then Ret (E_VERSION_MISMATCH, done c)
                      else
                        let! r := hot_devs (x_maxdev (y_pe e)) 0 (pc_devs src) (pc_devs p) in
                        let '(ret, ds) := r in
                        let p := mkPchan (pc_id p) (pc_type p) (pc_virtual p) (pc_cfg src) ds in
                        let log := if ret =? 0 then inc (lc_log c) CHANNEL_LOG_HOTUPDATE_CHANGE 1 else lc_log c in
                        Ret (ret, done (mkLchan p (lc_state c) (lc_mtime c) (lc_check c) log (lc_dlog c)))
              end
        end
  end.

(* ---- starting and stopping ---- *)
(* what becomes of a writer thread that is started: it runs, it sets channel_state_
   just behind the second that StartChannels waits or much later, or it cannot be
   created (std::thread throws std::system_error) *)
Inductive tstart := Up | Late | Slow | Throws.
(* a call returns a code, ends with an exception, or blocks for ever *)
Inductive res := Code (z : Z) | Thrown | Blocked.

Definition with_state (st : Z) (c : lchan) : lchan :=
  mkLchan (lc_p c) st (lc_mtime c) (lc_check c) (lc_log c) (lc_dlog c).
(* StartChannels, fn_core.h:28-74, from channel [i] on; the channels behind
   channel_size_ are kept *)
Fixpoint start_chans (th : Z -> tstart) (i size : Z) (cs : list lchan) : res * list lchan :=
  match cs with
  | [] => (Code 0, [])
  | c :: cs' =>
      if size <=? i then (Code 0, cs)
      else
        let go c := let '(r, l) := start_chans th (i + 1) size cs' in (r, c :: l) in
        if pc_type (lc_p c) =? CHANNEL_SYNC then go (with_state CHANNEL_STATE_RUNNING c)
        else if pc_type (lc_p c) =? CHANNEL_ASYNC then
          match th i with
          | Up => go (with_state CHANNEL_STATE_RUNNING c)
          | Late | Slow => (Code E_CHANNEL_THREAD_FAILED, cs)
          | Throws => (Thrown, cs)
          end
        else (Code E_INVALID_CHANNEL_SYNC, cs)
  end.
(* StopChannels, fn_core.h:76-107.  A thread that is joined ends (Stop.v) if it was
   told to; a slow one was not, since its state is still CHANNEL_STATE_NULL: it
   will then set RUNNING and never end.  Behind the first thread that did not come
   up none was created, so there is nothing to wait for. *)
Fixpoint stop_chans (th : Z -> tstart) (i size : Z) (cs : list lchan) : res * list lchan :=
  match cs with
  | [] => (Code 0, [])
  | c :: cs' =>
      if size <=? i then (Code 0, cs)
      else
        let go th := let '(r, l) := stop_chans th (i + 1) size cs' in (r, with_state CHANNEL_STATE_NULL c :: l) in
        if pc_type (lc_p c) =? CHANNEL_SYNC then go th
        else if pc_type (lc_p c) =? CHANNEL_ASYNC then
          match th i with
          | Up => go th
          | Slow => (Blocked, cs)
          | _ => go (fun _ => Up)
          end
        else (Code E_INVALID_CHANNEL_SYNC, cs)
  end.
Definition set_chans (g : lg) (m : shmem) (cs : list lchan) : lg := set_shm g (mkShmem (sm_seg m) (sm_size m) cs).

(* StartLogger, fn_core.h:109-148 *)
Definition start_logger (e : lenv) (th : Z -> tstart) (g : lg) : res * lg :=
  if negb (lg_state g =? LOGGER_STATE_UNINIT) then (Code E_LOGGER_IN_USE, g)
  else match lg_shm g with
       | None => (Code E_LOGGER_NOT_INIT, g)
       | Some m =>
           if (x_maxch (y_pe e) <? sm_size m) || (sm_size m <=? 0) then (Code E_INVALID_CHANNEL_SIZE, g)
           else
             match start_chans th 0 (sm_size m) (sm_chans m) with
             | (Code 0, cs) => (Code 0, set_state (set_chans g m cs) LOGGER_STATE_RUNNING)
             | (Code z, cs) =>
                 match stop_chans th 0 (sm_size m) cs with
                 | (Blocked, cs) => (Blocked, set_state (set_chans g m cs) LOGGER_STATE_INITING)
                 | (_, cs) => (Code z, set_state (set_chans g m cs) LOGGER_STATE_UNINIT)
                 end
             | (r, cs) => (r, set_state (set_chans g m cs) LOGGER_STATE_INITING)
             end
       end.
(* StopLogger, fn_core.h:170-209 *)
Definition stop_logger (e : lenv) (g : lg) : outcome (res * lg) :=
  match lg_shm g with
  | None => Ub                                            (* shm_->channel_size_ *)
  | Some m =>
      if (x_maxch (y_pe e) <? sm_size m) || (sm_size m <=? 0) then Ret (Code E_INVALID_CHANNEL_SIZE, g)
      else if negb (lg_state g =? LOGGER_STATE_RUNNING) then Ret (Code E_LOGGER_NOT_RUNNING, g)
      else
        let '(_, cs) := stop_chans (fun _ => Up) 0 (sm_size m) (sm_chans m) in
        Ret (Code 0, set_state (set_chans g m cs) LOGGER_STATE_UNINIT)
  end.
(* ParseAndStartLogger and LoadAndStartLogger, fn_core.h:212-261 *)
Definition then_start (e : lenv) (th : Z -> tstart) (g : lg) (o : outcome (Z * lg)) : outcome (res * lg) :=
  if negb (lg_state g =? LOGGER_STATE_UNINIT) then Ret (Code E_LOGGER_IN_USE, g)
  else
    let! r := o in
    let '(ret, g) := r in
    if negb (ret =? 0) then Ret (Code ret, g) else Ret (start_logger e th g).
Definition parse_and_start (e : lenv) (th : Z -> tstart) (g : lg) (t : text) : outcome (res * lg) :=
  then_start e th g (init_yaml e g t []).
Definition load_and_start (e : lenv) (th : Z -> tstart) (g : lg) (path : text) (file : option (Z * text)) : outcome (res * lg) :=
  then_start e th g (init_file e g path file).
(* ~Logger, fn_core.h:411-422, for a logger that no other thread uses *)
Definition destroy (e : lenv) (g : lg) : outcome (option lg) :=
  if lg_state g =? LOGGER_STATE_UNINIT then let! g := unload g in Ret (Some g)
  else
    let! r := stop_logger e g in
    let '(_, g') := r in
    if lg_state g' =? LOGGER_STATE_UNINIT then let! g := unload g' in Ret (Some g)
    else Ret None.                                        (* waits for ever *)

(* the calls on a logger, one after the other; a channel's thread makes the hot
   update calls *)
Inductive call :=
| CParse (th : Z -> tstart) (t : text)
| CLoad (th : Z -> tstart) (path : text) (file : option (Z * text))
| CStart (th : Z -> tstart)
| CStop
| CHot (id : nat) (now : Z) (file : option (Z * text)).
Definition do_call (e : lenv) (g : lg) (c : call) : outcome (res * lg) :=
  match c with
  | CParse th t => parse_and_start e th g t
  | CLoad th path file => load_and_start e th g path file
  | CStart th => Ret (start_logger e th g)
  | CStop => stop_logger e g
  | CHot id now file => let! r := hot_update e g (Z.of_nat id) now file in let '(z, g) := r in Ret (Code z, g)
  end.
(* the loggers that calls lead to *)
Inductive reach (e : lenv) : lg -> Prop :=
| reach_new : forall name, reach e (init_logger name)
| reach_call : forall g c r g', reach e g -> do_call e g c = Ret (r, g') -> r <> Blocked -> reach e g'.
