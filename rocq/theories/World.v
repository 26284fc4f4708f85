(* One log statement from beginning to end: HoldChannel, the LogStream object,
   the hook with TransmitChannel, PushChannel, EnterProcChannel, DispatchLog and
   the output devices (fn_channel.h, fn_stream.h, fn_out_*_device.h).

   Statements run one after the other (interleavings are in Ring.v), so the
   compare-exchanges of the queue always succeed.  Waiting for room in a full
   queue is the outcome Fuel.  Left out: flushing, hot update (Load.v), what a
   file device does with its files (FileDev.v: here it takes the record or, when
   it has no open file, does nothing).  Counters are unbounded integers. *)
From Coq Require Import String ZArith List Bool.
From Verif Require Import Base NumFmt LoggerState Filter DateFmt Stream.
Import ListNotations.
Open Scope Z_scope.

(* fn_data.h:125-146 LogData without data_mark_ *)
Record ldata := mkLd {
  ld_chan : Z; ld_prio : Z; ld_cat : Z; ld_ident : Z;
  ld_line : Z; ld_func_len : Z; ld_file_len : Z;
  ld_func : option text; ld_file : option text;
  ld_ts : Z; ld_prec : Z; ld_thread : Z;
  ld_plen : Z;           (* prefix_len_ *)
  ld_len : Z;            (* content_len_ *)
  ld_buf : text          (* content_[LOG_SIZE] *)
}.
Definition set_text (l : ldata) (plen len : Z) (buf : text) : ldata :=
  mkLd (ld_chan l) (ld_prio l) (ld_cat l) (ld_ident l) (ld_line l) (ld_func_len l) (ld_file_len l)
       (ld_func l) (ld_file l) (ld_ts l) (ld_prec l) (ld_thread l) plen len buf.

Record cell := mkCell { ce_mark : Z; ce_log : ldata }.

(* fn_data.h:280-298 RingBuffer *)
Record ring := mkRing {
  rg_write : Z; rg_hold : Z; rg_read : Z; rg_proc : Z;
  rg_cells : list cell;  (* buffer_[BUFFER_LEN] *)
  rg_udp : ldata         (* udp_buffer_ *)
}.

(* What leaves the logger: bytes printed, bytes handed to a log file, a datagram
   sent, the hook called. *)
Inductive event :=
| EScreen (t : text)
| EFile (k d : Z) (t : text)
| ESend (ip port : Z) (t : text)
| EHook (l : ldata).

Record world := mkWorld {
  w_lg : logger;
  w_rings : list ring;              (* shm_->ring_buffers_ *)
  w_in : Z -> Z -> list text;       (* datagrams waiting at the socket of a device *)
  w_ev : list event                 (* what happened, oldest first *)
}.

(* The outside: whether a file device has a file to write to, whether the socket
   of a device is open, what sendto returns, and the clock and thread id. *)
Record io := mkIo {
  io_file : list event -> Z -> Z -> bool;
  io_sock : list event -> Z -> Z -> bool;
  io_sent : list event -> Z -> Z -> Z;
  io_ts : Z; io_prec : Z; io_thread : Z
}.

(* Compile-time sizes, the logger's name and description (fn_data.h:391-395) and
   the registered hook, given as the TransmitChannel calls it makes. *)
Record wcfg := mkWcfg {
  W_env : env;
  W_ring : Z;                       (* RingBuffer::BUFFER_LEN *)
  W_name : text; W_name_len : Z; W_desc : text; W_desc_len : Z;
  W_hook : option (ldata -> list (Z * Z * Z))
}.
Definition LOG_SIZE (W : wcfg) : Z := e_cap (W_env W).

(* ---- access ---- *)
Definition put_lg (w : world) (g : logger) : world := mkWorld g (w_rings w) (w_in w) (w_ev w).
Definition put_ch (w : world) (k : Z) (ch : channel) : outcome world :=
  let! chs := wr (g_chs (w_lg w)) k ch in
  Ret (put_lg w (mkLogger (g_shm (w_lg w)) (g_state (w_lg w)) (g_size (w_lg w)) chs)).
Definition put_ring (w : world) (k : Z) (r : ring) : outcome world :=
  let! rs := wr (w_rings w) k r in
  Ret (mkWorld (w_lg w) rs (w_in w) (w_ev w)).
Definition put_ev (w : world) (evs : list event) : world := mkWorld (w_lg w) (w_rings w) (w_in w) evs.

(* AtomicIncChannelLog, AtomicIncDeviceLog, fn_data.h:460-463,477-480: an index
   outside the array is undefined *)
Definition bump (l : list Z) (i v : Z) : outcome (list Z) := let! x := rd l i in wr l i (x + v).
Definition set_log (ch : channel) (l : list Z) : channel :=
  mkChannel (c_type ch) (c_virtual ch) (c_size ch) (c_state ch) (c_cfg ch) (c_devs ch) l (c_dlog ch).
Definition set_dlog (ch : channel) (l : list (list Z)) : channel :=
  mkChannel (c_type ch) (c_virtual ch) (c_size ch) (c_state ch) (c_cfg ch) (c_devs ch) (c_log ch) l.
Definition set_state (ch : channel) (s : Z) : channel :=
  mkChannel (c_type ch) (c_virtual ch) (c_size ch) s (c_cfg ch) (c_devs ch) (c_log ch) (c_dlog ch).
Definition inc_ch (ch : channel) (i v : Z) : outcome channel :=
  let! l := bump (c_log ch) i v in Ret (set_log ch l).
Definition inc_dev (ch : channel) (d i v : Z) : outcome channel :=
  let! row := rd (c_dlog ch) d in
  let! row := bump row i v in
  let! rows := wr (c_dlog ch) d row in
  Ret (set_dlog ch rows).

(* ---- output devices ---- *)
(* the three counters of fn_out_screen_device.h:24-26, fn_out_udp_device.h:43-45,
   fn_out_empty_device.h:23-25, fn_out_virtual_device.h:66-68 *)
Definition count_written (ch : channel) (d : Z) (log : ldata) : outcome channel :=
  let! ch := inc_dev ch d DEVICE_LOG_TOTAL_WRITE_LINE 1 in
  let! ch := inc_dev ch d DEVICE_LOG_TOTAL_WRITE_BYTE (ld_len log) in
  inc_dev ch d (DEVICE_LOG_PRIORITY + ld_prio log) (ld_len log).

(* what "%s" prints: everything before the first NUL *)
Fixpoint c_string (buf : text) : outcome text :=
  match buf with
  | [] => Ub
  | c :: r => if c =? 0 then Ret [] else let! t := c_string r in Ret (c :: t)
  end.

(* PRIORITY_RENDER[..].scolor_, fn_fmt.h:27-36 *)
Definition esc (s : string) : text := 27 :: s2z s.
Definition colors : list text :=
  [esc "[0m"; esc "[0m"; esc "[34m" ++ esc "[1m"; esc "[33m"; esc "[31m"; esc "[32m"; esc "[35m"].

(* fn_out_screen_device.h:19-39 (the branch without WIN32) *)
Definition out_screen (ch : channel) (d : Z) (log : ldata) : outcome (channel * list event) :=
  let! ch := count_written ch d log in
  let! s := c_string (ld_buf log) in
  if ld_prio log <? PRIORITY_INFO then Ret (ch, [EScreen s])
  else
    let priority := if PRIORITY_MAX <=? ld_prio log then PRIORITY_ALARM else ld_prio log in
    let! color := rd colors priority in
    Ret (ch, [EScreen (color ++ s ++ esc "[0m")]).

(* the first content_len_ bytes of content_ *)
Definition content (log : ldata) : outcome text := slice (ld_buf log) 0 (ld_len log).

(* fn_out_file_device.h:319-339 *)
Definition out_file (ready : bool) (k : Z) (ch : channel) (d : Z) (log : ldata) : outcome (channel * list event) :=
  if negb ready then Ret (ch, [])
  else
    let! t := content log in
    let! ch := inc_dev ch d DEVICE_LOG_TOTAL_WRITE_LINE 1 in
    let! ch := inc_dev ch d DEVICE_LOG_TOTAL_WRITE_BYTE (ld_len log) in
    let! ch := inc_dev ch d DEVICE_LOG_CUR_FILE_SIZE (ld_len log) in
    let! ch := inc_dev ch d (DEVICE_LOG_PRIORITY + ld_prio log) (ld_len log) in
    Ret (ch, [EFile k d t]).

(* fn_out_udp_device.h:19-46; UDPHandler::write takes an unsigned int and an
   unsigned short, fn_file.h:509-521 *)
Definition out_udp (open : bool) (ret : Z) (ch : channel) (d : Z) (log : ldata) : outcome (channel * list event) :=
  if negb open then let! ch := inc_dev ch d DEVICE_LOG_TOTAL_LOSE_LINE 1 in Ret (ch, [])
  else
    let! dev := rd (c_devs ch) d in
    let! t := content log in
    let! ch := if ret <=? 0 then inc_dev ch d DEVICE_LOG_TOTAL_LOSE_LINE 1 else Ret ch in
    let! ch := count_written ch d log in
    Ret (ch, if ret <=? 0 then []
             else [ESend (u32 (fld (d_cfg dev) DEVICE_CFG_UDP_IP)) (fld (d_cfg dev) DEVICE_CFG_UDP_PORT mod 2 ^ 16) t]).

(* fn_out_empty_device.h:19-26 *)
Definition out_empty (ch : channel) (d : Z) (log : ldata) : outcome (channel * list event) :=
  let! ch := count_written ch d log in Ret (ch, []).

(* fn_channel.h:23-50 EnterProcDevice *)
Definition out_device (i : io) (evs : list event) (k : Z) (ch : channel) (d : Z) (log : ldata) : outcome (channel * list event) :=
  let! dev := rd (c_devs ch) d in
  match enter_proc_device dev with
  | Some OutScreen => out_screen ch d log
  | Some OutFile => out_file (io_file i evs k d) k ch d log
  | Some OutUdp => out_udp (io_sock i evs k d) (io_sent i evs k d) ch d log
  | Some OutEmpty => out_empty ch d log
  | None => Ret (ch, [])
  end.

(* fn_channel.h:53-95 DispatchLog; [ids] are the devices that pass its filter *)
Fixpoint out_devices (i : io) (evs : list event) (k : Z) (ch : channel) (ids : list Z) (log : ldata)
  : outcome (channel * list event) :=
  match ids with
  | [] => Ret (ch, evs)
  | d :: ids =>
      let! (ch, e) := out_device i evs k ch d log in
      out_devices i (evs ++ e) k ch ids log
  end.
Definition filter_rec (log : ldata) : rec := mkRec (ld_prio log) (ld_cat log) (ld_ident log).
Definition dispatch_log (i : io) (evs : list event) (k : Z) (ch : channel) (log : ldata) : outcome (channel * list event) :=
  let! ids := dispatch ch (filter_rec log) in
  out_devices i evs k ch ids log.

(* ---- EnterProcChannel, fn_channel.h:99-270 ---- *)
Definition nxt (W : wcfg) (i : Z) : Z := (i + 1) mod W_ring W.
Definition MARK_INVALID : Z := 0.
Definition MARK_HOLD : Z := 1.
Definition MARK_READY : Z := 2.

(* 155-169: read_idx_ follows proc_idx_ over the slots that are done *)
Fixpoint read_up (fuel : nat) (W : wcfg) (r : ring) : outcome ring :=
  match fuel with
  | O => Fuel
  | S fuel =>
      if rg_read r =? rg_proc r then Ret r
      else
        let! c := rd (rg_cells r) (rg_read r) in
        if ce_mark c =? MARK_INVALID
        then read_up fuel W (mkRing (rg_write r) (rg_hold r) (nxt W (rg_read r)) (rg_proc r) (rg_cells r) (rg_udp r))
        else Ret r
  end.

(* AtomicStoreChannelLog of a maximum, 130-153 *)
Definition max_ch (ch : channel) (i v : Z) : outcome channel :=
  let! x := rd (c_log ch) i in
  if x <? v then let! l := wr (c_log ch) i v in Ret (set_log ch l) else Ret ch.

(* 107-184: one record after the other; [now] is time(NULL) *)
Fixpoint proc_records (fuel : nat) (W : wcfg) (i : io) (k : Z) (r : ring) (ch : channel) (evs : list event)
  : outcome (ring * channel * list event) :=
  match fuel with
  | O => Fuel
  | S fuel =>
      let old := rg_proc r in
      if old =? rg_write r then Ret (r, ch, evs)
      else
        let! c := rd (rg_cells r) old in
        let! (ch, evs) := dispatch_log i evs k ch (ce_log c) in
        let! cells := wr (rg_cells r) old (mkCell MARK_INVALID (ce_log c)) in
        let r := mkRing (rg_write r) (rg_hold r) (rg_read r) (nxt W old) cells (rg_udp r) in
        let! ch := inc_ch ch CHANNEL_LOG_PROCESSED 1 in
        let! ch := inc_ch ch CHANNEL_LOG_PROCESSED_BYTES (ld_len (ce_log c)) in
        let que := if old <=? rg_write r then rg_write r - old else rg_write r + W_ring W - old in
        let! ch := max_ch ch CHANNEL_LOG_MAX_PROC_QUE_SIZE que in
        let! ch := if 0 <? ld_ts (ce_log c)
                   then max_ch ch CHANNEL_LOG_MAX_DELAY_TIME_S (io_ts i - 1 - ld_ts (ce_log c))
                   else Ret ch in
        let! r := read_up (Z.to_nat (W_ring W)) W r in
        proc_records fuel W i k r ch evs
  end.

(* InitLogData, fn_channel.h:274-324; identify_ is a long long *)
Definition init_log (i : io) (log : ldata) (k priority category identify : Z) : outcome ldata :=
  let! st := init_text (ld_buf log) cache_init in
  Ret (mkLd k priority category (ll_of identify) 0 0 0 (Some []) (Some [])
            (io_ts i) (io_prec i) (io_thread i) 0 (s_len st) (s_buf st)).

(* UDPHandler::read into content_, fn_file.h:523-535 and recvfrom: one datagram is
   taken and cut at LOG_SIZE; 0 when there is none *)
Definition udp_read (W : wcfg) (log : ldata) (q : list text) : outcome (ldata * list text) :=
  match q with
  | [] => Ret (set_text log (ld_plen log) 0 (ld_buf log), [])
  | m :: q =>
      let m := firstn (Z.to_nat (LOG_SIZE W)) m in
      let! buf := blit (ld_buf log) 0 m in
      Ret (set_text log (ld_plen log) (zlen m) buf, q)
  end.

Definition READ_MAX : nat := 1000. (* 237 *)
(* 237-254: the datagrams of device [d], at most 1000 a round *)
Fixpoint udp_loop (n : nat) (W : wcfg) (i : io) (k d : Z) (u : ldata) (q : list text) (ch : channel) (evs : list event)
  : outcome (ldata * list text * channel * list event) :=
  match n with
  | O => Ret (u, q, ch, evs)
  | S n =>
      let! u := init_log i u k PRIORITY_INFO 0 0 in
      let! (u, q) := udp_read W u q in
      let! u := if ld_len u =? LOG_SIZE W
                then let! b := wr (ld_buf u) (ld_len u - 2) 10 in
                     let! b := wr b (ld_len u - 1) 0 in
                     Ret (set_text u (ld_plen u) (ld_len u) b)
                else Ret u in
      if ld_len u =? 0 then Ret (u, q, ch, evs)
      else
        let! (ch, e) := out_device i evs k ch d u in
        udp_loop n W i k d u q ch (evs ++ e)
  end.

(* 203-255: the input devices, from device [d] on *)
Fixpoint udp_devices (devs : list device) (d : Z) (W : wcfg) (i : io) (k : Z) (u : ldata) (qs : Z -> list text)
    (ch : channel) (evs : list event) : outcome (ldata * (Z -> list text) * channel * list event) :=
  match devs with
  | [] => Ret (u, qs, ch, evs)
  | dev :: devs =>
      if (d_in dev =? DEVICE_IN_UDP) && negb (fld (d_cfg dev) DEVICE_CFG_ABLE =? 0) && io_sock i evs k d then
        let! (u, q, ch, evs) := udp_loop READ_MAX W i k d u (qs d) ch evs in
        udp_devices devs (d + 1) W i k u (fun j => if j =? d then q else qs j) ch evs
      else udp_devices devs (d + 1) W i k u qs ch evs
  end.

(* one round of the loop 103-264 *)
Definition enter_proc (W : wcfg) (i : io) (w : world) (k : Z) : outcome world :=
  let! ch := rd (g_chs (w_lg w)) k in
  let! r := rd (w_rings w) k in
  let! (r, ch, evs) := proc_records (S (Z.to_nat (W_ring W))) W i k r ch (w_ev w) in
  let ch := if c_state ch =? CHANNEL_STATE_NULL then set_state ch CHANNEL_STATE_RUNNING else ch in
  let! (u, qs, ch, evs) :=
    udp_devices (firstn (Z.to_nat (c_size ch)) (c_devs ch)) 0 W i k (rg_udp r) (w_in w k) ch evs in
  let! w := put_ch w k ch in
  let! w := put_ring w k (mkRing (rg_write r) (rg_hold r) (rg_read r) (rg_proc r) (rg_cells r) u) in
  Ret (mkWorld (w_lg w) (w_rings w) (fun a => if a =? k then qs else w_in w a) evs).

(* ---- HoldChannel, fn_channel.h:430-475 ---- *)
Definition hold (W : wcfg) (w : world) (k priority category identify : Z) : outcome (world * Z) :=
  let! b := block_input (w_lg w) k priority category identify in
  if b then Ret (w, -1)
  else
    let! ch := rd (g_chs (w_lg w)) k in
    let! r := rd (w_rings w) k in
    let old := rg_hold r in
    if nxt W old =? rg_read r then Fuel
    else
      let! ch := inc_ch ch CHANNEL_LOG_HOLD 1 in
      let! c := rd (rg_cells r) old in
      let! cells := wr (rg_cells r) old (mkCell MARK_HOLD (ce_log c)) in
      let! w := put_ch w k ch in
      let! w := put_ring w k (mkRing (rg_write r) (nxt W old) (rg_read r) (rg_proc r) cells (rg_udp r)) in
      Ret (w, old).

(* the record in slot [idx] of channel [k] *)
Definition get_log (w : world) (k idx : Z) : outcome ldata :=
  let! r := rd (w_rings w) k in
  let! c := rd (rg_cells r) idx in
  Ret (ce_log c).
Definition put_cell (w : world) (k idx : Z) (f : cell -> cell) : outcome world :=
  let! r := rd (w_rings w) k in
  let! c := rd (rg_cells r) idx in
  let! cells := wr (rg_cells r) idx (f c) in
  put_ring w k (mkRing (rg_write r) (rg_hold r) (rg_read r) (rg_proc r) cells (rg_udp r)).
Definition put_log (w : world) (k idx : Z) (l : ldata) : outcome world :=
  put_cell w k idx (fun c => mkCell (ce_mark c) l).

(* ---- PushChannel, fn_channel.h:477-525 ---- *)
Definition E_LOGGER_NOT_RUNNING : Z := 3.
Definition E_INVALID_CHANNEL_SIZE : Z := 5.
Definition E_OUT_RINGBUFFER : Z := 20.

(* 502-518: write_idx_ follows hold_idx_ over the slots that are ready *)
Fixpoint write_up (fuel : nat) (W : wcfg) (r : ring) (ch : channel) : outcome (ring * channel) :=
  match fuel with
  | O => Fuel
  | S fuel =>
      if rg_write r =? rg_hold r then Ret (r, ch)
      else
        let! c := rd (rg_cells r) (rg_write r) in
        if ce_mark c =? MARK_READY then
          let! ch := inc_ch ch CHANNEL_LOG_PUSH 1 in
          write_up fuel W (mkRing (nxt W (rg_write r)) (rg_hold r) (rg_read r) (rg_proc r) (rg_cells r) (rg_udp r)) ch
        else Ret (r, ch)
  end.

Definition push (W : wcfg) (i : io) (w : world) (k idx : Z) : outcome (world * Z) :=
  if (g_size (w_lg w) <=? k) || (k <? 0) then Ret (w, E_INVALID_CHANNEL_SIZE)
  else if (W_ring W <=? idx) || (idx <? 0) then Ret (w, E_OUT_RINGBUFFER)
  else
    let! ch := rd (g_chs (w_lg w)) k in
    if negb (c_state ch =? CHANNEL_STATE_RUNNING) then Ret (w, E_LOGGER_NOT_RUNNING)
    else
      let! log := get_log w k idx in
      let! st := push_text (W_env W) (mkStrm (ld_buf log) (ld_len log) cache_init) in
      let log := set_text log (ld_plen log) (s_len st) (s_buf st) in
      let! w := put_cell w k idx (fun _ => mkCell MARK_READY log) in
      let! ch := inc_ch ch (CHANNEL_LOG_PRIORITY + ld_prio log) (ld_len log) in
      let! r := rd (w_rings w) k in
      let! (r, ch) := write_up (S (Z.to_nat (W_ring W))) W r ch in
      let! w := put_ch w k ch in
      let! w := put_ring w k r in
      if (c_type ch =? CHANNEL_SYNC) && (c_state ch =? CHANNEL_STATE_RUNNING)
      then let! w := enter_proc W i w k in Ret (w, 0)
      else Ret (w, 0).

(* ---- TransmitChannel, fn_channel.h:528-560 ---- *)
Definition transmit (W : wcfg) (i : io) (w : world) (k category identify : Z) (log : ldata) : outcome (world * Z) :=
  if ld_chan log =? k then Ret (w, 0)
  else
    let! (w, idx) := hold W w k (ld_prio log) category identify in
    if idx <? 0 then Ret (w, 0)
    else
      let! old := get_log w k idx in
      let! t := content log in
      let! buf := blit (ld_buf old) 0 t in
      let! w := put_log w k idx
        (mkLd k (ld_prio log) category identify (ld_line log) (ld_func_len log) (ld_file_len log)
              (ld_func log) (ld_file log) (ld_ts log) (ld_prec log) (ld_thread log)
              (ld_plen log) (ld_len log) buf) in
      push W i w k idx.

(* ---- LogStream, fn_stream.h:86-194 ---- *)
(* the arguments of a log statement and the thread's date cache *)
Record stmt := mkStmt {
  t_chan : Z; t_prio : Z; t_cat : Z; t_ident : Z;
  t_file : option text; t_file_len : Z; t_line : Z; t_func : option text; t_func_len : Z;
  t_prefix : Z; t_vals : list sval; t_cache : cache
}.

Definition head_of (W : wcfg) (i : io) (s : stmt) : head :=
  mkHead (t_prefix s) (io_ts i) (io_prec i) (t_prio s) (io_thread i)
         (W_name W) (W_name_len W) (W_desc W) (W_desc_len W)
         (t_file s) (t_file_len s) (t_line s) (t_func s) (t_func_len s).

(* 100-174 and the << operators *)
Definition fill (W : wcfg) (i : io) (s : stmt) (old : ldata) : outcome ldata :=
  let! st := init_text (ld_buf old) (t_cache s) in
  let! (st, plen) := write_prefix (W_env W) (head_of W i s) st in
  let! st := stream_all (W_env W) st (t_vals s) in
  Ret (mkLd (t_chan s) (t_prio s) (t_cat s) (ll_of (t_ident s))
            (t_line s) (t_func_len s) (t_file_len s) (t_func s) (t_file s)
            (io_ts i) (io_prec i) (io_thread i) plen (s_len st) (s_buf st)).

(* the hook's TransmitChannel calls *)
Fixpoint transmits (W : wcfg) (i : io) (w : world) (log : ldata) (l : list (Z * Z * Z)) : outcome world :=
  match l with
  | [] => Ret w
  | (k, c, n) :: l => let! (w, _) := transmit W i w k c n log in transmits W i w log l
  end.

(* fn_stream.h:180-190 and fn_out_virtual_device.h:32-71 *)
Definition run_hook (W : wcfg) (i : io) (w : world) (k idx : Z) : outcome world :=
  match W_hook W with
  | None => Ret w
  | Some hook =>
      let! ch := rd (g_chs (w_lg w)) k in
      let! log := get_log w k idx in
      let! v := stream_hook true ch (filter_rec log) in
      match v with
      | None => Ret w
      | Some d =>
          let! buf := wr (ld_buf log) (Z.min (ld_len log) (LOG_SIZE W - 1)) 0 in
          let log := set_text log (ld_plen log) (ld_len log) buf in
          let! w := put_log w k idx log in
          let! ch := count_written ch d log in
          let! w := put_ch w k ch in
          transmits W i (put_ev w (w_ev w ++ [EHook log])) log (hook log)
      end
  end.

(* a whole log statement; the result of HoldChannel or PushChannel *)
Definition log_stmt (W : wcfg) (i : io) (w : world) (s : stmt) : outcome (world * Z) :=
  let! (w, idx) := hold W w (t_chan s) (t_prio s) (t_cat s) (t_ident s) in
  if idx <? 0 then Ret (w, idx)
  else
    let! old := get_log w (t_chan s) idx in
    let! log := fill W i s old in
    let! w := put_log w (t_chan s) idx log in
    let! w := run_hook W i w (t_chan s) idx in
    push W i w (t_chan s) idx.

(* ---- what may happen ---- *)
Inductive action :=
| ALog (s : stmt) (i : io)            (* a thread logs *)
| AProc (k : Z) (i : io)              (* the writer thread of an async channel makes a round *)
| AArrive (k d : Z) (m : text).       (* a datagram arrives at an input device *)

Definition act (W : wcfg) (w : world) (a : action) : outcome world :=
  match a with
  | ALog s i => let! (w, _) := log_stmt W i w s in Ret w
  | AProc k i => enter_proc W i w k
  | AArrive k d m =>
      Ret (mkWorld (w_lg w) (w_rings w)
                   (fun a b => if (a =? k) && (b =? d) then w_in w a b ++ [m] else w_in w a b) (w_ev w))
  end.
Fixpoint acts (W : wcfg) (w : world) (l : list action) : outcome world :=
  match l with
  | [] => Ret w
  | a :: l => let! w := act W w a in acts W w l
  end.
