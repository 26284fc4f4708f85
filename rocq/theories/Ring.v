(* The lock-free queue of one channel and the threads that use it.

   Every atomic load, store, compare-exchange or fetch_add of HoldChannel,
   PushChannel and EnterProcChannel (fn_channel.h) is one step of one thread;
   a schedule is a list of labels saying which thread moves next.  Memory is
   sequentially consistent; the acquire, release and relaxed annotations are in
   Mem.v.  Sleeps, flushes, UDP input and hot update are left out, as is the
   filtering of HoldChannel 432-435 (Filter.v); DispatchLog is reduced to
   reading the record byte by byte.  Fields whose name starts with g, and
   [t_snap], are ghosts: no step of the program depends on them. *)
From Coq Require Import ZArith List Bool Lia.
From Verif Require Import Base LoggerState.
Import ListNotations.
Open Scope Z_scope.

(* fn_data.h:118-123 *)
Definition MARK_INVALID : Z := 0.
Definition MARK_HOLD : Z := 1.
Definition MARK_READY : Z := 2.

(* RingBuffer::BUFFER_LEN fn_data.h:283, LogData::LOG_SIZE fn_data.h:128 and the
   channel type fn_data.h:266-270 *)
Record rcfg := mkCfg { n_ring : Z; log_size : Z; is_sync : bool }.

(* One LogData of the ring, fn_data.h:125-146: data_mark_ and the first
   content_len_ bytes of content_; the other fields are left out. *)
Record slot := mkSlot { s_mark : Z; s_text : text }.

(* Where a thread stands: the next atomic action it performs.
   Index arguments are the C++ locals old_idx / hold_idx. *)
Inductive pc :=
| Idle
(* HoldChannel *)
| HState                                   (* 451 load channel_state_ *)
| HLoad                                    (* 455 load hold_idx_ *)
| HRead (old : Z)                          (* 457 load read_idx_, full test *)
| HCas (old : Z)                           (* 461 CAS hold_idx_ *)
| HCount (i : Z)                           (* 463 CHANNEL_LOG_HOLD += 1 *)
| HMark (i : Z)                            (* 464 data_mark_ := MARK_HOLD *)
| HOut                                     (* 469 load channel_state_ *)
(* the log statement fills the slot *)
| FInit (i : Z)                            (* InitLogData 274-324: content_len_ := 0 *)
| Fill (i : Z) (rest : text)               (* one byte appended per step *)
(* PushChannel *)
| PState (i : Z)                           (* 489 load channel_state_ *)
| PTerm (i : Z)                            (* 495-497 cut and append '\n' *)
| PMark (i : Z)                            (* 499 data_mark_ := 2 *)
| PPrio (i : Z)                            (* 500 CHANNEL_LOG_PRIORITY += content_len_ *)
| PLoad                                    (* 504 load write_idx_ *)
| PHold (old : Z)                          (* 506 load hold_idx_ *)
| PReady (old : Z)                         (* 510 load data_mark_ *)
| PCas (old : Z)                           (* 514 CAS write_idx_ *)
| PCount                                   (* 516 CHANNEL_LOG_PUSH += 1 *)
| PWhile                                   (* 518 load channel_state_ *)
| PSync                                    (* 520 sync channel and still running *)
(* EnterProcChannel *)
| CLoad                                    (* 109 load proc_idx_ *)
| CWrite (old : Z)                         (* 111 load write_idx_, empty test *)
| CCas (old : Z)                           (* 118 CAS proc_idx_ *)
| CRead (i : Z) (k : Z) (acc : text)       (* 124 DispatchLog reads byte k *)
| CMark (i : Z)                            (* 125 data_mark_ := 0 *)
| CCount (i : Z)                           (* 126 CHANNEL_LOG_PROCESSED += 1 *)
| CBytes (i : Z)                           (* 127 CHANNEL_LOG_PROCESSED_BYTES *)
| RLoad                                    (* 158 load read_idx_ *)
| RProc (old : Z)                          (* 160 load proc_idx_ *)
| RMark (old : Z)                          (* 164 load data_mark_ *)
| RCas (old : Z)                           (* 168 CAS read_idx_ *)
| CNull                                    (* 187-190 NULL becomes RUNNING *)
| CLoop                                    (* 263-264 async and running *)
| CRest                                    (* 264 async: write_idx_ != read_idx_ *)
| CFin                                     (* 266-269 channel_state_ := FINISH *)
| Done.                                    (* the async thread has ended *)

(* [t_msg]: the text the current log statement writes before PushChannel.
   [t_snap]: ghost; the number of advances the index had made when the thread
   last loaded it, or the queue position the thread has reserved or claimed. *)
Record thr := mkThr { t_pc : pc; t_msg : text; t_snap : Z }.

(* Ghost history: how often each index advanced, the records in the order in
   which their slots were reserved, the records dispatched (with the position
   claimed), the log statements started. *)
Record ghost := mkGhost {
  gH : Z; gW : Z; gP : Z; gR : Z;
  g_held : list (nat * text);
  g_out : list (Z * text);
  g_started : list (nat * text)
}.

(* RingBuffer fn_data.h:280-298, channel_state_, the channel counters
   fn_data.h:309, and how far StopLogger/StartLogger have come. *)
Record shared := mkShared {
  x_hold : Z; x_write : Z; x_proc : Z; x_read : Z;
  x_slots : list slot;
  x_state : Z;
  x_ctl : Z;
  n_hold : Z; n_push : Z; n_proc : Z; n_bytes : Z; n_prio : Z
}.

Record st := mkSt { sh : shared; gh : ghost; ths : list thr }.

Definition upd {A : Type} (l : list A) (n : nat) (x : A) : list A :=
  firstn n l ++ match skipn n l with [] => [] | _ :: r => x :: r end.

Definition dslot := mkSlot 0 [].
Definition get (s : shared) (i : Z) : slot := nth (Z.to_nat i) (x_slots s) dslot.

(* Setters. *)
Definition put (s : shared) (i : Z) (v : slot) : shared :=
  mkShared (x_hold s) (x_write s) (x_proc s) (x_read s)
           (upd (x_slots s) (Z.to_nat i) v) (x_state s) (x_ctl s)
           (n_hold s) (n_push s) (n_proc s) (n_bytes s) (n_prio s).
Definition put_idx (s : shared) (h w p r : Z) : shared :=
  mkShared h w p r (x_slots s) (x_state s) (x_ctl s)
           (n_hold s) (n_push s) (n_proc s) (n_bytes s) (n_prio s).
Definition put_state (s : shared) (v : Z) : shared :=
  mkShared (x_hold s) (x_write s) (x_proc s) (x_read s) (x_slots s) v (x_ctl s)
           (n_hold s) (n_push s) (n_proc s) (n_bytes s) (n_prio s).
Definition put_ctl (s : shared) (v : Z) : shared :=
  mkShared (x_hold s) (x_write s) (x_proc s) (x_read s) (x_slots s) (x_state s) v
           (n_hold s) (n_push s) (n_proc s) (n_bytes s) (n_prio s).
Definition put_n (s : shared) (h p q b r : Z) : shared :=
  mkShared (x_hold s) (x_write s) (x_proc s) (x_read s) (x_slots s) (x_state s) (x_ctl s)
           h p q b r.
Definition put_g (g : ghost) (h w p r : Z) : ghost :=
  mkGhost h w p r (g_held g) (g_out g) (g_started g).
Definition add_held (g : ghost) (e : nat * text) : ghost :=
  mkGhost (gH g) (gW g) (gP g) (gR g) (g_held g ++ [e]) (g_out g) (g_started g).
Definition add_out (g : ghost) (e : Z * text) : ghost :=
  mkGhost (gH g) (gW g) (gP g) (gR g) (g_held g) (g_out g ++ [e]) (g_started g).
Definition add_started (g : ghost) (e : nat * text) : ghost :=
  mkGhost (gH g) (gW g) (gP g) (gR g) (g_held g) (g_out g) (g_started g ++ [e]).

Definition go (t : thr) (p : pc) : thr := mkThr p (t_msg t) (t_snap t).
Definition go_at (t : thr) (p : pc) (a : Z) : thr := mkThr p (t_msg t) a.

Definition running (s : shared) : bool := x_state s =? CHANNEL_STATE_RUNNING.
Definition nxt (c : rcfg) (i : Z) : Z := (i + 1) mod n_ring c.

(* One atomic step of thread [tid]; None when it has nothing to do. *)
Definition tstep (c : rcfg) (tid : nat) (s : shared) (g : ghost) (t : thr)
  : option (shared * ghost * thr) :=
  match t_pc t with
  | Idle => None
  (* HoldChannel, fn_channel.h:430-475.  The for loop of 449 restarts after
     BUFFER_LEN rounds with a sleep; the sleep and WAIT_COUNT are left out. *)
  | HState => Some (s, g, go t (if running s then HLoad else HOut))
  | HLoad => Some (s, g, go_at t (HRead (x_hold s)) (gH g))
  | HRead old =>
      Some (s, g, go t (if nxt c old =? x_read s then HOut else HCas old))
  | HCas old =>
      if x_hold s =? old
      then Some (put_idx s (nxt c old) (x_write s) (x_proc s) (x_read s),
                 add_held (put_g g (gH g + 1) (gW g) (gP g) (gR g)) (tid, t_msg t),
                 go_at t (HCount old) (gH g))
      else Some (s, g, go t HState)
  | HCount i =>
      Some (put_n s (n_hold s + 1) (n_push s) (n_proc s) (n_bytes s) (n_prio s), g,
            go t (HMark i))
  | HMark i => Some (put s i (mkSlot MARK_HOLD (s_text (get s i))), g, go t (FInit i))
  | HOut => Some (s, g, go t (if running s then HState else Idle))
  (* InitLogData and the << operators *)
  | FInit i => Some (put s i (mkSlot (s_mark (get s i)) []), g, go t (Fill i (t_msg t)))
  | Fill i [] => Some (s, g, go t (PState i))
  | Fill i (b :: rest) =>
      Some (put s i (mkSlot (s_mark (get s i)) (s_text (get s i) ++ [b])), g,
            go t (Fill i rest))
  (* PushChannel, fn_channel.h:477-525; the argument checks of 479-486 always
     pass for an index returned by HoldChannel *)
  | PState i => Some (s, g, go t (if running s then PTerm i else Idle))
  | PTerm i =>
      Some (put s i (mkSlot (s_mark (get s i))
                            (firstn (Z.to_nat (log_size c - 2)) (s_text (get s i)) ++ [10])),
            g, go t (PMark i))
  | PMark i => Some (put s i (mkSlot MARK_READY (s_text (get s i))), g, go t (PPrio i))
  | PPrio i =>
      Some (put_n s (n_hold s) (n_push s) (n_proc s) (n_bytes s)
                  (n_prio s + zlen (s_text (get s i))), g, go t PLoad)
  | PLoad => Some (s, g, go_at t (PHold (x_write s)) (gW g))
  | PHold old => Some (s, g, go t (if old =? x_hold s then PSync else PReady old))
  | PReady old =>
      Some (s, g, go t (if s_mark (get s old) =? MARK_READY then PCas old else PSync))
  | PCas old =>
      if x_write s =? old
      then Some (put_idx s (x_hold s) (nxt c old) (x_proc s) (x_read s),
                 put_g g (gH g) (gW g + 1) (gP g) (gR g), go t PCount)
      else Some (s, g, go t PWhile)
  | PCount =>
      Some (put_n s (n_hold s) (n_push s + 1) (n_proc s) (n_bytes s) (n_prio s), g,
            go t PWhile)
  | PWhile => Some (s, g, go t (if running s then PLoad else PSync))
  | PSync => Some (s, g, go t (if is_sync c && running s then CLoad else Idle))
  (* EnterProcChannel, fn_channel.h:99-270; the statistics of 130-154 and the
     flush of 172-183 are left out *)
  | CLoad => Some (s, g, go_at t (CWrite (x_proc s)) (gP g))
  | CWrite old => Some (s, g, go t (if old =? x_write s then CNull else CCas old))
  | CCas old =>
      if x_proc s =? old
      then Some (put_idx s (x_hold s) (x_write s) (nxt c old) (x_read s),
                 put_g g (gH g) (gW g) (gP g + 1) (gR g),
                 go_at t (CRead old 0 []) (gP g))
      else Some (s, g, go t CNull)
  | CRead i k acc =>
      if k <? zlen (s_text (get s i))
      then Some (s, g, go t (CRead i (k + 1)
                                   (acc ++ [nth (Z.to_nat k) (s_text (get s i)) 0])))
      else Some (s, add_out g (t_snap t, acc), go t (CMark i))
  | CMark i => Some (put s i (mkSlot MARK_INVALID (s_text (get s i))), g, go t (CCount i))
  | CCount i =>
      Some (put_n s (n_hold s) (n_push s) (n_proc s + 1) (n_bytes s) (n_prio s), g,
            go t (CBytes i))
  | CBytes i =>
      Some (put_n s (n_hold s) (n_push s) (n_proc s)
                  (n_bytes s + zlen (s_text (get s i))) (n_prio s), g, go t RLoad)
  | RLoad => Some (s, g, go_at t (RProc (x_read s)) (gR g))
  | RProc old => Some (s, g, go t (if old =? x_proc s then CLoad else RMark old))
  | RMark old =>
      Some (s, g, go t (if s_mark (get s old) =? MARK_INVALID then RCas old else CLoad))
  | RCas old =>
      if x_read s =? old
      then Some (put_idx s (x_hold s) (x_write s) (x_proc s) (nxt c old),
                 put_g g (gH g) (gW g) (gP g) (gR g + 1), go t RLoad)
      else Some (s, g, go t RLoad)
  | CNull =>
      Some (if x_state s =? CHANNEL_STATE_NULL then put_state s CHANNEL_STATE_RUNNING else s,
            g, go t CLoop)
  | CLoop =>
      Some (s, g, go t (if is_sync c then Idle else if running s then CLoad else CRest))
  (* both loads in one step: on an async channel only this thread moves read_idx_ *)
  | CRest => Some (s, g, go t (if x_write s =? x_read s then CFin else CLoad))
  | CFin => Some (put_state s CHANNEL_STATE_FINISH, g, go t Done)
  | Done => None
  end.

(* What can happen next: a thread starts a log statement with the given text, a
   thread takes one step, or the thread that controls the logger acts. *)
Inductive label :=
| LLog (tid : nat) (msg : text)
| LRun (tid : nat)
| LStop       (* fn_core.h:85-96 *)
| LJoin       (* fn_core.h:97-99: the async thread has been joined *)
| LClean      (* CleanChannels fn_core.h:150-167, as one step *)
| LStart.     (* StartChannels fn_core.h:36-41 *)

(* CleanChannels fn_core.h:156-160: zero the marks from read_idx_ to write_idx_ *)
Fixpoint wipe (fuel : nat) (c : rcfg) (s : shared) (r : Z) : shared :=
  match fuel with
  | O => s
  | S fuel' =>
      if r =? x_write s then s
      else wipe fuel' c (put s r (mkSlot MARK_INVALID (s_text (get s r)))) (nxt c r)
  end.

Definition clean (c : rcfg) (s : shared) : shared :=
  put_ctl (put_idx (wipe (Z.to_nat (n_ring c)) c s (x_read s)) 0 0 0 0) 3.

Definition step (c : rcfg) (s : st) (l : label) : option st :=
  match l with
  | LLog tid msg =>
      match nth_error (ths s) tid with
      | Some t =>
          match t_pc t with
          | Idle => Some (mkSt (sh s) (add_started (gh s) (tid, msg))
                               (upd (ths s) tid (mkThr HState msg (t_snap t))))
          | _ => None
          end
      | None => None
      end
  | LRun tid =>
      match nth_error (ths s) tid with
      | Some t =>
          match tstep c tid (sh s) (gh s) t with
          | Some (x, g, t') => Some (mkSt x g (upd (ths s) tid t'))
          | None => None
          end
      | None => None
      end
  | LStop =>
      if x_ctl (sh s) =? 0 then
        Some (mkSt (put_ctl (put_state (sh s)
                      (if is_sync c then CHANNEL_STATE_NULL
                       else if running (sh s) then CHANNEL_STATE_WAITING_FINISH
                       else x_state (sh s))) 1) (gh s) (ths s))
      else None
  | LJoin =>
      if x_ctl (sh s) =? 1 then
        if is_sync c then Some (mkSt (put_ctl (sh s) 2) (gh s) (ths s))
        else match nth_error (ths s) 0 with
             | Some t =>
                 match t_pc t with
                 | Done => Some (mkSt (put_ctl (put_state (sh s) CHANNEL_STATE_NULL) 2)
                                      (gh s) (ths s))
                 | _ => None
                 end
             | None => None
             end
      else None
  | LClean =>
      if x_ctl (sh s) =? 2 then Some (mkSt (clean c (sh s)) (gh s) (ths s)) else None
  | LStart =>
      if x_ctl (sh s) =? 3 then
        if is_sync c
        then Some (mkSt (put_ctl (put_state (sh s) CHANNEL_STATE_RUNNING) 0) (gh s) (ths s))
        else match nth_error (ths s) 0 with
             | Some t => Some (mkSt (put_ctl (sh s) 0) (gh s) (upd (ths s) 0 (go t CLoad)))
             | None => None
             end
      else None
  end.

Fixpoint run (c : rcfg) (s : st) (ls : list label) : option st :=
  match ls with
  | [] => Some s
  | l :: ls' => match step c s l with Some s' => run c s' ls' | None => None end
  end.

(* A channel as StartChannels (fn_core.h:30-74) leaves it, with [k] logging
   threads: indices 0, no slot marked (fn_core.h:162-165, or the zeroed memory
   of a new ring), state RUNNING (set by the writer thread itself on an async
   channel, for which 50-54 waits).  On an async channel thread 0 is the writer
   thread. *)
Definition start_shared (slots : list slot) : shared :=
  mkShared 0 0 0 0 slots CHANNEL_STATE_RUNNING 0 0 0 0 0 0.
Definition start (c : rcfg) (slots : list slot) (k : nat) : st :=
  mkSt (start_shared slots) (mkGhost 0 0 0 0 [] [] [])
       (if is_sync c then repeat (mkThr Idle [] 0) k
        else mkThr CLoad [] 0 :: repeat (mkThr Idle [] 0) k).
