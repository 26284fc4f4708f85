(* The memory accesses of the queue: for every step of Ring.v the places in
   memory it touches, the way it touches them and the line that does so. *)
From Coq Require Import ZArith List Bool Lia.
From Verif Require Import Base LoggerState Ring.
Import ListNotations.
Open Scope Z_scope.

(* RingBuffer fn_data.h:280-298: the four indices, and of each LogData
   (fn_data.h:125-146) data_mark_, content_len_ and the bytes of content_;
   channel_state_ (fn_data.h:319, a plain unsigned int) and the counters
   (fn_data.h:309).  The other fields of a LogData are written by InitLogData
   with content_len_ and are left out. *)
Inductive place :=
| PlHold | PlWrite | PlProc | PlRead
| PlMark (i : Z)
| PlState
| PlCount
| PlLen (i : Z)
| PlText (i : Z).

(* Acquire: load(std::memory_order_acquire), and a compare_exchange_strong that
   fails.  Release: store(std::memory_order_release), and the sequentially
   consistent stores "data_mark_ = 2", "data_mark_ = 0".  Change: a
   compare_exchange_strong that succeeds.  Relaxed: fetch_add with
   memory_order_relaxed (fn_data.h:462).  Get, Set: plain reads and writes. *)
Inductive way := Acquire | Release | Change | Relaxed | Get | Set_.

(* Which thread, at which line (of fn_channel.h unless said otherwise), touches
   which place.  [None] is the thread that stops the logger. *)
Record event := mkEvent { e_who : option nat; e_line : Z; e_place : place; e_way : way }.

Definition cas (ok : bool) : way := if ok then Change else Acquire.

(* The accesses of one step of a thread; the lines are those of the comments
   in Ring.pc *)
Definition touches (c : rcfg) (s : shared) (t : thr) : list (Z * place * way) :=
  match t_pc t with
  | Idle | Done => []
  | HState => [(451, PlState, Get)]
  | HLoad => [(455, PlHold, Acquire)]
  | HRead _ => [(457, PlRead, Acquire)]
  | HCas old => [(461, PlHold, cas (x_hold s =? old))]
  | HCount _ => [(463, PlCount, Relaxed)]
  | HMark i => [(464, PlMark i, Release)]
  | HOut => [(469, PlState, Get)]
  (* InitLogData 288-289 *)
  | FInit i => [(288, PlLen i, Set_); (289, PlText i, Set_)]
  | Fill _ [] => []
  (* fn_stream.h:207-208 *)
  | Fill i (_ :: _) => [(207, PlLen i, Get); (207, PlText i, Set_); (208, PlLen i, Set_)]
  | PState _ => [(489, PlState, Get)]
  | PTerm i => [(495, PlLen i, Get); (496, PlText i, Set_); (496, PlLen i, Set_); (497, PlText i, Set_)]
  | PMark i => [(499, PlMark i, Release)]
  | PPrio i => [(500, PlLen i, Get); (500, PlCount, Relaxed)]
  | PLoad => [(504, PlWrite, Acquire)]
  | PHold _ => [(506, PlHold, Acquire)]
  | PReady old => [(510, PlMark old, Acquire)]
  | PCas old => [(514, PlWrite, cas (x_write s =? old))]
  | PCount => [(516, PlCount, Relaxed)]
  | PWhile => [(518, PlState, Get)]
  | PSync => if is_sync c then [(520, PlState, Get)] else []
  | CLoad => [(109, PlProc, Acquire)]
  | CWrite _ => [(111, PlWrite, Acquire)]
  | CCas old => [(118, PlProc, cas (x_proc s =? old))]
  (* DispatchLog 124: the devices read length and bytes; a virtual device also
     writes a terminating zero (fn_out_virtual_device.h:64) *)
  | CRead i k _ =>
      if k <? zlen (s_text (get s i))
      then [(124, PlLen i, Get); (124, PlText i, Get)]
      else [(124, PlLen i, Get); (124, PlText i, Set_)]
  | CMark i => [(125, PlMark i, Release)]
  | CCount _ => [(126, PlCount, Relaxed)]
  | CBytes i => [(127, PlLen i, Get); (127, PlCount, Relaxed)]
  | RLoad => [(158, PlRead, Acquire)]
  | RProc _ => [(160, PlProc, Acquire)]
  | RMark old => [(164, PlMark old, Acquire)]
  | RCas old => [(168, PlRead, cas (x_read s =? old))]
  | CNull =>
      (187, PlState, Get) ::
      (if x_state s =? CHANNEL_STATE_NULL then [(189, PlState, Set_)] else [])
  | CLoop => if is_sync c then [] else [(264, PlState, Get)]
  | CRest => [(264, PlWrite, Acquire); (264, PlRead, Acquire)]
  | CFin => [(268, PlState, Set_)]
  end.

(* StopChannels fn_core.h:86, 92-94, 98.  That join orders what the joined
   thread did before what follows is left out, as are the accesses of
   CleanChannels and StartChannels. *)
Definition control (c : rcfg) (s : shared) (l : label) : list (Z * place * way) :=
  match l with
  | LStop =>
      if is_sync c then [(86, PlState, Set_)]
      else (92, PlState, Get) :: (if running s then [(94, PlState, Set_)] else [])
  | LJoin => if is_sync c then [] else [(98, PlState, Set_)]
  | _ => []
  end.

Definition by_ (w : option nat) (x : Z * place * way) : event :=
  let '(line, p, o) := x in mkEvent w line p o.

Definition events (c : rcfg) (s : st) (l : label) : list event :=
  match l with
  | LRun tid =>
      match nth_error (ths s) tid with
      | Some t => map (by_ (Some tid)) (touches c (sh s) t)
      | None => []
      end
  | _ => map (by_ None) (control c (sh s) l)
  end.

(* The accesses of a schedule in the order in which they happen. *)
Fixpoint trace (c : rcfg) (s : st) (ls : list label) : list event :=
  match ls with
  | [] => []
  | l :: ls' =>
      events c s l ++ match step c s l with Some s' => trace c s' ls' | None => [] end
  end.
