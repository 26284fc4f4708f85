(* The queue of one channel when memory is not sequentially consistent: every load
   may return an old value, as the C++ memory model allows for acquire loads.

   Memory is the set of all stores made, each with its place in the modification
   order of its variable (a timestamp) and with what the storing thread had seen
   (its view).  A thread sees, for every variable, no store older than its view; an
   acquire load adds the view of the store it reads.  A read-modify-write reads the
   store directly before its own.  The order between seq_cst operations is not used,
   so there are more executions here than in C++; the lost record of
   C116_publish_refuted needs none of them: there, every load that returns an old
   value is an acquire load, which seq_cst does not constrain.

   The channel is running all the time; statistics, sleeps, flushes, filters, and the
   loads of channel_state_ are left out; a record is written and read in one step. *)
From Coq Require Import String ZArith List Bool.
From Verif Require Import Base LoggerState Ring.
Import ListNotations.
Open Scope Z_scope.

(* fn_data.h:287-293: the four indices; data_mark_ and the rest of a LogData,
   fn_data.h:125-146 *)
Inductive loc := LHold | LWrite | LProc | LRead | LMark (i : Z) | LRec (i : Z).
Definition loc_eqb (a b : loc) : bool :=
  match a, b with
  | LHold, LHold | LWrite, LWrite | LProc, LProc | LRead, LRead => true
  | LMark i, LMark j | LRec i, LRec j => i =? j
  | _, _ => false
  end.

Definition view := loc -> Z.
Definition vjoin (a b : view) : view := fun l => Z.max (a l) (b l).
Definition vset (a : view) (l : loc) (t : Z) : view := fun k => if loc_eqb k l then t else a k.

(* A store: [m_val] is the number stored, [m_txt] the text of a record. *)
Record msg := mkMsg { m_loc : loc; m_ts : Z; m_val : Z; m_txt : text; m_view : view }.
Definition at_ts (mem : list msg) (l : loc) (t : Z) : option msg :=
  find (fun m => loc_eqb (m_loc m) l && (m_ts m =? t)) mem.

(* load(memory_order_acquire) of the store at [t] *)
Definition w_load (mem : list msg) (v : view) (l : loc) (t : Z) : option (msg * view) :=
  match at_ts mem l t with
  | Some m => if v l <=? t then Some (m, vjoin v (m_view m)) else None
  | None => None
  end.
(* store(memory_order_release), or the stronger assignment, at a free place [t] later
   than all the thread has seen; also the plain stores to a record *)
Definition w_store (mem : list msg) (v : view) (l : loc) (t n : Z) (x : text) : option (list msg * view) :=
  match at_ts mem l t with
  | Some _ => None
  | None => if v l <? t then Some (mkMsg l t n x (vset v l t) :: mem, vset v l t) else None
  end.
(* compare_exchange_strong: a success reads [t] and stores at [t + 1]; a failure is a
   load of another value *)
Definition w_cas (mem : list msg) (v : view) (l : loc) (t old new : Z) : option (bool * list msg * view) :=
  match w_load mem v l t with
  | Some (m, v') =>
      if m_val m =? old
      then match w_store mem v' l (t + 1) new [] with Some (mem', v2) => Some (true, mem', v2) | None => None end
      else Some (false, mem, v')
  | None => None
  end.
(* a plain load of a record: nothing but the place read is added to the view *)
Definition w_plain (mem : list msg) (v : view) (l : loc) (t : Z) : option (msg * view) :=
  match at_ts mem l t with
  | Some m => if v l <=? t then Some (m, vset v l t) else None
  | None => None
  end.

(* The next access of a thread; arguments as in Ring.v. *)
Inductive wpc :=
| WIdle
| WHLoad               (* fn_channel.h:455 *)
| WHRead (old : Z)     (* 457 *)
| WHCas (old : Z)      (* 461 *)
| WHMark (i : Z)       (* 464 *)
| WFill (i : Z)        (* the statement's stores, and 495-497 *)
| WPMark (i : Z)       (* 499 *)
| WPLoad               (* 504 *)
| WPHold (old : Z)     (* 506 *)
| WPReady (old : Z)    (* 510 *)
| WPCas (old : Z)      (* 514 *)
| WCLoad               (* 109 *)
| WCWrite (old : Z)    (* 111 *)
| WCCas (old : Z)      (* 118 *)
| WCRead (i : Z)       (* 124 *)
| WCMark (i : Z)       (* 125 *)
| WRLoad               (* 158 *)
| WRProc (old : Z)     (* 160 *)
| WRMark (old : Z)     (* 164 *)
| WRCas (old : Z).     (* 168 *)

(* [w_snap]: ghost; the timestamp at which the index was loaded, or the position
   reserved or claimed. *)
Record wthr := mkW { w_pc : wpc; w_msg : text; w_snap : Z; w_view : view }.
(* ghosts: the records in the order of their reservation, the records dispatched with
   the position claimed, the statements started *)
Record wst := mkWst {
  w_mem : list msg; w_ths : list wthr;
  w_held : list (nat * text); w_out : list (Z * text); w_started : list (nat * text)
}.

Definition w_go (t : wthr) (p : wpc) (v : view) : wthr := mkW p (w_msg t) (w_snap t) v.
Definition w_go_at (t : wthr) (p : wpc) (a : Z) (v : view) : wthr := mkW p (w_msg t) a v.

(* What one step of a thread gives: memory, thread, and the records reserved and
   dispatched by it. *)
Definition wres := (list msg * wthr * list text * list (Z * text))%type.

(* [rt], [wt]: the place the load reads, the place the store takes. *)
Definition wstep (c : rcfg) (mem : list msg) (t : wthr) (rt wt : Z) : option wres :=
  let v := w_view t in
  let load l (k : Z -> wpc) :=
    match w_load mem v l rt with Some (m, v') => Some (mem, w_go t (k (m_val m)) v', [], []) | None => None end in
  let load_at l (k : Z -> wpc) :=
    match w_load mem v l rt with Some (m, v') => Some (mem, w_go_at t (k (m_val m)) rt v', [], []) | None => None end in
  let store l n x (k : wpc) :=
    match w_store mem v l wt n x with Some (mem', v') => Some (mem', w_go t k v', [], []) | None => None end in
  let cas l old (yes : wpc) (no : wpc) (held : list text) :=
    match w_cas mem v l rt old (nxt c old) with
    | Some (true, mem', v') => Some (mem', w_go_at t yes rt v', held, [])
    | Some (false, mem', v') => Some (mem', w_go t no v', [], [])
    | None => None
    end in
  let pushed := if is_sync c then WCLoad else WIdle in
  let drained := if is_sync c then WIdle else WCLoad in
  match w_pc t with
  | WIdle => None
  (* HoldChannel fn_channel.h:449-467 *)
  | WHLoad => load_at LHold WHRead
  | WHRead old => load LRead (fun r => if nxt c old =? r then WHLoad else WHCas old)
  | WHCas old => cas LHold old (WHMark old) WHLoad [w_msg t]
  | WHMark i => store (LMark i) MARK_HOLD [] (WFill i)
  | WFill i => store (LRec i) 0 (w_msg t) (WPMark i)
  (* PushChannel fn_channel.h:499-523 *)
  | WPMark i => store (LMark i) MARK_READY [] WPLoad
  | WPLoad => load_at LWrite WPHold
  | WPHold old => load LHold (fun h => if old =? h then pushed else WPReady old)
  | WPReady old => load (LMark old) (fun k => if k =? MARK_READY then WPCas old else pushed)
  | WPCas old => cas LWrite old WPLoad WPLoad []
  (* EnterProcChannel fn_channel.h:107-184; an async channel comes back to 109 *)
  | WCLoad => load_at LProc WCWrite
  | WCWrite old => load LWrite (fun w => if old =? w then drained else WCCas old)
  | WCCas old => cas LProc old (WCRead old) drained []
  | WCRead i =>
      match w_plain mem v (LRec i) rt with
      | Some (m, v') => Some (mem, w_go t (WCMark i) v', [], [(w_snap t, m_txt m)])
      | None => None
      end
  | WCMark i => store (LMark i) MARK_INVALID [] WRLoad
  | WRLoad => load_at LRead WRProc
  | WRProc old => load LProc (fun p => if old =? p then WCLoad else WRMark old)
  | WRMark old => load (LMark old) (fun k => if k =? MARK_INVALID then WRCas old else WCLoad)
  | WRCas old => cas LRead old WRLoad WRLoad []
  end.

Inductive wlabel :=
| XLog (tid : nat) (x : text)
| XRun (tid : nat) (rt wt : Z).

Definition weak_step (c : rcfg) (s : wst) (a : wlabel) : option wst :=
  match a with
  | XLog n x =>
      match nth_error (w_ths s) n with
      | Some t =>
          match w_pc t with
          | WIdle => Some (mkWst (w_mem s) (upd (w_ths s) n (mkW WHLoad x (w_snap t) (w_view t)))
                                 (w_held s) (w_out s) (w_started s ++ [(n, x)]))
          | _ => None
          end
      | None => None
      end
  | XRun n rt wt =>
      match nth_error (w_ths s) n with
      | Some t =>
          match wstep c (w_mem s) t rt wt with
          | Some (mem, t', held, out) =>
              Some (mkWst mem (upd (w_ths s) n t') (w_held s ++ map (pair n) held) (w_out s ++ out) (w_started s))
          | None => None
          end
      | None => None
      end
  end.
Fixpoint weak_run (c : rcfg) (s : wst) (ls : list wlabel) : option wst :=
  match ls with
  | [] => Some s
  | a :: ls' => match weak_step c s a with Some s' => weak_run c s' ls' | None => None end
  end.

(* A new ring: every variable is zero (fn_load.h:22-36) and every thread has seen
   that.  On an async channel thread 0 is the writer thread. *)
Definition bottom : view := fun _ => 0.
Definition slots_of (n : Z) : list Z := map Z.of_nat (seq 0 (Z.to_nat n)).
Definition zero_at (l : loc) : msg := mkMsg l 0 0 [] bottom.
Definition weak_mem (c : rcfg) : list msg :=
  map zero_at ([LHold; LWrite; LProc; LRead] ++ map LMark (slots_of (n_ring c)) ++ map LRec (slots_of (n_ring c))).
Definition weak_start (c : rcfg) (k : nat) : wst :=
  mkWst (weak_mem c)
        ((if is_sync c then [] else [mkW WCLoad [] 0 bottom]) ++ repeat (mkW WIdle [] 0 bottom) k) [] [] [].
