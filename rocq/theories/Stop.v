(* StopLogger and the writer threads it waits for: fn_core.h:76-107, 170-209,
   fn_channel.h:99-270, fn_load.h:277-383.
   One step is one access to the state that the threads share: the state lock,
   logger_state_, channel_state_ and the queue.  Memory is sequentially consistent.
   Nobody logs any more, so queues only shrink; a record is taken and written in one
   step (Ring.v has the queue's own steps).  UDP input, flushing and sleeping are
   left out, and of a hot update only what touches the shared state is kept: the
   rest is in Load.v.  One thread stops the logger; nobody starts it meanwhile. *)
From Coq Require Import ZArith List Bool Arith.
From Verif Require Import Base LoggerState Load.
Import ListNotations.
Open Scope Z_scope.

(* where a writer thread stands *)
Inductive wpc :=
| WDrain   (* the inner loop, fn_channel.h:107-190 *)
| WHot     (* HotUpdateLogger up to the test of the state, fn_load.h:279-314 *)
| WLock    (* about to take state_lock_, fn_load.h:326 *)
| WApply   (* holding it, fn_load.h:327-382 *)
| WTest    (* the outer loop's condition, fn_channel.h:263-264 *)
| WEnd.    (* the thread has ended *)
(* one channel: its kind, channel_state_, records left in the queue, how many times
   it will still find the file changed, and its thread *)
Record writer := mkWriter { w_async : bool; w_state : Z; w_left : nat; w_news : nat; w_pc : wpc }.

(* where StopLogger stands *)
Inductive spc :=
| SBegin            (* the unlocked test, fn_core.h:177 *)
| SLock             (* taking state_lock_, 182 *)
| SCheck            (* the test under the lock, 184-189 *)
| SChan (k : nat)   (* StopChannels at channel k, 78-94 *)
| SJoin (k : nat)   (* join of its thread, 96 *)
| SClean            (* 191-207 *)
| SDone (z : Z).    (* returned *)
Inductive owner := Free | Stopper | Writer (i : nat).
Record sys := mkSys { q_state : Z; q_lock : owner; q_stop : spc; q_ws : list writer }.

Inductive thread := TStop | TWrite (i : nat).

Definition set_w (s : sys) (i : nat) (w : writer) : sys := mkSys (q_state s) (q_lock s) (q_stop s) (put_nth (q_ws s) i w).
Definition at_pc (w : writer) (p : wpc) : writer := mkWriter (w_async w) (w_state w) (w_left w) (w_news w) p.
Definition in_state (w : writer) (z : Z) : writer := mkWriter (w_async w) z (w_left w) (w_news w) (w_pc w).

(* a step of the writer thread of channel [i]; [changed]: the file's modification
   time differs and the file parses *)
Definition write_step (i : nat) (changed : bool) (s : sys) : sys :=
  match nth_error (q_ws s) i with
  | None => s
  | Some w =>
      if negb (w_async w) then s
      else
      match w_pc w with
      | WDrain =>
          match w_left w with
          | S l => set_w s i (mkWriter (w_async w) (w_state w) l (w_news w) WDrain)
          | O =>
              let st := if w_state w =? CHANNEL_STATE_NULL then CHANNEL_STATE_RUNNING else w_state w in
              set_w s i (mkWriter (w_async w) st O (w_news w) WHot)
          end
      | WHot =>
          match w_news w with
          | S n =>
              if changed && (q_state s =? LOGGER_STATE_RUNNING)
              then set_w s i (mkWriter (w_async w) (w_state w) (w_left w) n WLock)
              else set_w s i (at_pc w WTest)
          | O => set_w s i (at_pc w WTest)
          end
      | WLock =>
          match q_lock s with
          | Free => mkSys (q_state s) (Writer i) (q_stop s) (put_nth (q_ws s) i (at_pc w WApply))
          | _ => s
          end
      | WApply => mkSys (q_state s) Free (q_stop s) (put_nth (q_ws s) i (at_pc w WTest))
      | WTest =>
          if (w_state w =? CHANNEL_STATE_RUNNING) || negb (w_left w =? 0)%nat then set_w s i (at_pc w WDrain)
          else set_w s i (mkWriter (w_async w) CHANNEL_STATE_FINISH (w_left w) (w_news w) WEnd)
      | WEnd => s
      end
  end.

Definition set_stop (s : sys) (p : spc) : sys := mkSys (q_state s) (q_lock s) p (q_ws s).
(* a step of StopLogger *)
Definition stop_step (s : sys) : sys :=
  match q_stop s with
  | SBegin => set_stop s (if q_state s =? LOGGER_STATE_RUNNING then SLock else SDone E_LOGGER_NOT_RUNNING)
  | SLock => match q_lock s with Free => mkSys (q_state s) Stopper SCheck (q_ws s) | _ => s end
  | SCheck =>
      if q_state s =? LOGGER_STATE_RUNNING then mkSys LOGGER_STATE_CLOSING (q_lock s) (SChan 0) (q_ws s)
      else mkSys (q_state s) Free (SDone E_LOGGER_NOT_RUNNING) (q_ws s)
  | SChan k =>
      match nth_error (q_ws s) k with
      | None => set_stop s SClean
      | Some w =>
          if w_async w then
            let w' := if w_state w =? CHANNEL_STATE_RUNNING then in_state w CHANNEL_STATE_WAITING_FINISH else w in
            set_stop (set_w s k w') (SJoin k)
          else set_stop (set_w s k (in_state w CHANNEL_STATE_NULL)) (SChan (S k))
      end
  | SJoin k =>
      match nth_error (q_ws s) k with
      | None => s
      | Some w =>
          match w_pc w with
          | WEnd => set_stop (set_w s k (in_state w CHANNEL_STATE_NULL)) (SChan (S k))
          | _ => s
          end
      end
  | SClean => mkSys LOGGER_STATE_UNINIT Free (SDone 0) (q_ws s)
  | SDone _ => s
  end.
Definition step (l : thread * bool) (s : sys) : sys :=
  match fst l with TStop => stop_step s | TWrite i => write_step i (snd l) s end.
