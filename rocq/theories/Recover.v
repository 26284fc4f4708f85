(* Attaching to the shared memory of an earlier process: LoadSharedMemory,
   fn_load.h:38-141, for a positive shm_key_ and system calls that succeed (the
   error returns of shmget and shmat, 49-54, 59-63, 65-69 and 77-81, change
   nothing and are left out). *)
From Coq Require Import String ZArith List Bool.
From Verif Require Import Base LoggerState Ring.
Import ListNotations.
Open Scope Z_scope.

(* The parts of a LogData (fn_data.h:125-146) that recovery touches. *)
Record rdata := mkData {
  d_mark : Z;      (* data_mark_ *)
  d_prio : Z;      (* priority_ *)
  d_len : Z;       (* content_len_ *)
  d_buf : text     (* content_, LOG_SIZE bytes *)
}.

(* RingBuffer, fn_data.h:280-298 *)
Record rring := mkRing {
  q_write : Z; q_hold : Z; q_read : Z; q_proc : Z; q_slots : list rdata
}.

(* SHMLogger: shm_size_, shm_id_, channel_size_ and ring_buffers_; channels_ is
   not looked at here. *)
Record shm := mkShm { m_size : Z; m_id : Z; m_channels : Z; m_rings : list rring }.

(* RingBuffer::BUFFER_LEN, LogData::LOG_SIZE, SHMLogger::MAX_CHANNEL_SIZE,
   sizeof(SHMLogger) *)
Record rlim := mkLim { k_ring : Z; k_log : Z; k_chan : Z; k_size : Z }.

(* fn_data.h:488-527 *)
Definition E_SHM_VERSION_WRONG : Z := 15.

(* fn_load.h:111 *)
Definition CORE : text := s2z "!!!core recover!!!".

(* fn_load.h:109-117 *)
Definition recover_slot (K : rlim) (d : rdata) : outcome rdata :=
  let len := Z.min (d_len d) (k_log K - zlen CORE - 2) in
  let! b := blit (d_buf d) len CORE in
  let len := len + zlen CORE in
  let! b := wr b len 10 in
  let len := len + 1 in
  let! b := wr b len 0 in
  Ret (mkData 2 PRIORITY_FATAL len b).

(* fn_load.h:106-120 *)
Fixpoint recover_loop (fuel : nat) (K : rlim) (q : rring) : outcome rring :=
  if q_write q =? q_hold q then Ret q
  else match fuel with
       | O => Fuel
       | S fuel' =>
           let! d := rd (q_slots q) (q_write q) in
           let! d' := recover_slot K d in
           let! l := wr (q_slots q) (q_write q) d' in
           recover_loop fuel' K
             (mkRing ((q_write q + 1) mod k_ring K) (q_hold q) (q_read q) (q_proc q) l)
       end.

(* The body of the loop over channels, fn_load.h:100-133: the error code to
   return (0: go on) and the ring as it is then. *)
Definition recover_ring (fuel : nat) (K : rlim) (q : rring) : outcome (Z * rring) :=
  if (k_ring K <=? q_write q) || (q_write q <? 0) then Ret (E_SHM_VERSION_WRONG, q)
  else
    let! q := recover_loop fuel K q in
    let q := mkRing (q_write q) (q_write q) (q_read q) (q_proc q) (q_slots q) in
    if (k_ring K <=? q_read q) || (q_read q <? 0) then Ret (-10, q)
    else Ret (0, mkRing (q_write q) (q_hold q) (q_read q) (q_read q) (q_slots q)).

(* The loop over channels, fn_load.h:93-134, from channel [i] on; [l] are the
   rings from [i] on. *)
Fixpoint recover_rings (fuel : nat) (K : rlim) (i size : Z) (l : list rring)
  : outcome (Z * list rring) :=
  if size <=? i then Ret (0, l)
  else if k_chan K <=? i then Ret (E_SHM_VERSION_WRONG, l)
  else match l with
       | [] => Ub
       | q :: l' =>
           let! (e, q') := recover_ring fuel K q in
           if negb (e =? 0) then Ret (e, q' :: l')
           else let! (e', r) := recover_rings fuel K (i + 1) size l' in
                Ret (e', q' :: r)
       end.

(* fn_load.h:86-135 for a segment that exists already: the code returned, the
   segment, and whether logger.shm_ was set. *)
Definition load_shm (fuel : nat) (K : rlim) (id : Z) (m : shm) : outcome (Z * shm * bool) :=
  if negb (m_size m =? k_size K) || negb (m_id m =? id)
  then Ret (E_SHM_VERSION_WRONG, m, false)
  else
    let! (e, l) := recover_rings fuel K 0 (m_channels m) (m_rings m) in
    Ret (e, mkShm (m_size m) (m_id m) (m_channels m) l, e =? 0).

(* ---- the same on the queue of Ring.v ---- *)
(* Recovery of one ring in terms of Ring.v: a slot there is the mark and the
   first content_len_ bytes. *)
Definition rec_slot (c : rcfg) (x : slot) : slot :=
  mkSlot MARK_READY (firstn (Z.to_nat (log_size c - zlen CORE - 2)) (s_text x) ++ CORE ++ [10]).

Fixpoint revive (fuel : nat) (c : rcfg) (s : shared) : shared :=
  if x_write s =? x_hold s then s
  else match fuel with
       | O => s
       | S fuel' =>
           let s1 := put s (x_write s) (rec_slot c (get s (x_write s))) in
           revive fuel' c (put_idx s1 (x_hold s1) (nxt c (x_write s1)) (x_proc s1) (x_read s1))
       end.

(* The process that used the channel dies in state [s]; a new process with [k]
   logging threads attaches.  LoadSharedMemory: indices as in fn_load.h:121 and
   128.  InitFromYMAL 228-237 replaces the channel (a parsed channel is in state
   NULL) but keeps ring and counters.  StartChannels fn_core.h:38-49: a sync
   channel is set RUNNING, for an async channel the writer thread is started.
   The ghost history starts anew. *)
Definition reborn (c : rcfg) (s : shared) (k : nat) : st :=
  let s := revive (Z.to_nat (n_ring c)) c s in
  mkSt (put_ctl (put_state (put_idx s (x_write s) (x_write s) (x_read s) (x_read s))
                  (if is_sync c then CHANNEL_STATE_RUNNING else CHANNEL_STATE_NULL)) 0)
       (mkGhost 0 0 0 0 [] [] [])
       (if is_sync c then repeat (mkThr Idle [] 0) k
        else mkThr CLoad [] 0 :: repeat (mkThr Idle [] 0) k).
