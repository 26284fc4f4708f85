(* Starting and stopping one logger from several threads. *)
From Coq Require Import String ZArith List Bool.
From Verif Require Import Base LoggerState ParseVal Lexer ParseCfg Load.
Import ListNotations. Open Scope Z_scope.

(* the calls that several threads make on one logger: ParseAndStartLogger,
   LoadAndStartLogger, StartLogger and StopLogger, fn_core.h:109, 170, 212, 240.
   What becomes of the writer threads and what the file holds is part of the call.
   HotUpdateLogger is left out: only writer threads make it (Stop.v) and it changes
   neither logger_state_ nor shm_ nor channel_size_. *)
Inductive api :=
| AParse (th : Z -> tstart) (t : text)
| ALoad (th : Z -> tstart) (path : text) (file : option (Z * text))
| AStart (th : Z -> tstart)
| AStop.
Definition as_call (c : api) : call :=
  match c with AParse th t => CParse th t | ALoad th p f => CLoad th p f | AStart th => CStart th | AStop => CStop end.
Definition threads_of (c : api) : Z -> tstart :=
  match c with AParse th _ => th | ALoad th _ _ => th | AStart th => th | AStop => fun _ => Up end.

(* Where a thread is.  state_lock_ is a recursive mutex (fn_data.h:404), so the
   locks that InitFromYMAL and StartLogger take inside the other calls change
   nothing; a step is one check or one block of writes. *)
Inductive pc :=
| Idle
| Fast (c : api)                  (* the first check, fn_core.h:111, 172, 214, 242 *)
| AskShm (th : Z -> tstart)       (* shm_ == NULL, 116 *)
| AskSize (th : Z -> tstart)      (* channel_size_, 121 *)
| AskState                        (* logger_state_ in StopLogger, 177 *)
| Locking (c : api)               (* before the lock, 126, 182, 219, 247 *)
| Held (c : api)                  (* behind it *)
| Reading (c : api)               (* InitFromYMAL up to LoadSharedMemory, fn_load.h:164-217 *)
| Filling (c : api)               (* its other writes, and those of InitFromYMALFile *)
| Nested (c : api)                (* StartLogger in the other calls, fn_core.h:111-138 *)
| Raising (c : api)               (* StartChannels, 139-147 *)
| Lowering                        (* StopChannels and the rest of StopLogger, 190-208 *)
| Leaving (c : api) (r : res)     (* unlock and return *)
| Stuck (c : api).                (* a join that never returns, with the lock held *)

(* A call begins, takes effect, is refused, returns.  [Did] is put where the last
   write of the call is, [Refused] where it is decided that the call does nothing. *)
Inductive ev :=
| Began (i : nat) (c : api)
| Did (i : nat) (c : api) (r : res)
| Refused (i : nat) (c : api) (r : res)
| Ended (i : nat) (r : res).

(* logger, owner of state_lock_, threads with the calls they have still to make, and
   what happened so far, oldest first *)
Record life := mkLife {
  f_lg : lg;
  f_lock : option nat;
  f_th : nat -> pc * list api;
  f_ev : list ev
}.
Definition at_th (f : nat -> pc * list api) (i : nat) (x : pc * list api) (j : nat) : pc * list api :=
  if Nat.eqb j i then x else f j.
(* thread [i] goes to [p] *)
Definition go (s : life) (i : nat) (p : pc) : life :=
  mkLife (f_lg s) (f_lock s) (at_th (f_th s) i (p, snd (f_th s i))) (f_ev s).
Definition with_lg (s : life) (g : lg) : life := mkLife g (f_lock s) (f_th s) (f_ev s).
Definition say (s : life) (l : list ev) : life := mkLife (f_lg s) (f_lock s) (f_th s) (f_ev s ++ l).
(* return without having taken the lock *)
Definition refuse (s : life) (i : nat) (c : api) (z : Z) : outcome life :=
  Ret (say (go s i Idle) [Refused i c (Code z); Ended i (Code z)]).
(* the same with the lock held *)
Definition give_up (s : life) (i : nat) (c : api) (z : Z) : outcome life :=
  Ret (say (go s i (Leaving c (Code z))) [Refused i c (Code z)]).
(* the last write of a call *)
Definition effect (s : life) (i : nat) (c : api) (r : res) (g : lg) : outcome life :=
  Ret (say (go (with_lg s g) i (match r with Blocked => Stuck c | _ => Leaving c r end)) [Did i c r]).

(* channel_size_ outside 1..MAX_CHANNEL_SIZE, fn_core.h:121, 132, 172 *)
Definition bad_size (e : lenv) (m : shmem) : bool := (x_maxch (y_pe e) <? sm_size m) || (sm_size m <=? 0).
(* what InitFromYMAL is given *)
Definition text_of (c : api) : text :=
  match c with AParse _ t => t | ALoad _ _ (Some (_, t)) => t | _ => [] end.
(* fn_load.h:164-217 as far as others see it: the text is parsed and shm_ set by
   LoadSharedMemory; channel_size_ is still what the memory holds *)
Definition publish (e : lenv) (g : lg) (t : text) : outcome lg :=
  let! r := parse_logger (y_fuel e) (y_pe e) (y_old e) t in
  let '(ret, s) := r in
  if negb (ret =? PEC_NONE) then Ret g
  else match lg_shm g with
       | Some _ => Ret g
       | None => match load_shm e (s_shm s) with
                 | (0, Some m) => Ret (set_shm g m)
                 | _ => Ret g
                 end
       end.
(* InitFromYMAL or InitFromYMALFile *)
Definition init_of (e : lenv) (g : lg) (c : api) : outcome (Z * lg) :=
  match c with
  | AParse _ t => init_yaml e g t []
  | ALoad _ path file => init_file e g path file
  | _ => Ret (0, g)
  end.
(* fn_core.h:139-147 *)
Definition raise (th : Z -> tstart) (g : lg) (m : shmem) : res * lg :=
  match start_chans th 0 (sm_size m) (sm_chans m) with
  | (Code 0, cs) => (Code 0, set_state (set_chans g m cs) LOGGER_STATE_RUNNING)
  | (Code z, cs) =>
      match stop_chans th 0 (sm_size m) cs with
      | (Blocked, cs) => (Blocked, set_state (set_chans g m cs) LOGGER_STATE_INITING)
      | (_, cs) => (Code z, set_state (set_chans g m cs) LOGGER_STATE_UNINIT)
      end
  | (r, cs) => (r, set_state (set_chans g m cs) LOGGER_STATE_INITING)
  end.
(* fn_core.h:190-208 *)
Definition lower (g : lg) (m : shmem) : lg :=
  let '(_, cs) := stop_chans (fun _ => Up) 0 (sm_size m) (sm_chans m) in
  set_state (set_chans g m cs) LOGGER_STATE_UNINIT.

(* thread [i] makes one step.  Accesses take effect in this order for all threads;
   logger_state_, shm_ and channel_size_ are plain variables (fn_data.h:345, 417, 426),
   so the checks outside the lock are data races in the terms of the language. *)
Definition lstep (e : lenv) (i : nat) (s : life) : outcome life :=
  let g := f_lg s in
  match fst (f_th s i) with
  | Idle =>
      match snd (f_th s i) with
      | [] => Ret s
      | c :: l => Ret (mkLife g (f_lock s) (at_th (f_th s) i (Fast c, l)) (f_ev s ++ [Began i c]))
      end
  | Fast (AStart th) =>
      if negb (lg_state g =? LOGGER_STATE_UNINIT) then refuse s i (AStart th) E_LOGGER_IN_USE
      else Ret (go s i (AskShm th))
  | Fast AStop =>
      match lg_shm g with
      | None => Ub
      | Some m => if bad_size e m then refuse s i AStop E_INVALID_CHANNEL_SIZE else Ret (go s i AskState)
      end
  | Fast c =>
      if negb (lg_state g =? LOGGER_STATE_UNINIT) then refuse s i c E_LOGGER_IN_USE
      else Ret (go s i (Locking c))
  | AskShm th =>
      match lg_shm g with
      | None => refuse s i (AStart th) E_LOGGER_NOT_INIT
      | Some _ => Ret (go s i (AskSize th))
      end
  | AskSize th =>
      match lg_shm g with
      | None => Ub
      | Some m => if bad_size e m then refuse s i (AStart th) E_INVALID_CHANNEL_SIZE else Ret (go s i (Locking (AStart th)))
      end
  | AskState =>
      if negb (lg_state g =? LOGGER_STATE_RUNNING) then refuse s i AStop E_LOGGER_NOT_RUNNING
      else Ret (go s i (Locking AStop))
  | Locking c =>
      match f_lock s with
      | Some _ => Ret s
      | None => Ret (go (mkLife g (Some i) (f_th s) (f_ev s)) i (Held c))
      end
  | Held (AStart th) =>                                          (* 127-138 *)
      if negb (lg_state g =? LOGGER_STATE_UNINIT) then give_up s i (AStart th) E_LOGGER_IN_USE
      else match lg_shm g with
           | None => Ub
           | Some m => if bad_size e m then give_up s i (AStart th) E_INVALID_CHANNEL_SIZE
                       else Ret (go (with_lg s (set_state g LOGGER_STATE_INITING)) i (Raising (AStart th)))
           end
  | Held AStop =>                                                (* 184-189 *)
      if negb (lg_state g =? LOGGER_STATE_RUNNING) then give_up s i AStop E_LOGGER_NOT_RUNNING
      else Ret (go (with_lg s (set_state g LOGGER_STATE_CLOSING)) i Lowering)
  | Held (AParse th t) =>                                        (* 220-224 *)
      if negb (lg_state g =? LOGGER_STATE_UNINIT) then give_up s i (AParse th t) E_LOGGER_IN_USE
      else Ret (go s i (Reading (AParse th t)))
  | Held (ALoad th path None) => give_up s i (ALoad th path None) E_INVALID_CONFIG_PATH  (* fn_load.h:255-260 *)
  | Held c => Ret (go s i (Reading c))
  | Reading c =>
      if negb (lg_state g =? LOGGER_STATE_UNINIT) then give_up s i c E_LOGGER_IN_USE
      else let! g' := publish e g (text_of c) in Ret (go (with_lg s g') i (Filling c))
  | Filling c =>
      let! r := init_of e g c in
      let '(z, g') := r in
      if negb (z =? 0) then effect s i c (Code z) g'
      else Ret (go (with_lg s g') i (Nested c))
  | Nested c =>
      if negb (lg_state g =? LOGGER_STATE_UNINIT) then effect s i c (Code E_LOGGER_IN_USE) g
      else match lg_shm g with
           | None => effect s i c (Code E_LOGGER_NOT_INIT) g
           | Some m => if bad_size e m then effect s i c (Code E_INVALID_CHANNEL_SIZE) g
                       else Ret (go (with_lg s (set_state g LOGGER_STATE_INITING)) i (Raising c))
           end
  | Raising c =>
      match lg_shm g with
      | None => Ub
      | Some m => let '(r, g') := raise (threads_of c) g m in effect s i c r g'
      end
  | Lowering =>
      match lg_shm g with
      | None => Ub
      | Some m => effect s i AStop (Code 0) (lower g m)
      end
  | Leaving _ r =>
      Ret (say (go (mkLife g None (f_th s) (f_ev s)) i Idle) [Ended i r])
  | Stuck _ => Ret s
  end.

(* the threads run in the order [l] *)
Fixpoint life_run (e : lenv) (l : list nat) (s : life) : outcome life :=
  match l with
  | [] => Ret s
  | i :: l' => let! s' := lstep e i s in life_run e l' s'
  end.
(* [todo i]: the calls of thread [i] *)
Definition life0 (g : lg) (todo : nat -> list api) : life := mkLife g None (fun i => (Idle, todo i)) [].
