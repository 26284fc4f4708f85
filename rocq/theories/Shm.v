(* Shared memory segments as processes create, attach, leave and remove them:
   LoadSharedMemory and UnloadSharedMemory (fn_load.h:38-159) with the system
   calls they make.  A process has one logger.  The calls of different processes
   do not overlap here (they do in ShmRace.v).  Segments of other programs may exist; permissions are an
   outcome that the caller of shmget cannot choose (f_access). *)
From Coq Require Import String ZArith List Bool.
From Verif Require Import Base LoggerState Ring Recover.
Import ListNotations.
Open Scope Z_scope.

(* fn_data.h:510-513 *)
Definition E_SHMGET_PROBE_ERROR : Z := 12.
Definition E_SHMGET_CREATE_ERROR : Z := 13.
Definition E_SHMAT_ERROR : Z := 14.

(* A segment: its id, its key (0, IPC_PRIVATE, once it has been removed), how often
   it is attached, whether it is to go when nobody has it attached any more, and
   the memory, seen as an SHMLogger. *)
Record segment := mkSegment { e_id : Z; e_key : Z; e_at : Z; e_gone : bool; e_mem : shm }.
(* all segments and the id of the next one *)
Record kern := mkKern { v_segs : list segment; v_next : Z }.
(* the failures that the system may choose: shmget may not open a segment that
   exists (EACCES), shmget finds no room for a new one (ENOSPC, ENOMEM), shmat
   fails (EACCES, ENOMEM) *)
Record fails := mkFails { f_access : bool; f_room : bool; f_attach : bool }.

(* logger.shm_: null, from new (fn_load.h:43), or attached *)
Inductive place := Nowhere | Heap | Seg (id : Z).
(* a process: shm_key_ and shm_ of its logger, and what it has attached *)
Record proc := mkProc { p_key : Z; p_shm : place; p_maps : list Z }.

(* key_t has 32 bits, shm_key_ has 64 (fn_data.h:425, fn_load.h:48, 58) *)
Definition key32 (k : Z) : Z := k mod 2 ^ 32.

Definition seg_with_key (l : list segment) (k : Z) : option segment := find (fun s => e_key s =? k) l.
Definition seg_with_id (l : list segment) (i : Z) : option segment := find (fun s => e_id s =? i) l.
Definition on_seg (l : list segment) (i : Z) (f : segment -> segment) : list segment :=
  map (fun s => if e_id s =? i then f s else s) l.
(* a removed segment is destroyed when nobody has it attached *)
Definition reap (l : list segment) : list segment := filter (fun s => negb (e_gone s && (e_at s <=? 0))) l.

(* shmat *)
Definition sys_at (l : list segment) (i : Z) : list segment :=
  on_seg l i (fun s => mkSegment (e_id s) (e_key s) (e_at s + 1) (e_gone s) (e_mem s)).
(* shmdt of an attached segment *)
Definition sys_dt (l : list segment) (i : Z) : list segment :=
  reap (on_seg l i (fun s => mkSegment (e_id s) (e_key s) (e_at s - 1) (e_gone s) (e_mem s))).
(* shmctl with IPC_RMID: the key is free at once *)
Definition sys_rm (l : list segment) (i : Z) : list segment :=
  reap (on_seg l i (fun s => mkSegment (e_id s) 0 (e_at s) true (e_mem s))).
(* a store to attached memory *)
Definition put_mem (l : list segment) (i : Z) (m : shm) : list segment :=
  on_seg l i (fun s => mkSegment (e_id s) (e_key s) (e_at s) (e_gone s) m).

(* the memory of a new segment *)
Definition zero_ring (K : rlim) : rring :=
  mkRing 0 0 0 0 (repeat (mkData 0 0 0 (repeat 0 (Z.to_nat (k_log K)))) (Z.to_nat (k_ring K))).
Definition zero_mem (K : rlim) : shm := mkShm 0 0 0 (repeat (zero_ring K) (Z.to_nat (k_chan K))).
(* ResetSHMLogger and the header, fn_load.h:22-36, 71-73 *)
Definition reset_mem (m : shm) : shm :=
  mkShm 0 0 0 (map (fun q => mkRing 0 0 0 0 (q_slots q)) (m_rings m)).
Definition head_mem (K : rlim) (id : Z) (m : shm) : shm := mkShm (k_size K) id (m_channels m) (m_rings m).

(* fn_load.h:86-135 on the attached segment [i] *)
Definition use_seg (fuel : nat) (K : rlim) (v : kern) (p : proc) (i : Z) : outcome (Z * kern * proc) :=
  match seg_with_id (v_segs v) i with
  | None => Ub
  | Some s =>
      let! (em, ok) := load_shm fuel K i (e_mem s) in
      let (e, m) := em : Z * shm in
      Ret (e, mkKern (put_mem (v_segs v) i m) (v_next v),
           mkProc (p_key p) (if ok : bool then Seg i else p_shm p) (p_maps p))
  end.

(* LoadSharedMemory, fn_load.h:38-141.  shmget with key 0 (IPC_PRIVATE) and size 0
   fails with EINVAL. *)
Definition load_shared (fuel : nat) (K : rlim) (f : fails) (v : kern) (p : proc)
  : outcome (Z * kern * proc) :=
  if p_key p <=? 0 then Ret (0, v, mkProc (p_key p) Heap (p_maps p))
  else
    let k := key32 (p_key p) in
    if k =? 0 then Ret (E_SHMGET_PROBE_ERROR, v, p)
    else
      match seg_with_key (v_segs v) k with
      | Some s =>
          if f_access f then Ret (E_SHMGET_PROBE_ERROR, v, p)
          else if f_attach f then Ret (E_SHMAT_ERROR, v, p)
          else use_seg fuel K (mkKern (sys_at (v_segs v) (e_id s)) (v_next v))
                       (mkProc (p_key p) (p_shm p) (e_id s :: p_maps p)) (e_id s)
      | None =>
          if f_room f then Ret (E_SHMGET_CREATE_ERROR, v, p)
          else
            let i := v_next v in
            let v := mkKern (mkSegment i k 0 false (zero_mem K) :: v_segs v) (i + 1) in
            if f_attach f then Ret (E_SHMAT_ERROR, v, p)
            else
              let l := sys_at (v_segs v) i in
              use_seg fuel K (mkKern (put_mem l i (head_mem K i (reset_mem (zero_mem K)))) (v_next v))
                      (mkProc (p_key p) (p_shm p) (i :: p_maps p)) i
      end.

Fixpoint remove_one (i : Z) (l : list Z) : list Z :=
  match l with [] => [] | x :: l' => if x =? i then l' else x :: remove_one i l' end.

(* UnloadSharedMemory, fn_load.h:142-159.  Memory from new has shm_id_ 0
   (fn_load.h:24): with a positive key it is given to shmdt, which fails, and the
   segment with the id 0 is removed.  Deleting attached memory is undefined. *)
Definition unload_shared (v : kern) (p : proc) : outcome (kern * proc) :=
  match p_shm p with
  | Nowhere => Ret (v, p)
  | Heap =>
      if 0 <? p_key p then Ret (mkKern (sys_rm (v_segs v) 0) (v_next v), mkProc (p_key p) Nowhere (p_maps p))
      else Ret (v, mkProc (p_key p) Nowhere (p_maps p))
  | Seg i =>
      if 0 <? p_key p then
        match seg_with_id (v_segs v) i with
        | None => Ub
        | Some s =>
            Ret (mkKern (sys_rm (sys_dt (v_segs v) i) (m_id (e_mem s))) (v_next v),
                 mkProc (p_key p) Nowhere (remove_one i (p_maps p)))
        end
      else Ub
  end.

(* the process ends, in whatever way: its attachments go *)
Definition leave (v : kern) (p : proc) : kern :=
  mkKern (fold_left sys_dt (p_maps p) (v_segs v)) (v_next v).
(* a process as InitLogger (fn_core.h:386-387) and the configuration leave it *)
Definition new_proc (key : Z) : proc := mkProc key Nowhere [].
(* InitFromYMAL with another configuration, fn_load.h:218: the key changes, the
   memory is kept (219) *)
Definition rekey (p : proc) (key : Z) : proc := mkProc key (p_shm p) (p_maps p).

(* ---- several processes, one call after the other ---- *)
Record sys := mkSys { y_k : kern; y_ps : list proc }.
Inductive event :=
| EStart (key : Z)              (* a process starts; its configuration has this key *)
| ELoad (n : nat) (f : fails)   (* process [n] calls LoadSharedMemory, if it has no memory yet (fn_load.h:219) *)
| EStore (n : nat) (m : shm)    (* it logs: its memory changes, but not the header *)
| ERekey (n : nat) (key : Z)    (* it reads another configuration *)
| EUnload (n : nat)             (* it destroys its logger *)
| EExit (n : nat).              (* it ends or is killed *)

Definition sys_step (fuel : nat) (K : rlim) (y : sys) (e : event) : option sys :=
  let with_proc n f := match nth_error (y_ps y) n with Some p => f p | None => None end in
  let put v n p := Some (mkSys v (upd (y_ps y) n p)) in
  match e with
  | EStart key => Some (mkSys (y_k y) (y_ps y ++ [new_proc key]))
  | ELoad n f => with_proc n (fun p =>
      match p_shm p with
      | Nowhere => match load_shared fuel K f (y_k y) p with Ret (_, v, p') => put v n p' | _ => None end
      | _ => Some y
      end)
  | EStore n m => with_proc n (fun p =>
      match p_shm p with
      | Seg i =>
          match seg_with_id (v_segs (y_k y)) i with
          | Some s =>
              if (m_size m =? m_size (e_mem s)) && (m_id m =? m_id (e_mem s))
              then put (mkKern (put_mem (v_segs (y_k y)) i m) (v_next (y_k y))) n p
              else None
          | None => None
          end
      | _ => None
      end)
  | ERekey n key => with_proc n (fun p => put (y_k y) n (rekey p key))
  | EUnload n => with_proc n (fun p =>
      match unload_shared (y_k y) p with Ret (v, p') => put v n p' | _ => None end)
  | EExit n => with_proc n (fun p => put (leave (y_k y) p) n (mkProc (p_key p) Nowhere []))
  end.
Fixpoint sys_run (fuel : nat) (K : rlim) (y : sys) (es : list event) : option sys :=
  match es with
  | [] => Some y
  | e :: es' => match sys_step fuel K y e with Some y' => sys_run fuel K y' es' | None => None end
  end.
(* a system without segments *)
Definition boot : sys := mkSys (mkKern [] 0) [].
