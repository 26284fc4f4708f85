(* LoadSharedMemory (fn_load.h:38-141) in steps of one system call or one store to
   the header, so that the calls of several processes overlap.  The recovery loop
   (fn_load.h:93-134) and ResetSHMLogger (fn_load.h:22-36) are one step each: while
   ResetSHMLogger runs nobody else uses the segment (C115_untouched). *)
From Coq Require Import String ZArith List Bool.
From Verif Require Import Base LoggerState Ring Recover Shm.
Import ListNotations.
Open Scope Z_scope.

(* the line a process is about to execute *)
Inductive at_line :=
| Idle (last : option Z)  (* not in the call; what the last call returned *)
| LProbe                  (* fn_load.h:41, 48 *)
| LCreate                 (* 58 *)
| LAtNew (i : Z)          (* 64 *)
| LReset (i : Z)          (* 71 *)
| LSize (i : Z)           (* 72 *)
| LId (i : Z)             (* 73 *)
| LAt (i : Z)             (* 77 *)
| LCheck (i : Z).         (* 86-135 *)

Record race := mkRace { z_s : sys; z_at : list at_line }.
Definition z_k (z : race) : kern := y_k (z_s z).
Definition z_ps (z : race) : list proc := y_ps (z_s z).

(* the stores at lines 71, 72, 73 *)
Definition mem_size (K : rlim) (m : shm) : shm := mkShm (k_size K) (m_id m) (m_channels m) (m_rings m).
Definition mem_id (i : Z) (m : shm) : shm := mkShm (m_size m) i (m_channels m) (m_rings m).
Definition change_mem (v : kern) (i : Z) (f : shm -> shm) : kern :=
  mkKern (on_seg (v_segs v) i (fun s => mkSegment (e_id s) (e_key s) (e_at s) (e_gone s) (f (e_mem s)))) (v_next v).
Definition map_in (v : kern) (p : proc) (i : Z) : kern * proc :=
  (mkKern (sys_at (v_segs v) i) (v_next v), mkProc (p_key p) (p_shm p) (i :: p_maps p)).

(* one step of a process within the call *)
Definition line_step (fuel : nat) (K : rlim) (f : fails) (v : kern) (p : proc) (l : at_line)
  : outcome (kern * proc * at_line) :=
  match l with
  | Idle _ => Ret (v, p, l)
  | LProbe =>
      if p_key p <=? 0 then Ret (v, mkProc (p_key p) Heap (p_maps p), Idle (Some 0))
      else if key32 (p_key p) =? 0 then Ret (v, p, Idle (Some E_SHMGET_PROBE_ERROR))
      else match seg_with_key (v_segs v) (key32 (p_key p)) with
           | Some s => Ret (v, p, if f_access f then Idle (Some E_SHMGET_PROBE_ERROR) else LAt (e_id s))
           | None => Ret (v, p, LCreate)
           end
  | LCreate =>
      (* IPC_EXCL: EEXIST *)
      match seg_with_key (v_segs v) (key32 (p_key p)) with
      | Some _ => Ret (v, p, Idle (Some E_SHMGET_CREATE_ERROR))
      | None =>
          if f_room f then Ret (v, p, Idle (Some E_SHMGET_CREATE_ERROR))
          else Ret (mkKern (mkSegment (v_next v) (key32 (p_key p)) 0 false (zero_mem K) :: v_segs v) (v_next v + 1), p,
                    LAtNew (v_next v))
      end
  | LAtNew i =>
      match seg_with_id (v_segs v) i with
      | Some _ => if f_attach f then Ret (v, p, Idle (Some E_SHMAT_ERROR)) else Ret (map_in v p i, LReset i)
      | None => Ret (v, p, Idle (Some E_SHMAT_ERROR))
      end
  | LReset i => Ret (change_mem v i reset_mem, p, LSize i)
  | LSize i => Ret (change_mem v i (mem_size K), p, LId i)
  | LId i => Ret (change_mem v i (mem_id i), p, LCheck i)
  | LAt i =>
      (* the segment may have been removed since the probe *)
      match seg_with_id (v_segs v) i with
      | Some _ => if f_attach f then Ret (v, p, Idle (Some E_SHMAT_ERROR)) else Ret (map_in v p i, LCheck i)
      | None => Ret (v, p, Idle (Some E_SHMAT_ERROR))
      end
  | LCheck i => let! (ev, p') := use_seg fuel K v p i in let (e, v') := ev : Z * kern in Ret (v', p', Idle (Some e))
  end.

(* what can happen next *)
Inductive move :=
| MStart (key : Z)             (* a process starts *)
| MCall (n : nat)              (* process [n] without memory calls LoadSharedMemory *)
| MStep (n : nat) (f : fails)  (* it executes the next line of the call *)
| MStore (n : nat) (m : shm)   (* it logs (as EStore in Shm.v) *)
| MUnload (n : nat)            (* it destroys its logger *)
| MKill (n : nat).             (* it is killed, at whatever line *)

Definition race_step (fuel : nat) (K : rlim) (z : race) (a : move) : option race :=
  let with_at n (f : proc -> at_line -> option race) :=
    match nth_error (z_ps z) n, nth_error (z_at z) n with Some p, Some l => f p l | _, _ => None end in
  let idle n (f : proc -> option race) :=
    with_at n (fun p l => match l with Idle _ => f p | _ => None end) in
  let lift n e l := match sys_step fuel K (z_s z) e with Some y => Some (mkRace y (upd (z_at z) n l)) | None => None end in
  match a with
  | MStart key => Some (mkRace (mkSys (z_k z) (z_ps z ++ [new_proc key])) (z_at z ++ [Idle None]))
  | MCall n => idle n (fun p =>
      match p_shm p with Nowhere => Some (mkRace (z_s z) (upd (z_at z) n LProbe)) | _ => None end)
  | MStep n f => with_at n (fun p l =>
      match line_step fuel K f (z_k z) p l with
      | Ret (v, p', l') => Some (mkRace (mkSys v (upd (z_ps z) n p')) (upd (z_at z) n l'))
      | _ => None
      end)
  | MStore n m => idle n (fun p => match sys_step fuel K (z_s z) (EStore n m) with Some y => Some (mkRace y (z_at z)) | None => None end)
  | MUnload n => idle n (fun p => lift n (EUnload n) (Idle None))
  | MKill n => with_at n (fun p l => lift n (EExit n) (Idle None))
  end.
Fixpoint race_run (fuel : nat) (K : rlim) (z : race) (l : list move) : option race :=
  match l with
  | [] => Some z
  | a :: l' => match race_step fuel K z a with Some z' => race_run fuel K z' l' | None => None end
  end.
Definition race_boot : race := mkRace boot [].
