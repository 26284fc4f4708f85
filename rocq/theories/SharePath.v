(* Several file devices of a channel with the same path: OpenFileDevice and
   EnterProcOutFileDevice (fn_out_file_device.h:192-339) with FileHandler::rollback
   (fn_file.h:370-392).  Nothing in the parser or the start of the logger refuses such a
   configuration.

   Every device has its own FILE and its own DEVICE_LOG_CUR_FILE_SIZE, which counts what was in
   the file when it was opened and what this device has written since.  One thread writes to all
   of them (an asynchronous channel), so a write with the roll before it is one step.

   Simplified: the log file and its backups have no gaps; all calls succeed; daily
   and hourly rolls are left out; limit_size and rollback are set, rollback to [n].  The sizes
   include what is still in the buffers of the FILEs; how much of a file fstat sees when it is
   opened is therefore a part of the step. *)
From Coq Require Import ZArith List Bool Arith.
From Verif Require Import Base.
Import ListNotations.
Open Scope Z_scope.

(* [h_dir]: the log file, backup 1, backup 2, ..., as numbers of files; [h_next]: files made so
   far; [h_open], [h_count]: the open file and the size field of a device *)
Record hstate := mkH { h_dir : list nat; h_next : nat; h_size : nat -> Z; h_open : nat -> option nat; h_count : nat -> Z }.
Definition hput {A} (f : nat -> A) (i : nat) (x : A) : nat -> A := fun j => if Nat.eqb j i then x else f j.

(* a device, the length of a record and, if the device opens a file that is there, the bytes
   that have left the buffers (st_size, fn_file.h:126-145) *)
Record hop := mkOp { o_dev : nat; o_len : Z; o_seen : Z }.

(* device i writes a record of [len] bytes, fn_out_file_device.h:192-339 *)
Definition hwrite (n : nat) (limit : Z) (stuff_up : bool) (s : hstate) (w : hop) : hstate :=
  let i := o_dev w in
  let len := o_len w in
  let out := limit <? h_count s i + len in                                 (* 203-210, 239 *)
  match (if out then None else h_open s i) with                            (* 237-249 *)
  | Some f => mkH (h_dir s) (h_next s) (hput (h_size s) f (h_size s f + len)) (h_open s) (hput (h_count s) i (h_count s i + len))
  | None =>
      match (if negb stuff_up || out then None else hd_error (h_dir s)) with  (* 286-296 *)
      | Some f => (* 299, 314: the file is there, the size field is what fstat sees of it *)
          mkH (h_dir s) (h_next s) (hput (h_size s) f (h_size s f + len)) (hput (h_open s) i (Some f)) (hput (h_count s) i (Z.max 0 (Z.min (o_seen w) (h_size s f)) + len))
      | None => (* moved up by one, or none there: a new file *)
          let f := h_next s in
          mkH (f :: firstn n (h_dir s)) (S f) (hput (h_size s) f len) (hput (h_open s) i (Some f)) (hput (h_count s) i len)
      end
  end.
Definition hrun (n : nat) (limit : Z) (stuff_up : bool) (s : hstate) (ops : list hop) : hstate := fold_left (hwrite n limit stuff_up) ops s.
