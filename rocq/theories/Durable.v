(* What a log file holds after a power failure: FileHandler::open, write, flush and close
   (fn_file.h:124-187) with the buffer of stdio, the memory of the kernel and the disk.

   fwrite stores into the buffer of the FILE; fflush and fclose, and stdio on its own when the
   buffer is full (DSpill), hand the buffer to the kernel; the kernel writes to the disk when it
   likes (DBack), and fsync waits for it.  close() calls fsync before fclose (fn_file.h:151-157).

   Simplified: files are only appended to (mode "ab", fn_out_file_device.h:299); the kernel writes
   a file from its start to its end, so that a power failure leaves a first part of it; fsync and
   posix_fadvise succeed, and all writes do (C68). *)
From Coq Require Import ZArith List Bool Arith.
From Verif Require Import Base.
Import ListNotations.
Open Scope Z_scope.

(* [p_kernel]: what the kernel has; [p_buf]: the buffer of the FILE; [p_disk]: how many bytes are
   on the disk; [p_open]: file_ is not null *)
Record pfile := mkPfile { p_kernel : list Z; p_buf : list Z; p_disk : nat; p_open : bool }.
Definition pfresh : pfile := mkPfile [] [] 0 false.

Inductive pop :=
| DOpen                 (* 124-142 *)
| DWrite (t : list Z)   (* 172-181 *)
| DSpill (k : nat)      (* stdio hands k bytes over *)
| DBack (k : nat)       (* the kernel writes to the disk *)
| DFlush                (* 182-188 *)
| DClose.               (* 143-159 *)

(* fflush, and the flush in fclose *)
Definition handed (s : pfile) : pfile := mkPfile (p_kernel s ++ p_buf s) [] (p_disk s) (p_open s).
(* fsync: all that the kernel has *)
Definition synced (s : pfile) : pfile := mkPfile (p_kernel s) (p_buf s) (length (p_kernel s)) (p_open s).
Definition pset_open (b : bool) (s : pfile) : pfile := mkPfile (p_kernel s) (p_buf s) (p_disk s) b.

Definition pstep (s : pfile) (o : pop) : pfile :=
  match o with
  | DOpen => pset_open true (if p_open s then pset_open false (handed s) else s) (* fclose without fsync: 126-130 *)
  | DWrite t => if p_open s then mkPfile (p_kernel s) (p_buf s ++ t) (p_disk s) true else s
  | DSpill k => mkPfile (p_kernel s ++ firstn k (p_buf s)) (skipn k (p_buf s)) (p_disk s) (p_open s)
  | DBack k => mkPfile (p_kernel s) (p_buf s) (Nat.max (p_disk s) (Nat.min k (length (p_kernel s)))) (p_open s)
  | DFlush => if p_open s then handed s else s
  | DClose => if p_open s then pset_open false (handed (synced (synced s))) else s
  end.
Definition prun (ops : list pop) : pfile := fold_left pstep ops pfresh.

(* the process is killed: the kernel keeps what it has *)
Definition killed (s : pfile) : list Z := p_kernel s.
(* a power failure leaves [t]: what is on the disk, and perhaps more of what the kernel has *)
Definition failure (s : pfile) (t : list Z) : Prop :=
  exists k, (p_disk s <= k)%nat /\ t = firstn k (p_kernel s).
