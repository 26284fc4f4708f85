(* Several processes that write to the same log file and roll it: FileHandler::rollback
   (fn_file.h:370-392) and the open that follows it (fn_out_file_device.h:238-299).  The
   default configuration names the files by the program only ("$PNAME", fn_macro.h:66-103), so this is the
   case of two instances of a program.

   A directory entry is a number: 0 the log file, k its backup k.  It refers to a file that was
   created at some time; a process keeps writing to the file that it has opened, whatever happens
   to the entries.  Each access, remove, rename and open is one step.

   Simplified: the sizes that make a process roll are left out, it may roll whenever it is not
   rolling; calls do not fail except for a file that is not there; [n] is the rollback setting,
   the same for all. *)
From Coq Require Import ZArith List Bool Arith.
From Verif Require Import Base.
Import ListNotations.
Open Scope nat_scope.

Inductive rpc :=
| RIdle                (* writes records *)
| RCheck (d : nat)     (* rollback at depth d, before the test of backup d - 1, fn_file.h:372 *)
| RRemove (k : nat)    (* before the remove of backup k, 378 *)
| RRename (d : nat)    (* before the rename of backup d - 1 to backup d, 389 *)
| ROpen.               (* before the open, fn_out_file_device.h:299 *)

Record rstate := mkR {
  r_dir : nat -> option nat;   (* the directory: numbers of files *)
  r_next : nat;                (* files that were created so far *)
  r_open : nat -> option nat;  (* the file that a process has open *)
  r_pc : nat -> rpc
}.
Definition upd {A} (f : nat -> A) (i : nat) (x : A) : nat -> A := fun j => if Nat.eqb j i then x else f j.
(* rollback at depth d + 1 returns, to the rename at depth d or to the device *)
Definition returns (d : nat) : rpc := match d with O => ROpen | S _ => RRename d end.
(* ::rename of backup d - 1 to backup d: what was there is gone *)
Definition moved (dir : nat -> option nat) (d : nat) : nat -> option nat :=
  match dir (d - 1)%nat with None => dir | Some x => upd (upd dir (d - 1)%nat None) d (Some x) end.

(* process i goes on *)
Definition rstep (n : nat) (s : rstate) (i : nat) : rstate :=
  let at_ p dir := mkR dir (r_next s) (r_open s) (upd (r_pc s) i p) in
  match r_pc s i with
  | RIdle => (* close, fn_out_file_device.h:238-244 *)
      mkR (r_dir s) (r_next s) (upd (r_open s) i None) (upd (r_pc s) i (RCheck 1))
  | RCheck d =>
      match r_dir s (d - 1)%nat with
      | None => at_ (returns (d - 1)) (r_dir s)
      | Some _ => at_ (if Nat.ltb n d then RRemove (d - 1) else RCheck (d + 1)) (r_dir s)
      end
  | RRemove k => at_ (returns k) (upd (r_dir s) k None)
  | RRename d => at_ (returns (d - 1)) (moved (r_dir s) d)
  | ROpen => (* "ab": created if it is not there *)
      match r_dir s 0%nat with
      | Some x => mkR (r_dir s) (r_next s) (upd (r_open s) i (Some x)) (upd (r_pc s) i RIdle)
      | None => mkR (upd (r_dir s) 0 (Some (r_next s))) (S (r_next s)) (upd (r_open s) i (Some (r_next s))) (upd (r_pc s) i RIdle)
      end
  end.
Definition rruns (n : nat) (s : rstate) (sched : list nat) : rstate := fold_left (rstep n) sched s.
