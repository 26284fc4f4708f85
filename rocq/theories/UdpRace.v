(* Datagrams on a synchronous channel: every thread that logs runs the reading loop
   fn_channel.h:239-254, and all use the one udp_buffer_ of the channel
   (fn_data.h:297) without a lock; only EnterProcDevice (28) takes one.

   One input device with an open socket.  A thread that leaves the loop (250) can come
   back with its next log statement, so here it simply starts again; the limit of 1000
   rounds (239) is left out for the same reason.

   Simplified: InitLogData up to the first store to content_ (278-289) is one step, so is
   the copy of a datagram (recvfrom) and so is the output of a record (253), which reads
   the record under the lock. *)
From Coq Require Import ZArith List Bool Arith.
From Verif Require Import Base NumFmt.
Import ListNotations.
Open Scope Z_scope.

(* where a thread is *)
Inductive gpc :=
| GStart             (* before InitLogData, 241 *)
| GInit              (* before the last store to content_ in InitLogData, 321 *)
| GRead              (* before udp.read, 242 *)
| GStore (l : Z)     (* udp.read has returned l, before content_len_ is stored, 242 *)
| GFull              (* before the test 243 *)
| GNewline           (* before 245 *)
| GZero              (* before 246 *)
| GTest              (* before the test 248 *)
| GPut.              (* before EnterProcDevice, 253 *)

Record gstate := mkGst {
  gr_queue : list text;     (* datagrams waiting at the socket *)
  gr_buf : list Z;          (* udp_buffer_.content_ *)
  gr_len : Z;               (* udp_buffer_.content_len_ *)
  gr_out : list text;       (* what the device has put out *)
  gr_pc : nat -> gpc
}.
Definition gpc_set (f : nat -> gpc) (i : nat) (p : gpc) : nat -> gpc := fun j => if Nat.eqb j i then p else f j.

(* content_ begins as zeros: new memory, fn_load.h:43 or :59; memory that is attached again
   (fn_load.h:74-) would begin with old text *)
Definition gram0 (cap : Z) : gstate := mkGst [] (repeat 0 (Z.to_nat cap)) 0 [] (fun _ => GStart).

Inductive glabel :=
| Arrive (m : text)        (* the network delivers a datagram *)
| GRun (i : nat).          (* thread i goes on *)

Definition gstep (cap : Z) (s : gstate) (l : glabel) : outcome gstate :=
  let at_ i p := gpc_set (gr_pc s) i p in
  match l with
  | Arrive m => Ret (mkGst (gr_queue s ++ [m]) (gr_buf s) (gr_len s) (gr_out s) (gr_pc s))
  | GRun i =>
      match gr_pc s i with
      | GStart => (* 288-289 *)
          let! b := wr (gr_buf s) 0 0 in
          Ret (mkGst (gr_queue s) b 0 (gr_out s) (at_ i GInit))
      | GInit => (* 321 *)
          let! b := wr (gr_buf s) (gr_len s) 0 in
          Ret (mkGst (gr_queue s) b (gr_len s) (gr_out s) (at_ i GRead))
      | GRead => (* fn_file.h:530-543: recvfrom cuts what is longer than the buffer *)
          match gr_queue s with
          | [] => Ret (mkGst [] (gr_buf s) (gr_len s) (gr_out s) (at_ i (GStore 0)))
          | m :: q =>
              let t := firstn (Z.to_nat cap) m in
              let! b := blit (gr_buf s) 0 t in
              Ret (mkGst q b (gr_len s) (gr_out s) (at_ i (GStore (zlen t))))
          end
      | GStore n => Ret (mkGst (gr_queue s) (gr_buf s) n (gr_out s) (at_ i GFull))
      | GFull => Ret (mkGst (gr_queue s) (gr_buf s) (gr_len s) (gr_out s) (at_ i (if gr_len s =? cap then GNewline else GTest)))
      | GNewline =>
          let! b := wr (gr_buf s) (gr_len s - 2) 10 in
          Ret (mkGst (gr_queue s) b (gr_len s) (gr_out s) (at_ i GZero))
      | GZero =>
          let! b := wr (gr_buf s) (gr_len s - 1) 0 in
          Ret (mkGst (gr_queue s) b (gr_len s) (gr_out s) (at_ i GTest))
      | GTest => Ret (mkGst (gr_queue s) (gr_buf s) (gr_len s) (gr_out s) (at_ i (if gr_len s =? 0 then GStart else GPut)))
      | GPut => (* the outputs read content_len_ bytes of content_ *)
          let! t := slice (gr_buf s) 0 (gr_len s) in
          Ret (mkGst (gr_queue s) (gr_buf s) (gr_len s) (gr_out s ++ [t]) (at_ i GStart))
      end
  end.
Fixpoint gruns (cap : Z) (s : gstate) (ls : list glabel) : outcome gstate :=
  match ls with
  | [] => Ret s
  | l :: ls => let! s := gstep cap s l in gruns cap s ls
  end.
