(* What the log files hold when the process dies: the rounds of EnterProcChannel
   (fn_channel.h:99-270) with stdio's buffers, flushing and rolling.

   A file device writes with fwrite into the buffer of a FILE; what fflush or
   fclose, or stdio on its own (FSpill), have handed to the kernel stays when
   the process is killed, the rest is lost.  The records of the queue stay as well
   if the queue is in shared memory; after a restart those from read_idx_ on are
   written (Recover.v).

   Simplified: the queue is its published records with two counters instead of
   indices modulo BUFFER_LEN (Ring.v; the two agree on schedules without a lap,
   C19-C22); a look at proc_idx_ with the compare-exchange behind it is one step,
   which may fail at any time (FMiss); statistics are left out.  The files of a
   device, one after the other, are one text.  Files can be opened and written
   (fn_file.h:124-187 otherwise: C68). *)
From Coq Require Import ZArith List Bool Arith.
From Verif Require Import Base.
Import ListNotations.
Open Scope Z_scope.

(* FN_LOG_FORCE_FLUSH_QUE (fn_data.h:72-74), the number of file devices, the
   records that a device takes (fn_channel.h:55-93) and the devices that write
   datagrams (in_type: udp, fn_channel.h:205-249) *)
Record fcfg := mkFcfg {
  f_force : Z;
  f_ndev : nat;
  f_acc : nat -> list Z -> bool;
  f_udp : nat -> bool
}.

(* one write to a device: the thread, and the text *)
Record entry := mkEntry { e_by : nat; e_txt : list Z }.
(* [d_os]: what the kernel has; [d_buf]: what is in the buffer of the FILE;
   [d_gen]: 0 without a FILE, a new number for each fopen; [d_log]: history of
   the writes *)
Record fdev := mkFdev { d_os : list Z; d_buf : list Z; d_gen : nat; d_log : list entry }.

(* where a thread is in EnterProcChannel *)
Inductive fpc :=
| FIdle                                             (* outside *)
| FTake                                             (* 109-122 *)
| FDisp (r j : nat)                                 (* DispatchLog of record r, before device j *)
| FMark (r : nat)                                   (* 125-128 *)
| FRel                                              (* 154-169, 172 *)
| FFlush (force : bool) (j : nat) (h : option nat)  (* the loop 176-182 or 194-200 before device j; FileHandler::flush
                                                       has tested file_ and found FILE h *)
| FTail                                             (* 186-192 *)
| FUdp.                                             (* 203-268 *)
Record fthr := mkFthr { f_pc : fpc; f_cnt : Z (* flush_count *) }.

(* [q_w]: the published records; [q_proc], [q_read]: how many have been taken
   and released; [q_done]: data_mark_ has been reset; [s_bad]: a FILE was used
   after fclose, which is undefined *)
Record fst_ := mkF {
  q_w : list (list Z);
  q_proc : nat;
  q_read : nat;
  q_done : nat -> bool;
  s_dev : nat -> fdev;
  s_thr : nat -> fthr;
  s_bad : bool
}.

Definition upd {A} (f : nat -> A) (i : nat) (a : A) : nat -> A := fun k => if Nat.eqb k i then a else f k.
Definition set_thr (s : fst_) (i : nat) (p : fpc) (n : Z) : fst_ :=
  mkF (q_w s) (q_proc s) (q_read s) (q_done s) (s_dev s) (upd (s_thr s) i (mkFthr p n)) (s_bad s).
Definition set_dev (s : fst_) (d : nat) (v : fdev) : fst_ :=
  mkF (q_w s) (q_proc s) (q_read s) (q_done s) (upd (s_dev s) d v) (s_thr s) (s_bad s).

(* fwrite; opens the file if there is none, fn_out_file_device.h:319-340 *)
Definition fwrite_to (v : fdev) (i : nat) (m : list Z) : fdev :=
  mkFdev (d_os v) (d_buf v ++ m) (if Nat.eqb (d_gen v) 0 then 1%nat else d_gen v) (d_log v ++ [mkEntry i m]).
(* fflush, fn_file.h:189-195 *)
Definition fflush_it (v : fdev) : fdev := mkFdev (d_os v ++ d_buf v) [] (d_gen v) (d_log v).
(* FileHandler::close and open when the file rolls, fn_out_file_device.h:236-248, 300 *)
Definition froll_it (v : fdev) : fdev :=
  if Nat.eqb (d_gen v) 0 then v else mkFdev (d_os v ++ d_buf v) [] (S (d_gen v)) (d_log v).
(* stdio hands over the first n bytes on its own *)
Definition fspill_it (v : fdev) (n : nat) : fdev :=
  mkFdev (d_os v ++ firstn n (d_buf v)) (skipn n (d_buf v)) (d_gen v) (d_log v).

Inductive flabel :=
| FPub (m : list Z)                  (* a log statement publishes a record *)
| FEnter (i : nat)                   (* thread i calls EnterProcChannel *)
| FStep (i : nat)
| FMiss (i : nat)                    (* the queue is empty or the compare-exchange fails, 111-122 *)
| FRoll (i : nat)                    (* the device about to be written rolls first *)
| FGram (i d : nat) (m : list Z)     (* a datagram, 236-249 *)
| FRound (i : nat)                   (* the loop 103-262 goes on (asynchronous channel) *)
| FLeave (i : nat)                   (* EnterProcChannel returns *)
| FSpill (d n : nat).

Definition fstep (c : fcfg) (s : fst_) (l : flabel) : option fst_ :=
  match l with
  | FPub m => Some (mkF (q_w s ++ [m]) (q_proc s) (q_read s) (q_done s) (s_dev s) (s_thr s) (s_bad s))
  | FEnter i => match f_pc (s_thr s i) with FIdle => Some (set_thr s i FTake 0) | _ => None end
  | FMiss i => match f_pc (s_thr s i) with FTake => Some (set_thr s i FTail (f_cnt (s_thr s i))) | _ => None end
  | FRound i => match f_pc (s_thr s i) with FUdp => Some (set_thr s i FTake 0) | _ => None end
  | FLeave i => match f_pc (s_thr s i) with FUdp => Some (set_thr s i FIdle 0) | _ => None end
  | FGram i d m =>
      match f_pc (s_thr s i) with
      | FUdp => if f_udp c d && Nat.ltb d (f_ndev c) then Some (set_dev s d (fwrite_to (s_dev s d) i m)) else None
      | _ => None
      end
  | FSpill d n => Some (set_dev s d (fspill_it (s_dev s d) n))
  | FRoll i =>
      match f_pc (s_thr s i) with
      | FDisp r j =>
          if Nat.ltb j (f_ndev c) && f_acc c j (nth r (q_w s) []) then Some (set_dev s j (froll_it (s_dev s j))) else None
      | _ => None
      end
  | FStep i =>
      let n := f_cnt (s_thr s i) in
      match f_pc (s_thr s i) with
      | FIdle | FUdp => None
      | FTake =>
          if Nat.ltb (q_proc s) (length (q_w s))
          then Some (set_thr (mkF (q_w s) (S (q_proc s)) (q_read s) (q_done s) (s_dev s) (s_thr s) (s_bad s)) i (FDisp (q_proc s) 0) n)
          else None
      | FDisp r j =>
          if Nat.ltb j (f_ndev c) then
            let m := nth r (q_w s) [] in
            Some (set_thr (if f_acc c j m then set_dev s j (fwrite_to (s_dev s j) i m) else s) i (FDisp r (S j)) n)
          else Some (set_thr s i (FMark r) n)
      | FMark r =>
          Some (set_thr (mkF (q_w s) (q_proc s) (q_read s) (upd (q_done s) r true) (s_dev s) (s_thr s) (s_bad s)) i FRel (n + 1))
      | FRel =>
          if Nat.ltb (q_read s) (q_proc s) && q_done s (q_read s)
          then Some (mkF (q_w s) (q_proc s) (S (q_read s)) (q_done s) (s_dev s) (s_thr s) (s_bad s))
          else if f_force c <? n then Some (set_thr s i (FFlush true 0 None) 0) else Some (set_thr s i FTake n)
      | FFlush b j None =>
          if Nat.ltb j (f_ndev c) then
            Some (if Nat.eqb (d_gen (s_dev s j)) 0 then set_thr s i (FFlush b (S j) None) n
                  else set_thr s i (FFlush b j (Some (d_gen (s_dev s j)))) n)
          else Some (set_thr s i (if b then FTake else FUdp) n)
      | FFlush b j (Some g) =>
          let s1 := set_thr s i (FFlush b (S j) None) n in
          Some (if Nat.eqb g (d_gen (s_dev s j)) then set_dev s1 j (fflush_it (s_dev s j))
                else mkF (q_w s1) (q_proc s1) (q_read s1) (q_done s1) (s_dev s1) (s_thr s1) true)
      | FTail => Some (set_thr s i (if n =? 0 then FUdp else FFlush false 0 None) n)
      end
  end.

Fixpoint frun (c : fcfg) (s : fst_) (ls : list flabel) : option fst_ :=
  match ls with
  | [] => Some s
  | l :: ls' => match fstep c s l with Some s' => frun c s' ls' | None => None end
  end.
(* the channel has just been started *)
Definition fstart : fst_ :=
  mkF [] 0 0 (fun _ => false) (fun _ => mkFdev [] [] 0 []) (fun _ => mkFthr FIdle 0) false.

(* only thread [i] processes the queue: an asynchronous channel, or one logging thread *)
Definition only_thread (i : nat) (ls : list flabel) : Prop :=
  Forall (fun l => match l with
                   | FEnter k | FStep k | FMiss k | FRoll k | FGram k _ _ | FRound k | FLeave k => k = i
                   | _ => True
                   end) ls.
