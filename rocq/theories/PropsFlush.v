(* C124, C125: what is in the log files when the process dies, and flushing a file that is being closed. *)
From Coq Require Import ZArith List Bool Arith Lia.
From Verif Require Import Base BaseFacts Flush FlushProofs.
Import ListNotations.
Open Scope Z_scope.

(* C124.  Any number of threads process the queue.  Of what each thread has written
   to a file the last FN_LOG_FORCE_FLUSH_QUE + 1 records at most are not in the
   kernel, and none once the thread is through its flush at the end
   (fn_channel.h:192-201): a log statement on a synchronous channel that has
   returned has its record in the file. *)
Theorem C124_bound : forall c ls s d, 0 <= f_force c -> frun c fstart ls = Some s -> s_bad s = false ->
  (d < f_ndev c)%nat -> f_udp c d = false ->
  exists safe rest x, d_log (s_dev s d) = safe ++ rest /\
    d_os (s_dev s d) = concat (map e_txt safe) ++ x /\
    x ++ d_buf (s_dev s d) = concat (map e_txt rest) /\
    forall i, Z.of_nat (length (filter (fun e => Nat.eqb (e_by e) i) rest)) <= f_force c + 1 /\
      (f_pc (s_thr s i) = FIdle \/ f_pc (s_thr s i) = FUdp -> forall e, In e rest -> e_by e <> i).
Proof.
  intros c ls s d F R B DN DU. destruct (pending_bound c ls s d F R B DN DU) as (g1 & g2 & x & A & O & P & K).
  exists g1, g2, x. split; [exact A|]. split; [exact O|]. split; [exact P|]. intros i. destruct (K i) as [K1 K2]. split.
  - replace (Z.of_nat _) with (by_of i g2); [exact K1|]. clear. induction g2 as [|e g IH]; [reflexivity|].
    cbn [by_of filter]. rewrite IH. destruct (Nat.eqb (e_by e) i); cbn [length]; lia.
  - intros PC e IN. apply (by_zero i g2); [rewrite (K2 PC); lia|exact IN].
Qed.
Print Assumptions C124_bound.

(* two threads, a limit of 1: thread 1 has one record in the buffer behind those of thread 0 *)
Definition two_threads : list flabel :=
  [FPub [65]; FPub [66]; FPub [67]; FEnter 0; FEnter 1;
   FStep 0; FStep 0; FStep 0; FStep 0; FStep 0; FStep 0; FStep 1; FStep 1; FStep 0; FStep 0; FStep 0; FStep 0].
Example C124_bound_hypotheses :
  exists s, frun (one_dev 1) fstart two_threads = Some s /\ s_bad s = false /\ (0 < f_ndev (one_dev 1))%nat /\
    f_udp (one_dev 1) 0 = false /\ map e_by (d_log (s_dev s 0)) = [0; 1; 0]%nat /\ d_buf (s_dev s 0) = [65; 66; 67].
Proof. eexists. split; [vm_compute; reflexivity|]. cbn. auto 10. Qed.

(* One thread processes the queue (an asynchronous channel).  When the process is
   killed, the file has all released records that it takes, in order, but for the
   last FN_LOG_FORCE_FLUSH_QUE + 1 at most, and part of the text of the others.  The
   records that have not been released are still in a queue in shared memory. *)
Theorem C124_crash : forall c i ls s d, 0 <= f_force c -> frun c fstart ls = Some s -> only_thread i ls ->
  (d < f_ndev c)%nat -> f_udp c d = false ->
  exists kept lost x, filter (f_acc c d) (firstn (q_read s) (q_w s)) = kept ++ lost /\
    d_os (s_dev s d) = concat kept ++ x /\ Z.of_nat (length lost) <= f_force c + 1.
Proof. exact crash_files. Qed.
Print Assumptions C124_crash.

(* ... and between the flush and the next record the file has everything. *)
Theorem C124_idle : forall c i ls s d, 0 <= f_force c -> frun c fstart ls = Some s -> only_thread i ls ->
  (d < f_ndev c)%nat -> f_udp c d = false -> f_pc (s_thr s i) = FIdle \/ f_pc (s_thr s i) = FUdp ->
  d_buf (s_dev s d) = [] /\ d_os (s_dev s d) = concat (filter (f_acc c d) (firstn (q_proc s) (q_w s))).
Proof.
  intros c i ls s d F R ON DN DU PC.
  destruct (alone_files c i ls s d F R ON DN DU) as (_ & k & l1 & l2 & x & _ & _ & _ & FL & OS & BF & _ & Z).
  destruct (Z PC) as [-> ->]. apply app_eq_nil in BF. destruct BF as [-> BF]. split; [exact BF|].
  rewrite FL, OS, !app_nil_r. reflexivity.
Qed.
Print Assumptions C124_idle.

(* two devices, the second takes short records only; the first file rolls before the last record *)
Definition even_dev : fcfg := mkFcfg 1 2 (fun d m => match d with O => true | _ => Nat.ltb (length m) 2 end) (fun _ => false).
Definition one_round : list flabel :=
  [FPub [65]; FPub [66; 66]; FPub [67]; FEnter 3] ++ repeat (FStep 3) 7 ++ repeat (FStep 3) 12 ++ [FSpill 0 0] ++
  [FStep 3; FRoll 3] ++ repeat (FStep 3) 6 ++ [FMiss 3] ++ repeat (FStep 3) 6.
Example C124_crash_hypotheses :
  exists s, frun even_dev fstart one_round = Some s /\ only_thread 3 one_round /\ f_pc (s_thr s 3) = FUdp /\
    q_read s = 3%nat /\ d_os (s_dev s 0) = [65; 66; 66; 67] /\ d_os (s_dev s 1) = [65; 67] /\ d_gen (s_dev s 0) = 2%nat.
Proof. eexists. split; [vm_compute; reflexivity|]. split; [repeat constructor|]. cbn. auto 10. Qed.
(* the same killed in the middle of the third record *)
Example C124_crash_example :
  exists s, frun even_dev fstart (firstn 27 one_round) = Some s /\ only_thread 3 (firstn 27 one_round) /\
    q_read s = 2%nat /\ d_os (s_dev s 0) = [65; 66; 66] /\ d_buf (s_dev s 0) = [67].
Proof. eexists. split; [vm_compute; reflexivity|]. split; [repeat constructor|]. cbn. auto 10. Qed.

(* The bound is reached whatever the limit is: all FN_LOG_FORCE_FLUSH_QUE + 1 records
   have been released, so a restart does not find them in the queue, and the file
   is empty. *)
Theorem C124_lost_refuted : forall F m, 0 <= F -> exists ls s,
  frun (one_dev F) fstart ls = Some s /\ only_thread 0 ls /\ q_w s = repeat m (Z.to_nat (F + 1)) /\
  q_read s = length (q_w s) /\ d_os (s_dev s 0) = [].
Proof. exact bound_reached. Qed.
Print Assumptions C124_lost_refuted.
(* the built-in limit, fn_data.h:72-74 *)
Example C124_lost_refuted_example : exists ls s,
  frun (one_dev 10000) fstart ls = Some s /\ length (q_w s) = Z.to_nat 10001 /\ q_read s = Z.to_nat 10001 /\ d_os (s_dev s 0) = [].
Proof.
  destruct (bound_reached 10000 [65; 10] ltac:(lia)) as (ls & s & R & _ & W & Q & E). exists ls, s.
  split; [exact R|]. rewrite Q, W, repeat_length. auto.
Qed.

(* A datagram that goes to a file is written after the flush, and rounds without a
   record do not flush: it stays in the buffer for any number of rounds. *)
Theorem C124_datagram_refuted : forall F m n, exists s,
  frun (gram_cfg F) fstart ([FEnter 0; FMiss 0; FStep 0; FGram 0 0 m] ++ concat (repeat [FRound 0; FMiss 0; FStep 0] n)) = Some s /\
  d_os (s_dev s 0) = [] /\ d_buf (s_dev s 0) = m /\ f_pc (s_thr s 0) = FUdp.
Proof.
  intros F m n. destruct (gram_waits F m n) as (s & R & A & B & C & _). exists s. split; [|auto]. rewrite <- R. f_equal. f_equal.
  clear. induction n as [|n IH]; [reflexivity|]. cbn [repeat concat app idle_rounds]. do 3 f_equal. exact IH.
Qed.
Print Assumptions C124_datagram_refuted.
Example C124_datagram_refuted_example :
  exists s, frun (gram_cfg 10000) fstart [FEnter 0; FMiss 0; FStep 0; FGram 0 0 [65; 10]; FRound 0; FMiss 0; FStep 0] = Some s /\
    d_os (s_dev s 0) = [] /\ d_buf (s_dev s 0) = [65; 10].
Proof. eexists. split; [vm_compute; reflexivity|]. cbn. auto. Qed.

(* C125.  FileHandler::flush (fn_file.h:189-195) runs outside read_locks_.  It never
   meets a FILE that has been closed if one thread processes the queue ... *)
Theorem C125_one_thread_partial : forall c i ls s, frun c fstart ls = Some s -> only_thread i ls -> s_bad s = false.
Proof. intros c i ls s R ON. exact (sv_good _ _ _ (sinv_run c i ls fstart s (sinv_start c i) R ON)). Qed.
Print Assumptions C125_one_thread_partial.
(* ... or if no file rolls; ... *)
Theorem C125_no_roll_partial : forall c ls s, frun c fstart ls = Some s -> (forall i, ~ In (FRoll i) ls) -> s_bad s = false.
Proof.
  intros c ls s R NR. apply (kept_file_run c ls fstart s); [|exact R|exact NR]. split; [reflexivity|]. intros k. exact I.
Qed.
Print Assumptions C125_no_roll_partial.
Example C125_partial_hypotheses :
  (exists s, frun even_dev fstart one_round = Some s /\ only_thread 3 one_round /\ In (FRoll 3) one_round) /\
  (exists s, frun (one_dev 1) fstart two_threads = Some s /\ forall i, ~ In (FRoll i) two_threads).
Proof.
  split.
  - eexists. split; [vm_compute; reflexivity|]. split; [repeat constructor|]. cbn. auto 40.
  - eexists. split; [vm_compute; reflexivity|]. cbn. intros i H. repeat destruct H as [H|H]; try discriminate; contradiction.
Qed.
(* ... with two threads it does: one has tested file_ when the other, writing the
   next record, closes the file (fn_out_file_device.h:236-248). *)
Definition flush_closed : list flabel :=
  [FPub [65]; FEnter 0; FStep 0; FStep 0; FStep 0; FStep 0; FStep 0; FStep 0; FMiss 0; FStep 0; FStep 0;
   FPub [66]; FEnter 1; FStep 1; FRoll 1; FStep 0].
Theorem C125_two_threads_refuted : exists c ls s, f_force c = 10000 /\ frun c fstart ls = Some s /\ s_bad s = true.
Proof. exists (one_dev 10000), flush_closed. eexists. split; [reflexivity|]. split; [vm_compute; reflexivity|reflexivity]. Qed.
Print Assumptions C125_two_threads_refuted.
