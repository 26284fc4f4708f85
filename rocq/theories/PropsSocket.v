(* The socket of a UDP input: C128. *)
From Coq Require Import ZArith List Bool Arith Lia.
From Verif Require Sys.
From Verif Require Import Base Socket SocketSpec SocketProofs.
Import ListNotations.
Open Scope Z_scope.

(* a process with the three standard descriptors *)
Definition ex_fds (fd : nat) : fdkind := if Nat.ltb fd 3 then KOther else KFree.

(* one thread (an asynchronous channel has no more) *)
Theorem C128_one_thread_partial : forall i t fds ls s, (forall fd, fds fd <> KSock) -> only_runs i ls -> sruns (sock0 t fds) ls = Some s ->
  k_foreign s = false /\ single s /\ (resting s -> no_leak s).
Proof. exact one_thread_socket. Qed.
Print Assumptions C128_one_thread_partial.
(* opened as 3, bound, read, disabled and closed; enabled three seconds later, opened as 4 because
   the process has opened 3, bind fails *)
Definition run1 (i n : nat) : list slabel := repeat (SRun i (Some 3%nat) true) n.
Definition ex_life : list slabel :=
  run1 7 10 ++ [SAble false] ++ run1 7 5 ++ [SOther 3; SAble true; STick 103] ++ repeat (SRun 7 (Some 4%nat) false) 8.
Definition sees (s : option sstate) (h : option nat) (fds : list fdkind) (foreign : bool) : Prop :=
  match s with Some s => k_h s = h /\ map (k_fds s) [3; 4; 5]%nat = fds /\ k_foreign s = foreign /\ map (k_pc s) [0; 1; 7]%nat = [SStart; SStart; SStart] | None => False end.
Example C128_one_thread_hypotheses : (forall fd, ex_fds fd <> KSock) /\ only_runs 7 ex_life /\
  sees (sruns (sock0 100 ex_fds) (firstn 10 ex_life)) (Some 3%nat) [KSock; KFree; KFree] false /\
  sees (sruns (sock0 100 ex_fds) (firstn 16 ex_life)) None [KFree; KFree; KFree] false /\
  (exists s, sruns (sock0 100 ex_fds) ex_life = Some s /\ k_h s = Some 4%nat /\ map (k_fds s) [3; 4]%nat = [KOther; KSock] /\ k_pc s 7%nat = SClose1 false).
Proof.
  split; [intros fd; unfold ex_fds; destruct (Nat.ltb fd 3); discriminate|]. split.
  - intros j fd ok H. cbn in H. repeat (destruct H as [H|H]; [try discriminate; injection H as <- <- <-; reflexivity|]). contradiction.
  - split; [vm_compute; auto|]. split; [vm_compute; auto|]. apply seen. vm_compute. auto.
Qed.

(* undisturbed, a visit does to the handle what a round of Sys.v does (C99, C100), whatever socket()
   and bind() answer; an open socket of an enabled device is kept, that of a disabled one is closed *)
Theorem C128_visit : forall s i fd ok addr, k_pc s i = SStart -> (forall x, fd = Some x -> k_fds s x = KFree) ->
  exists s', visit 12 s i fd ok = Some s' /\ k_pc s' i = SStart /\
    as_sys s' addr = fst (Sys.in_round (Sys.mkRoundIo (k_now s) (k_able s) addr (match fd with Some _ => true | None => false end) ok) (as_sys s addr)) /\
    (k_h s = None -> k_h s' = None \/ k_h s' = fd) /\ (k_able s = true -> forall f, k_h s = Some f -> k_h s' = Some f /\ forall x, k_fds s' x = k_fds s x) /\
    (forall f, k_h s = Some f -> k_able s = false -> k_fds s' f = KFree).
Proof. exact visit_round. Qed.
Print Assumptions C128_visit.
Example C128_visit_hypotheses : let s := sock0 100 ex_fds in k_pc s 7%nat = SStart /\ (forall x, Some 3%nat = Some x -> k_fds s x = KFree) /\
  Sys.in_round (Sys.mkRoundIo 100 true (1, 2) true true) (as_sys s (1, 2)) = (Sys.mkUdp 100 (Some (Some (1, 2))), true) /\
  Sys.in_round (Sys.mkRoundIo 100 true (1, 2) true false) (as_sys s (1, 2)) = (Sys.mkUdp 100 None, true) /\
  Sys.in_round (Sys.mkRoundIo 2 true (1, 2) true true) (as_sys s (1, 2)) = (Sys.mkUdp 0 None, false).
Proof. cbv zeta. split; [reflexivity|]. split; [intros x [= <-]; reflexivity|]. repeat split. Qed.

(* any number of threads, once the socket is open and while the device stays enabled *)
Theorem C128_open_partial : forall f ls s s', resting s -> k_h s = Some f -> no_leak s -> k_able s = true -> k_foreign s = false -> stays_enabled ls -> sruns s ls = Some s' ->
  k_h s' = Some f /\ no_leak s' /\ k_foreign s' = false.
Proof. exact open_stays. Qed.
Print Assumptions C128_open_partial.
Example C128_open_hypotheses : exists s, sruns (sock0 100 ex_fds) (run1 7 10) = Some s /\ resting s /\ k_h s = Some 3%nat /\ no_leak s /\ k_able s = true /\ k_foreign s = false /\
  stays_enabled [SRun 0 None true; SRun 1 None true; SOther 4; SRun 0 None true; SRun 0 None true] /\
  sees (sruns s [SRun 0 None true; SRun 1 None true; SOther 4; SRun 0 None true; SRun 0 None true; SRun 0 None true; SRun 1 None true; SRun 1 None true; SRun 1 None true]) (Some 3%nat) [KSock; KOther; KFree] false.
Proof.
  destruct (seen (sruns (sock0 100 ex_fds) (run1 7 10)) (fun s =>
    (k_h s = Some 3%nat /\ k_able s = true /\ k_foreign s = false /\ forallb (fun i => match k_pc s i with SStart => true | _ => false end) (seq 0 8) = true) /\
    sees (sruns s [SRun 0 None true; SRun 1 None true; SOther 4; SRun 0 None true; SRun 0 None true; SRun 0 None true; SRun 1 None true; SRun 1 None true; SRun 1 None true]) (Some 3%nat) [KSock; KOther; KFree] false)) as (s & E & (H & AB & FG & P) & X);
    [vm_compute; auto 10|].
  assert (resting s) as REST by (apply (all_rest 8 (run1 7 10) 100 ex_fds); [reflexivity|exact E|exact P]).
  exists s. split; [exact E|]. split; [exact REST|]. split; [exact H|]. split.
  - apply (C128_one_thread_partial 7 100 ex_fds (run1 7 10) s); [|intros j fd ok I; apply repeat_spec in I; congruence|exact E|exact REST].
    intros fd. unfold ex_fds. destruct (Nat.ltb fd 3); discriminate.
  - split; [exact AB|]. split; [exact FG|]. split; [intros I; cbn in I; repeat (destruct I as [I|I]; [discriminate|]); contradiction|exact X].
Qed.

(* the full statement is false: two threads open at once, and the socket that came first stays open for ever *)
Definition th (i f : nat) : slabel := SRun i (Some f) true.
Definition ex_leak : list slabel :=
  [th 0 3; th 0 3; th 0 3; th 1 4; th 1 4; th 1 4; th 0 3; th 0 3; th 1 4; th 1 4; th 0 3; th 1 4] ++ repeat (th 0 3) 4 ++ repeat (th 1 4) 4.
Theorem C128_leak_refuted : exists ls s, sruns (sock0 100 ex_fds) ls = Some s /\ resting s /\ k_h s = Some 4%nat /\ k_fds s 3%nat = KSock /\ k_fds s 4%nat = KSock.
Proof.
  exists ex_leak. destruct (seen (sruns (sock0 100 ex_fds) ex_leak) (fun s => forallb (fun i => match k_pc s i with SStart => true | _ => false end) (seq 0 2) = true /\ k_h s = Some 4%nat /\ k_fds s 3%nat = KSock /\ k_fds s 4%nat = KSock)) as (s & E & P & X); [vm_compute; auto|].
  exists s. split; [exact E|]. split; [|exact X]. apply (all_rest 2 ex_leak 100 ex_fds); [reflexivity|exact E|exact P].
Qed.
Print Assumptions C128_leak_refuted.

(* two threads find the device disabled, and the second closes a descriptor that the process
   has opened meanwhile *)
Definition ex_foreign : list slabel :=
  run1 0 10 ++ [SAble false; th 0 3; th 0 3; th 0 3; th 1 3; th 1 3; th 1 3; th 0 3; SOther 3; th 1 3; th 0 3; th 1 3].
Theorem C128_foreign_refuted : exists ls s, sruns (sock0 100 ex_fds) ls = Some s /\ resting s /\ k_foreign s = true /\ k_fds s 3%nat = KFree.
Proof.
  exists ex_foreign. destruct (seen (sruns (sock0 100 ex_fds) ex_foreign) (fun s => forallb (fun i => match k_pc s i with SStart => true | _ => false end) (seq 0 2) = true /\ k_foreign s = true /\ k_fds s 3%nat = KFree)) as (s & E & P & X); [vm_compute; auto|].
  exists s. split; [exact E|]. split; [|exact X]. apply (all_rest 2 ex_foreign 100 ex_fds); [reflexivity|exact E|exact P].
Qed.
Print Assumptions C128_foreign_refuted.

(* a thread reads from a descriptor of the process *)
Definition ex_read : list slabel :=
  run1 0 10 ++ [th 1 3; th 1 3; th 1 3; SAble false; th 0 3; th 0 3; th 0 3; th 0 3; SOther 3; th 1 3; th 0 3].
Theorem C128_read_refuted : exists ls s, sruns (sock0 100 ex_fds) ls = Some s /\ resting s /\ k_foreign s = true /\ k_fds s 3%nat = KOther.
Proof.
  exists ex_read. destruct (seen (sruns (sock0 100 ex_fds) ex_read) (fun s => forallb (fun i => match k_pc s i with SStart => true | _ => false end) (seq 0 2) = true /\ k_foreign s = true /\ k_fds s 3%nat = KOther)) as (s & E & P & X); [vm_compute; auto|].
  exists s. split; [exact E|]. split; [|exact X]. apply (all_rest 2 ex_read 100 ex_fds); [reflexivity|exact E|exact P].
Qed.
Print Assumptions C128_read_refuted.
