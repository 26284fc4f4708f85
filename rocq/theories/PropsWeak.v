(* Property C116: the queue of a channel when loads may return old values. *)
From Coq Require Import String ZArith List Bool Lia.
From Verif Require Import Base LoggerState Ring WeakRing WeakSpec WeakProofs WeakOut WeakLaws WeakOne WeakLive.
Import ListNotations.
Open Scope Z_scope.

Definition cw : rcfg := mkCfg 11 100 false.
(* Threads 1 and 2 each reserve and fill a record; the second reserves after the
   first.  [wA], [wB]: HoldChannel to PushChannel line 499; [wA2]: thread 1 publishes
   its own record and loads the old mark of the second, [wA3]: the same when there is
   no second record; [wB2]: thread 2 has loaded
   its old view of the write index and the old mark of the first record; [wC]: the
   writer thread takes what is published and looks again. *)
Definition wA : list wlabel := [XRun 1 0 0; XRun 1 0 0; XRun 1 0 0; XRun 1 0 1; XRun 1 0 1; XRun 1 0 2].
Definition wB : list wlabel := [XRun 2 1 0; XRun 2 0 0; XRun 2 1 0; XRun 2 0 1; XRun 2 0 1; XRun 2 0 2].
Definition wA2 : list wlabel := [XRun 1 0 0; XRun 1 1 0; XRun 1 2 0; XRun 1 0 0; XRun 1 1 0; XRun 1 2 0; XRun 1 1 0].
Definition wA3 : list wlabel := [XRun 1 0 0; XRun 1 1 0; XRun 1 2 0; XRun 1 0 0; XRun 1 1 0; XRun 1 1 0].
Definition wB2 : list wlabel := [XRun 2 0 0; XRun 2 2 0; XRun 2 1 0].
Definition wC : list wlabel := [XRun 0 0 0; XRun 0 1 0; XRun 0 0 0; XRun 0 1 0; XRun 0 0 3; XRun 0 0 0; XRun 0 1 0; XRun 0 3 0; XRun 0 0 0; XRun 0 1 0; XRun 0 1 0; XRun 0 1 0; XRun 0 1 0].
Definition wlog : list wlabel := [XLog 1 [65]; XLog 2 [66]].

(* No two threads are ever at work on the same slot, whether they fill or dispatch. *)
Theorem C116_slots : forall c k ls s n m t u i j, 1 < n_ring c -> weakly c k ls s -> n <> m ->
  nth_error (w_ths s) n = Some t -> nth_error (w_ths s) m = Some u ->
  w_filling t = Some i \/ w_reading t = Some i -> w_filling u = Some j \/ w_reading u = Some j -> i <> j.
Proof. exact slots_apart. Qed.
Print Assumptions C116_slots.
Example C116_slots_hypotheses : exists s, weakly cw 2 (wlog ++ firstn 3 wA ++ firstn 3 wB) s /\
  map w_filling (w_ths s) = [None; Some 0; Some 1].
Proof. apply weakly_run; vm_compute; reflexivity. Qed.

(* A thread that is about to write or to read a record has seen every earlier store
   to the record, and the marks by which those who used the slot before said so: the
   plain accesses to the records do not race, and the read is of the last store. *)
Theorem C116_race : forall c k ls s n t i, 1 < n_ring c -> weakly c k ls s -> nth_error (w_ths s) n = Some t ->
  w_pc t = WFill i \/ w_pc t = WCRead i -> up_to_date s t (LRec i) /\ up_to_date s t (LMark i).
Proof. exact no_race. Qed.
Print Assumptions C116_race.
Example C116_race_hypotheses : exists s, weakly cw 2 (wlog ++ wA ++ wA3 ++ firstn 3 wC) s /\ map w_pc (w_ths s) = [WCRead 0; WIdle; WHLoad].
Proof. apply weakly_run; vm_compute; reflexivity. Qed.

(* What is dispatched: no record twice, each with the text its thread put there, and
   everything claimed is dispatched or about to be. *)
Theorem C116_out : forall c k ls s, 1 < n_ring c -> weakly c k ls s ->
  NoDup (map fst (w_out s)) /\
  (forall p x, In (p, x) (w_out s) -> 0 <= p < w_top s LProc /\ exists n, nth_error (w_held s) (Z.to_nat p) = Some (n, x)) /\
  (forall p, 0 <= p < w_top s LProc ->
     (exists x, In (p, x) (w_out s)) \/ exists n t i, nth_error (w_ths s) n = Some t /\ w_pc t = WCRead i /\ i = p mod n_ring c).
Proof. exact delivered. Qed.
Print Assumptions C116_out.
Example C116_out_hypotheses : exists s, weakly cw 2 (wlog ++ wA ++ wA3 ++ wC) s /\ (w_held s, w_out s, w_top s LProc) = ([(1%nat, [65])], [(0, [65])], 1).
Proof. apply weakly_run; vm_compute; reflexivity. Qed.

(* The four indices stay in order and at most one record less than the ring has slots
   is under way. *)
Theorem C116_room : forall c k ls s, 1 < n_ring c -> weakly c k ls s ->
  w_top s LHold = zlen (w_held s) /\ 0 <= w_top s LRead <= w_top s LProc /\ w_top s LProc <= w_top s LWrite <= w_top s LHold /\
  w_top s LHold <= w_top s LRead + n_ring c - 1.
Proof. exact counts. Qed.
Print Assumptions C116_room.
Example C116_room_hypotheses : exists s, weakly cw 2 (wlog ++ wA ++ wB ++ wA2 ++ firstn 3 wC) s /\
  (w_top s LHold, w_top s LWrite, w_top s LProc, w_top s LRead) = (2, 1, 1, 0).
Proof. apply weakly_run; vm_compute; reflexivity. Qed.

(* A full ring keeps the next statement waiting: with two slots, one record. *)
Example C116_room_full : exists s, weakly (mkCfg 2 100 false) 2 ([XLog 1 [65]; XLog 2 [66]] ++ wA ++ [XRun 2 1 0; XRun 2 0 0; XRun 2 1 0; XRun 2 0 0]) s /\
  (w_held s, map w_pc (w_ths s)) = ([(1%nat, [65])], [WCLoad; WPLoad; WHLoad]).
Proof. apply weakly_run; vm_compute; reflexivity. Qed.

(* The statements of one thread are reserved in the order in which it made them, all
   but the one it is reserving now. *)
Theorem C116_started : forall c k ls s n t, weakly c k ls s -> nth_error (w_ths s) n = Some t ->
  w_of n (w_started s) = w_of n (w_held s) ++ match w_pc t with WHLoad | WHRead _ | WHCas _ => [w_msg t] | _ => [] end.
Proof. exact reserved_in_order. Qed.
Print Assumptions C116_started.
Example C116_started_hypotheses : exists s, weakly cw 2 (wlog ++ wA ++ wA3 ++ [XLog 1 [67]]) s /\
  (w_of 1 (w_started s), w_of 1 (w_held s), nth_error (map w_pc (w_ths s)) 1) = ([[65]; [67]], [[65]], Some WHLoad).
Proof. apply weakly_run; vm_compute; reflexivity. Qed.

(* An async channel dispatches in the order of reservation, without gaps. *)
Theorem C116_async : forall c k ls s, 1 < n_ring c -> is_sync c = false -> weakly c k ls s ->
  map snd (w_out s) = map snd (firstn (length (w_out s)) (w_held s)).
Proof. exact async_order. Qed.
Print Assumptions C116_async.
Definition wB3 : list wlabel := [XRun 2 1 0; XRun 2 2 0; XRun 2 2 0; XRun 2 1 0; XRun 2 2 0; XRun 2 2 0].
Definition wC2 : list wlabel := [XRun 0 1 0; XRun 0 2 0; XRun 0 1 0; XRun 0 1 0].
Example C116_async_hypotheses : exists s, weakly cw 2 (wlog ++ wA ++ wB ++ wA2 ++ wB3 ++ wC ++ wC2) s /\
  (w_held s, w_out s) = ([(1%nat, [65]); (2%nat, [66])], [(0, [65]); (1, [66])]).
Proof. apply weakly_run; vm_compute; reflexivity. Qed.

(* With one logging thread a statement that has returned has published its record,
   and all before it. *)
Theorem C116_single_partial : forall c ls s t, 1 < n_ring c -> weakly c 1 ls s ->
  nth_error (w_ths s) (if is_sync c then 0%nat else 1%nat) = Some t -> w_pc t = WIdle -> w_top s LWrite = zlen (w_held s).
Proof. exact one_published. Qed.
Print Assumptions C116_single_partial.
Example C116_single_hypotheses : exists s, weakly cw 1 ([XLog 1 [65]] ++ wA ++ wA3) s /\ (map w_pc (w_ths s), w_top s LWrite) = ([WCLoad; WIdle], 1).
Proof. apply weakly_run; vm_compute; reflexivity. Qed.

(* The writer thread dispatches no more than is published, however long it runs. *)
Theorem C116_stuck : forall c k ls more s s', 1 < n_ring c -> is_sync c = false -> weak_run c (weak_start c k) ls = Some s ->
  weakly c k (ls ++ more) s' -> Forall writer_only more -> zlen (w_out s') <= w_top s LWrite.
Proof. exact writer_alone. Qed.
Print Assumptions C116_stuck.
Example C116_stuck_hypotheses : exists s, weakly cw 2 ((wlog ++ wA ++ wB ++ wA2) ++ wC) s /\ Forall writer_only wC /\ zlen (w_out s) = 1.
Proof.
  destruct (weakly_run cw 2 ((wlog ++ wA ++ wB ++ wA2) ++ wC) (fun s => zlen (w_out s)) 1) as (s & A & B); [vm_compute; reflexivity|vm_compute; reflexivity|].
  exists s. split; [exact A|]. split; [repeat constructor|exact B].
Qed.

(* With two logging threads a record can stay behind: both statements have returned,
   the second record is filled and marked, and nothing publishes it until somebody
   logs again.  Thread 1 published its own record and saw the old mark of the second;
   thread 2 loaded the write index and the mark of the first record before it had
   seen what thread 1 did. *)
Theorem C116_publish_refuted : exists c k ls s, 1 < n_ring c /\ is_sync c = false /\ weakly c k ls s /\
  map w_pc (w_ths s) = [WCLoad; WIdle; WIdle] /\ w_held s = [(1%nat, [65]); (2%nat, [66])] /\ map snd (w_out s) = [[65]] /\
  forall more s', weakly c k (ls ++ more) s' -> Forall writer_only more -> zlen (w_out s') <= 1.
Proof.
  destruct (weakly_run cw 2 (wlog ++ wA ++ wB ++ wA2 ++ wB2 ++ wC) (fun s => (map w_pc (w_ths s), w_held s, map snd (w_out s), w_top s LWrite))
    ([WCLoad; WIdle; WIdle], [(1%nat, [65]); (2%nat, [66])], [[65]], 1)) as (s & A & B); [vm_compute; reflexivity|vm_compute; reflexivity|].
  injection B as B1 B2 B3 B4. exists cw, 2%nat, (wlog ++ wA ++ wB ++ wA2 ++ wB2 ++ wC), s. split; [reflexivity|]. split; [reflexivity|]. split; [exact A|].
  split; [exact B1|]. split; [exact B2|]. split; [exact B3|]. intros more s' W F. rewrite <- B4. exact (C116_stuck cw 2 _ more s s' eq_refl eq_refl (proj1 A) W F).
Qed.
Print Assumptions C116_publish_refuted.

(* No thread is ever without a next step: every load finds a store it may read and
   every store a place. *)
Theorem C116_enabled : forall c k ls s n t, 0 < n_ring c -> weak_run c (weak_start c k) ls = Some s -> nth_error (w_ths s) n = Some t ->
  exists a s', weak_step c s a = Some s' /\ match a with XLog m _ => m = n /\ w_pc t = WIdle | XRun m _ _ => m = n /\ w_pc t <> WIdle end.
Proof. exact always_enabled. Qed.
Print Assumptions C116_enabled.
Example C116_enabled_hypotheses : exists s, weakly cw 2 (wlog ++ firstn 3 wA ++ firstn 3 wB) s /\ map w_pc (w_ths s) = [WCLoad; WHMark 0; WHMark 1].
Proof. apply weakly_run; vm_compute; reflexivity. Qed.
