(* Property C109: the memory order of the queue.  Under every schedule, which
   plain accesses of different threads are ordered by acquire and release, and
   which are data races. *)
From Coq Require Import ZArith List Bool Lia ZifyBool ZifyNat ZifyN.
From Verif Require Import Base BaseFacts LoggerState Ring RingSpec RingInv RingProofs RingRun PropsRing
  Mem MemSpec MemProofs.
Import ListNotations.
Open Scope Z_scope.

(* Any two accesses to the bytes of one slot, by whichever threads and for
   whichever records, are ordered by happens-before. *)
Theorem C109_text_partial : forall c slots k ls s i j a b, cfg_ok c -> blank c slots ->
  reaches c slots k ls s -> no_lap c (start c slots k) ls -> no_restart ls ->
  let tr := trace c (start c slots k) ls in
  (i < j)%nat -> nth_error tr i = Some a -> nth_error tr j = Some b ->
  on_text a -> e_place a = e_place b -> before tr i j.
Proof.
  intros c slots k ls s i j a b C B R NL NR tr L A D [n T] E.
  apply (followed_ordered c slots k ls s i j a b n); try assumption; left; congruence.
Qed.
Print Assumptions C109_text_partial.
(* thread 1 fills the first record, the writer reads it, and ten records later
   thread 2 fills the same slot *)
Definition mem_ls : list label :=
  (LLog 1 [65] :: R 22 1) ++ R 40 0 ++
  concat (repeat ((LLog 2 [66; 66] :: R 23 2) ++ R 40 0) 11).
Example C109_text_hypotheses : exists s a b d,
  reaches ca sl 2 mem_ls s /\ no_lapb ca (start ca sl 2) mem_ls = true /\ no_restart mem_ls /\
  let tr := trace ca (start ca sl 2) mem_ls in
  nth_error tr 7 = Some a /\ nth_error tr 31 = Some b /\ nth_error tr 828 = Some d /\
  a = mkEvent (Some 1%nat) 289 (PlText 0) Set_ /\
  b = mkEvent (Some 0%nat) 124 (PlText 0) Get /\
  d = mkEvent (Some 2%nat) 289 (PlText 0) Set_.
Proof.
  do 4 eexists. split; [vm_compute; reflexivity|]. split; [vm_compute; reflexivity|].
  split; [intros H; unfold mem_ls, R in H; cbn [repeat app concat] in H;
          repeat (destruct H as [H|H]; [discriminate H|]); destruct H|].
  cbv zeta. split; [vm_compute; reflexivity|]. split; [vm_compute; reflexivity|]. split; [vm_compute; reflexivity|].
  repeat split; reflexivity.
Qed.

(* The races that remain: channel_state_, which is a plain int, and the length
   of a record, read by line 500 after the record was handed on, or on a sync
   channel by line 127 after the slot was given back. *)
Theorem C109_races_partial : forall c slots k ls s i j a b, cfg_ok c -> blank c slots ->
  reaches c slots k ls s -> no_lap c (start c slots k) ls -> no_restart ls ->
  race (trace c (start c slots k) ls) i j a b ->
  e_place a = PlState \/
  (on_length a /\ (e_line a = 500 \/ e_line b = 500 \/
                   (is_sync c = true /\ (e_line a = 127 \/ e_line b = 127)))).
Proof.
  intros c slots k ls s i j a b C B R NL NR (L & A & D & (W & E & P1 & P2 & ST) & NB).
  destruct (trace_plain c ls (start c slots k) a (nth_error_In _ _ A) P1) as [S|(n & [T|T])]; [left; assumption|..].
  - exfalso. apply NB. apply (followed_ordered c slots k ls s i j a b n); try assumption; left; congruence.
  - right. split; [exists n; assumption|].
    destruct (Z.eq_dec (e_line a) 500) as [Q|Q]; [left; assumption|right].
    destruct (Z.eq_dec (e_line b) 500) as [Q'|Q']; [left; assumption|right].
    destruct (is_sync c) eqn:SY.
    + split; [reflexivity|]. destruct (Z.eq_dec (e_line a) 127) as [X|X]; [left; assumption|right].
      destruct (Z.eq_dec (e_line b) 127) as [Y|Y]; [assumption|]. exfalso. apply NB.
      apply (followed_ordered c slots k ls s i j a b n); try assumption; right; (split; [congruence|]); split; auto; congruence.
    + exfalso. apply NB.
      apply (followed_ordered c slots k ls s i j a b n); try assumption; right; (split; [congruence|]); split; auto.
Qed.
Print Assumptions C109_races_partial.

(* While the logger is not stopped, channel_state_ is only read: the only races
   are those on the length. *)
Theorem C109_running_partial : forall c slots k ls s i j a b, cfg_ok c -> blank c slots ->
  reaches c slots k ls s -> no_lap c (start c slots k) ls -> threads_only ls ->
  race (trace c (start c slots k) ls) i j a b -> on_length a.
Proof.
  intros c slots k ls s i j a b C B R NL TO RA.
  destruct (C109_races_partial c slots k ls s i j a b C B R NL (RingQuiet.threads_no_restart _ TO) RA) as [S|[Q _]];
    [|assumption].
  exfalso. destruct RA as (L & A & D & (W & E & P1 & P2 & ST) & NB).
  assert (N : 0 < n_ring c) by (destruct C; lia).
  pose proof (inv_start c slots k C B) as IV. pose proof (RingQuiet.live_start c slots k) as LV.
  pose proof (trace_state c ls _ a N IV LV NL TO (nth_error_In _ _ A) S).
  pose proof (trace_state c ls _ b N IV LV NL TO (nth_error_In _ _ D) ltac:(congruence)).
  destruct ST; congruence.
Qed.
Print Assumptions C109_running_partial.

(* Line 500 reads the length of a record that thread 1 has marked ready; by then
   the slot has been published, written out, released and reserved again by
   thread 2.  (For the hypotheses of the two theorems above as well.) *)
Theorem C109_length_refuted : exists c slots k ls s i j a b, cfg_ok c /\ blank c slots /\ is_sync c = false /\
  reaches c slots k ls s /\ no_lap c (start c slots k) ls /\ threads_only ls /\
  race (trace c (start c slots k) ls) i j a b /\ on_length a /\ e_line b = 500.
Proof.
  exists ca, sl, 2%nat, prio_ls. eexists. exists 823%nat, 896%nat. do 2 eexists.
  split; [exact ca_ok|]. split; [apply sl_blank|]. split; [reflexivity|]. split; [vm_compute; reflexivity|].
  split; [apply no_lapb_ok; vm_compute; reflexivity|].
  split; [unfold threads_only, prio_ls, R; cbn [repeat app concat]; repeat (constructor; [exact I|]); constructor|].
  split; [|split; [exists 0|]].
  - split; [lia|]. split; [vm_compute; reflexivity|]. split; [vm_compute; reflexivity|].
    split; [repeat split; try (left; reflexivity); try (right; reflexivity); discriminate|].
    apply not_before; vm_compute; reflexivity.
  - reflexivity.
  - reflexivity.
Qed.
Print Assumptions C109_length_refuted.

(* Line 127 on a sync channel. *)
Theorem C109_sync_length_refuted : exists c slots k ls s i j a b, cfg_ok c /\ blank c slots /\ is_sync c = true /\
  reaches c slots k ls s /\ no_lap c (start c slots k) ls /\ threads_only ls /\
  race (trace c (start c slots k) ls) i j a b /\ on_length a /\ e_line b = 127.
Proof.
  exists cs, sl, 2%nat, bytes_ls. eexists. exists 649%nat, 703%nat. do 2 eexists.
  split; [exact cs_ok|]. split; [apply sl_blank|]. split; [reflexivity|]. split; [vm_compute; reflexivity|].
  split; [apply no_lapb_ok; vm_compute; reflexivity|].
  split; [unfold threads_only, bytes_ls, R; cbn [repeat app concat]; repeat (constructor; [exact I|]); constructor|].
  split; [|split; [exists 0|]].
  - split; [lia|]. split; [vm_compute; reflexivity|]. split; [vm_compute; reflexivity|].
    split; [repeat split; try (left; reflexivity); try (right; reflexivity); discriminate|].
    apply not_before; vm_compute; reflexivity.
  - reflexivity.
  - reflexivity.
Qed.
Print Assumptions C109_sync_length_refuted.

(* StopLogger writes channel_state_ while a log statement reads it. *)
Theorem C109_state_refuted : exists c slots k ls s i j a b, cfg_ok c /\ blank c slots /\
  reaches c slots k ls s /\ no_lap c (start c slots k) ls /\ no_restart ls /\
  race (trace c (start c slots k) ls) i j a b /\ e_place a = PlState.
Proof.
  exists ca, sl, 1%nat, [LLog 1 [65]; LRun 1; LStop]. eexists. exists 0%nat, 2%nat. do 2 eexists.
  split; [exact ca_ok|]. split; [apply sl_blank|]. split; [vm_compute; reflexivity|].
  split; [apply no_lapb_ok; vm_compute; reflexivity|].
  split; [intros H; repeat (destruct H as [H|H]; [discriminate H|]); destruct H|].
  split.
  - split; [lia|]. split; [vm_compute; reflexivity|]. split; [vm_compute; reflexivity|].
    split; [repeat split; try (left; reflexivity); try (right; reflexivity); discriminate|].
    apply not_before; vm_compute; reflexivity.
  - reflexivity.
Qed.
Print Assumptions C109_state_refuted.

(* Every line that writes channel_state_ after the start takes part in such a race:
   StopChannels on a sync channel (86) and on an async channel (94, 98), and the end
   of the writing thread (268). *)
Theorem C109_state_lines_refuted : forall line, In line [86; 94; 98; 268] ->
  exists c slots k ls s i j a b, cfg_ok c /\ blank c slots /\ reaches c slots k ls s /\ no_lap c (start c slots k) ls /\ no_restart ls /\
  race (trace c (start c slots k) ls) i j a b /\ e_place a = PlState /\ e_line b = line.
Proof.
  assert (G : forall c k ls s i j a b line, cfg_ok c -> reaches c sl k ls s -> no_lapb c (start c sl k) ls = true -> no_restart ls ->
    (i < j)%nat -> nth_error (trace c (start c sl k) ls) i = Some a -> nth_error (trace c (start c sl k) ls) j = Some b ->
    conflict a b -> ~ before (trace c (start c sl k) ls) i j -> e_place a = PlState -> blank c sl -> e_line b = line ->
    exists c slots k ls s i j a' b', cfg_ok c /\ blank c slots /\ reaches c slots k ls s /\ no_lap c (start c slots k) ls /\ no_restart ls /\
      race (trace c (start c slots k) ls) i j a' b' /\ e_place a' = PlState /\ e_line b' = line).
  { intros c k ls s i j a b line C R NL NR L A B CF NB P BL LI. exists c, sl, k, ls, s, i, j, a, b.
    split; [exact C|]. split; [exact BL|]. split; [exact R|]. split; [apply no_lapb_ok; exact NL|]. split; [exact NR|].
    split; [|split; [exact P|exact LI]]. repeat (split; [assumption|]). exact NB. }
  intros line [<-|[<-|[<-|[<-|[]]]]].
  - eapply (G cs 1%nat [LLog 0 [65]; LRun 0; LStop] _ 0%nat 1%nat);
      [exact cs_ok|vm_compute; reflexivity|vm_compute; reflexivity| |lia|vm_compute; reflexivity|vm_compute; reflexivity| |apply not_before; vm_compute; reflexivity|reflexivity|apply sl_blank|reflexivity].
    + intros H; repeat (destruct H as [H|H]; [discriminate H|]); destruct H.
    + repeat split; try (left; reflexivity); try (right; reflexivity); discriminate.
  - eapply (G ca 1%nat [LLog 1 [65]; LRun 1; LStop] _ 0%nat 2%nat);
      [exact ca_ok|vm_compute; reflexivity|vm_compute; reflexivity| |lia|vm_compute; reflexivity|vm_compute; reflexivity| |apply not_before; vm_compute; reflexivity|reflexivity|apply sl_blank|reflexivity].
    + intros H; repeat (destruct H as [H|H]; [discriminate H|]); destruct H.
    + repeat split; try (left; reflexivity); try (right; reflexivity); discriminate.
  - eapply (G ca 1%nat ([LLog 1 [65]; LRun 1; LStop] ++ R 6 0 ++ [LJoin]) _ 0%nat 10%nat);
      [exact ca_ok|vm_compute; reflexivity|vm_compute; reflexivity| |lia|vm_compute; reflexivity|vm_compute; reflexivity| |apply not_before; vm_compute; reflexivity|reflexivity|apply sl_blank|reflexivity].
    + intros H; unfold R in H; cbn [repeat app] in H; repeat (destruct H as [H|H]; [discriminate H|]); destruct H.
    + repeat split; try (left; reflexivity); try (right; reflexivity); discriminate.
  - eapply (G ca 1%nat ([LLog 1 [65]; LRun 1; LStop] ++ R 6 0) _ 0%nat 9%nat);
      [exact ca_ok|vm_compute; reflexivity|vm_compute; reflexivity| |lia|vm_compute; reflexivity|vm_compute; reflexivity| |apply not_before; vm_compute; reflexivity|reflexivity|apply sl_blank|reflexivity].
    + intros H; unfold R in H; cbn [repeat app] in H; repeat (destruct H as [H|H]; [discriminate H|]); destruct H.
    + repeat split; try (left; reflexivity); try (right; reflexivity); discriminate.
Qed.
Print Assumptions C109_state_lines_refuted.

(* With a lap of the queue index two threads write the bytes of one slot
   without order. *)
Theorem C109_text_refuted : exists c slots k ls s i j a b, cfg_ok c /\ blank c slots /\
  reaches c slots k ls s /\ threads_only ls /\
  race (trace c (start c slots k) ls) i j a b /\ on_text a.
Proof.
  exists ca, sl, 4%nat, lap_head. eexists. exists 71%nat, 288%nat. do 2 eexists.
  split; [exact ca_ok|]. split; [apply sl_blank|]. split; [vm_compute; reflexivity|].
  split; [unfold threads_only, lap_head, R; cbn [repeat app concat]; repeat (constructor; [exact I|]); constructor|].
  split.
  - split; [lia|]. split; [vm_compute; reflexivity|]. split; [vm_compute; reflexivity|].
    split; [repeat split; try (left; reflexivity); try (right; reflexivity); discriminate|].
    apply not_before; vm_compute; reflexivity.
  - exists 1. reflexivity.
Qed.
Print Assumptions C109_text_refuted.
