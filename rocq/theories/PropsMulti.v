(* Property C121: log statements made inside statements to other channels.

   [c], [slots], [k]: the configuration, the blank ring and the number of logging
   threads of each channel.  A node (ch, i) is thread i of channel ch; [par q =
   Some p]: node q stands for the statements made inside those of node p.
   [mnested]: the schedules in which these behave like call stacks.  [proj ch]:
   what a schedule does on channel ch.  [holding]: in HoldChannel, without a
   slot.  The other names are those of PropsRing.v. *)
From Coq Require Import ZArith List Bool Arith Lia ZifyBool ZifyNat ZifyN.
From Verif Require Import Base BaseFacts LoggerState Ring RingSpec RingRun RingQuiet Nest NestProofs Cost CostProofs
  Multi MultiProofs PropsRing PropsNest.
Import ListNotations.
Open Scope Z_scope.

(* ---- concrete schedules ---- *)
Definition busyb (s : mst) (q : node) : bool :=
  match thread_of s q with Some t => match t_pc t with Idle => false | _ => true end | None => false end.
Definition mcallingb (par : node -> option node) (kids : list node) (s : mst) (p : node) : bool :=
  existsb (fun q => match par q with Some r => Nat.eqb (fst r) (fst p) && Nat.eqb (snd r) (snd p) | None => false end &&
                    busyb s q) kids.
Definition mopenb (s : mst) (p : node) : bool :=
  match thread_of s p with Some t => match t_pc t with Fill _ _ => true | _ => false end | None => false end.
Fixpoint mnestedb (par : node -> option node) (kids : list node) (c : nat -> rcfg) (s : mst) (ls : list mlabel) : bool :=
  match ls with
  | [] => true
  | l :: ls' =>
      match snd l with
      | LLog q _ => match par (fst l, q) with Some p => mopenb s p && negb (mcallingb par kids s p) | None => true end
      | LRun p => negb (mcallingb par kids s (fst l, p))
      | _ => true
      end && match mstep c s l with Some s' => mnestedb par kids c s' ls' | None => true end
  end.

Lemma mcallingb_ok : forall par kids s p, (forall q r, par q = Some r -> In q kids) ->
  mcallingb par kids s p = false -> ~ mcalling par s p.
Proof.
  intros par kids s p K H (q & t & PQ & T & NI).
  assert (X : mcallingb par kids s p = true); [|congruence].
  unfold mcallingb. apply existsb_exists. exists q. split; [exact (K q p PQ)|].
  rewrite PQ, !Nat.eqb_refl. unfold busyb. rewrite T. destruct (t_pc t); try reflexivity. contradiction.
Qed.
Lemma mnestedb_ok : forall par kids c, (forall q r, par q = Some r -> In q kids) ->
  forall ls s, mnestedb par kids c s ls = true -> mnested par c s ls.
Proof.
  intros par kids c K ls. induction ls as [|l ls IH]; intros s H; [exact I|]. cbn [mnestedb] in H.
  apply andb_prop in H. destruct H as [H1 H2]. split.
  - unfold mcall_ok. destruct (snd l) as [q m|p| | | |]; try exact I.
    + destruct (par (fst l, q)) as [p|]; [|exact I]. apply andb_prop in H1. destruct H1 as [A B]. split.
      * unfold mopenb in A. unfold mopen. destruct (thread_of s p) as [t|] eqn:T; [|discriminate].
        destruct (t_pc t) eqn:P; try discriminate. exists t, i, rest. auto.
      * apply (mcallingb_ok par kids); [assumption|]. apply negb_true_iff. assumption.
    + apply (mcallingb_ok par kids); [assumption|]. apply negb_true_iff. assumption.
  - intros s' E. rewrite E in H2. apply IH. assumption.
Qed.
Lemma proj_none : forall ch ls, forallb (fun l => Nat.ltb (fst l) 2) ls = true -> (2 <= ch)%nat -> proj ch ls = [].
Proof.
  intros ch ls H L. induction ls as [|l ls IH]; [reflexivity|]. cbn [forallb] in H. apply andb_prop in H. destruct H as [A B].
  rewrite proj_cons. replace (Nat.eqb (fst l) ch) with false; [apply IH; assumption|].
  symmetry. apply Nat.eqb_neq. apply Nat.ltb_lt in A. lia.
Qed.
Lemma two_no_lap : forall c s ls, forallb (fun l => Nat.ltb (fst l) 2) ls = true ->
  no_lapb (c 0%nat) (s 0%nat) (proj 0 ls) = true -> no_lapb (c 1%nat) (s 1%nat) (proj 1 ls) = true -> mno_lap c s ls.
Proof.
  intros c s ls F A B ch. destruct ch as [|[|ch]]; try (apply no_lapb_ok; assumption).
  rewrite proj_none by (assumption || lia). exact I.
Qed.
Lemma two_threads : forall ls, forallb (fun l => match snd l with LLog _ _ | LRun _ => true | _ => false end) ls = true ->
  mthreads_only ls.
Proof.
  intros ls H. apply Forall_forall. intros l L. rewrite forallb_forall in H. specialize (H l L).
  destruct (snd l); try discriminate; exact I.
Qed.

(* Two channels of ten records.  One program thread has a statement open on
   channel 0 and logs inside it to channel 1 (node (1, 2)), another the other way
   round (node (0, 2)); a third one (nodes (0, 3) and (1, 3)) has filled up both
   queues behind the open statements. *)
Definition c2 : nat -> rcfg := fun _ => ca.
Definition sl2 : nat -> list slot := fun _ => sl.
Definition k2 : nat -> nat := fun _ => 3%nat.
Lemma c2_ok : forall ch, cfg_ok (c2 ch) /\ blank (c2 ch) (sl2 ch) /\ is_sync (c2 ch) = false.
Proof. intros ch. split; [exact ca_ok|]. split; [apply sl_blank|reflexivity]. Qed.
Definition on (ch : nat) (ls : list label) : list mlabel := map (fun l => (ch, l)) ls.
Definition cross (q : node) : option node :=
  match q with (1%nat, 2%nat) => Some (0%nat, 1%nat) | (0%nat, 2%nat) => Some (1%nat, 1%nat) | _ => None end.
Lemma cross_kids : forall q r, cross q = Some r -> In q [(1, 2); (0, 2)]%nat.
Proof.
  intros [a b] r H. destruct a as [|[|a]]; destruct b as [|[|[|b]]]; try discriminate; cbn; auto.
Qed.
Definition cross_head : list mlabel :=
  on 0 (LLog 1 [97] :: R 7 1) ++ on 1 (LLog 1 [98] :: R 7 1) ++
  on 0 (concat (repeat (LLog 3 [99] :: R 17 3) 9)) ++ on 1 (concat (repeat (LLog 3 [99] :: R 17 3) 9)) ++
  on 1 (LLog 2 [100] :: R 4 2).
Definition cross_ls : list mlabel := cross_head ++ on 0 (LLog 2 [101] :: R 4 2).
Definition st_of (ls : list mlabel) : mst :=
  match mrun c2 (mstart c2 sl2 k2) ls with Some s => s | None => mstart c2 sl2 k2 end.
Lemma st_of_run : forall ls, match mrun c2 (mstart c2 sl2 k2) ls with Some _ => true | None => false end = true ->
  mrun c2 (mstart c2 sl2 k2) ls = Some (st_of ls).
Proof. intros ls H. unfold st_of. destruct (mrun c2 (mstart c2 sl2 k2) ls); [reflexivity|discriminate]. Qed.
Definition four (d : node) : Prop := In d [(0, 1); (1, 1); (0, 2); (1, 2)]%nat.

(* ---- C121: each channel is a queue of its own ---- *)
(* What statements to all channels together do to one of them is what the
   statements to this one do: all theorems about one queue hold of it. *)
Theorem C121_one_channel : forall c slots k ls s, mrun c (mstart c slots k) ls = Some s ->
  forall ch, reaches (c ch) (slots ch) (k ch) (proj ch ls) (s ch).
Proof. intros c slots k ls s R ch. exact (mrun_proj c ls (mstart c slots k) s ch R). Qed.
Print Assumptions C121_one_channel.
Example C121_one_channel_ex : mrun c2 (mstart c2 sl2 k2) cross_ls = Some (st_of cross_ls) /\
  proj 1 cross_ls = (LLog 1 [98] :: R 7 1) ++ concat (repeat (LLog 3 [99] :: R 17 3) 9) ++ LLog 2 [100] :: R 4 2 /\
  gH (gh (st_of cross_ls 0%nat)) = 10 /\ gH (gh (st_of cross_ls 1%nat)) = 10.
Proof.
  split; [apply st_of_run; vm_compute; reflexivity|]. split; [reflexivity|]. split; vm_compute; reflexivity.
Qed.

(* ---- C121: a statement that has its slot waits for nobody ---- *)
(* Asynchronous channel, every schedule, laps included: when it runs alone it
   returns within a bounded number of operations. *)
Theorem C121_slot : forall c slots k ls s tid t, cfg_ok c -> is_sync c = false -> reaches c slots k ls s -> threads_only ls ->
  tid <> 0%nat -> nth_error (ths s) tid = Some t -> ~ holding t ->
  exists m s' v, Z.of_nat m <= 14 + zlen (t_msg t) + 12 * n_ring c /\ run c s (repeat (LRun tid) m) = Some s' /\
    nth_error (ths s') tid = Some v /\ t_pc v = Idle.
Proof. exact returns_bound. Qed.
Print Assumptions C121_slot.
(* the oldest of ten records is still being filled; its thread then publishes all of them *)
Definition slot_ls : list label := LLog 1 [97] :: R 7 1 ++ concat (repeat (LLog 3 [99] :: R 17 3) 9).
Example C121_slot_ex : exists s t s' v, reaches ca sl 3 slot_ls s /\ nth_error (ths s) 1 = Some t /\ ~ holding t /\
  run ca s (repeat (LRun 1) 69) = Some s' /\ nth_error (ths s') 1 = Some v /\ t_pc v = Idle /\ gW (gh s') = 10.
Proof.
  do 4 eexists. split; [vm_compute; reflexivity|]. split; [vm_compute; reflexivity|]. split; [intros H; exact H|].
  split; [vm_compute; reflexivity|]. split; [vm_compute; reflexivity|]. split; reflexivity.
Qed.

(* ---- C121: with an order of the channels somebody always returns ---- *)
(* Asynchronous channels; statements are only made inside statements to channels
   that come before theirs in some order [rk].  Whenever a statement is in
   progress there is one, on its channel or a later one, that returns when
   nothing but itself and the writer thread of its channel runs, in an order the
   call stacks allow. *)
Theorem C121_progress_partial : forall par c slots k ls s nch rk,
  (forall ch, cfg_ok (c ch) /\ blank (c ch) (slots ch) /\ is_sync (c ch) = false) ->
  mrun c (mstart c slots k) ls = Some s -> mno_lap c (mstart c slots k) ls -> mthreads_only ls ->
  mcalls_ok par c -> mnested par c (mstart c slots k) ls ->
  (forall q p, par q = Some p -> (fst q < nch)%nat /\ (rk (fst p) < rk (fst q))%nat) ->
  forall d t, snd d <> 0%nat -> thread_of s d = Some t -> t_pc t <> Idle ->
  exists ch q u n m s' v, q <> 0%nat /\ thread_of s (ch, q) = Some u /\ t_pc u <> Idle /\ (rk (fst d) <= rk ch)%nat /\
    mrun c s (repeat (ch, LRun 0) n ++ repeat (ch, LRun q) m) = Some s' /\
    mnested par c s (repeat (ch, LRun 0) n ++ repeat (ch, LRun q) m) /\
    thread_of s' (ch, q) = Some v /\ t_pc v = Idle.
Proof. exact ordered_progress. Qed.
Print Assumptions C121_progress_partial.
(* channel 0 logs to channel 1 only: the statement inside finds its queue full
   because of an open statement there *)
Definition down (q : node) : option node := match q with (1%nat, 2%nat) => Some (0%nat, 1%nat) | _ => None end.
Example C121_progress_ex :
  mrun c2 (mstart c2 sl2 k2) cross_head = Some (st_of cross_head) /\ mno_lap c2 (mstart c2 sl2 k2) cross_head /\
  mthreads_only cross_head /\ mcalls_ok down c2 /\ mnested down c2 (mstart c2 sl2 k2) cross_head /\
  (forall q p, down q = Some p -> (fst q < 2)%nat /\ (fst p < fst q)%nat) /\
  exists t u, thread_of (st_of cross_head) (0, 1)%nat = Some t /\ t_pc t <> Idle /\
    thread_of (st_of cross_head) (1, 2)%nat = Some u /\ holding u.
Proof.
  split; [apply st_of_run; vm_compute; reflexivity|].
  split; [apply two_no_lap; vm_compute; reflexivity|]. split; [apply two_threads; vm_compute; reflexivity|].
  split.
  { intros ch _. split; [destruct ch as [|[|ch]]; reflexivity|].
    intros [a b] H. destruct a as [|[|a]]; destruct b as [|[|[|b]]]; discriminate. }
  split.
  { apply (mnestedb_ok down [(1, 2)]%nat); [|vm_compute; reflexivity].
    intros [a b] r H. destruct a as [|[|a]]; destruct b as [|[|[|b]]]; try discriminate. left. reflexivity. }
  split.
  { intros [a b] p H. destruct a as [|[|a]]; destruct b as [|[|[|b]]]; try discriminate. injection H as <-. cbn. lia. }
  do 2 eexists. split; [vm_compute; reflexivity|]. split; [discriminate|]. split; [vm_compute; reflexivity|]. exact I.
Qed.

(* ---- C121: statements that wait for each other do so for ever ---- *)
(* Each member of the set waits for a member inside it or for a slot that an open
   member occupies: as long as no channel is stopped, the open ones do not move,
   the waiting ones get no slot, and nobody else gets one on their channels. *)
Theorem C121_deadlock_stays : forall par c slots k ls s D, (forall ch, cfg_ok (c ch) /\ blank (c ch) (slots ch)) ->
  mrun c (mstart c slots k) ls = Some s -> mno_lap c (mstart c slots k) ls -> mthreads_only ls ->
  deadlocked par c D s ->
  forall ls2 s2, mrun c s ls2 = Some s2 -> mno_lap c s ls2 -> mthreads_only ls2 -> mnested par c s ls2 ->
  forall d, D d -> exists t v, thread_of s d = Some t /\ thread_of s2 d = Some v /\ t_msg v = t_msg t /\
    (~ holding t -> v = t) /\
    (holding t -> holding v /\ g_held (gh (s2 (fst d))) = g_held (gh (s (fst d)))).
Proof. exact deadlock_stays. Qed.
Print Assumptions C121_deadlock_stays.
Lemma cross_dead : deadlocked cross c2 four (st_of cross_ls).
Proof.
  intros d [<-|[<-|[<-|[<-|[]]]]]; eexists; (split; [vm_compute; reflexivity|]); (split; [discriminate|]).
  - left. split; [intros H; exact H|]. exists (1, 2)%nat. split; [unfold four; cbn; tauto|reflexivity].
  - left. split; [intros H; exact H|]. exists (0, 2)%nat. split; [unfold four; cbn; tauto|reflexivity].
  - right. split; [exact I|]. exists 1%nat. do 2 eexists. split; [unfold four; cbn; tauto|].
    split; vm_compute; reflexivity.
  - right. split; [exact I|]. exists 1%nat. do 2 eexists. split; [unfold four; cbn; tauto|].
    split; vm_compute; reflexivity.
Qed.
(* the writers, a third thread and the two waiting ones run on *)
Example C121_deadlock_stays_ex :
  mrun c2 (mstart c2 sl2 k2) cross_ls = Some (st_of cross_ls) /\ mno_lap c2 (mstart c2 sl2 k2) cross_ls /\
  mthreads_only cross_ls /\ deadlocked cross c2 four (st_of cross_ls) /\
  exists s2, mrun c2 (st_of cross_ls) (on 0 (R 9 0 ++ R 9 2 ++ LLog 3 [70] :: R 9 3) ++ on 1 (R 9 0 ++ R 9 2)) = Some s2 /\
    mnested cross c2 (st_of cross_ls) (on 0 (R 9 0 ++ R 9 2 ++ LLog 3 [70] :: R 9 3) ++ on 1 (R 9 0 ++ R 9 2)).
Proof.
  split; [apply st_of_run; vm_compute; reflexivity|].
  split; [apply two_no_lap; vm_compute; reflexivity|]. split; [apply two_threads; vm_compute; reflexivity|].
  split; [exact cross_dead|].
  eexists. split; [vm_compute; reflexivity|]. apply (mnestedb_ok cross _ c2 cross_kids). vm_compute. reflexivity.
Qed.

(* ---- C121: without an order a statement can wait for ever ---- *)
(* Two threads, one statement inside each of theirs, both to the other's channel. *)
Theorem C121_returns_refuted : exists par c slots k ls s d e,
  (forall ch, cfg_ok (c ch) /\ blank (c ch) (slots ch) /\ is_sync (c ch) = false) /\
  mrun c (mstart c slots k) ls = Some s /\ mno_lap c (mstart c slots k) ls /\ mthreads_only ls /\
  mcalls_ok par c /\ mnested par c (mstart c slots k) ls /\
  par (fst e, 2%nat) = Some d /\ par (fst d, 2%nat) = Some e /\ fst d <> fst e /\
  forall ls2 s2, mrun c s ls2 = Some s2 -> mno_lap c s ls2 -> mthreads_only ls2 -> mnested par c s ls2 ->
    (exists t, thread_of s2 d = Some t /\ t_pc t <> Idle) /\ exists t, thread_of s2 e = Some t /\ t_pc t <> Idle.
Proof.
  exists cross, c2, sl2, k2, cross_ls, (st_of cross_ls), (0, 1)%nat, (1, 1)%nat.
  assert (R0 : mrun c2 (mstart c2 sl2 k2) cross_ls = Some (st_of cross_ls)) by (apply st_of_run; vm_compute; reflexivity).
  assert (NL0 : mno_lap c2 (mstart c2 sl2 k2) cross_ls) by (apply two_no_lap; vm_compute; reflexivity).
  assert (TO0 : mthreads_only cross_ls) by (apply two_threads; vm_compute; reflexivity).
  split; [exact c2_ok|]. split; [exact R0|]. split; [exact NL0|]. split; [exact TO0|].
  split.
  { intros ch _. split; [destruct ch as [|[|ch]]; reflexivity|].
    intros [a b] H. destruct a as [|[|a]]; destruct b as [|[|[|b]]]; discriminate. }
  split; [apply (mnestedb_ok cross _ c2 cross_kids); vm_compute; reflexivity|].
  split; [reflexivity|]. split; [reflexivity|]. split; [discriminate|].
  intros ls2 s2 R2 NL2 TO2 NE2.
  pose proof (C121_deadlock_stays cross c2 sl2 k2 cross_ls (st_of cross_ls) four
    (fun ch => conj (proj1 (c2_ok ch)) (proj1 (proj2 (c2_ok ch)))) R0 NL0 TO0 cross_dead ls2 s2 R2 NL2 TO2 NE2) as ST.
  split.
  - destruct (ST (0, 1)%nat) as (t & v & T & V & _ & NH & _); [unfold four; cbn; tauto|].
    vm_compute in T. injection T as <-. rewrite NH in V by (intros H; exact H). eexists. split; [exact V|discriminate].
  - destruct (ST (1, 1)%nat) as (t & v & T & V & _ & NH & _); [unfold four; cbn; tauto|].
    vm_compute in T. injection T as <-. rewrite NH in V by (intros H; exact H). eexists. split; [exact V|discriminate].
Qed.
Print Assumptions C121_returns_refuted.
