(* Datagrams that several threads read into the one record of a synchronous channel: C127. *)
From Coq Require Import ZArith List Bool Arith Lia.
From Verif Require Import Base BaseFacts NumFmt UdpRace UdpRaceSpec UdpRaceProofs.
Import ListNotations.
Open Scope Z_scope.

(* FN_LOG_MAX_LOG_SIZE, fn_data.h:56 *)
Definition ex_cap : Z := 10000.

(* one thread (an asynchronous channel has no more): the output is what arrived, in order,
   each datagram once, but for the one in hand *)
Theorem C127_one_thread_partial : forall cap i ls, 2 <= cap -> only_reader i ls -> exists s taken d, gruns cap (gram0 cap) ls = Ret s /\
  arrivals ls = taken ++ d ++ gr_queue s /\ gr_out s = map (fitted cap) (filter some_text taken) /\ (length d <= 1)%nat /\ (at_rest s -> d = []).
Proof. exact one_reader. Qed.
Print Assumptions C127_one_thread_partial.
(* two datagrams, the second read up to the output *)
Definition ex_one : list glabel := [Arrive [97; 98]; Arrive [99]; Arrive [100]] ++ repeat (GRun 3) 7 ++ repeat (GRun 3) 6.
Example C127_one_thread_hypotheses : only_reader 3 ex_one /\
  (exists s, gruns ex_cap (gram0 ex_cap) ex_one = Ret s /\ gr_out s = [[97; 98]] /\ gr_queue s = [[100]] /\ gr_pc s 3%nat = GPut).
Proof.
  split.
  - intros j H. cbn in H. repeat (destruct H as [H|H]; [try discriminate; try (injection H as <-; reflexivity)|]). contradiction.
  - pose (r := gruns ex_cap (gram0 ex_cap) ex_one). change (exists s, r = Ret s /\ gr_out s = [[97; 98]] /\ gr_queue s = [[100]] /\ gr_pc s 3%nat = GPut).
    destruct r as [s| |] eqn:E; [|exfalso; revert E; vm_compute; discriminate|exfalso; revert E; vm_compute; discriminate]. exists s. split; [reflexivity|].
    assert (match r with Ret s => gr_out s = [[97; 98]] /\ gr_queue s = [[100]] /\ gr_pc s 3%nat = GPut | _ => False end) as H by (vm_compute; auto). rewrite E in H. exact H.
Qed.

(* any number of threads, datagrams shorter than the buffer: nothing is written outside the
   record, and a text that is put out has the length of a datagram and in each place the
   byte of some datagram at that place, or zero *)
Theorem C127_bytes_partial : forall cap ls, 0 < cap -> Forall (fun m => zlen m < cap) (arrivals ls) -> exists s, gruns cap (gram0 cap) ls = Ret s /\
  forall o, In o (gr_out s) -> (o = [] \/ exists m, In m (arrivals ls) /\ zlen m = zlen o) /\
    forall k v, rd o k = Ret v -> v = 0 \/ exists m, In m (arrivals ls) /\ rd m k = Ret v.
Proof. exact short_grams. Qed.
Print Assumptions C127_bytes_partial.

(* two threads: one reads before the other has stored *)
Definition ex_lost : list glabel :=
  [Arrive [97]; Arrive [98]; GRun 0; GRun 0; GRun 0; GRun 1; GRun 1; GRun 1] ++ repeat (GRun 0) 4 ++ repeat (GRun 1) 4.
(* the first three threads have left the loop, the others have never been there *)
Definition outcome_is (ls : list glabel) (q out : list text) : bool :=
  match gruns ex_cap (gram0 ex_cap) ls with
  | Ret s => (if list_eq_dec (list_eq_dec Z.eq_dec) (gr_queue s) q then true else false) &&
             (if list_eq_dec (list_eq_dec Z.eq_dec) (gr_out s) out then true else false) &&
             forallb (fun i => match gr_pc s i with GStart => true | _ => false end) [0; 1; 2]%nat
  | _ => false
  end.
Lemma outcome_sound : forall ls q out, (forall j, In (GRun j) ls -> (j < 3)%nat) -> outcome_is ls q out = true ->
  exists s, gruns ex_cap (gram0 ex_cap) ls = Ret s /\ at_rest s /\ gr_queue s = q /\ gr_out s = out.
Proof.
  intros ls q out LT H. unfold outcome_is in H. destruct (gruns ex_cap (gram0 ex_cap) ls) as [s| |] eqn:E; [|discriminate|discriminate].
  exists s. split; [reflexivity|]. apply andb_prop in H. destruct H as (H & P). apply andb_prop in H. destruct H as (Q & T).
  split; [|split; [destruct (list_eq_dec (list_eq_dec Z.eq_dec) (gr_queue s) q); [assumption|discriminate]|destruct (list_eq_dec (list_eq_dec Z.eq_dec) (gr_out s) out); [assumption|discriminate]]].
  intros i. destruct (lt_dec i 3) as [L|L].
  - rewrite forallb_forall in P. assert (In i [0; 1; 2]%nat) as I by (destruct i as [|[|[|i]]]; cbn; auto; lia). specialize (P i I). destruct (gr_pc s i); [reflexivity|discriminate..].
  - rewrite (never_ran ex_cap ls i s); [reflexivity|intros I; apply LT in I; lia|exact E].
Qed.
Ltac low := let H := fresh in intros ? H; cbn in H; repeat (destruct H as [H|H]; [try discriminate; injection H as <-; lia|]); contradiction.

(* the full statement is false: a datagram is put out twice and another never *)
Theorem C127_lost_refuted : exists ls s, gruns ex_cap (gram0 ex_cap) ls = Ret s /\ at_rest s /\ gr_queue s = [] /\ arrivals ls = [[97]; [98]] /\ gr_out s = [[98]; [98]].
Proof.
  exists ex_lost. destruct (outcome_sound ex_lost [] [[98]; [98]]) as (s & R & A & Q & T); [low|vm_compute; reflexivity|]. exists s. auto.
Qed.
Print Assumptions C127_lost_refuted.

(* a text is put out that nobody sent: abcd and xy make xycd *)
Definition ex_mixed : list glabel :=
  [Arrive [97; 98; 99; 100]; Arrive [120; 121]; GRun 0; GRun 0; GRun 0; GRun 1; GRun 1; GRun 1; GRun 1; GRun 0; GRun 0; GRun 0; GRun 0; GRun 1; GRun 1; GRun 1].
Theorem C127_mixed_refuted : exists ls s, gruns ex_cap (gram0 ex_cap) ls = Ret s /\ at_rest s /\ gr_queue s = [] /\
  arrivals ls = [[97; 98; 99; 100]; [120; 121]] /\ gr_out s = [[120; 121; 99; 100]; [120; 121; 99; 100]].
Proof.
  exists ex_mixed. destruct (outcome_sound ex_mixed [] [[120; 121; 99; 100]; [120; 121; 99; 100]]) as (s & R & A & Q & T); [low|vm_compute; reflexivity|]. exists s. auto.
Qed.
Print Assumptions C127_mixed_refuted.

(* a thread that finds nothing waiting puts out the datagram of another once more *)
Definition ex_twice : list glabel :=
  [Arrive [97]; GRun 0; GRun 0; GRun 1; GRun 1; GRun 0; GRun 1; GRun 1; GRun 0; GRun 1; GRun 1; GRun 1; GRun 0; GRun 0; GRun 0].
Theorem C127_twice_refuted : exists ls s, gruns ex_cap (gram0 ex_cap) ls = Ret s /\ at_rest s /\ gr_queue s = [] /\
  arrivals ls = [[97]] /\ gr_out s = [[97]; [97]].
Proof.
  exists ex_twice. destruct (outcome_sound ex_twice [] [[97]; [97]]) as (s & R & A & Q & T); [low|vm_compute; reflexivity|]. exists s. auto.
Qed.
Print Assumptions C127_twice_refuted.

(* a datagram that fills the buffer: the last store of InitLogData is one byte behind the
   record, or the newline is stored in front of the text *)
Definition ex_full : text := repeat 97 (Z.to_nat ex_cap).
Definition ex_behind : list glabel := [Arrive ex_full; GRun 0; GRun 0; GRun 0; GRun 1; GRun 0; GRun 1].
Definition ex_before : list glabel := [Arrive ex_full; GRun 0; GRun 0; GRun 0; GRun 0; GRun 0; GRun 1; GRun 0].
Theorem C127_behind_refuted : exists ls, Forall (fun m => zlen m <= ex_cap) (arrivals ls) /\ gruns ex_cap (gram0 ex_cap) ls = Ub.
Proof.
  exists ex_behind. split; [|vm_compute; reflexivity]. repeat constructor. unfold ex_full, zlen. rewrite repeat_length. unfold ex_cap. lia.
Qed.
Print Assumptions C127_behind_refuted.
Theorem C127_before_refuted : exists ls, Forall (fun m => zlen m <= ex_cap) (arrivals ls) /\ gruns ex_cap (gram0 ex_cap) ls = Ub.
Proof.
  exists ex_before. split; [|vm_compute; reflexivity]. repeat constructor. unfold ex_full, zlen. rewrite repeat_length. unfold ex_cap. lia.
Qed.
Print Assumptions C127_before_refuted.

(* the hypotheses of C127_bytes_partial, with the mixed text of above *)
Example C127_bytes_hypotheses : Forall (fun m => zlen m < ex_cap) (arrivals ex_mixed) /\ 0 < ex_cap.
Proof. split; [repeat constructor|reflexivity]. Qed.
(* one thread and a datagram that fills the buffer *)
Example C127_full_example : only_reader 0 (Arrive ex_full :: repeat (GRun 0) 9) /\
  outcome_is (Arrive ex_full :: repeat (GRun 0) 9) [] [repeat 97 (Z.to_nat (ex_cap - 2)) ++ [10; 0]] = true.
Proof.
  split; [|vm_compute; reflexivity]. intros j [H|H]; [discriminate|]. apply repeat_spec in H. injection H as ->. reflexivity.
Qed.
