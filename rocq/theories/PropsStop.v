(* StopLogger always returns: C54. *)
From Coq Require Import ZArith List Bool Lia Arith Cantor.
From Verif Require Import Base LoggerState Load Stop StopSpec StopProofs.
Import ListNotations.
Open Scope Z_scope.

(* under every fair schedule StopLogger returns with all threads ended and all
   queues empty, or it holds the lock that a writer waits for *)
Theorem C54_returns_or_deadlocks : forall f s, called s -> fair f ->
  exists n, (returned (run f s n) 0 /\ stopped (run f s n)) \/ deadlocked (run f s n).
Proof.
  intros f s C F. destruct (eventually f s (J_called s C) F) as (n & [[z R]|D]); exists n; [left|right; exact D].
  destruct (done_stopped _ z (J_run f s n (J_called s C)) R) as [-> X]. auto.
Qed.
Print Assumptions C54_returns_or_deadlocks.
(* Missing: a thread that is about to apply a changed file while StopLogger is
   called. *)
Theorem C54_returns_partial : forall f s, called s -> fair f ->
  (forall i w, nth_error (q_ws s) i = Some w -> w_async w = true -> w_news w = O /\ w_pc w <> WLock /\ w_pc w <> WApply) ->
  exists n, returned (run f s n) 0 /\ stopped (run f s n).
Proof.
  intros f s C F Q. destruct (C54_returns_or_deadlocks f s C F) as (n & [R|D]); exists n; [exact R|]. exfalso. exact (quiet_free _ (quiet_run f s n (quiet_sum _ Q)) D).
Qed.
Print Assumptions C54_returns_partial.
(* from then on no schedule lets StopLogger return *)
Theorem C54_deadlock_stays : forall f s n, called s -> deadlocked (run f s n) -> forall g m z, ~ returned (run g (run f s n) m) z.
Proof.
  intros f s n C D g m z. pose proof (J_run f s n (J_called s C)) as H. apply deadlock_not_done; [apply J_run, H|apply deadlock_forever; assumption].
Qed.
Print Assumptions C54_deadlock_stays.

(* every thread again and again *)
Definition round (n : nat) : thread * bool := match fst (of_nat n) with O => (TStop, false) | S i => (TWrite i, false) end.
Lemma round_often : forall t n, exists m, (n <= m)%nat /\ fst (round m) = t.
Proof.
  intros t n. set (a := match t with TStop => O | TWrite i => S i end). exists (to_nat (a, n)). split; [pose proof (to_nat_non_decreasing a n); lia|].
  unfold round. rewrite cancel_of_to. cbn [fst]. unfold a. destruct t; reflexivity.
Qed.
Lemma round_fair : fair round.
Proof. exact round_often. Qed.
Definition ex_busy : sys := mkSys LOGGER_STATE_RUNNING Free SBegin
  [mkWriter true CHANNEL_STATE_RUNNING 3 0 WDrain; mkWriter false CHANNEL_STATE_RUNNING 0 0 WEnd; mkWriter true CHANNEL_STATE_RUNNING 2 0 WTest].
Example C54_ex : called ex_busy /\ fair round /\ (forall i w, nth_error (q_ws ex_busy) i = Some w -> w_async w = true -> w_news w = O /\ w_pc w <> WLock /\ w_pc w <> WApply).
Proof.
  split; [|split; [exact round_fair|]].
  - split; [reflexivity|]. split; [reflexivity|]. split; [discriminate|]. split.
    + intros i. split; [discriminate|]. intros (w & N & A & P). destruct i as [|[|[|[|i]]]]; try discriminate; injection N as <-; discriminate.
    + intros i w N A. destruct i as [|[|[|[|i]]]]; try discriminate; injection N as <-; try discriminate; split; [reflexivity|discriminate|reflexivity|discriminate].
  - intros i w N A. destruct i as [|[|[|[|i]]]]; try discriminate; injection N as <-; try discriminate; repeat split; discriminate.
Qed.
(* the thread finds the file changed, StopLogger takes the lock and waits for it *)
Definition ex_news : sys := mkSys LOGGER_STATE_RUNNING Free SBegin [mkWriter true CHANNEL_STATE_RUNNING 0 1 WHot].
Definition ex_race (n : nat) : thread * bool :=
  match n with O => (TWrite 0, true) | S O => (TStop, false) | S (S O) => (TStop, false) | _ => round n end.
Theorem C54_deadlock_refuted : exists s f, called s /\ fair f /\ (exists n, deadlocked (run f s n)) /\ forall n z, ~ returned (run f s n) z.
Proof.
  exists ex_news, ex_race. assert (C : called ex_news).
  { split; [reflexivity|]. split; [reflexivity|]. split; [discriminate|]. split.
    - intros i. split; [discriminate|]. intros (w & N & A & P). destruct i as [|[|i]]; try discriminate; injection N as <-; discriminate.
    - intros i w N A. destruct i as [|[|i]]; try discriminate; injection N as <-. split; [reflexivity|discriminate]. }
  assert (D : deadlocked (run ex_race ex_news 3)) by (split; [reflexivity|]; exists O; eexists; repeat split; reflexivity).
  split; [exact C|]. split; [|split; [exists 3%nat; exact D|]].
  - intros t n. destruct (round_often t (n + 3)) as (m & LE & E). exists m. split; [lia|]. unfold ex_race. destruct m as [|[|[|m]]]; try lia. exact E.
  - intros n z R. pose proof (J_run ex_race ex_news n (J_called _ C)) as H. destruct (Nat.lt_ge_cases n 3) as [L|G].
    + destruct n as [|[|[|n]]]; try lia; discriminate R.
    + assert (K : forall d, deadlocked (run ex_race ex_news (3 + d))).
      { intros d. induction d as [|d IH]; [exact D|]. replace (3 + S d)%nat with (S (3 + d)) by lia. cbn [run]. apply deadlock_step; [apply J_run, (J_called _ C)|exact IH]. }
      specialize (K (n - 3)%nat). replace (3 + (n - 3))%nat with n in K by lia. exact (deadlock_not_done _ z H K R).
Qed.
Print Assumptions C54_deadlock_refuted.
