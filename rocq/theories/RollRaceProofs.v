(* Proofs about processes that roll the same file (C134). *)
From Coq Require Import ZArith List Bool Arith Lia.
From Verif Require Import Base RollRace RollRaceSpec.
Import ListNotations.
Open Scope nat_scope.

Lemma upd_same : forall A (f : nat -> A) i x, upd f i x i = x.
Proof. intros. unfold upd. now rewrite Nat.eqb_refl. Qed.
Lemma upd_other : forall A (f : nat -> A) i x j, j <> i -> upd f i x j = f j.
Proof. intros. unfold upd. destruct (Nat.eqb_spec j i); [contradiction|reflexivity]. Qed.
(* where a process is: nothing beyond backup n *)
Definition pc_ok (n : nat) (p : rpc) : Prop := match p with RCheck d => 1 <= d <= n + 1 | RRemove k => k <= n | RRename d => 1 <= d <= n | _ => True end.
Definition inv (n : nat) (s : rstate) : Prop := in_order s /\ tidy n s /\ forall i, pc_ok n (r_pc s i).

Lemma returns_ok : forall n d, d <= n -> pc_ok n (returns d).
Proof. intros n [|d] H; cbn; lia. Qed.
Lemma pcs_ok : forall n pc i p, (forall j, pc_ok n (pc j)) -> pc_ok n p -> forall j, pc_ok n (upd pc i p j).
Proof. intros n pc i p H P j. unfold upd. destruct (Nat.eqb j i); [exact P|apply H]. Qed.
Lemma step_inv : forall n s i, inv n s -> inv n (rstep n s i).
Proof.
  intros n s i (O & T & PC). pose proof (PC i) as PI. unfold rstep. destruct (r_pc s i) as [|d|k|d|] eqn:E; cbn [pc_ok] in PI.
  - split; [exact O|]. split; [exact T|]. apply pcs_ok; [exact PC|cbn; lia].
  - destruct (r_dir s (d - 1)) as [x|] eqn:X.
    + split; [exact O|]. split; [exact T|]. apply pcs_ok; [exact PC|]. destruct (Nat.ltb_spec n d); cbn; [destruct (T _ _ X); lia|lia].
    + split; [exact O|]. split; [exact T|]. apply pcs_ok; [exact PC|apply returns_ok; lia].
  - split; [|split].
    + intros a b x y L A B. cbn [r_dir] in A, B. unfold upd in A, B. destruct (Nat.eqb_spec a k); [discriminate|]. destruct (Nat.eqb_spec b k); [discriminate|]. exact (O a b x y L A B).
    + intros a x A. cbn [r_dir] in A. unfold upd in A. destruct (Nat.eqb_spec a k); [discriminate|]. exact (T a x A).
    + apply pcs_ok; [exact PC|apply returns_ok; lia].
  - unfold moved. destruct (r_dir s (d - 1)) as [z|] eqn:X.
    + split; [|split].
      * intros a b x y L A B. cbn [r_dir] in A, B. unfold upd in A, B. destruct (Nat.eqb_spec a d) as [->|NA]; destruct (Nat.eqb_spec b d) as [->|NB]; try lia.
        -- injection A as <-. destruct (Nat.eqb_spec b (d - 1)); [discriminate|]. apply (O (d - 1) b z y); [lia|exact X|exact B].
        -- injection B as <-. destruct (Nat.eqb_spec a (d - 1)); [discriminate|]. apply (O a (d - 1) x z); [lia|exact A|exact X].
        -- destruct (Nat.eqb_spec a (d - 1)); [discriminate|]. destruct (Nat.eqb_spec b (d - 1)); [discriminate|]. exact (O a b x y L A B).
      * intros a x A. cbn [r_dir] in A. unfold upd in A. destruct (Nat.eqb_spec a d) as [->|NA]; [injection A as <-; destruct (T _ _ X); cbn; lia|]. destruct (Nat.eqb_spec a (d - 1)); [discriminate|]. exact (T a x A).
      * apply pcs_ok; [exact PC|apply returns_ok; lia].
    + split; [exact O|]. split; [exact T|]. apply pcs_ok; [exact PC|apply returns_ok; lia].
  - destruct (r_dir s 0) as [z|] eqn:X.
    + split; [exact O|]. split; [exact T|]. apply pcs_ok; [exact PC|exact I].
    + split; [|split].
      * intros a b x y L A B. cbn [r_dir] in A, B. unfold upd in A, B. destruct (Nat.eqb_spec b 0); [lia|]. destruct (Nat.eqb_spec a 0) as [->|]; [injection A as <-; apply (T _ _ B)|]. exact (O a b x y L A B).
      * intros a x A. cbn [r_dir r_next] in *. unfold upd in A. destruct (Nat.eqb_spec a 0) as [->|]; [injection A as <-; lia|]. destruct (T a x A). lia.
      * apply pcs_ok; [exact PC|exact I].
Qed.
Lemma runs_inv : forall n sched s, inv n s -> inv n (rruns n s sched).
Proof. unfold rruns. induction sched as [|i sched IH]; intros s H; cbn; [exact H|]. apply IH. apply step_inv. exact H. Qed.
Lemma order_kept : forall n s sched, all_idle s -> in_order s -> tidy n s -> in_order (rruns n s sched) /\ tidy n (rruns n s sched).
Proof.
  intros n s sched A O T. destruct (runs_inv n sched s) as (O' & T' & _); [|auto]. split; [exact O|]. split; [exact T|]. intros i. rewrite A. exact I.
Qed.

(* one process at a time *)
Lemma until_S : forall fuel n s i, until_idle (S fuel) n s i = match r_pc (rstep n s i) i with RIdle => Some (rstep n s i) | _ => until_idle fuel n (rstep n s i) i end.
Proof. reflexivity. Qed.
(* backups below d go one up, from the rename at depth d on *)
Lemma renames : forall n i d dir nx op pc fuel, pc i = RRename (S d) -> (forall k, k <= d -> dir k <> None) -> d + 2 <= fuel ->
  exists s', until_idle fuel n (mkR dir nx op pc) i = Some s' /\ r_pc s' i = RIdle /\ r_dir s' 0 = Some nx /\ (forall k, k <= d -> r_dir s' (S k) = dir k) /\
    (forall k, S d < k -> r_dir s' k = dir k) /\ r_open s' i = Some nx /\ r_next s' = S nx /\ (forall j, j <> i -> r_open s' j = op j).
Proof.
  intros n i. induction d as [|d IH]; intros dir nx op pc fuel P EX F; (destruct fuel as [|fuel]; [lia|]); rewrite until_S; unfold rstep; cbn [r_pc]; rewrite P; cbn [r_pc r_dir r_next r_open];
    rewrite upd_same; cbn [Nat.sub returns]; unfold moved; cbn [Nat.sub]; rewrite ?Nat.sub_0_r.
  - destruct (dir 0) as [x|] eqn:X; [|exfalso; apply (EX 0); [lia|exact X]]. destruct fuel as [|fuel]; [lia|]. rewrite until_S. unfold rstep. cbn [r_pc]. rewrite upd_same. cbn [r_dir r_next r_open].
    rewrite upd_other, upd_same by lia. cbn [r_pc]. rewrite upd_same. eexists. split; [reflexivity|]. cbn [r_pc r_dir r_open r_next]. rewrite !upd_same. split; [reflexivity|]. split; [reflexivity|]. split.
    + intros k K. replace k with 0 by lia. rewrite upd_other, upd_same by lia. congruence.
    + split; [intros k K; rewrite !upd_other by lia; reflexivity|]. split; [reflexivity|]. split; [reflexivity|]. intros j J. apply upd_other. exact J.
  - destruct (dir (S d)) as [x|] eqn:X; [|exfalso; apply (EX (S d)); [lia|exact X]].
    destruct (IH (upd (upd dir (S d) None) (S (S d)) (Some x)) nx op (upd pc i (RRename (S d))) fuel) as (s' & R & I1 & I2 & I3 & I4 & I5 & I6 & I7).
    + apply upd_same.
    + intros k K. rewrite !upd_other by lia. apply EX. lia.
    + lia.
    + exists s'. split; [exact R|]. split; [exact I1|]. split; [exact I2|]. split.
      * intros k K. destruct (Nat.eq_dec k (S d)) as [->|NK]; [rewrite I4 by lia; rewrite upd_same; congruence|]. rewrite I3 by lia. rewrite !upd_other by lia. reflexivity.
      * split; [intros k K; rewrite I4 by lia; rewrite !upd_other by lia; reflexivity|]. auto.
Qed.
(* an undisturbed roll: as C35 *)
Lemma checks : forall n i m dir, m <= n + 1 -> (forall k, k < m -> dir k <> None) -> (m = n + 1 \/ dir m = None) -> forall c d nx op pc fuel, c = m - d -> pc i = RCheck (S d) -> d <= m -> d <= n -> 2 * n + 6 <= d + fuel ->
  exists s', until_idle fuel n (mkR dir nx op pc) i = Some s' /\ r_pc s' i = RIdle /\ r_dir s' 0 = Some nx /\ (forall k, k < m -> k < n -> r_dir s' (S k) = dir k) /\
    (forall k, Nat.min m n < k -> r_dir s' k = dir k) /\ r_open s' i = Some nx /\ r_next s' = S nx /\ (forall j, j <> i -> r_open s' j = op j).
Proof.
  intros n i m dir M EX MM. induction c as [|c IH]; intros d nx op pc fuel C P DM DN F.
  - assert (d = m) by lia. subst d. destruct MM as [MM|MM]; [lia|]. destruct fuel as [|fuel]; [lia|]. rewrite until_S. unfold rstep. cbn [r_pc]. rewrite P. cbn [r_dir Nat.sub]. rewrite ?Nat.sub_0_r, MM. cbn [r_pc]. rewrite upd_same.
    destruct m as [|m]; cbn [returns].
    + destruct fuel as [|fuel]; [lia|]. rewrite until_S. unfold rstep. cbn [r_pc r_next r_open r_dir]. rewrite upd_same, MM. cbn [r_pc]. rewrite upd_same. eexists. split; [reflexivity|]. cbn [r_pc r_dir r_open r_next]. rewrite !upd_same.
      split; [reflexivity|]. split; [reflexivity|]. split; [intros; lia|]. split; [intros k K; apply upd_other; lia|]. split; [reflexivity|]. split; [reflexivity|]. intros j J. apply upd_other. exact J.
    + destruct (renames n i m dir nx op (upd pc i (RRename (S m))) fuel) as (s' & R & I1 & I2 & I3 & I4 & I5 & I6 & I7); [apply upd_same|intros k K; apply EX; lia|lia|].
      exists s'. split; [exact R|]. split; [exact I1|]. split; [exact I2|]. split; [intros k K1 K2; apply I3; lia|]. split; [intros k K; apply I4; lia|]. auto.
  - destruct fuel as [|fuel]; [lia|]. rewrite until_S. unfold rstep. cbn [r_pc]. rewrite P. cbn [r_dir Nat.sub]. rewrite ?Nat.sub_0_r. destruct (dir d) as [x|] eqn:X; [|exfalso; apply (EX d); [lia|exact X]].
    cbn [r_pc]. rewrite upd_same. destruct (Nat.ltb_spec n (S d)) as [L|L].
    + (* d = n: the oldest is removed *)
      assert (d = n) by lia. subst d. destruct fuel as [|fuel]; [lia|]. rewrite until_S. unfold rstep. cbn [r_pc]. rewrite upd_same. cbn [r_pc r_dir r_next r_open]. rewrite upd_same.
      destruct n as [|n]; cbn [returns].
      * destruct fuel as [|fuel]; [lia|]. rewrite until_S. unfold rstep. cbn [r_pc r_next r_open r_dir]. rewrite !upd_same. cbn [r_pc]. rewrite upd_same. eexists. split; [reflexivity|]. cbn [r_pc r_dir r_open r_next]. rewrite !upd_same.
        split; [reflexivity|]. split; [reflexivity|]. split; [intros; lia|]. split; [intros k K; rewrite !upd_other by lia; reflexivity|]. split; [reflexivity|]. split; [reflexivity|]. intros j J. apply upd_other. exact J.
      * match goal with |- context [until_idle fuel (S n) (mkR ?D nx op ?PC) i] => destruct (renames (S n) i n D nx op PC fuel) as (s' & R & I1 & I2 & I3 & I4 & I5 & I6 & I7) end;
          [apply upd_same|intros k K; rewrite upd_other by lia; apply EX; lia|lia|].
        exists s'. split; [exact R|]. split; [exact I1|]. split; [exact I2|]. split; [intros k K1 K2; rewrite I3 by lia; apply upd_other; lia|]. split; [intros k K; rewrite I4 by lia; apply upd_other; lia|]. auto.
    + replace (S d + 1) with (S (S d)) by lia. apply (IH (S d) nx op (upd pc i (RCheck (S (S d)))) fuel); [lia|apply upd_same|lia|lia|lia].
Qed.
Lemma alone_roll : forall n s i m, r_pc s i = RIdle -> m <= n + 1 -> (forall k, k < m -> r_dir s k <> None) -> (m = n + 1 \/ r_dir s m = None) ->
  exists s', until_idle (2 * n + 7) n s i = Some s' /\ r_pc s' i = RIdle /\ r_dir s' 0 = Some (r_next s) /\ (forall k, k < m -> k < n -> r_dir s' (S k) = r_dir s k) /\
    (forall k, Nat.min m n < k -> r_dir s' k = r_dir s k) /\ r_open s' i = Some (r_next s) /\ r_next s' = S (r_next s) /\ (forall j, j <> i -> r_open s' j = r_open s j).
Proof.
  intros n [dir nx op pc] i m P M EX MM. cbn [r_pc r_dir r_next r_open] in *. replace (2 * n + 7) with (S (2 * n + 6)) by lia. rewrite until_S. unfold rstep. cbn [r_pc]. rewrite P. cbn [r_pc r_dir r_next r_open]. rewrite upd_same.
  destruct (checks n i m dir M EX MM (m - 0) 0 nx (upd op i None) (upd pc i (RCheck 1)) (2 * n + 6)) as (s' & R & I1 & I2 & I3 & I4 & I5 & I6 & I7); [reflexivity|apply upd_same|lia|lia|lia|].
  exists s'. split; [exact R|]. repeat (split; [assumption|]). intros j J. rewrite I7 by exact J. apply upd_other. exact J.
Qed.

(* rolls one after the other *)
Lemma step_others : forall n s i j, j <> i -> r_pc (rstep n s i) j = r_pc s j.
Proof.
  intros n s i j D. assert (E : Nat.eqb j i = false) by now apply Nat.eqb_neq.
  unfold rstep. destruct (r_pc s i); [| destruct (r_dir s (d - 1)) | | | destruct (r_dir s 0)]; cbn [r_pc]; unfold upd; rewrite E; reflexivity.
Qed.
Lemma until_others : forall fuel n s i s' j, j <> i -> until_idle fuel n s i = Some s' -> r_pc s' j = r_pc s j.
Proof.
  induction fuel as [|fuel IH]; intros n s i s' j D U; [discriminate|]. cbn [until_idle] in U. rewrite <- (step_others n s i j D).
  destruct (r_pc (rstep n s i) i) eqn:P; [injection U as <-; reflexivity|..]; apply IH with (1 := D) in U; exact U.
Qed.
Lemma until_runs : forall fuel n s i s', until_idle fuel n s i = Some s' -> exists k, s' = rruns n s (repeat i k).
Proof.
  induction fuel as [|fuel IH]; intros n s i s' U; [discriminate|]. cbn [until_idle] in U.
  destruct (r_pc (rstep n s i) i) eqn:P; [injection U as <-; exists 1; reflexivity|..]; destruct (IH _ _ _ _ U) as (q & ->); exists (S q); reflexivity.
Qed.
Lemma first_gap : forall (dir : nat -> option nat) c, exists m, m <= c /\ (forall k, k < m -> dir k <> None) /\ (m = c \/ dir m = None).
Proof.
  intros dir. induction c as [|c (m & L & F & G)]; [exists 0; repeat split; [lia|intros; lia|auto]|].
  destruct G as [-> | G]; [|exists m; repeat split; [lia|exact F|auto]].
  destruct (dir c) eqn:D; [|exists c; repeat split; [lia|exact F|auto]].
  exists (S c). split; [lia|]. split; [|auto]. intros k K. destruct (Nat.eq_dec k c) as [->|]; [congruence|apply F; lia].
Qed.
Lemma one_roll : forall n s i, all_idle s -> in_order s -> tidy n s -> exists s', until_idle (2 * n + 7) n s i = Some s' /\ all_idle s' /\ in_order s' /\ tidy n s' /\
  r_dir s' 0 = Some (r_next s) /\ r_next s' = S (r_next s) /\ (forall k, full_to s k -> k < n -> r_dir s' (S k) = r_dir s k /\ full_to s' (S k)) /\
  (forall x, listed s' x -> x = r_next s \/ listed s x) /\ (forall x, full_to s n -> r_dir s n = Some x -> ~ listed s' x).
Proof.
  intros n s i A O T. destruct (first_gap (r_dir s) (n + 1)) as (m & L & F & G).
  destruct (alone_roll n s i m (A i) L F G) as (s' & U & P & D0 & DS & DK & _ & NX & _).
  exists s'. split; [exact U|]. split.
  { intros j. destruct (Nat.eq_dec j i) as [->|D]; [exact P|]. rewrite (until_others _ _ _ _ _ j D U). apply A. }
  destruct (until_runs _ _ _ _ _ U) as (q & R). destruct (order_kept n s (repeat i q) A O T) as [O' T']. rewrite <- R in O', T'.
  split; [exact O'|]. split; [exact T'|]. split; [exact D0|]. split; [exact NX|].
  assert (B : forall k, full_to s k -> k <= n -> k < m).
  { intros k FK K. destruct G as [-> | G]; [lia|]. destruct (Nat.lt_ge_cases k m) as [|Q]; [assumption|]. exfalso. apply (FK m Q G). }
  split.
  { intros k FK K. pose proof (B k FK (Nat.lt_le_incl _ _ K)) as KM. split; [apply DS; assumption|]. intros [|a] Q; [congruence|]. rewrite DS by lia. apply FK. lia. }
  split.
  - intros x (k & K). destruct k as [|k]; [left; congruence|]. right. destruct (Nat.lt_ge_cases (Nat.min m n) (S k)) as [Q|Q].
    + rewrite DK in K by exact Q. exists (S k); exact K.
    + rewrite DS in K by lia. exists k; exact K.
  - intros x FN X (k & K). destruct k as [|k]; [rewrite D0 in K; injection K as <-; destruct (T _ _ X); lia|].
    pose proof (T' _ _ K) as [KN _]. rewrite DS in K; [|specialize (B n FN (Nat.le_refl n)); lia|lia].
    assert (E : k < n) by lia. pose proof (O k n x x E K X). lia.
Qed.
Lemma gone_stays : forall n who s x, all_idle s -> in_order s -> tidy n s -> x < r_next s -> ~ listed s x ->
  exists s', one_by_one n s who = Some s' /\ ~ listed s' x /\ all_idle s' /\ in_order s' /\ tidy n s'.
Proof.
  intros n. induction who as [|i who IH]; intros s x A O T X N; [exists s; auto 6|].
  destruct (one_roll n s i A O T) as (s1 & U & A1 & O1 & T1 & _ & NX & _ & L & _). cbn [one_by_one]. rewrite U.
  apply IH; auto; [lia|]. intros Q. destruct (L x Q) as [-> | Q']; [lia|contradiction].
Qed.
Lemma serial_rolls : forall n who s k x, all_idle s -> in_order s -> tidy n s -> full_to s k -> r_dir s k = Some x ->
  exists s', one_by_one n s who = Some s' /\ all_idle s' /\ (listed s' x <-> k + length who <= n) /\ (k + length who <= n -> r_dir s' (k + length who) = Some x).
Proof.
  intros n. induction who as [|i who IH]; intros s k x A O T F X.
  - exists s. cbn [length]. rewrite Nat.add_0_r. repeat split; auto.
    + intros _. apply (T k x X).
    + intros _. exists k. exact X.
  - destruct (one_roll n s i A O T) as (s1 & U & A1 & O1 & T1 & _ & NX & M & L & G). cbn [one_by_one]. rewrite U. destruct (T k x X) as [KN XN].
    destruct (Nat.eq_dec k n) as [->|D].
    + destruct (gone_stays n who s1 x A1 O1 T1) as (s' & R & N & A' & _); [lia|apply G; assumption|]. exists s'. cbn [length]. repeat split; auto; [intros Q; contradiction|intros; lia|intros; lia].
    + destruct (M k F) as [X1 F1]; [lia|]. rewrite X in X1. destruct (IH s1 (S k) x A1 O1 T1 F1 X1) as (s' & R & A' & I1 & I2).
      exists s'. cbn [length]. replace (k + S (length who)) with (S k + length who) by lia. auto.
Qed.
(* a roll ends with the log file open *)
Lemma opened_last : forall n s sched i, r_pc (rruns n s (sched ++ [i])) i = RIdle ->
  exists x, r_dir (rruns n s (sched ++ [i])) 0 = Some x /\ r_open (rruns n s (sched ++ [i])) i = Some x.
Proof.
  intros n s sched i. unfold rruns. rewrite fold_left_app. cbn [fold_left]. generalize (fold_left (rstep n) sched s) as u. intros u H.
  unfold rstep in *. destruct (r_pc u i) as [|d|k|d|]; cbn [r_pc] in H.
  - unfold upd in H. rewrite Nat.eqb_refl in H. discriminate H.
  - destruct (r_dir u (d - 1)); cbn [r_pc] in H; unfold upd in H; rewrite Nat.eqb_refl in H; [destruct (Nat.ltb n d); discriminate H|]. destruct (d - 1); discriminate H.
  - unfold upd in H. rewrite Nat.eqb_refl in H. destruct k; discriminate H.
  - unfold upd in H. rewrite Nat.eqb_refl in H. destruct (d - 1); discriminate H.
  - destruct (r_dir u 0) as [x|] eqn:D; [exists x|exists (r_next u)]; cbn [r_dir r_open]; unfold upd; rewrite !Nat.eqb_refl; auto.
Qed.

(* ---- a roll ends whatever the others do ---- *)
(* steps of its own that a process needs at most to the end of its roll *)
Definition to_go (n : nat) (p : rpc) : nat :=
  match p with RIdle => 2 * n + 4 | ROpen => 1 | RRename d => Nat.max d 1 + 1 | RRemove k => k + 2 | RCheck d => if Nat.leb d n then 2 * n + 4 - d else d + 2 end.
Lemma to_go_returns : forall n k, to_go n (returns k) = k + 1.
Proof. intros n [|k]; cbn; lia. Qed.
Lemma own_step : forall n s i, r_pc (rstep n s i) i = RIdle \/ to_go n (r_pc (rstep n s i) i) + 1 <= to_go n (r_pc s i) /\ (0 < to_go n (r_pc (rstep n s i) i)).
Proof.
  intros n s i. unfold rstep. cbv zeta. destruct (r_pc s i) as [|d|k|d|] eqn:P.
  - right. cbn [r_pc]. rewrite upd_same. cbn [to_go]. destruct (Nat.leb_spec 1 n); lia.
  - right. destruct (r_dir s (d - 1)) as [x|].
    + cbn [r_pc]. rewrite upd_same. destruct (Nat.ltb_spec n d); cbn [to_go]; destruct (Nat.leb_spec d n); try lia. destruct (Nat.leb_spec (d + 1) n); lia.
    + cbn [r_pc]. rewrite upd_same, to_go_returns. cbn [to_go]. destruct (Nat.leb_spec d n); lia.
  - right. cbn [r_pc]. rewrite upd_same, to_go_returns. cbn [to_go]. lia.
  - cbn [r_pc]. rewrite upd_same. right. rewrite to_go_returns. cbn [to_go]. lia.
  - left. destruct (r_dir s 0); cbn [r_pc]; apply upd_same.
Qed.
Lemma roll_ends : forall n sched s i, to_go n (r_pc s i) <= count_occ Nat.eq_dec sched i -> exists a b, sched = a ++ i :: b /\ r_pc (rruns n s (a ++ [i])) i = RIdle.
Proof.
  intros n. induction sched as [|j sched IH]; intros s i C.
  - exfalso. cbn [count_occ] in C. destruct (r_pc s i) as [|d|k|d|]; cbn [to_go] in C; try lia. destruct (Nat.leb_spec d n); lia.
  - cbn [count_occ] in C. destruct (Nat.eq_dec j i) as [->|D].
    + destruct (own_step n s i) as [E|[E _]]; [exists [], sched; split; [reflexivity|exact E]|].
      destruct (IH (rstep n s i) i ltac:(lia)) as (a & b & -> & R). exists (i :: a), b. split; [reflexivity|exact R].
    + destruct (IH (rstep n s j) i) as (a & b & -> & R); [rewrite step_others by congruence; exact C|]. exists (j :: a), b. split; [reflexivity|exact R].
Qed.
Lemma wait_free : forall n s sched i, r_pc s i = RIdle -> 2 * n + 4 <= count_occ Nat.eq_dec sched i -> exists a b, sched = a ++ i :: b /\ r_pc (rruns n s (a ++ [i])) i = RIdle.
Proof. intros n s sched i P C. apply roll_ends. rewrite P. exact C. Qed.
