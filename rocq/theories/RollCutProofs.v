(* Proofs about rolls that are cut short (C132). *)
From Coq Require Import String ZArith List Bool Lia ZifyBool ZifyNat ZifyN.
From Verif Require Import Base BaseFacts LoggerState FileName FileDev FileDevSpec RollProofs RollCut RollCutSpec.
Import ListNotations.
Open Scope Z_scope.

(* alive: the roll is complete.  killed: nothing was done, or the roll from some file on is complete *)
Lemma cut_cases : forall p, log_path p -> forall fuel f todo d n f1 l alive, 1 <= d ->
  roll_cut fuel (f, todo, true) (bk p (d - 1)) d n = Ret (f1, l, alive) ->
  if alive then rollback fuel f (bk p (d - 1)) d n = Ret f1
  else f1 = f \/ exists g fuel', d <= g <= n /\ (forall k, d - 1 <= k < g -> f (bk p k) <> None) /\ rollback fuel' f (bk p g) (g + 1) n = Ret f1.
Proof.
  intros p P. induction fuel as [|fuel IH]; intros f todo d n f1 l alive D H; [discriminate|]. cbn [roll_cut rollback fst] in *.
  destruct (f (bk p (d - 1))) as [c|] eqn:FP; [|injection H as <- <- <-; reflexivity].
  destruct (n <? d) eqn:ND.
  - destruct todo; cbn [change] in H; injection H as <- <- <-; [left; reflexivity|reflexivity].
  - destruct (INT_MAX <? d + 1); [discriminate|]. rewrite roll_next_bk in * by assumption.
    destruct (roll_cut fuel (f, todo, true) (bk p d) (d + 1) n) as [[[f2 l2] a2]| |] eqn:R; try discriminate. cbn [bind] in H.
    replace (bk p d) with (bk p (d + 1 - 1)) in R by (f_equal; lia). assert (D1 : 1 <= d + 1) by lia. pose proof (IH _ _ _ _ _ _ _ D1 R) as C.
    destruct a2.
    + replace (d + 1 - 1) with d in C by lia. destruct l2; cbn [change] in H; injection H as <- <- <-.
      * right. exists d, fuel. split; [lia|]. split; [|exact C]. intros k K. replace k with (d - 1) by lia. congruence.
      * rewrite C. reflexivity.
    + cbn [change] in H. injection H as <- <- <-. destruct C as [C|(g & fu & G & EX & C)]; [left; exact C|]. right. exists g, fu. split; [lia|]. split; [|exact C].
      intros k K. destruct (Z.eq_dec k (d - 1)) as [->|]; [congruence|apply EX; lia].
Qed.
Lemma cut_total : forall p, log_path p -> forall n, n < INT_MAX -> forall fuel s d, 1 <= d ->
  Z.max 0 (n + 1 - d) + 1 < Z.of_nat fuel -> exists s', roll_cut fuel s (bk p (d - 1)) d n = Ret s'.
Proof.
  intros p P n N. induction fuel as [|fuel IH]; intros s d D F; [lia|]. cbn [roll_cut].
  destruct (fst (fst s) (bk p (d - 1))); [|eauto]. destruct (n <? d) eqn:ND; [eauto|].
  destruct (INT_MAX <? d + 1) eqn:IM; [lia|]. rewrite roll_next_bk by assumption.
  replace (bk p d) with (bk p (d + 1 - 1)) by (f_equal; lia).
  destruct (IH s (d + 1)) as (f1 & ->); [lia|lia|]. cbn [bind]. eauto.
Qed.

Lemma which_backup : forall p q N, (exists k, 0 <= k <= N /\ q = bk p k) \/ (forall k, 0 <= k <= N -> q <> bk p k).
Proof.
  intros p q N. destruct (Z_lt_dec N 0) as [L|L]; [right; intros; lia|]. revert N L.
  assert (X : forall n : nat, (exists k, 0 <= k <= Z.of_nat n /\ q = bk p k) \/ (forall k, 0 <= k <= Z.of_nat n -> q <> bk p k)).
  { induction n as [|n [(k & K & E)|NO]].
    - destruct (list_eq_dec Z.eq_dec q (bk p 0)) as [E|E]; [left; exists 0; split; [lia|exact E]|right; intros k K; replace k with 0 by lia; exact E].
    - left. exists k. split; [lia|exact E].
    - destruct (list_eq_dec Z.eq_dec q (bk p (Z.of_nat (S n)))) as [E|E]; [left; exists (Z.of_nat (S n)); split; [lia|exact E]|].
      right. intros k K. destruct (Z.eq_dec k (Z.of_nat (S n))) as [->|]; [exact E|apply NO; lia]. }
  intros N L. specialize (X (Z.to_nat N)). rewrite Z2Nat.id in X by lia. exact X.
Qed.

(* a hole at g is filled by the next roll *)
Lemma fill : forall p n f f1 f' f'' g m m1 m2, 1 <= g <= n -> (forall k, 0 <= k < g -> f (bk p k) <> None) ->
  rolled f p 1 n m f' -> rolled f p (g + 1) n m1 f1 -> rolled f1 p 1 n m2 f'' -> forall q, f'' q = f' q.
Proof.
  intros p n f f1 f' f'' g m m1 m2 G EX (A1 & A2 & A3 & A4 & A5 & A6) (B1 & B2 & B3 & B4 & B5 & B6) (C1 & C2 & C3 & C4 & C5 & C6).
  replace (g + 1 - 1) with g in * by lia.
  assert (LOW : forall k, 0 <= k < g -> f1 (bk p k) = f (bk p k)) by (intros k K; apply B6; intros j J X; apply bk_inj in X; lia).
  assert (M1 : m1 = m).
  { destruct (Z.lt_trichotomy m m1) as [L|[E|L]]; [exfalso|auto|exfalso].
    - destruct A3 as [A3|A3]; [lia|]. destruct (Z_lt_dec m g) as [Lg|Lg]; [apply (EX m); [lia|exact A3]|apply (B2 m); [lia|exact A3]].
    - destruct B3 as [B3|B3]; [lia|]. apply (A2 m1); [lia|exact B3]. }
  subst m1.
  assert (M2 : m2 = g).
  { destruct (Z.lt_trichotomy m2 g) as [L|[E|L]]; [exfalso|auto|exfalso].
    - destruct C3 as [C3|C3]; [lia|]. rewrite LOW in C3 by lia. apply (EX m2); [lia|exact C3].
    - apply (C2 g); [lia|exact B4]. }
  subst m2. intros q. destruct (which_backup p q (Z.max 0 (Z.min m n))) as [(k & K & ->)|NO].
  - destruct (Z.eq_dec k 0) as [->|K0]; [change 0 with (1 - 1) at 1 2; congruence|]. rewrite A5 by lia.
    destruct (Z_le_dec k g) as [L|L].
    + rewrite C5 by lia. apply LOW. lia.
    + rewrite C6 by (intros j J X; apply bk_inj in X; lia). apply B5. lia.
  - rewrite A6 by (intros j J; apply NO; lia). rewrite C6 by (intros j J; apply NO; lia). apply B6. intros j J. apply NO. lia.
Qed.
Lemma rolled_done : forall p n f f' f'' m m2, rolled f p 1 n m f' -> rolled f' p 1 n m2 f'' -> forall q, f'' q = f' q.
Proof.
  intros p n f f' f'' m m2 (A1 & A2 & A3 & A4 & A5 & A6) (C1 & C2 & C3 & C4 & C5 & C6) q. change (1 - 1) with 0 in *.
  assert (m2 = 0). { destruct (Z.eq_dec m2 0) as [|N]; [assumption|]. exfalso. apply (C2 0); [lia|exact A4]. } subst m2.
  destruct (list_eq_dec Z.eq_dec q (bk p 0)) as [->|N]; [congruence|]. apply C6. intros k K. replace k with 0 by lia. exact N.
Qed.
Lemma rolled_unique : forall p n f f' f'' m m2, rolled f p 1 n m f' -> rolled f p 1 n m2 f'' -> forall q, f'' q = f' q.
Proof.
  intros p n f f' f'' m m2 (A1 & A2 & A3 & A4 & A5 & A6) (C1 & C2 & C3 & C4 & C5 & C6) q. change (1 - 1) with 0 in *.
  assert (m2 = m).
  { destruct (Z.lt_trichotomy m m2) as [L|[E|L]]; [exfalso|auto|exfalso].
    - destruct A3 as [A3|A3]; [lia|]. apply (C2 m); [lia|exact A3].
    - destruct C3 as [C3|C3]; [lia|]. apply (A2 m2); [lia|exact C3]. }
  subst m2. destruct (which_backup p q (Z.max 0 (Z.min m n))) as [(k & K & ->)|NO].
  - destruct (Z.eq_dec k 0) as [->|K0]; [congruence|]. rewrite A5, C5 by lia. reflexivity.
  - rewrite A6, C6 by (intros j J; apply NO; lia). reflexivity.
Qed.

Lemma resume : forall p n f fuel todo f1 alive f', log_path p -> 1 <= n < INT_MAX -> n + 1 < Z.of_nat fuel ->
  killed_roll fuel todo f p n = Ret (f1, alive) -> rollback fuel f p 1 n = Ret f' ->
  exists f'', rollback fuel f1 p 1 n = Ret f'' /\ forall q, f'' q = f' q.
Proof.
  intros p n f fuel todo f1 alive f' P N F H R. unfold killed_roll in H.
  destruct (roll_cut fuel (f, todo, true) p 1 n) as [[[f2 l2] a2]| |] eqn:C; try discriminate. cbn [bind fst snd] in H. injection H as -> ->.
  change p with (bk p (1 - 1)) in C, R. pose proof (cut_cases p P _ _ _ _ _ _ _ _ (Z.le_refl 1) C) as X.
  destruct (rollback_total p P n ltac:(lia) fuel f1 1) as (f'' & R2); [lia|lia|]. change (bk p (1 - 1)) with p in R2 at 1. exists f''. split; [exact R2|].
  change p with (bk p (1 - 1)) in R2 at 1.
  destruct (rollback_partial p P _ _ _ _ _ (Z.le_refl 1) R) as (m & A). destruct (rollback_partial p P _ _ _ _ _ (Z.le_refl 1) R2) as (m2 & B).
  destruct alive.
  - rewrite X in R. injection R as ->. exact (rolled_done _ _ _ _ _ _ _ A B).
  - destruct X as [->|(g & fu & G & EX & X)]; [exact (rolled_unique _ _ _ _ _ _ _ A B)|].
    replace (bk p g) with (bk p (g + 1 - 1)) in X by (f_equal; lia). assert (G1 : 1 <= g + 1) by lia. destruct (rollback_partial p P _ _ _ _ _ G1 X) as (m1 & D).
    exact (fill p n f f1 f' f'' g m m1 m2 G EX A D B).
Qed.
Lemma killed_total : forall p n f fuel todo, log_path p -> 1 <= n < INT_MAX -> n + 1 < Z.of_nat fuel -> exists f1 alive, killed_roll fuel todo f p n = Ret (f1, alive).
Proof.
  intros p n f fuel todo P N F. unfold killed_roll. destruct (cut_total p P n ltac:(lia) fuel (f, todo, true) 1) as (s & C); [lia|lia|]. change (bk p (1 - 1)) with p in C. rewrite C. cbn [bind]. eauto.
Qed.
(* every file but the last is where it was or one further *)
Lemma kept : forall p n f fuel todo f1 alive k q c, log_path p -> 1 <= n < INT_MAX -> killed_roll fuel todo f p n = Ret (f1, alive) ->
  0 <= k < n -> backup p k q -> f q = Some c -> exists j q', (j = k \/ j = k + 1) /\ backup p j q' /\ f1 q' = Some c.
Proof.
  intros p n f fuel todo f1 alive k q c P N H K B Q. apply backup_bk in B. subst q. unfold killed_roll in H.
  destruct (roll_cut fuel (f, todo, true) p 1 n) as [[[f2 l2] a2]| |] eqn:C; try discriminate. cbn [bind fst snd] in H. injection H as -> ->.
  change p with (bk p (1 - 1)) in C. pose proof (cut_cases p P _ _ _ _ _ _ _ _ (Z.le_refl 1) C) as X.
  assert (GEN : forall g m, 0 <= g -> (forall i, 0 <= i < g -> f (bk p i) <> None) -> rolled f p (g + 1) n m f1 -> g <= n -> exists j q', (j = k \/ j = k + 1) /\ backup p j q' /\ f1 q' = Some c).
  { intros g m G0 EX (B1 & B2 & B3 & B4 & B5 & B6) GN. replace (g + 1 - 1) with g in * by lia.
    destruct (Z_lt_dec k g) as [L|L].
    - exists k, (bk p k). split; [auto|]. split; [apply bk_backup; lia|]. rewrite B6; [exact Q|]. intros i I E. apply bk_inj in E; lia.
    - destruct (Z_lt_dec k m) as [L2|L2].
      + exists (k + 1), (bk p (k + 1)). split; [auto|]. split; [apply bk_backup; lia|]. rewrite B5 by lia. replace (k + 1 - 1) with k by lia. exact Q.
      + exists k, (bk p k). split; [auto|]. split; [apply bk_backup; lia|].
        assert (k <> m) by (intros ->; destruct B3 as [B3|B3]; [lia|congruence]).
        rewrite B6; [exact Q|]. intros i I E. apply bk_inj in E; lia. }
  destruct alive.
  - destruct (rollback_partial p P _ _ _ _ _ (Z.le_refl 1) X) as (m & A). apply (GEN 0 m); [lia|intros; lia|exact A|lia].
  - destruct X as [->|(g & fu & G & EX & X)]; [exists k, (bk p k); split; [auto|]; split; [apply bk_backup; lia|exact Q]|].
    replace (bk p g) with (bk p (g + 1 - 1)) in X by (f_equal; lia). assert (G1 : 1 <= g + 1) by lia. destruct (rollback_partial p P _ _ _ _ _ G1 X) as (m1 & D). apply (GEN g m1); [lia|exact EX|exact D|lia].
Qed.
Lemma resume_all : forall p n fuel f f1, log_path p -> 1 <= n < INT_MAX -> n + 1 < Z.of_nat fuel -> cut_short fuel p n f f1 -> forall f', rollback fuel f p 1 n = Ret f' ->
  exists f'', rollback fuel f1 p 1 n = Ret f'' /\ forall q, f'' q = f' q.
Proof.
  intros p n fuel f f1 P N F H. induction H as [f|f todo f1 alive f2 K _ IH]; intros f' R; [eauto|].
  destruct (resume _ _ _ _ _ _ _ _ P N F K R) as (f'' & R2 & E). destruct (IH f'' R2) as (f3 & R3 & E3). exists f3. split; [exact R3|]. intros q. rewrite E3. apply E.
Qed.
