(* Proofs about rollback in FileDev.v. *)
From Coq Require Import String ZArith List Bool Lia ZifyBool ZifyNat ZifyN.
From Verif Require Import Base BaseFacts NumSpec NumFacts LoggerState DateFmt FileName FileNameSpec FileNameProofs FileDev FileDevSpec.
Import ListNotations.
Open Scope Z_scope.

Definition bk (p : text) (k : Z) : text := if k =? 0 then p else p ++ [46] ++ to_string k.

Lemma backup_bk : forall p k q, backup p k q -> q = bk p k.
Proof.
  intros p k q [[-> ->]|[K (d & D & ->)]]; [reflexivity|]. unfold bk. destruct (k =? 0) eqn:E; [lia|].
  do 2 f_equal. eapply is_numeral_unique; [|exact D|apply to_string_ok; lia]. lia.
Qed.
Lemma bk_backup : forall p k, 0 <= k -> backup p k (bk p k).
Proof.
  intros p k K. unfold bk, backup. destruct (k =? 0) eqn:E; [left; lia || (split; [lia|reflexivity])|].
  right. split; [lia|]. exists (to_string k). split; [apply to_string_ok; lia|reflexivity].
Qed.
Lemma bk_0 : forall p, bk p 0 = p.
Proof. reflexivity. Qed.

Lemma bk_inj : forall p j k, 0 <= j -> 0 <= k -> bk p j = bk p k -> j = k.
Proof.
  assert (N : forall p k, p <> p ++ [46] ++ to_string k).
  { intros p k E. apply (f_equal (@length Z)) in E. rewrite !app_length in E. cbn in E. lia. }
  intros p j k J K E. unfold bk in E. destruct (j =? 0) eqn:E1; destruct (k =? 0) eqn:E2; [lia| | |].
  - exfalso. eapply N; exact E.
  - exfalso. eapply N; symmetry; exact E.
  - apply app_inv_head in E. apply app_inv_head in E.
    destruct (to_string_ok j J) as [(V1 & _) _]. destruct (to_string_ok k K) as [(V2 & _) _].
    rewrite E in V1. rewrite V1 in V2. injection V2 as V2. lia.
Qed.

Lemma drop_digits_app : forall d r, Forall (fun c => 48 <= c <= 57) d -> drop_digits (d ++ r) = drop_digits r.
Proof.
  induction d as [|c d IH]; intros r F; [reflexivity|]. inversion F; subst. cbn [app drop_digits]. unfold is_digit.
  destruct ((48 <=? c) && (c <=? 57)) eqn:E; [apply IH; assumption|lia].
Qed.

Lemma roll_base_bk : forall p k, log_path p -> 0 <= k -> roll_base (bk p k) = p.
Proof.
  intros p k (b & P) K. unfold bk, roll_base. destruct (k =? 0) eqn:E.
  - rewrite P, rev_app_distr. reflexivity.
  - rewrite !rev_app_distr, <- app_assoc. rewrite drop_digits_app.
    + cbn [rev app]. change (drop_digits (46 :: rev p)) with (46 :: rev p). cbn [Z.eqb Pos.eqb]. apply rev_involutive.
    + apply Forall_rev. apply to_string_ok. assumption.
Qed.
Lemma roll_next_bk : forall p d, log_path p -> 1 <= d -> roll_next (bk p (d - 1)) d = bk p d.
Proof.
  intros p d P D. unfold roll_next. rewrite roll_base_bk by (assumption || lia). unfold bk. destruct (d =? 0) eqn:E; [lia|reflexivity].
Qed.

Lemma fset_same : forall f p c, fset f p c p = c.
Proof. intros. unfold fset. destruct (teq p p) eqn:E; [reflexivity|]. assert (X : teq p p = true) by (apply teq_spec; reflexivity). congruence. Qed.
Lemma fset_other : forall f p c q, q <> p -> fset f p c q = f q.
Proof. intros. unfold fset. destruct (teq q p) eqn:E; [apply teq_spec in E; contradiction|reflexivity]. Qed.

Definition rolled (f : fs) (p : text) (d n m : Z) (f' : fs) : Prop :=
  d - 1 <= m <= Z.max d (n + 1) /\
  (forall k, d - 1 <= k < m -> f (bk p k) <> None) /\
  (m = Z.max d (n + 1) \/ f (bk p m) = None) /\
  f' (bk p (d - 1)) = None /\
  (forall k, d <= k <= Z.min m n -> f' (bk p k) = f (bk p (k - 1))) /\
  (forall q, (forall k, d - 1 <= k <= Z.max (d - 1) (Z.min m n) -> q <> bk p k) -> f' q = f q).

Lemma rollback_partial : forall p, log_path p -> forall fuel f d n f', 1 <= d ->
  rollback fuel f (bk p (d - 1)) d n = Ret f' -> exists m, rolled f p d n m f'.
Proof.
  intros p P. induction fuel as [|fuel IH]; intros f d n f' D H; [discriminate|]. cbn [rollback] in H.
  destruct (f (bk p (d - 1))) as [c|] eqn:FP.
  - destruct (n <? d) eqn:ND.
    + injection H as <-. exists d. split; [lia|].
      split; [intros k K; replace k with (d - 1) by lia; congruence|]. split; [left; lia|].
      split; [apply fset_same|]. split; [intros k K; lia|].
      intros q Q. apply fset_other. apply Q. lia.
    + destruct (INT_MAX <? d + 1); [discriminate|]. rewrite roll_next_bk in H by assumption.
      destruct (rollback fuel f (bk p d) (d + 1) n) as [f1| |] eqn:R; try discriminate. cbn [bind] in H. injection H as <-.
      replace (bk p d) with (bk p (d + 1 - 1)) in R by (f_equal; lia).
      destruct (IH f (d + 1) n f1 ltac:(lia) R) as (m & M & EX & MM & NO & SH & OT).
      assert (F1 : f1 (bk p (d - 1)) = Some c).
      { rewrite OT; [assumption|]. intros k K X. apply bk_inj in X; lia. }
      assert (NE : bk p (d - 1) <> bk p d) by (intros X; apply bk_inj in X; lia).
      assert (RN : rename f1 (bk p (d - 1)) (bk p d) = fset (fset f1 (bk p (d - 1)) None) (bk p d) (Some c)).
      { unfold rename. rewrite F1. destruct (teq _ _) eqn:T; [apply teq_spec in T; contradiction|reflexivity]. }
      exists m. split; [lia|].
      split; [intros k K; destruct (Z.eq_dec k (d - 1)) as [->|]; [congruence|apply EX; lia]|].
      split; [destruct MM as [MM|MM]; [left; lia|right; assumption]|].
      rewrite RN. split; [rewrite fset_other by assumption; apply fset_same|]. split.
      * intros k K. destruct (Z.eq_dec k d) as [->|]; [rewrite fset_same; symmetry; exact FP|].
        rewrite !fset_other by (intros X; apply bk_inj in X; lia). apply SH. lia.
      * intros q Q. rewrite !fset_other by (apply Q; lia). apply OT. intros k K. apply Q. lia.
  - injection H as <-. exists (d - 1). split; [lia|]. split; [intros k K; lia|]. split; [right; assumption|].
    split; [assumption|]. split; [intros k K; lia|]. intros q Q. reflexivity.
Qed.

Lemma rollback_total : forall p, log_path p -> forall n, n < INT_MAX -> forall fuel f d, 1 <= d ->
  Z.max 0 (n + 1 - d) + 1 < Z.of_nat fuel -> exists f', rollback fuel f (bk p (d - 1)) d n = Ret f'.
Proof.
  intros p P n N. induction fuel as [|fuel IH]; intros f d D F; [lia|]. cbn [rollback].
  destruct (f (bk p (d - 1))); [|eauto]. destruct (n <? d) eqn:ND; [eauto|].
  destruct (INT_MAX <? d + 1) eqn:IM; [lia|]. rewrite roll_next_bk by assumption.
  replace (bk p d) with (bk p (d + 1 - 1)) by (f_equal; lia).
  destruct (IH f (d + 1)) as (f1 & ->); [lia|lia|]. cbn [bind]. eauto.
Qed.

Theorem rollback_shifts : forall p n f fuel, log_path p -> 1 <= n < INT_MAX -> n + 1 < Z.of_nat fuel ->
  exists f' m, rollback fuel f p 1 n = Ret f' /\ 0 <= m <= n + 1 /\
    (forall k, 0 <= k < m -> exists_at f p k) /\ (m = n + 1 \/ ~ exists_at f p m) /\ shifted f p n m f'.
Proof.
  intros p n f fuel P N F. destruct (rollback_total p P n ltac:(lia) fuel f 1) as (f' & R); [lia|lia|].
  destruct (rollback_partial p P fuel f 1 n f' ltac:(lia) R) as (m & M & EX & MM & NO & SH & OT).
  change (bk p (1 - 1)) with p in *. exists f', m. split; [exact R|]. split; [lia|].
  split.
  { intros k K. specialize (EX k ltac:(lia)). destruct (f (bk p k)) as [c|] eqn:E; [|contradiction].
    exists (bk p k), c. split; [apply bk_backup; lia|exact E]. }
  split.
  { destruct MM as [MM|MM]; [left; lia|]. right. intros (q & c & B & Q). apply backup_bk in B. subst q. congruence. }
  split; [assumption|]. split.
  - intros k q q' K B B'. apply backup_bk in B, B'. subst. apply SH. lia.
  - intros q Q. apply OT. intros k K X. subst q. apply (Q k); [lia|]. apply bk_backup. lia.
Qed.
