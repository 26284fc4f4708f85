(* Proofs about rolls whose calls fail (C133). *)
From Coq Require Import String ZArith List Bool Lia ZifyBool ZifyNat ZifyN.
From Verif Require Import Base BaseFacts LoggerState FileName FileNameSpec FileNameProofs FileDev FileDevSpec RollProofs RollFail.
Import ListNotations.
Open Scope Z_scope.
Ltac Zify.zify_post_hook ::= idtac.

(* the file that backup k is after a roll from depth d on; m is the first number without a file, or n + 1 *)
Definition after (ok : Z -> bool) (f : fs) (p : text) (d m k : Z) : option text :=
  if (d <=? k) && ok k then f (bk p (k - 1)) else if (k <? m) && ok (k + 1) then None else f (bk p k).
Definition tried (ok : Z -> bool) (f : fs) (p : text) (d n m : Z) (f' : fs) : Prop :=
  d - 1 <= m <= Z.max d (n + 1) /\
  (forall k, d - 1 <= k < m -> f (bk p k) <> None) /\
  (m = Z.max d (n + 1) \/ f (bk p m) = None) /\
  (forall k, d - 1 <= k <= Z.max (d - 1) (Z.min m n) -> f' (bk p k) = after ok f p d m k) /\
  (forall q, (forall k, d - 1 <= k <= Z.max (d - 1) (Z.min m n) -> q <> bk p k) -> f' q = f q).

Lemma fail_tried : forall p ok, log_path p -> forall fuel f d n f', 1 <= d ->
  roll_fail fuel ok f (bk p (d - 1)) d n = Ret f' -> exists m, tried ok f p d n m f'.
Proof.
  intros p ok P. induction fuel as [|fuel IH]; intros f d n f' D H; [discriminate|]. cbn [roll_fail] in H.
  destruct (f (bk p (d - 1))) as [c|] eqn:FP.
  - destruct (n <? d) eqn:ND.
    + injection H as <-. exists d. split; [lia|].
      split; [intros k K; replace k with (d - 1) by lia; congruence|]. split; [left; lia|]. split.
      * intros k K. replace k with (d - 1) by lia. unfold after. replace (d <=? d - 1) with false by lia. replace (d - 1 <? d) with true by lia. replace (d - 1 + 1) with d by lia. cbn [andb].
        destruct (ok d); [apply fset_same|reflexivity].
      * intros q Q. destruct (ok d); [|reflexivity]. apply fset_other. apply Q. lia.
    + destruct (INT_MAX <? d + 1); [discriminate|]. rewrite roll_next_bk in H by assumption.
      destruct (roll_fail fuel ok f (bk p d) (d + 1) n) as [f1| |] eqn:R; try discriminate. cbn [bind] in H. injection H as <-.
      replace (bk p d) with (bk p (d + 1 - 1)) in R by (f_equal; lia).
      assert (D1 : 1 <= d + 1) by lia. destruct (IH f (d + 1) n f1 D1 R) as (m & M & EX & MM & AF & OT). replace (d + 1 - 1) with d in * by lia.
      assert (F1 : f1 (bk p (d - 1)) = Some c).
      { rewrite OT; [assumption|]. intros k K X. apply bk_inj in X; lia. }
      assert (NE : bk p (d - 1) <> bk p d) by (intros X; apply bk_inj in X; lia).
      assert (RN : rename f1 (bk p (d - 1)) (bk p d) = fset (fset f1 (bk p (d - 1)) None) (bk p d) (Some c)).
      { unfold rename. rewrite F1. destruct (teq _ _) eqn:T; [apply teq_spec in T; contradiction|reflexivity]. }
      exists m. split; [lia|].
      split; [intros k K; destruct (Z.eq_dec k (d - 1)) as [->|]; [congruence|apply EX; lia]|].
      split; [destruct MM as [MM|MM]; [left; lia|right; assumption]|].
      rewrite RN. split.
      * intros k K. destruct (Z.eq_dec k (d - 1)) as [->|N1].
        { unfold after. replace (d <=? d - 1) with false by lia. replace (d - 1 <? m) with true by lia. replace (d - 1 + 1) with d by lia. cbn [andb].
          destruct (ok d); [rewrite fset_other by assumption; apply fset_same|congruence]. }
        destruct (Z.eq_dec k d) as [->|N2].
        { unfold after. replace (d <=? d) with true by lia. cbn [andb]. destruct (ok d); [rewrite fset_same; congruence|].
          rewrite AF by lia. unfold after. replace (d + 1 <=? d) with false by lia. reflexivity. }
        assert (E : f1 (bk p k) = after ok f p d m k).
        { rewrite AF by lia. unfold after. replace (d <=? k) with true by lia. replace (d + 1 <=? k) with true by lia. reflexivity. }
        destruct (ok d); [|exact E]. rewrite !fset_other by (intros X; apply bk_inj in X; lia). exact E.
      * intros q Q. destruct (ok d); [|apply OT; intros k K; apply Q; lia]. rewrite !fset_other by (apply Q; lia). apply OT. intros k K. apply Q. lia.
  - injection H as <-. exists (d - 1). split; [lia|]. split; [intros k K; lia|]. split; [right; assumption|]. split.
    + intros k K. replace k with (d - 1) by lia. unfold after. replace (d <=? d - 1) with false by lia. replace (d - 1 <? d - 1) with false by lia. reflexivity.
    + intros q Q. reflexivity.
Qed.
Lemma fail_total : forall p ok, log_path p -> forall n, n < INT_MAX -> forall fuel f d, 1 <= d ->
  Z.max 0 (n + 1 - d) + 1 < Z.of_nat fuel -> exists f', roll_fail fuel ok f (bk p (d - 1)) d n = Ret f'.
Proof.
  intros p ok P n N. induction fuel as [|fuel IH]; intros f d D F; [lia|]. cbn [roll_fail].
  destruct (f (bk p (d - 1))); [|eauto]. destruct (n <? d) eqn:ND; [eauto|].
  destruct (INT_MAX <? d + 1) eqn:IM; [lia|]. rewrite roll_next_bk by assumption.
  replace (bk p d) with (bk p (d + 1 - 1)) by (f_equal; lia).
  destruct (IH f (d + 1)) as (f1 & ->); [lia|lia|]. cbn [bind]. eauto.
Qed.
Lemma all_ok : forall n fuel f path d, roll_fail fuel (fun _ => true) f path d n = rollback fuel f path d n.
Proof.
  intros n. induction fuel as [|fuel IH]; intros f path d; [reflexivity|]. cbn [roll_fail rollback]. destruct (f path); [|reflexivity]. rewrite IH. reflexivity.
Qed.

(* the exact result *)
Lemma fail_exact : forall p ok n f fuel, log_path p -> 1 <= n < INT_MAX -> n + 1 < Z.of_nat fuel ->
  exists f' m, roll_fail fuel ok f p 1 n = Ret f' /\ 0 <= m <= n + 1 /\ (forall k, 0 <= k < m -> exists_at f p k) /\ (m = n + 1 \/ ~ exists_at f p m) /\
    (forall k q q', 1 <= k <= Z.min m n -> backup p k q -> backup p (k - 1) q' -> ok k = true -> f' q = f q') /\
    (forall k q, 0 <= k <= Z.min m n -> backup p k q -> (k = 0 \/ ok k = false) -> f' q = if (k <? m) && ok (k + 1) then None else f q) /\
    (forall q, (forall k, 0 <= k <= Z.min m n -> ~ backup p k q) -> f' q = f q).
Proof.
  intros p ok n f fuel P N F. destruct (fail_total p ok P n ltac:(lia) fuel f 1) as (f' & R); [lia|lia|].
  destruct (fail_tried p ok P fuel f 1 n f' (Z.le_refl 1) R) as (m & M & EX & MM & AF & OT). change (bk p (1 - 1)) with p in R. change (1 - 1) with 0 in *.
  exists f', m. split; [exact R|]. split; [lia|]. split.
  { intros k K. specialize (EX k K). destruct (f (bk p k)) as [c|] eqn:E; [|contradiction]. exists (bk p k), c. split; [apply bk_backup; lia|exact E]. }
  split.
  { destruct MM as [MM|MM]; [left; lia|]. right. intros (q & c & B & Q). apply backup_bk in B. subst q. congruence. }
  split; [|split].
  - intros k q q' K B B' O. apply backup_bk in B, B'. subst. rewrite AF by lia. unfold after. rewrite O. replace (1 <=? k) with true by lia. reflexivity.
  - intros k q K B O. apply backup_bk in B. subst. rewrite AF by lia. unfold after. replace ((1 <=? k) && ok k) with false; [reflexivity|]. destruct O as [-> | ->]; [reflexivity|]. now rewrite andb_false_r.
  - intros q Q. apply OT. intros k K X. subst q. apply (Q k); [lia|]. apply bk_backup. lia.
Qed.
(* once a call has failed all later ones fail *)
Lemma fail_kept : forall p ok n f fuel f' k q c, log_path p -> 1 <= n -> roll_fail fuel ok f p 1 n = Ret f' ->
  0 <= k < n -> backup p k q -> f q = Some c -> (ok k = true -> 1 <= k -> ok (k + 1) = true) ->
  exists j q', (j = k \/ j = k + 1) /\ backup p j q' /\ f' q' = Some c.
Proof.
  intros p ok n f fuel f' k q c P N R K B Q MON. apply backup_bk in B. subst q. change p with (bk p (1 - 1)) in R.
  destruct (fail_tried p ok P fuel f 1 n f' (Z.le_refl 1) R) as (m & M & EX & MM & AF & OT). change (1 - 1) with 0 in *.
  destruct (Z_lt_dec k m) as [L|L].
  - destruct (ok (k + 1)) eqn:O.
    + exists (k + 1), (bk p (k + 1)). split; [auto|]. split; [apply bk_backup; lia|]. rewrite AF by lia. unfold after. rewrite O. replace (1 <=? k + 1) with true by lia. cbn [andb]. replace (k + 1 - 1) with k by lia. exact Q.
    + exists k, (bk p k). split; [auto|]. split; [apply bk_backup; lia|]. rewrite AF by lia. unfold after. rewrite O, andb_false_r.
      destruct ((1 <=? k) && ok k) eqn:X; [|exact Q]. apply andb_prop in X. destruct X as [X1 X2]. assert (false = true) by (apply MON; [exact X2|lia]). discriminate.
  - exists k, (bk p k). split; [auto|]. split; [apply bk_backup; lia|].
    assert (k <> m) by (intros ->; destruct MM as [MM|MM]; [lia|congruence]).
    rewrite OT; [exact Q|]. intros i I E. apply bk_inj in E; lia.
Qed.
