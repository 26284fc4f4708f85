(* Proofs about log files and power failures (C131). *)
From Coq Require Import ZArith List Bool Arith Lia.
From Verif Require Import Base Durable DurableSpec.
Import ListNotations.
Open Scope Z_scope.

Definition held (s : pfile) : list Z := p_kernel s ++ p_buf s.
Definition good (s : pfile) : Prop := (p_open s = false -> p_buf s = []) /\ (p_disk s <= length (p_kernel s))%nat.

Lemma step_good : forall s o, good s -> good (pstep s o).
Proof.
  intros [k b d op] o [G D]. cbn in G, D. unfold good. destruct o; cbn [pstep p_open]; destruct op; cbn; try (split; [intros; try discriminate; auto|rewrite ?app_length; try lia]); auto.
  - rewrite G by reflexivity. destruct k0; reflexivity.
Qed.
Lemma step_held : forall s o, good s -> held (pstep s o) = held s ++ match o with DWrite t => if p_open s then t else [] | _ => [] end.
Proof.
  intros [k b d op] o [G D]. cbn in G. unfold held. destruct o; cbn [pstep p_open]; destruct op; cbn; rewrite ?app_nil_r, <- ?app_assoc; try reflexivity; rewrite ?firstn_skipn; reflexivity.
Qed.
Lemma step_open : forall s o, p_open (pstep s o) = match o with DOpen => true | DClose => false | _ => p_open s end.
Proof. intros [k b d op] o. destruct o; destruct op; reflexivity. Qed.

Lemma run_facts : forall ops s, good s -> let s' := fold_left pstep ops s in good s' /\ p_open s' = opened (p_open s) ops /\ held s' = held s ++ texts (p_open s) ops.
Proof.
  induction ops as [|o ops IH]; intros s G; cbn zeta; cbn [fold_left].
  - cbn. rewrite app_nil_r. auto.
  - destruct (IH (pstep s o) (step_good s o G)) as (A & B & C). split; [exact A|]. rewrite B, C, step_held, step_open, <- app_assoc by exact G.
    destruct o; cbn; auto.
Qed.
Lemma fresh_good : good pfresh.
Proof. split; cbn; auto. Qed.
Lemma prun_facts : forall ops, good (prun ops) /\ p_open (prun ops) = opened false ops /\ held (prun ops) = texts false ops.
Proof. intros ops. exact (run_facts ops pfresh fresh_good). Qed.
Lemma prun_app : forall a b, prun (a ++ b) = fold_left pstep b (prun a).
Proof. intros. apply fold_left_app. Qed.

(* what is handed over and what is on the disk only grows *)
Definition before (a b : list Z) : Prop := exists c, b = a ++ c.
Lemma before_refl : forall a, before a a.
Proof. intros a. exists []. now rewrite app_nil_r. Qed.
Lemma before_trans : forall a b c, before a b -> before b c -> before a c.
Proof. intros a b c [x ->] [y ->]. exists (x ++ y). now rewrite app_assoc. Qed.
Lemma step_grows : forall s o, before (p_kernel s) (p_kernel (pstep s o)).
Proof.
  intros [k b d op] o. destruct o; destruct op; cbn; try apply before_refl; eexists; reflexivity.
Qed.
Lemma run_grows : forall ops s, before (p_kernel s) (p_kernel (fold_left pstep ops s)).
Proof. induction ops as [|o ops IH]; intros s; cbn; [apply before_refl|]. eapply before_trans; [apply step_grows|apply IH]. Qed.
Lemma step_disk : forall s o, good s -> (p_disk s <= p_disk (pstep s o))%nat.
Proof. intros [k b d op] o [_ G]. cbn in G. destruct o; destruct op; cbn; lia. Qed.
Lemma run_disk : forall ops s, good s -> (p_disk s <= p_disk (fold_left pstep ops s))%nat.
Proof. induction ops as [|o ops IH]; intros s G; cbn; [lia|]. pose proof (step_disk s o G). pose proof (IH _ (step_good s o G)). lia. Qed.

Lemma close_exact : forall ops t, opened false ops = true ->
  failure (prun (ops ++ [DClose])) t <-> (exists u, t = killed (prun ops) ++ u) /\ (exists u, texts false ops = t ++ u).
Proof.
  intros ops t O. destruct (prun_facts ops) as (G & OP & H). rewrite prun_app. cbn [fold_left pstep]. rewrite OP, O. unfold failure, killed. cbn. rewrite <- H. unfold held. split.
  - intros (k & K & ->). split.
    + rewrite firstn_app, firstn_all2 by lia. eauto.
    + eexists. symmetry. apply firstn_skipn.
  - intros ((u & ->) & (v & E)). exists (length (p_kernel (prun ops) ++ u)). split; [rewrite app_length; lia|]. rewrite E, firstn_app, firstn_all, Nat.sub_diag. cbn. now rewrite app_nil_r.
Qed.
Lemma flush_all : forall ops, opened false ops = true -> killed (prun (ops ++ [DFlush])) = texts false ops.
Proof.
  intros ops O. destruct (prun_facts ops) as (G & OP & H). rewrite prun_app. cbn [fold_left pstep]. rewrite OP, O. exact H.
Qed.
(* fclose hands the buffer over, in open and in close *)
Lemma reopen_all : forall ops o, opened false ops = true -> o = DOpen \/ o = DClose -> killed (prun (ops ++ [o])) = texts false ops.
Proof.
  intros ops o O [-> | ->]; destruct (prun_facts ops) as (G & OP & H); rewrite prun_app; cbn [fold_left pstep]; rewrite OP, O; exact H.
Qed.
Lemma opened_app : forall a b x, opened x (a ++ b) = opened (opened x a) b.
Proof. induction a as [|o a IH]; intros; [reflexivity|]. destruct o; cbn; apply IH. Qed.
Lemma texts_app : forall a b x, texts x (a ++ b) = texts x a ++ texts (opened x a) b.
Proof. induction a as [|o a IH]; intros; [reflexivity|]. destruct o; cbn; rewrite IH, ?app_assoc; reflexivity. Qed.
Lemma quiet_texts : forall mid x, existsb is_write mid = false -> texts x mid = [].
Proof. induction mid as [|o mid IH]; intros x H; [reflexivity|]. destruct o; cbn in *; try discriminate; apply IH; exact H. Qed.
Lemma flushed_kept : forall ops mid t, opened false ops = true -> opened true mid = true ->
  failure (prun (ops ++ DFlush :: mid ++ [DClose])) t -> exists u, t = texts false ops ++ u.
Proof.
  intros ops mid t O M F. replace (ops ++ DFlush :: mid ++ [DClose]) with ((ops ++ DFlush :: mid) ++ [DClose]) in F by (rewrite <- app_assoc; reflexivity).
  apply close_exact in F; [|rewrite opened_app, O; exact M]. destruct F as ((u & ->) & _).
  replace (ops ++ DFlush :: mid) with ((ops ++ [DFlush]) ++ mid) by (rewrite <- app_assoc; reflexivity).
  rewrite prun_app. destruct (run_grows mid (prun (ops ++ [DFlush]))) as (c & E). unfold killed. rewrite E.
  change (p_kernel (prun (ops ++ [DFlush]))) with (killed (prun (ops ++ [DFlush]))). rewrite flush_all by exact O. exists (c ++ u). now rewrite app_assoc.
Qed.
Lemma flushed_all : forall ops mid t, opened false ops = true -> opened true mid = true -> existsb is_write mid = false ->
  failure (prun (ops ++ DFlush :: mid ++ [DClose])) t -> t = texts false ops.
Proof.
  intros ops mid t O M Q F. destruct (flushed_kept ops mid t O M F) as (u & E).
  replace (ops ++ DFlush :: mid ++ [DClose]) with ((ops ++ DFlush :: mid) ++ [DClose]) in F by (rewrite <- app_assoc; reflexivity).
  apply close_exact in F; [|rewrite opened_app, O; exact M]. destruct F as (_ & (v & W)). rewrite texts_app, O in W. cbn [texts] in W. rewrite (quiet_texts mid), app_nil_r in W by exact Q.
  subst t. rewrite <- app_assoc in W. rewrite <- (app_nil_r (texts false ops)) in W at 1. apply app_inv_head in W. symmetry in W. apply app_eq_nil in W. destruct W as [-> _]. now rewrite app_nil_r.
Qed.
(* what a closed file holds on the disk stays *)
Lemma failure_later : forall ops more t, failure (prun (ops ++ more)) t -> exists a u, failure (prun ops) a /\ t = a ++ u.
Proof.
  intros ops more t (k & K & ->). destruct (prun_facts ops) as (G & _ & _). rewrite prun_app in *. pose proof (run_disk more _ G) as D.
  destruct (run_grows more (prun ops)) as (c & E). rewrite E. destruct G as [_ GD].
  exists (firstn k (p_kernel (prun ops))), (firstn (k - length (p_kernel (prun ops))) c). split; [exists k; split; [lia|reflexivity]|]. apply firstn_app.
Qed.
(* nothing but the text *)
Lemma failure_first : forall ops t, failure (prun ops) t -> exists u, texts false ops = t ++ u.
Proof.
  intros ops t (k & _ & ->). destruct (prun_facts ops) as (_ & _ & H). rewrite <- H. unfold held. exists (skipn k (p_kernel (prun ops)) ++ p_buf (prun ops)).
  rewrite app_assoc, firstn_skipn. reflexivity.
Qed.
