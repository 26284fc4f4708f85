(* Proofs about Disk.v. *)
From Coq Require Import String ZArith List Bool Lia ZifyBool ZifyNat.
From Verif Require Import Base BaseFacts LoggerState DateFmt FileName FileDev FileDevSpec RollProofs FileDevProofs FileRunProofs Disk DiskSpec.
Import ListNotations.
Open Scope Z_scope.

Definition agree (U : text -> Prop) (f g : fs) : Prop := forall q, U q -> f q = g q.
Definition outside (U : text -> Prop) (f g : fs) : Prop := forall q, ~ U q -> f q = g q.

Lemma fset_agree : forall U f g p c, agree U f g -> agree U (fset f p c) (fset g p c).
Proof. intros U f g p c A q Q. unfold fset. destruct (teq q p); auto. Qed.
Lemma fset_outside : forall (U : text -> Prop) f g p c, U p -> outside U f g -> outside U (fset f p c) g.
Proof. intros U f g p c P A q Q. rewrite fset_other; [auto|]. intros ->. contradiction. Qed.
Lemma rename_agree : forall (U : text -> Prop) f g a b, U a -> agree U f g -> agree U (rename f a b) (rename g a b).
Proof.
  intros U f g a b P A. unfold rename. rewrite (A a P). destruct (g a); [|exact A]. destruct (teq a b); [exact A|].
  apply fset_agree, fset_agree, A.
Qed.
Lemma rename_outside : forall (U : text -> Prop) f g a b, U a -> U b -> outside U f g -> outside U (rename f a b) g.
Proof.
  intros U f g a b P Q A. unfold rename. destruct (f a); [|exact A]. destruct (teq a b); [exact A|].
  apply fset_outside, fset_outside; assumption.
Qed.

Lemma rollback_local : forall (U : text -> Prop) p, log_path p -> (forall k, 0 <= k -> U (bk p k)) ->
  forall fuel f g d n f', 1 <= d -> agree U f g -> rollback fuel f (bk p (d - 1)) d n = Ret f' ->
  outside U f' f /\ exists g', rollback fuel g (bk p (d - 1)) d n = Ret g' /\ agree U f' g'.
Proof.
  intros U p P HU. induction fuel as [|fuel IH]; intros f g d n f' D A H; [discriminate|]. cbn [rollback] in *.
  assert (U0 : U (bk p (d - 1))) by (apply HU; lia). rewrite <- (A _ U0).
  destruct (f (bk p (d - 1))) as [c|].
  - destruct (n <? d).
    + injection H as <-. split; [apply fset_outside; [exact U0|intros q _; reflexivity]|]. eexists. split; [reflexivity|]. apply fset_agree, A.
    + destruct (INT_MAX <? d + 1); [discriminate|]. rewrite roll_next_bk in * by (assumption || lia).
      replace (bk p d) with (bk p (d + 1 - 1)) in * by (f_equal; lia).
      destruct (rollback fuel f (bk p (d + 1 - 1)) (d + 1) n) as [f1| |] eqn:R; try discriminate.
      destruct (IH f g (d + 1) n f1 ltac:(lia) A R) as (O1 & g1 & R' & A1). rewrite R'. cbn [bind] in *. injection H as <-.
      assert (U1 : U (bk p (d + 1 - 1))) by (apply HU; lia).
      split; [apply rename_outside; assumption|]. eexists. split; [reflexivity|]. apply rename_agree; assumption.
  - injection H as <-. split; [intros q _; reflexivity|]. exists g. split; [reflexivity|exact A].
Qed.

Lemma roll_files_local : forall (U : text -> Prop) e c lim f g p f', log_path p -> (forall k, 0 <= k -> U (bk p k)) ->
  agree U f g -> roll_files e c lim f p = Ret f' -> outside U f' f /\ exists g', roll_files e c lim g p = Ret g' /\ agree U f' g'.
Proof.
  intros U e c lim f g p f' P HU A H. unfold roll_files in *.
  destruct (((0 <? fld (dc_cfg c) DEVICE_CFG_FILE_ROLLBACK) || (0 <? fld (dc_cfg c) DEVICE_CFG_FILE_LIMIT_SIZE)) &&
     ((fld (dc_cfg c) DEVICE_CFG_FILE_STUFF_UP =? 0) || lim)).
  - replace p with (bk p (1 - 1)) in * by reflexivity. eapply rollback_local; try eassumption; try lia.
  - injection H as <-. split; [intros q _; reflexivity|]. exists g. split; [reflexivity|exact A].
Qed.

(* a step of a device depends on its own files only and leaves the others alone *)
Definition like (U : text -> Prop) (s t : dstate) : Prop := d_open t = d_open s /\ d_log t = d_log s /\ agree U (d_fs s) (d_fs t).
Definition owns (e : denv) (c : dconf) (U : text -> Prop) : Prop := forall ts p, dev_path e c ts = Ret p -> forall k, 0 <= k -> U (bk p k).
Definition opens (e : denv) (c : dconf) (s : dstate) : Prop := forall p, d_open s = Some p -> exists t, dev_path e c t = Ret p.

Lemma open_local : forall U e c s t r i s', owns e c U -> opens e c s -> like U s t -> open_device e c s r i = Ret s' ->
  opens e c s' /\ outside U (d_fs s') (d_fs s) /\ exists t', open_device e c t r i = Ret t' /\ like U s' t'.
Proof.
  intros U e c [f op l] [g op' l'] r i s' OW OP (E1 & E2 & A) H. cbn in E1, E2, A. subst op' l'.
  unfold open_device in *. cbn [d_log d_fs d_open] in *.
  destruct (close_file c l r) eqn:CF; cbn [d_open d_fs d_log] in *; [|destruct op as [p|]].
  2: { injection H as <-. split; [exact OP|]. split; [intros q _; reflexivity|]. eexists. split; [reflexivity|]. repeat split; try reflexivity. exact A. }
  all: destruct (dev_path e c (r_ts r)) as [p| |] eqn:P; try discriminate; cbn [bind] in *;
    destruct (250 <=? zlen p).
  1, 3: injection H as <-; split; [intros q Q; discriminate|]; split; [intros q _; reflexivity|]; eexists; split; [reflexivity|];
    repeat split; try reflexivity; exact A.
  all: destruct (roll_files e c (limit_out c l r) f p) as [f1| |] eqn:R; try discriminate; cbn [bind] in *;
    destruct (roll_files_local U e c _ f g p f1 (dev_path_log _ _ _ _ P) (OW _ _ P) A R) as (O1 & g1 & R' & A1);
    rewrite R'; cbn [bind]; destruct (negb (io_open i)).
  1, 3: injection H as <-; split; [intros q Q; discriminate|]; split; [exact O1|]; eexists; split; [reflexivity|];
    repeat split; try reflexivity; exact A1.
  all: injection H as <-; assert (UP : U p) by (apply (OW _ _ P 0); lia); rewrite (A1 p UP);
    split; [intros q Q; injection Q as <-; eauto|]; split; [cbn [d_fs]; apply fset_outside; assumption|]; eexists; split; [reflexivity|];
    repeat split; try reflexivity; apply fset_agree; exact A1.
Qed.

Lemma step_local : forall U e c s t r i s', owns e c U -> opens e c s -> like U s t -> dev_step e c s r i = Ret s' ->
  opens e c s' /\ outside U (d_fs s') (d_fs s) /\ exists t', dev_step e c t r i = Ret t' /\ like U s' t'.
Proof.
  intros U e c s t r i s' OW OP LK H. unfold dev_step in *. destruct LK as (E1 & E2 & A). rewrite E1, E2.
  destruct (match d_open s with None => _ | Some _ => false end).
  { injection H as <-. split; [exact OP|]. split; [intros q _; reflexivity|]. exists t. repeat split; auto. }
  destruct (open_device e c s r i) as [s1| |] eqn:O1; try discriminate. cbn [bind] in *.
  destruct (open_local U e c s t r i s1 OW OP (conj E1 (conj E2 A)) O1) as (OP1 & X1 & t1 & O2 & F1 & F2 & A1).
  rewrite O2. cbn [bind]. rewrite F1.
  destruct (d_open s1) as [p|] eqn:P.
  2: { injection H as <-. split; [exact OP1|]. split; [exact X1|]. exists t1. repeat split; congruence || auto. }
  destruct ((DEVICE_LOG_PRIORITY + r_prio r <? 0) || (DEVICE_LOG_MAX_ID <=? DEVICE_LOG_PRIORITY + r_prio r)); [discriminate|].
  injection H as <-. destruct (OP1 p P) as (tp & TP). assert (UP : U p) by (apply (OW _ _ TP 0); lia).
  unfold file_write. rewrite P, F1. destruct (zlen (r_text r) <=? 0).
  - cbn [d_open d_fs d_log]. split; [intros q Q; apply OP1; cbn in Q; congruence|]. split; [exact X1|]. eexists. split; [reflexivity|].
    repeat split; cbn; try congruence. exact A1.
  - cbn [d_open d_fs d_log]. rewrite <- (A1 p UP), F2. split; [|split].
    + intros q Q. cbn in Q. destruct (_ =? _); [|discriminate]. injection Q as <-. eauto.
    + apply fset_outside; assumption.
    + eexists. split; [reflexivity|]. repeat split; try reflexivity. cbn. apply fset_agree, A1.
Qed.

(* ---- all devices ---- *)
Lemma same_spec : forall a b, same a b = true <-> a = b.
Proof. intros [a1 a2] [b1 b2]. unfold same. cbn. split; [intros; f_equal; lia|intros [= -> ->]; lia]. Qed.
Lemma same_refl : forall a, same a a = true.
Proof. intros. apply same_spec. reflexivity. Qed.

Lemma belongs_bk : forall e c q, belongs e c q -> exists t p k, dev_path e c t = Ret p /\ 0 <= k /\ q = bk p k.
Proof.
  intros e c q (t & p & k & P & B). exists t, p, k. split; [exact P|]. split; [destruct B as [[-> _]|[K _]]; lia|apply backup_bk, B].
Qed.
Lemma belongs_apart : forall e conf ds a b q, apart e conf ds -> In a ds -> In b ds -> a <> b -> belongs e (conf a) q -> belongs e (conf b) q -> False.
Proof.
  intros e conf ds a b q AP IA IB N A B. apply belongs_bk in A, B. destruct A as (t & p & k & P & K & ->), B as (u & p' & k' & P' & K' & E).
  assert (p = p').
  { pose proof (dev_path_log _ _ _ _ P) as L. pose proof (dev_path_log _ _ _ _ P') as L'.
    destruct (Z.eq_dec k 0) as [->|Hk], (Z.eq_dec k' 0) as [->|Hk']; rewrite ?bk_0 in E.
    - exact E.
    - exfalso. apply (bk_not_log p' k'); [lia|]. rewrite <- E. exact L.
    - exfalso. apply (bk_not_log p k); [lia|]. rewrite E. exact L'.
    - apply (bk_split p p' k k'); [lia|lia|exact E]. }
  subst p'. exact (AP a b t u p IA IB N P P').
Qed.
Lemma belongs_owns : forall e c, owns e c (belongs e c).
Proof. intros e c ts p P k K. exists ts, p, k. split; [exact P|apply bk_backup, K]. Qed.

Lemma part_cons : forall a b x l, part a ((b, x) :: l) = if same b a then x :: part a l else part a l.
Proof. intros a b x l. unfold part, meant_for, same. cbn [filter fst]. destruct ((fst b =? fst a) && (snd b =? snd a)); reflexivity. Qed.

Lemma disk_alone : forall e conf ds l d d', apart e conf ds -> in_order e conf ds d -> Forall (fun x => In (fst x) ds) l -> disk_run e conf d l = Ret d' ->
  in_order e conf ds d' /\ (forall q, (forall a, In a ds -> ~ belongs e (conf a) q) -> k_fs d' q = k_fs d q) /\
  forall a s, In a ds -> like (belongs e (conf a)) (dev_at d a) s ->
  exists s', dev_run e (conf a) s (part a l) = Ret s' /\ like (belongs e (conf a)) (dev_at d' a) s'.
Proof.
  intros e conf ds. induction l as [|[b [r i]] l IH]; intros d d' AP IO IN H; cbn [disk_run] in H.
  { injection H as <-. split; [exact IO|]. split; [reflexivity|]. intros a s _ L. exists s. split; [reflexivity|exact L]. }
  inversion IN as [|? ? INb INl]; subst. cbn [fst] in INb.
  unfold disk_step in H. destruct (dev_step e (conf b) (dev_at d b) r i) as [s1| |] eqn:R; try discriminate. cbn [bind] in H.
  assert (Lb : like (belongs e (conf b)) (dev_at d b) (dev_at d b)) by (repeat split; intros q _; reflexivity).
  destruct (step_local _ e (conf b) (dev_at d b) (dev_at d b) r i s1 (belongs_owns e (conf b)) (fun p => IO b p INb) Lb R) as (OP & OUT & _).
  assert (IO1 : in_order e conf ds (dev_put d b s1)).
  { intros a p A. cbn [dev_put k_open]. destruct (same a b) eqn:S1; [apply same_spec in S1; subst a; apply OP|apply IO, A]. }
  destruct (IH _ _ AP IO1 INl H) as (IO2 & NB & Z). split; [exact IO2|]. split.
  { intros q Q. rewrite (NB q Q). cbn [dev_put k_fs]. apply OUT, Q, INb. }
  intros a s A L. rewrite part_cons.
  destruct (same b a) eqn:S1.
  - apply same_spec in S1. subst b.
    destruct (step_local _ e (conf a) (dev_at d a) s r i s1 (belongs_owns e (conf a)) (fun p => IO a p A) L R) as (_ & _ & t1 & R' & L').
    cbn [dev_run]. rewrite R'. cbn [bind]. apply Z; [exact A|]. unfold dev_at, dev_put. cbn [k_fs k_open k_log]. rewrite same_refl. exact L'.
  - apply Z; [exact A|]. unfold dev_at, dev_put in *. cbn [k_fs k_open k_log].
    assert (N : a <> b) by (intros ->; rewrite same_refl in S1; discriminate).
    assert (S2 : same a b = false) by (destruct (same a b) eqn:S2; [apply same_spec in S2; contradiction|reflexivity]). rewrite S2.
    destruct L as (L1 & L2 & L3). repeat split; try assumption. cbn [d_fs] in *. intros q Q. rewrite <- (L3 q Q). apply OUT.
    intros B. exact (belongs_apart e conf ds a b q AP A INb N Q B).
Qed.
