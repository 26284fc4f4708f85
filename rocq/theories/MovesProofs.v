(* Slots held = slots pushed + slots still owned. *)
From Coq Require Import String ZArith List Bool Lia Permutation.
From Verif Require Import Base BaseFacts ConfigProofs Moves.
Import ListNotations.
Open Scope Z_scope.

(* the slots reserved by a sequence of operations *)
Definition held (ops : list sop) : list Z :=
  flat_map (fun op => match op with New h => if 0 <=? h then [h] else [] | _ => [] end) ops.

Definition own (ob : sobj) : list (Z * Z) :=
  match so_data ob with Some s => [(s, so_hold ob)] | None => [] end.
Definition owned (objs : list sobj) : list (Z * Z) := flat_map own objs.

Lemma rd_split : forall A (l : list A) i x, rd l i = Ret x -> exists a b, l = a ++ x :: b /\ zlen a = i.
Proof.
  intros A l i x H. unfold rd in H. destruct (i <? 0) eqn:G; [discriminate|]. destruct (nth_error l (Z.to_nat i)) eqn:N; [|discriminate].
  injection H as ->. destruct (nth_error_split l _ N) as (a & b & -> & L). exists a, b. split; [reflexivity|]. unfold zlen. lia.
Qed.
Lemma wr_split : forall A (a b : list A) x y, wr (a ++ x :: b) (zlen a) y = Ret (a ++ y :: b).
Proof. intros. unfold wr. change (x :: b) with ([x] ++ b). rewrite blit_splice by reflexivity. reflexivity. Qed.

Lemma owned_app : forall a b, owned (a ++ b) = owned a ++ owned b.
Proof. intros. unfold owned. apply flat_map_app. Qed.

Definition dup (h : Z) : Z * Z := (h, h).
Lemma sop_step_perm : forall s op s', sop_step s op = Ret s' ->
  Permutation (sh_pushed s ++ owned (sh_objs s) ++ map dup (held [op])) (sh_pushed s' ++ owned (sh_objs s')).
Proof.
  intros [objs ps] op s' H. destruct op as [h|i|i]; cbn [sop_step sh_objs sh_pushed] in *.
  - injection H as <-. cbn [sh_objs sh_pushed held flat_map]. rewrite owned_app. apply Permutation_app_head, Permutation_app_head.
    destruct (h <? 0) eqn:G; destruct (0 <=? h) eqn:G'; try lia; reflexivity.
  - apply bind_ret_inv in H as (ob & R & H). destruct (so_alive ob); [|discriminate].
    apply rd_split in R as (a & b & -> & <-). rewrite wr_split in H. injection H as <-. cbn [sh_objs sh_pushed held flat_map map].
    rewrite app_nil_r. apply Permutation_app_head. rewrite !owned_app. cbn [owned flat_map].
    change (own (mkSobj true None (-1))) with (@nil (Z * Z)). cbn [app]. rewrite app_nil_r. rewrite <- app_assoc.
    apply Permutation_app_head. change (own (mkSobj true (so_data ob) (so_hold ob))) with (own ob). apply Permutation_app_comm.
  - apply bind_ret_inv in H as (ob & R & H). destruct (so_alive ob); [|discriminate].
    apply rd_split in R as (a & b & -> & <-). rewrite wr_split in H. cbn [bind] in H.
    assert (O: own ob = match so_data ob with Some s => [(s, so_hold ob)] | None => [] end) by reflexivity.
    destruct (so_data ob) as [sl|]; injection H as <-; cbn [sh_objs sh_pushed held flat_map map]; rewrite app_nil_r;
      rewrite !owned_app; cbn [owned flat_map]; rewrite O; change (own (mkSobj false None (-1))) with (@nil (Z * Z)); cbn [app].
    + rewrite <- app_assoc. apply Permutation_app_head. cbn [app]. symmetry. apply Permutation_middle.
    + reflexivity.
Qed.

Lemma sop_run_perm : forall ops s s', sop_run s ops = Ret s' ->
  Permutation (sh_pushed s ++ owned (sh_objs s) ++ map dup (held ops)) (sh_pushed s' ++ owned (sh_objs s')).
Proof.
  induction ops as [|op ops IH]; intros s s' H; cbn [sop_run] in H.
  - injection H as <-. cbn [held flat_map map]. rewrite app_nil_r. reflexivity.
  - apply bind_ret_inv in H as (s1 & R & H). apply sop_step_perm in R. apply IH in H. rewrite <- H.
    change (held (op :: ops)) with ((match op with New h => if 0 <=? h then [h] else [] | _ => [] end) ++ held ops).
    replace (match op with New h => if 0 <=? h then [h] else [] | _ => [] end) with (held [op]) by (destruct op; cbn [held flat_map]; rewrite ?app_nil_r; reflexivity).
    rewrite map_app. rewrite (app_assoc (owned (sh_objs s))), (app_assoc (sh_pushed s)).
    rewrite R. rewrite <- app_assoc. reflexivity.
Qed.

(* objects that were destroyed own nothing *)
Definition dead_free (objs : list sobj) : Prop := Forall (fun ob => so_alive ob = false -> own ob = []) objs.
Lemma Forall_mid : forall A (P : A -> Prop) a x y b, Forall P (a ++ x :: b) -> P y -> Forall P (a ++ y :: b).
Proof.
  intros A P a x y b H Hy. apply Forall_app in H as (H1 & H2). apply Forall_app. split; [assumption|].
  inversion H2; subst. constructor; assumption.
Qed.
Lemma sop_step_dead : forall s op s', sop_step s op = Ret s' -> dead_free (sh_objs s) -> dead_free (sh_objs s').
Proof.
  intros [objs ps] op s' H D. destruct op as [h|i|i]; cbn [sop_step sh_objs sh_pushed] in *.
  - injection H as <-. cbn [sh_objs]. apply Forall_app. split; [assumption|]. constructor; [|constructor].
    destruct (h <? 0); discriminate.
  - apply bind_ret_inv in H as (ob & R & H). destruct (so_alive ob); [|discriminate].
    apply rd_split in R as (a & b & -> & <-). rewrite wr_split in H. injection H as <-. cbn [sh_objs].
    apply Forall_app. split; [eapply Forall_mid; [exact D|discriminate]|]. constructor; [discriminate|constructor].
  - apply bind_ret_inv in H as (ob & R & H). destruct (so_alive ob); [|discriminate].
    apply rd_split in R as (a & b & -> & <-). rewrite wr_split in H. cbn [bind] in H.
    destruct (so_data ob); injection H as <-; cbn [sh_objs]; (eapply Forall_mid; [exact D|reflexivity]).
Qed.
Lemma sop_run_dead : forall ops s s', sop_run s ops = Ret s' -> dead_free (sh_objs s) -> dead_free (sh_objs s').
Proof.
  induction ops as [|op ops IH]; intros s s' H D; cbn [sop_run] in H; [injection H as <-; assumption|].
  apply bind_ret_inv in H as (s1 & R & H). eapply IH; [exact H|]. eapply sop_step_dead; eassumption.
Qed.
Lemma all_dead_own_nothing : forall objs, dead_free objs -> Forall (fun ob => so_alive ob = false) objs -> owned objs = [].
Proof.
  intros objs D. induction D as [|ob objs Ho D IH]; intros H; [reflexivity|]. inversion H; subst.
  cbn [owned flat_map]. rewrite Ho by assumption. apply IH; assumption.
Qed.

(* ---- which orders are defined ---- *)
(* how many objects [ops] makes *)
Definition made (ops : list sop) : Z := zlen (filter (fun op => match op with Destroy _ => false | _ => true end) ops).
(* [op] may follow [pre]: it touches no object that does not exist yet or does not exist any more *)
Definition may_follow (pre : list sop) (op : sop) : Prop :=
  match op with
  | New _ => True
  | Move i | Destroy i => 0 <= i < made pre /\ ~ In (Destroy i) pre
  end.
Definition life (pre : list sop) (s : sheap) : Prop :=
  zlen (sh_objs s) = made pre /\
  forall i ob, rd (sh_objs s) i = Ret ob -> so_alive ob = true <-> ~ In (Destroy i) pre.
Lemma made_app : forall a b, made (a ++ b) = made a + made b.
Proof. intros. unfold made. rewrite filter_app. apply zlen_app. Qed.
Lemma rd_last : forall A (l : list A) x i y, rd (l ++ [x]) i = Ret y -> (i < zlen l /\ rd l i = Ret y) \/ (i = zlen l /\ y = x).
Proof.
  intros A l x i y H. unfold rd in *. destruct (i <? 0) eqn:E; [discriminate|].
  destruct (Z_lt_dec i (zlen l)) as [D|D].
  - left. split; [exact D|]. rewrite nth_error_app1 in H by (unfold zlen in D; lia). exact H.
  - right. rewrite nth_error_app2 in H by (unfold zlen in D; lia). unfold zlen in *. destruct (Z.to_nat i - length l)%nat as [|n] eqn:F; cbn in H.
    + split; [lia|congruence].
    + destruct n; discriminate.
Qed.
Lemma rd_some : forall A (l : list A) i, 0 <= i < zlen l -> exists x, rd l i = Ret x.
Proof.
  intros A l i H. unfold rd. replace (i <? 0) with false by lia. destruct (nth_error l (Z.to_nat i)) eqn:E; [eauto|].
  apply nth_error_None in E. unfold zlen in H. lia.
Qed.
Lemma sop_step_life : forall pre s op, life pre s -> (forall i, In (Destroy i) pre -> 0 <= i < made pre) ->
  (forall s', sop_step s op = Ret s' -> may_follow pre op /\ life (pre ++ [op]) s') /\
  (may_follow pre op -> exists s', sop_step s op = Ret s').
Proof.
  intros pre s op (LN & AL) LO. split.
  - intros s' H. destruct op as [h|j|j]; cbn [sop_step] in H.
    + injection H as <-. split; [exact I|]. split; cbn [sh_objs].
      * rewrite zlen_app, made_app, LN. reflexivity.
      * intros i ob R. apply rd_last in R as [(D & R)|(-> & ->)].
        -- rewrite (AL _ _ R). rewrite in_app_iff. cbn [In]. intuition discriminate.
        -- rewrite in_app_iff. cbn [In]. destruct (h <? 0); cbn [so_alive]; split; intros; try reflexivity; intros [X|[X|[]]]; try discriminate; apply LO in X; lia.
    + apply bind_ret_inv in H as (ob & R & H). destruct (so_alive ob) eqn:A; [|discriminate].
      apply bind_ret_inv in H as (l & W & H). injection H as <-. destruct (wr_rd _ _ _ _ _ W) as [WL RW].
      assert (J : 0 <= j < made pre) by (pose proof (rd_inv _ _ _ _ R) as [X Y]; rewrite <- LN; assert (Z.to_nat j < length (sh_objs s))%nat by (apply nth_error_Some; rewrite Y; discriminate); unfold zlen; lia).
      split; [split; [exact J|apply (AL _ _ R), A]|]. split; cbn [sh_objs].
      * rewrite zlen_app, made_app, WL, LN. reflexivity.
      * intros i ob' R'. rewrite in_app_iff. cbn [In]. apply rd_last in R' as [(D & R')|(-> & ->)].
        -- rewrite RW in R'. destruct (i =? j) eqn:E.
           ++ injection R' as <-. cbn [so_alive]. assert (i = j) by lia. subst i. pose proof (proj1 (AL _ _ R) A). intuition discriminate.
           ++ rewrite (AL _ _ R'). intuition discriminate.
        -- cbn [so_alive]. split; [intros _ [X|[X|[]]]; [|discriminate]|reflexivity]. apply LO in X. lia.
    + apply bind_ret_inv in H as (ob & R & H). destruct (so_alive ob) eqn:A; [|discriminate].
      apply bind_ret_inv in H as (l & W & H). destruct (wr_rd _ _ _ _ _ W) as [WL RW].
      assert (J : 0 <= j < made pre) by (pose proof (rd_inv _ _ _ _ R) as [X Y]; rewrite <- LN; assert (Z.to_nat j < length (sh_objs s))%nat by (apply nth_error_Some; rewrite Y; discriminate); unfold zlen; lia).
      split; [split; [exact J|apply (AL _ _ R), A]|].
      assert (SO : sh_objs s' = l) by (destruct (so_data ob); injection H as <-; reflexivity). clear H. split; rewrite SO.
      * rewrite made_app, WL, LN. unfold made at 3. cbn [filter]. change (zlen (@nil sop)) with 0. lia.
      * intros i ob' R'. rewrite in_app_iff. cbn [In]. rewrite RW in R'. destruct (i =? j) eqn:E.
        -- injection R' as <-. cbn [so_alive]. assert (i = j) by lia. subst i. split; [discriminate|]. intros X. exfalso. apply X. auto.
        -- rewrite (AL _ _ R'). split; [intros X [Y|[Y|[]]]; [auto|injection Y as Y; lia]|intuition].
  - intros M. destruct op as [h|j|j]; cbn [sop_step]; [eauto| |]; destruct M as (J & ND); rewrite <- LN in J;
      destruct (rd_some _ _ _ J) as (ob & R); rewrite R; cbn [bind]; rewrite (proj2 (AL _ _ R) ND).
    + apply rd_split in R as (a & b & -> & <-). rewrite wr_split. cbn [bind]. eauto.
    + apply rd_split in R as (a & b & -> & <-). rewrite wr_split. cbn [bind]. destruct (so_data ob); eauto.
Qed.
Lemma sop_run_life : forall ops pre s, life pre s -> (forall i, In (Destroy i) pre -> 0 <= i < made pre) ->
  (exists s', sop_run s ops = Ret s') <-> (forall a op b, ops = a ++ op :: b -> may_follow (pre ++ a) op).
Proof.
  induction ops as [|op ops IH]; intros pre s LF LO; cbn [sop_run].
  { split; [intros _ [|? a] ? ? E; discriminate|eauto]. }
  destruct (sop_step_life pre s op LF LO) as (S1 & S2).
  assert (LO' : may_follow pre op -> forall i, In (Destroy i) (pre ++ [op]) -> 0 <= i < made (pre ++ [op])).
  { intros M i X. rewrite made_app. assert (0 <= made [op]) by (unfold made; apply zlen_nonneg). apply in_app_iff in X as [X|[->|[]]]; [specialize (LO _ X); lia|].
    cbn [may_follow] in M. lia. }
  split.
  - intros (s' & H). apply bind_ret_inv in H as (s1 & R & H). destruct (S1 _ R) as (M & L1).
    intros [|x a] o b E; injection E as <- E; [rewrite app_nil_r; exact M|].
    replace (pre ++ op :: a) with ((pre ++ [op]) ++ a) by (rewrite <- app_assoc; reflexivity).
    eapply (proj1 (IH _ _ L1 (LO' M))); eauto.
  - intros H. assert (M : may_follow pre op) by (rewrite <- (app_nil_r pre); eapply (H []); reflexivity).
    destruct (S2 M) as (s1 & R). rewrite R. cbn [bind]. apply (IH (pre ++ [op]) s1); [apply S1, R|apply LO', M|].
    intros a o b ->. rewrite <- app_assoc. apply (H (op :: a) o b). reflexivity.
Qed.
