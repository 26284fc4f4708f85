(* Proofs about the file device of FileDev.v. *)
From Coq Require Import String ZArith List Bool Lia ZifyBool ZifyNat ZifyN.
From Verif Require Import Base BaseFacts NumSpec NumFacts LoggerState DateFmt DateSpec CalendarFacts DateProofs
  FileName FileNameSpec FileNameProofs FileDev FileDevSpec RollProofs.
Import ListNotations.
Open Scope Z_scope.

Lemma lset_same : forall l i v, lset l i v i = v.
Proof. intros. unfold lset. rewrite Z.eqb_refl. reflexivity. Qed.
Lemma lset_other : forall l i v j, j <> i -> lset l i v j = l j.
Proof. intros. unfold lset. destruct (j =? i) eqn:E; [lia|reflexivity]. Qed.

Lemma dev_path_log : forall e c ts p, dev_path e c ts = Ret p -> log_path p.
Proof.
  intros e c ts p H. unfold dev_path in H. cbv zeta in H.
  destruct (make_file_name _ _ _ _ _ _) as [name| |] eqn:N; try discriminate. cbn [bind] in H.
  destruct (make_path_name _ _ _ _) as [path| |] eqn:P; try discriminate. cbn [bind] in H. injection H as <-.
  destruct (make_file_name_log _ _ _ _ _ _ _ N) as (y & ->).
  destruct (map _ path) as [|x q]; [exists y; reflexivity|]. eexists. rewrite app_assoc. reflexivity.
Qed.

(* ---- cases of a step ---- *)
Definition log0 (c : dconf) (s : dstate) (r : drec) : Z -> Z :=
  if close_file c (d_log s) r then lset (d_log s) DEVICE_LOG_CUR_FILE_SIZE 0 else d_log s.
Definition old_text (f : fs) (p : text) : text := match f p with Some t => t | None => [] end.
Definition open_log (e : denv) (c : dconf) (s : dstate) (r : drec) (size : Z) : Z -> Z :=
  let l := linc (log0 c s r) DEVICE_LOG_LAST_TRY_CREATE_CNT 1 in
  let l := open_failed l 0 0 in
  let l := lset l DEVICE_LOG_CUR_FILE_CREATE_TIMESTAMP (r_ts r) in
  let l := lset l DEVICE_LOG_CUR_FILE_CREATE_DAY (create_day (e_zone e) (r_ts r)) in
  let l := lset l DEVICE_LOG_CUR_FILE_CREATE_HOUR (create_hour (e_zone e) (r_ts r)) in
  lset l DEVICE_LOG_CUR_FILE_SIZE size.

Inductive opening (e : denv) (c : dconf) (s : dstate) (r : drec) (i : io) : dstate -> Prop :=
| op_keep : forall p, close_file c (d_log s) r = false -> d_open s = Some p -> opening e c s r i s
| op_long : forall path, (close_file c (d_log s) r = true \/ d_open s = None) ->
    dev_path e c (r_ts r) = Ret path -> 250 <= zlen path ->
    opening e c s r i (mkDstate (d_fs s) None (open_failed (log0 c s r) 1 (r_ts r)))
| op_fail : forall path f, (close_file c (d_log s) r = true \/ d_open s = None) ->
    dev_path e c (r_ts r) = Ret path -> zlen path < 250 ->
    roll_files e c (limit_out c (d_log s) r) (d_fs s) path = Ret f -> io_open i = false ->
    opening e c s r i (mkDstate f None (open_failed (log0 c s r) 2 (r_ts r)))
| op_open : forall path f, (close_file c (d_log s) r = true \/ d_open s = None) ->
    dev_path e c (r_ts r) = Ret path -> zlen path < 250 ->
    roll_files e c (limit_out c (d_log s) r) (d_fs s) path = Ret f -> io_open i = true ->
    opening e c s r i (mkDstate (fset f path (Some (old_text f path))) (Some path)
                                (open_log e c s r (zlen (old_text f path)))).

Lemma open_cases : forall e c s r i s', open_device e c s r i = Ret s' -> opening e c s r i s'.
Proof.
  intros e c s r i s' H. unfold open_device in H. cbv zeta in H.
  assert (GO : (close_file c (d_log s) r = true \/ d_open s = None) ->
    (let! path := dev_path e c (r_ts r) in
      if 250 <=? zlen path then Ret (mkDstate (d_fs s) None (open_failed (log0 c s r) 1 (r_ts r)))
      else
        let! f := roll_files e c (limit_out c (d_log s) r) (d_fs s) path in
        if negb (io_open i) then Ret (mkDstate f None (open_failed (log0 c s r) 2 (r_ts r)))
        else Ret (mkDstate (fset f path (Some (old_text f path))) (Some path) (open_log e c s r (zlen (old_text f path))))) = Ret s' ->
    opening e c s r i s').
  { intros C G. destruct (dev_path e c (r_ts r)) as [path| |] eqn:P; try discriminate. cbn [bind] in G.
    destruct (250 <=? zlen path) eqn:L; [injection G as <-; eapply op_long; eauto; lia|].
    destruct (roll_files e c _ (d_fs s) path) as [f| |] eqn:R; try discriminate. cbn [bind] in G.
    destruct (io_open i) eqn:O; cbn [negb] in G; injection G as <-; [eapply op_open|eapply op_fail]; eauto; lia. }
  unfold open_log, log0 in GO. destruct (close_file c (d_log s) r) eqn:C; cbn [d_open d_fs d_log] in H.
  - apply GO; [left; reflexivity|exact H].
  - destruct (d_open s) as [p|] eqn:O.
    + injection H as <-. eapply op_keep; eauto.
    + apply GO; [right; reflexivity|]. exact H.
Qed.

(* effect of the write and the counters *)
Definition count_log (l : Z -> Z) (r : drec) : Z -> Z :=
  linc (linc (linc (linc l DEVICE_LOG_TOTAL_WRITE_LINE 1) DEVICE_LOG_TOTAL_WRITE_BYTE (zlen (r_text r)))
             DEVICE_LOG_CUR_FILE_SIZE (zlen (r_text r))) (DEVICE_LOG_PRIORITY + r_prio r) (zlen (r_text r)).

Definition waiting (s : dstate) (r : drec) : bool :=
  match d_open s with
  | None => r_ts r <? d_log s DEVICE_LOG_LAST_TRY_CREATE_TIMESTAMP + 5
  | Some _ => false
  end.

Inductive stepping (e : denv) (c : dconf) (s : dstate) (r : drec) (i : io) : dstate -> Prop :=
| st_wait : waiting s r = true -> stepping e c s r i s
| st_drop : forall s1, waiting s r = false -> opening e c s r i s1 -> d_open s1 = None -> stepping e c s r i s1
| st_write : forall s1 p, waiting s r = false -> opening e c s r i s1 -> d_open s1 = Some p ->
    0 <= DEVICE_LOG_PRIORITY + r_prio r < DEVICE_LOG_MAX_ID ->
    stepping e c s r i (mkDstate (d_fs (file_write s1 (r_text r) i)) (d_open (file_write s1 (r_text r) i)) (count_log (d_log s1) r)).

Lemma file_write_log : forall s t i, d_log (file_write s t i) = d_log s.
Proof. intros. unfold file_write. destruct (d_open s); [|reflexivity]. destruct (zlen t <=? 0); reflexivity. Qed.

Lemma step_cases : forall e c s r i s', dev_step e c s r i = Ret s' -> stepping e c s r i s'.
Proof.
  intros e c s r i s' H. unfold dev_step in H. cbv zeta in H. fold (waiting s r) in H.
  destruct (waiting s r) eqn:W; [injection H as <-; apply st_wait; assumption|].
  destruct (open_device e c s r i) as [s1| |] eqn:O; try discriminate. cbn [bind] in H. apply open_cases in O.
  destruct (d_open s1) as [p|] eqn:P.
  - destruct ((DEVICE_LOG_PRIORITY + r_prio r <? 0) || (DEVICE_LOG_MAX_ID <=? DEVICE_LOG_PRIORITY + r_prio r)) eqn:K; [discriminate|].
    injection H as <-. rewrite file_write_log. eapply st_write; eauto. lia.
  - injection H as <-. apply st_drop; assumption.
Qed.

Lemma file_write_some : forall s p t i, d_open s = Some p ->
  exists n, 0 <= n <= zlen t /\ (zlen t <= io_wr i -> n = zlen t) /\
   (forall x, d_fs s p = Some x -> d_fs (file_write s t i) p = Some (x ++ firstn (Z.to_nat n) t)) /\
   (forall q, q <> p -> d_fs (file_write s t i) q = d_fs s q) /\
   d_open (file_write s t i) = if n =? zlen t then Some p else None.
Proof.
  intros s p t i O. unfold file_write. rewrite O. pose proof (zlen_nonneg _ t) as Z0. destruct (zlen t <=? 0) eqn:E.
  - exists 0. split; [lia|]. split; [lia|]. split; [intros x X; rewrite app_nil_r; exact X|]. split; [reflexivity|].
    replace (0 =? zlen t) with true by lia. assumption.
  - set (n := Z.max 0 (Z.min (io_wr i) (zlen t))). exists n. cbn [d_fs d_open]. split; [lia|]. split; [lia|].
    split; [intros x ->; apply fset_same|]. split; [intros q Q; apply fset_other; assumption|]. reflexivity.
Qed.

Lemma firstn_all_z : forall (t : text), firstn (Z.to_nat (zlen t)) t = t.
Proof. intros. unfold zlen. rewrite Nat2Z.id. apply firstn_all. Qed.

(* log fields *)
Lemma log0_other : forall c s r j, j <> DEVICE_LOG_CUR_FILE_SIZE -> log0 c s r j = d_log s j.
Proof. intros. unfold log0. destruct (close_file _ _ _); [apply lset_other; assumption|reflexivity]. Qed.
Lemma open_failed_other : forall l a b j, j <> DEVICE_LOG_LAST_TRY_CREATE_ERROR -> j <> DEVICE_LOG_LAST_TRY_CREATE_TIMESTAMP ->
  open_failed l a b j = l j.
Proof. intros. unfold open_failed. rewrite !lset_other by assumption. reflexivity. Qed.
Lemma open_log_other : forall e c s r z j, 7 <= j -> open_log e c s r z j = d_log s j.
Proof.
  intros. unfold open_log, linc. cbv zeta. unfold DEVICE_LOG_CUR_FILE_SIZE, DEVICE_LOG_CUR_FILE_CREATE_HOUR, DEVICE_LOG_CUR_FILE_CREATE_DAY,
    DEVICE_LOG_CUR_FILE_CREATE_TIMESTAMP, DEVICE_LOG_LAST_TRY_CREATE_CNT.
  rewrite !lset_other by lia. rewrite open_failed_other by (cbv; lia). rewrite lset_other by lia. apply log0_other. cbv; lia.
Qed.
Lemma opening_counts : forall e c s r i s1 j, opening e c s r i s1 -> 7 <= j -> d_log s1 j = d_log s j.
Proof.
  intros e c s r i s1 j O J. destruct O; cbn [d_log]; [reflexivity| | |].
  - rewrite open_failed_other by (cbv; lia). apply log0_other. cbv; lia.
  - rewrite open_failed_other by (cbv; lia). apply log0_other. cbv; lia.
  - apply open_log_other. assumption.
Qed.
Lemma open_log_size : forall e c s r z, open_log e c s r z DEVICE_LOG_CUR_FILE_SIZE = z.
Proof. intros. apply lset_same. Qed.
Lemma open_log_day : forall e c s r z, open_log e c s r z DEVICE_LOG_CUR_FILE_CREATE_DAY = create_day (e_zone e) (r_ts r).
Proof. reflexivity. Qed.
Lemma open_log_hour : forall e c s r z, open_log e c s r z DEVICE_LOG_CUR_FILE_CREATE_HOUR = create_hour (e_zone e) (r_ts r).
Proof. reflexivity. Qed.

Lemma count_log_at : forall l r, valid_prio r ->
  count_log l r DEVICE_LOG_TOTAL_WRITE_LINE = l DEVICE_LOG_TOTAL_WRITE_LINE + 1 /\
  count_log l r DEVICE_LOG_TOTAL_WRITE_BYTE = l DEVICE_LOG_TOTAL_WRITE_BYTE + zlen (r_text r) /\
  count_log l r DEVICE_LOG_CUR_FILE_SIZE = l DEVICE_LOG_CUR_FILE_SIZE + zlen (r_text r) /\
  (forall k, 0 <= k < 7 -> count_log l r (DEVICE_LOG_PRIORITY + k) =
     l (DEVICE_LOG_PRIORITY + k) + if k =? r_prio r then zlen (r_text r) else 0) /\
  (forall j, 1 <= j < 7 -> count_log l r j = l j).
Proof.
  intros l r [P1 P2]. unfold count_log, linc, lset, DEVICE_LOG_TOTAL_WRITE_LINE, DEVICE_LOG_TOTAL_WRITE_BYTE, DEVICE_LOG_CUR_FILE_SIZE, DEVICE_LOG_PRIORITY.
  repeat split; intros;
    repeat match goal with |- context [?a =? ?b] => let E := fresh in destruct (a =? b) eqn:E; try lia end; try lia.
  all: try (replace k with (r_prio r) by lia; lia).
Qed.
