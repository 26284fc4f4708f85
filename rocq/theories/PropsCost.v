(* Property C120: what a log statement costs.

   [steps_of tid ls]: the number of atomic operations thread tid makes in the
   schedule ls; [full_of]: how often it finds the queue full.  [gH], [gW], [gP],
   [gR]: how often hold_idx_, write_idx_, proc_idx_ and read_idx_ have advanced,
   by any thread.  The other names are those of PropsRing.v. *)
From Coq Require Import ZArith List Bool Lia ZifyBool ZifyNat ZifyN.
From Verif Require Import Base BaseFacts LoggerState Ring RingSpec RingQuiet Cost CostProofs PropsRing NestProofs.
Import ListNotations.
Open Scope Z_scope.

(* ---- C120: a statement retries only when somebody gets ahead ---- *)
(* Twelve operations (sixteen on a synchronous channel) and one for each byte;
   everything beyond is paid for by an index that advanced meanwhile or by the
   queue being full.  On an asynchronous channel this is every schedule of log
   statements; on a synchronous one every schedule without a lap (C19). *)
Theorem C120_cost : forall c slots k ls0 s tid m ls s', cfg_ok c -> blank c slots ->
  reaches c slots k ls0 s -> run c s (LLog tid m :: ls) = Some s' -> threads_only (ls0 ++ LLog tid m :: ls) ->
  (is_sync c = true -> no_lap c (start c slots k) (ls0 ++ LLog tid m :: ls)) ->
  one_statement tid ls ->
  steps_of tid ls <=
    (if is_sync c then 16 else 12) + zlen m + 4 * full_of c tid s (LLog tid m :: ls) +
    4 * (gH (gh s') - gH (gh s)) + 6 * (gW (gh s') - gW (gh s)) +
    (if is_sync c then (log_size c + 9) * (gP (gh s') - gP (gh s)) + 4 * (gR (gh s') - gR (gh s)) else 0).
Proof. exact statement_cost. Qed.
Print Assumptions C120_cost.

Lemma one_statement_dec : forall tid ls,
  forallb (fun l => match l with LLog i _ => negb (Nat.eqb i tid) | _ => true end) ls = true -> one_statement tid ls.
Proof.
  intros tid ls H m I. rewrite forallb_forall in H. specialize (H _ I). cbn in H. rewrite Nat.eqb_refl in H. discriminate.
Qed.

(* The bound is reached: thread 1 is filling its record, thread 2 makes the
   seventeen operations of a statement of one byte that cannot publish. *)
Definition co0 : list label := LLog 1 [65; 65] :: R 8 1.
Example C120_cost_ex : exists s s', reaches ca sl 2 co0 s /\ run ca s (LLog 2 [66] :: R 17 2) = Some s' /\
  no_lap ca (start ca sl 2) (co0 ++ LLog 2 [66] :: R 17 2) /\ one_statement 2 (R 17 2) /\
  steps_of 2 (R 17 2) = 17 /\ full_of ca 2 s (LLog 2 [66] :: R 17 2) = 0 /\
  gH (gh s') - gH (gh s) = 1 /\ gW (gh s') = gW (gh s) /\
  match nth_error (ths s') 2 with Some t => t_pc t = Idle | None => False end.
Proof.
  do 2 eexists. split; [vm_compute; reflexivity|]. split; [vm_compute; reflexivity|].
  split; [apply no_lapb_ok; vm_compute; reflexivity|]. split; [apply one_statement_dec; vm_compute; reflexivity|].
  vm_compute. repeat split.
Qed.
(* The same on a synchronous channel: thread 1 publishes the record of
   thread 0 and its own and writes both. *)
Definition cy0 : list label := LLog 0 [65; 65] :: R 14 0.
Example C120_cost_sync_ex : exists s s', reaches cs sl 2 cy0 s /\ run cs s (LLog 1 [66] :: R 60 1) = Some s' /\
  no_lap cs (start cs sl 2) (cy0 ++ LLog 1 [66] :: R 60 1) /\ one_statement 1 (R 60 1) /\
  steps_of 1 (R 60 1) = 60 /\ full_of cs 1 s (LLog 1 [66] :: R 60 1) = 0 /\
  gW (gh s') - gW (gh s) = 2 /\ gP (gh s') = 2 /\ gR (gh s') = 2.
Proof.
  do 2 eexists. split; [vm_compute; reflexivity|]. split; [vm_compute; reflexivity|].
  split; [apply no_lapb_ok; vm_compute; reflexivity|]. split; [apply one_statement_dec; vm_compute; reflexivity|].
  vm_compute. repeat split.
Qed.
(* The statement of thread 1 is lapped on an asynchronous channel; the bound
   holds all the same. *)
Example C120_lap_ex : exists ls s', lap_head = LLog 1 [65] :: ls /\ run ca (start ca sl 4) (LLog 1 [65] :: ls) = Some s' /\
  one_statement 1 ls /\ no_lapb ca (start ca sl 4) (LLog 1 [65] :: ls) = false /\ steps_of 1 ls = 8.
Proof.
  do 2 eexists. split; [reflexivity|]. split; [vm_compute; reflexivity|].
  split; [apply one_statement_dec; vm_compute; reflexivity|]. vm_compute. split; reflexivity.
Qed.
(* A statement that is overtaken three times while reserving and finds the queue
   full twice. *)
Definition co1 : list label :=
  concat (repeat (R 3 1 ++ (LLog 2 [66] :: R 22 2) ++ R 1 1) 3) ++
  concat (repeat (LLog 2 [67] :: R 22 2) 7) ++ R 8 1.
Example C120_retries_ex : exists s', run ca (start ca sl 2) (LLog 1 [65] :: co1) = Some s' /\
  no_lap ca (start ca sl 2) (LLog 1 [65] :: co1) /\ one_statement 1 co1 /\
  steps_of 1 co1 = 20 /\ full_of ca 1 (start ca sl 2) (LLog 1 [65] :: co1) = 2 /\ gH (gh s') = 10.
Proof.
  eexists. split; [vm_compute; reflexivity|].
  split; [apply no_lapb_ok; vm_compute; reflexivity|]. split; [apply one_statement_dec; vm_compute; reflexivity|].
  vm_compute. repeat split.
Qed.

(* ---- C120: somebody always gets ahead ---- *)
(* From any point of any execution: while no index advances, a thread that is
   inside a statement makes a bounded number of operations, unless it finds the
   queue full. *)
Theorem C120_standstill : forall c slots k ls0 s tid t ls s', cfg_ok c -> blank c slots ->
  reaches c slots k ls0 s -> run c s ls = Some s' -> threads_only (ls0 ++ ls) ->
  (is_sync c = true -> no_lap c (start c slots k) (ls0 ++ ls)) -> one_statement tid ls ->
  nth_error (ths s) tid = Some t -> (is_sync c = false -> tid <> 0%nat) ->
  gH (gh s') = gH (gh s) -> gW (gh s') = gW (gh s) -> gP (gh s') = gP (gh s) -> gR (gh s') = gR (gh s) ->
  steps_of tid ls <= (if is_sync c then 18 + log_size c else 14) + zlen (t_msg t) + 4 * full_of c tid s ls.
Proof. exact standstill. Qed.
Print Assumptions C120_standstill.
(* thread 1 fills and gives up behind thread 2, which is filling: no index moves *)
Definition co2 : list label := LLog 2 [66] :: R 7 2 ++ LLog 1 [65] :: R 4 1.
Example C120_standstill_ex : exists s t s', reaches ca sl 2 co2 s /\ run ca s (R 13 1) = Some s' /\
  no_lap ca (start ca sl 2) (co2 ++ R 13 1) /\ one_statement 1 (R 13 1) /\
  nth_error (ths s) 1 = Some t /\ t_pc t = HCount 1 /\ gH (gh s') = gH (gh s) /\ gW (gh s') = gW (gh s) /\
  gP (gh s') = gP (gh s) /\ gR (gh s') = gR (gh s) /\ steps_of 1 (R 13 1) = 13.
Proof.
  do 3 eexists. split; [vm_compute; reflexivity|]. split; [vm_compute; reflexivity|].
  split; [apply no_lapb_ok; vm_compute; reflexivity|]. split; [apply one_statement_dec; vm_compute; reflexivity|].
  vm_compute. repeat split.
Qed.

(* ---- C120: no thread waits for a step of another ---- *)
Theorem C120_enabled : forall c slots k ls s tid t, cfg_ok c ->
  reaches c slots k ls s -> threads_only ls ->
  nth_error (ths s) tid = Some t -> t_pc t <> Idle -> exists s', step c s (LRun tid) = Some s'.
Proof. exact never_blocked. Qed.
Print Assumptions C120_enabled.
Example C120_enabled_ex : exists s t, reaches ca sl 2 co2 s /\ nth_error (ths s) 1 = Some t /\ t_pc t <> Idle.
Proof. do 2 eexists. split; [vm_compute; reflexivity|]. split; [vm_compute; reflexivity|]. discriminate. Qed.

(* ---- C120: a full queue is polled without an end ---- *)
(* No number of operations is enough for every statement: on a full queue whose
   writer does not run the statement goes round for as long as one lets it, and
   no index moves. *)
Definition full_st : st := match run ca (start ca sl 2) full_ls with Some s => s | None => start ca sl 2 end.
Lemma full_round : run ca full_st (R 4 1) = Some full_st.
Proof. vm_compute. reflexivity. Qed.
Lemma full_rounds : forall n, run ca full_st (R (4 * n) 1) = Some full_st.
Proof.
  induction n as [|n IH]; [reflexivity|].
  replace (R (4 * S n) 1) with (R 4 1 ++ R (4 * n) 1).
  - rewrite run_app, full_round. exact IH.
  - unfold R. rewrite <- repeat_app. f_equal. lia.
Qed.
Lemma steps_R : forall n, steps_of 1 (R n 1) = Z.of_nat n.
Proof. induction n as [|n IH]; [reflexivity|]. change (R (S n) 1) with (LRun 1 :: R n 1). cbn [steps_of Nat.eqb]. lia. Qed.

Theorem C120_bounded_refuted : exists c slots k ls0 s tid t, cfg_ok c /\ blank c slots /\
  reaches c slots k ls0 s /\ threads_only ls0 /\ no_lap c (start c slots k) ls0 /\
  nth_error (ths s) tid = Some t /\ t_pc t <> Idle /\ (is_sync c = false -> tid <> 0%nat) /\
  forall b, exists ls s', run c s ls = Some s' /\ threads_only ls /\ one_statement tid ls /\
    gH (gh s') = gH (gh s) /\ gW (gh s') = gW (gh s) /\ gP (gh s') = gP (gh s) /\ gR (gh s') = gR (gh s) /\
    b < steps_of tid ls.
Proof.
  exists ca, sl, 2%nat, full_ls, full_st, 1%nat. eexists.
  split; [exact ca_ok|]. split; [apply sl_blank|]. split; [vm_compute; reflexivity|].
  split; [unfold threads_only, full_ls, R; cbn [repeat app concat]; repeat (constructor; [exact I|]); constructor|].
  split; [apply no_lapb_ok; vm_compute; reflexivity|]. split; [vm_compute; reflexivity|].
  split; [discriminate|]. split; [discriminate|]. intros b. exists (R (4 * S (Z.to_nat b)) 1), full_st.
  split; [apply full_rounds|].
  split; [unfold threads_only, R; apply Forall_forall; intros l H; apply repeat_spec in H; subst l; exact I|].
  split; [intros m H; unfold R in H; apply repeat_spec in H; discriminate|].
  repeat (split; [reflexivity|]). rewrite steps_R. lia.
Qed.
Print Assumptions C120_bounded_refuted.
