(* Property C119: log statements made inside another log statement.

   [par q = Some p]: thread q of the queue model stands for the statements that
   the statement of p makes, from the operands of << or from the hook of the
   virtual device.  [nested]: the schedules in which they behave like one call
   stack.  The names of the queue ([reaches], [no_lap], [g_held], [g_out]) are
   those of PropsRing.v. *)
From Coq Require Import ZArith List Bool Lia ZifyBool ZifyNat ZifyN.
From Verif Require Import Base BaseFacts LoggerState Ring RingSpec RingInv RingProofs RingLive RingRun RingQuiet
  Nest NestProofs PropsRing.
Import ListNotations.
Open Scope Z_scope.

(* ---- concrete schedules ---- *)
Definition callingb (par : nat -> option nat) (s : st) (p : nat) : bool :=
  existsb (fun q => match par q with Some r => Nat.eqb r p | None => false end &&
                    match nth_error (ths s) q with
                    | Some t => match t_pc t with Idle => false | _ => true end
                    | None => false
                    end) (seq 0 (length (ths s))).
Definition openb (s : st) (p : nat) : bool :=
  match nth_error (ths s) p with
  | Some t => match t_pc t with Fill _ _ => true | _ => false end
  | None => false
  end.
Fixpoint nestedb (par : nat -> option nat) (c : rcfg) (s : st) (ls : list label) : bool :=
  match ls with
  | [] => true
  | l :: ls' =>
      match l with
      | LLog q _ => match par q with Some p => openb s p && negb (callingb par s p) | None => true end
      | LRun p => negb (callingb par s p)
      | _ => true
      end && match step c s l with Some s' => nestedb par c s' ls' | None => true end
  end.

Lemma callingb_ok : forall par s p, callingb par s p = false -> ~ calling par s p.
Proof.
  intros par s p H (q & t & PQ & T & NI).
  assert (X : callingb par s p = true); [|congruence].
  unfold callingb. apply existsb_exists. exists q. split.
  - apply in_seq. assert (nth_error (ths s) q <> None) as X by congruence. apply nth_error_Some in X. lia.
  - rewrite PQ, T, Nat.eqb_refl. destruct (t_pc t); try reflexivity. contradiction.
Qed.
Lemma nestedb_ok : forall par c ls s, nestedb par c s ls = true -> nested par c s ls.
Proof.
  intros par c ls. induction ls as [|l ls IH]; intros s H; [exact I|]. cbn [nestedb] in H.
  apply andb_prop in H. destruct H as [H1 H2]. split.
  - destruct l as [q m|p| | | |]; try exact I; cbn [call_ok].
    + destruct (par q) as [p|]; [|exact I]. apply andb_prop in H1. destruct H1 as [A B]. split.
      * unfold openb in A. unfold open. destruct (nth_error (ths s) p) as [t|] eqn:T; [|discriminate].
        destruct (t_pc t) eqn:P; try discriminate. exists t, i, rest. auto.
      * apply callingb_ok. apply negb_true_iff. assumption.
    + apply callingb_ok. apply negb_true_iff. assumption.
  - intros s' E. rewrite E in H2. apply IH. assumption.
Qed.

(* thread 2 makes the statements inside those of thread 1, thread 3 those inside
   thread 2's *)
Definition par2 (q : nat) : option nat :=
  match q with 2%nat => Some 1%nat | 3%nat => Some 2%nat | _ => None end.
Lemma par2_ok : forall c, calls_ok par2 c.
Proof.
  intros c _. split; [reflexivity|]. intros q. destruct q as [|[|[|[|q]]]]; discriminate.
Qed.

(* ---- C119: the outer line comes first ---- *)
(* Thread p's record has been reserved before the inner statement begins and
   nothing from it on has been delivered.  Whatever is delivered of the records
   reserved from then on, the inner statement's among them, the complete outer
   line has been delivered before it. *)
Theorem C119_outer_first_partial : forall par c slots k ls1 q m ls2 s1 s2 p, cfg_ok c -> blank c slots ->
  is_sync c = false -> reaches c slots k ls1 s1 -> run c s1 (LLog q m :: ls2) = Some s2 ->
  no_lap c (start c slots k) (ls1 ++ LLog q m :: ls2) -> no_restart (ls1 ++ LLog q m :: ls2) ->
  nested par c (start c slots k) (ls1 ++ LLog q m :: ls2) -> par q = Some p ->
  exists t j, nth_error (ths s1) p = Some t /\ nth_error (g_held (gh s1)) j = Some (p, t_msg t) /\
    is_prefix (g_held (gh s1)) (g_held (gh s2)) /\
    (length (g_out (gh s1)) <= j)%nat /\
    forall n x, (length (g_held (gh s1)) <= n)%nat -> nth_error (map snd (g_out (gh s2))) n = Some x ->
      nth_error (map snd (g_out (gh s2))) j = Some (line c (t_msg t)).
Proof. exact outer_first. Qed.
Print Assumptions C119_outer_first_partial.

(* thread 1 logs "ab"; after the "a" its operand logs "c" *)
Definition in1 : list label := LLog 1 [97; 98] :: R 8 1.
Definition in2 : list label := R 17 2 ++ R 30 0 ++ R 18 1 ++ R 60 0.
Example C119_outer_first_ex : exists s1 s2, reaches ca sl 3 in1 s1 /\ run ca s1 (LLog 2 [99] :: in2) = Some s2 /\
  no_lap ca (start ca sl 3) (in1 ++ LLog 2 [99] :: in2) /\ no_restart (in1 ++ LLog 2 [99] :: in2) /\
  nested par2 ca (start ca sl 3) (in1 ++ LLog 2 [99] :: in2) /\ par2 2 = Some 1%nat /\
  length (g_held (gh s1)) = 1%nat /\ map snd (g_out (gh s2)) = [[97; 98; 10]; [99; 10]].
Proof.
  do 2 eexists. split; [vm_compute; reflexivity|]. split; [vm_compute; reflexivity|].
  split; [apply no_lapb_ok; vm_compute; reflexivity|].
  split; [intros X; vm_compute in X; repeat (destruct X as [X|X]; [discriminate X|]); exact X|].
  split; [apply nestedb_ok; vm_compute; reflexivity|]. vm_compute. repeat split.
Qed.

(* ---- C119: an open statement holds back what is behind it ---- *)
(* On a channel of either type: while a statement is open, only records reserved
   before its own are delivered.  An inner statement to a synchronous channel
   therefore returns before its line is written. *)
Theorem C119_blocks_partial : forall c slots k ls s p t i rest, cfg_ok c -> blank c slots ->
  reaches c slots k ls s -> no_lap c (start c slots k) ls -> no_restart ls ->
  nth_error (ths s) p = Some t -> t_pc t = Fill i rest ->
  exists j, nth_error (g_held (gh s)) j = Some (p, t_msg t) /\
    forall a x, In (a, x) (g_out (gh s)) -> a < Z.of_nat j.
Proof. exact open_blocks. Qed.
Print Assumptions C119_blocks_partial.
(* a synchronous channel: the inner statement of thread 1 has returned, nothing
   is delivered until the outer one is finished; then both are *)
Definition par1 (q : nat) : option nat := match q with 1%nat => Some 0%nat | _ => None end.
Definition sy_ls : list label := LLog 0 [97; 98] :: R 8 0 ++ LLog 1 [99] :: R 21 1.
Example C119_blocks_ex : exists s t u, reaches cs sl 2 sy_ls s /\ no_lap cs (start cs sl 2) sy_ls /\
  nested par1 cs (start cs sl 2) sy_ls /\
  nth_error (ths s) 0 = Some t /\ t_pc t = Fill 0 [98] /\
  nth_error (ths s) 1 = Some u /\ t_pc u = Idle /\
  g_held (gh s) = [(0%nat, [97; 98]); (1%nat, [99])] /\ g_out (gh s) = [] /\
  exists s', run cs s (R 56 0) = Some s' /\ map snd (g_out (gh s')) = [[97; 98; 10]; [99; 10]].
Proof.
  do 3 eexists. split; [vm_compute; reflexivity|]. split; [apply no_lapb_ok; vm_compute; reflexivity|].
  split; [apply nestedb_ok; vm_compute; reflexivity|]. vm_compute.
  repeat (split; [reflexivity|]). eexists. split; vm_compute; reflexivity.
Qed.

(* ---- C119: an inner statement that never returns ---- *)
(* An open statement fills the slot that the next index of hold_idx_ would reach,
   and a statement made inside it, at any depth, wants a slot.  Then, unless the
   channel is stopped, neither of the two ever moves on, and no thread of the
   program gets a slot of this channel any more. *)
Theorem C119_stuck_partial : forall par c slots k ls s p q t u i rest, cfg_ok c -> blank c slots ->
  reaches c slots k ls s -> no_lap c (start c slots k) ls -> threads_only ls ->
  calls_ok par c -> nested par c (start c slots k) ls ->
  inside par q p -> nth_error (ths s) p = Some t -> t_pc t = Fill i rest ->
  nth_error (ths s) q = Some u -> holding u -> nxt c (x_hold (sh s)) = i ->
  forall ls2 s2, run c s ls2 = Some s2 -> no_lap c s ls2 -> threads_only ls2 -> nested par c s ls2 ->
    nth_error (ths s2) p = Some t /\ g_held (gh s2) = g_held (gh s) /\
    exists v, nth_error (ths s2) q = Some v /\ holding v /\ t_msg v = t_msg u.
Proof. exact inner_stuck. Qed.
Print Assumptions C119_stuck_partial.

(* a statement whose operand makes BUFFER_LEN - 1 statements: the last of them
   finds the queue full *)
Definition hang_ls : list label :=
  LLog 1 [97] :: R 7 1 ++ concat (repeat (LLog 2 [99] :: R 17 2) 9) ++ R 5 0 ++ LLog 2 [100] :: R 4 2.
Definition hang_st : st := match run ca (start ca sl 3) hang_ls with Some s => s | None => start ca sl 3 end.
Lemma hang_to : threads_only hang_ls.
Proof. unfold threads_only, hang_ls, R. cbn [repeat app concat]. repeat (constructor; [exact I|]). constructor. Qed.
Example C119_stuck_ex : exists s t u, reaches ca sl 3 hang_ls s /\ no_lap ca (start ca sl 3) hang_ls /\
  threads_only hang_ls /\ nested par2 ca (start ca sl 3) hang_ls /\ inside par2 2 1 /\
  nth_error (ths s) 1 = Some t /\ t_pc t = Fill 0 [97] /\
  nth_error (ths s) 2 = Some u /\ holding u /\ nxt ca (x_hold (sh s)) = 0 /\
  exists ls2 s2, run ca s ls2 = Some s2 /\ no_lap ca s ls2 /\ threads_only ls2 /\ nested par2 ca s ls2 /\
    length ls2 = 200%nat.
Proof.
  do 3 eexists. split; [vm_compute; reflexivity|]. split; [apply no_lapb_ok; vm_compute; reflexivity|].
  split; [exact hang_to|]. split; [apply nestedb_ok; vm_compute; reflexivity|].
  split; [apply inside_one; reflexivity|].
  split; [vm_compute; reflexivity|]. split; [vm_compute; reflexivity|]. split; [vm_compute; reflexivity|].
  split; [exact I|]. split; [vm_compute; reflexivity|].
  exists (concat (repeat [LRun 2; LRun 0] 100)). eexists.
  split; [vm_compute; reflexivity|]. split; [apply no_lapb_ok; vm_compute; reflexivity|].
  split; [unfold threads_only; cbn [repeat app concat]; repeat (constructor; [exact I|]); constructor|].
  split; [apply nestedb_ok; vm_compute; reflexivity|reflexivity].
Qed.
(* the same two statements deep: each of nine statements is made by thread 2's *)
Definition deep_ls : list label :=
  LLog 1 [97] :: R 7 1 ++ LLog 2 [98] :: R 7 2 ++ concat (repeat (LLog 3 [99] :: R 17 3) 8) ++ LLog 3 [100] :: R 3 3.
Example C119_stuck_deep_ex : exists s t u, reaches ca sl 3 deep_ls s /\ no_lap ca (start ca sl 3) deep_ls /\
  nested par2 ca (start ca sl 3) deep_ls /\ inside par2 3 1 /\
  nth_error (ths s) 1 = Some t /\ t_pc t = Fill 0 [97] /\
  nth_error (ths s) 3 = Some u /\ holding u /\ nxt ca (x_hold (sh s)) = 0.
Proof.
  do 3 eexists. split; [vm_compute; reflexivity|]. split; [apply no_lapb_ok; vm_compute; reflexivity|].
  split; [apply nestedb_ok; vm_compute; reflexivity|].
  split; [apply inside_more with 2%nat; [reflexivity|apply inside_one; reflexivity]|].
  split; [vm_compute; reflexivity|]. split; [vm_compute; reflexivity|]. split; [vm_compute; reflexivity|].
  split; [exact I|]. vm_compute; reflexivity.
Qed.

(* One thread, nobody else logs, the writer thread runs, the channel is not
   stopped: the statement never returns. *)
Theorem C119_returns_refuted : exists par c slots k ls s, cfg_ok c /\ blank c slots /\ is_sync c = false /\
  calls_ok par c /\ reaches c slots k ls s /\ no_lap c (start c slots k) ls /\ threads_only ls /\
  nested par c (start c slots k) ls /\
  (forall tid m, In (LLog tid m) ls -> tid = 1%nat \/ par tid = Some 1%nat) /\
  forall ls2 s2, run c s ls2 = Some s2 -> no_lap c s ls2 -> threads_only ls2 -> nested par c s ls2 ->
    (exists t, nth_error (ths s2) 1 = Some t /\ t_pc t <> Idle) /\ g_out (gh s2) = [].
Proof.
  exists par2, ca, sl, 3%nat, hang_ls, hang_st.
  split; [exact ca_ok|]. split; [apply sl_blank|]. split; [reflexivity|]. split; [apply par2_ok|].
  assert (NL : no_lap ca (start ca sl 3) hang_ls) by (apply no_lapb_ok; vm_compute; reflexivity).
  assert (NE : nested par2 ca (start ca sl 3) hang_ls) by (apply nestedb_ok; vm_compute; reflexivity).
  assert (RE : reaches ca sl 3 hang_ls hang_st) by (vm_compute; reflexivity).
  assert (HT : exists t u, nth_error (ths hang_st) 1 = Some t /\ t_pc t = Fill 0 [97] /\ t_snap t = 0 /\
    nth_error (ths hang_st) 2 = Some u /\ holding u /\ nxt ca (x_hold (sh hang_st)) = 0).
  { do 2 eexists. split; [vm_compute; reflexivity|]. split; [reflexivity|]. split; [reflexivity|].
    split; [vm_compute; reflexivity|]. split; [exact I|vm_compute; reflexivity]. }
  destruct HT as (t & u & T1 & P1 & S1 & U1 & H1 & X1).
  split; [exact RE|]. split; [exact NL|]. split; [exact hang_to|]. split; [exact NE|]. split.
  - intros tid m H. vm_compute in H. repeat (destruct H as [H|H]; [try discriminate H; injection H as <- <-; auto|]).
    contradiction.
  - intros ls2 s2 R2 NL2 TO2 NE2.
    destruct (inner_stuck par2 ca sl 3%nat hang_ls hang_st 1%nat 2%nat t u 0 [97] ca_ok (sl_blank _) RE NL hang_to
      (par2_ok ca) NE (inside_one par2 2%nat 1%nat eq_refl) T1 P1 U1 H1 X1 ls2 s2 R2 NL2 TO2 NE2) as (A & _ & _).
    split; [exists t; split; [exact A|congruence]|].
    assert (RE2 : reaches ca sl 3 (hang_ls ++ ls2) s2).
    { unfold reaches. rewrite run_app. unfold reaches in RE. rewrite RE. exact R2. }
    assert (NL3 : no_lap ca (start ca sl 3) (hang_ls ++ ls2)) by (apply (no_lap_join _ _ _ _ _ RE NL NL2)).
    assert (TO3 : threads_only (hang_ls ++ ls2)) by (apply Forall_app; split; [exact hang_to|exact TO2]).
    pose proof (reach_inv _ _ _ _ _ ca_ok (sl_blank _) RE2 NL3 (threads_no_restart _ TO3)) as IV.
    destruct (open_held _ _ _ _ _ _ IV A P1) as (_ & RG & _).
    destruct (g_out (gh s2)) as [|[a x] r] eqn:G; [reflexivity|exfalso].
    assert (IN : In a (map fst (g_out (gh s2)))) by (rewrite G; left; reflexivity).
    pose proof IN as IN2. apply (i_outp _ _ _ _ IV) in IN2. pose proof (i_ord _ _ _ _ IV) as OR. lia.
Qed.
Print Assumptions C119_returns_refuted.

(* ---- C119: otherwise it gets its slot ---- *)
(* Asynchronous channel; the other threads are outside any statement, wait for a
   slot or have a statement open, and no open statement fills the slot the next index would reach: the
   writer thread and then the waiting thread, by themselves, bring it to
   reserve a slot, in an order the call stacks allow. *)
Theorem C119_progress_partial : forall par c slots k ls s q u, cfg_ok c -> blank c slots -> is_sync c = false ->
  reaches c slots k ls s -> no_lap c (start c slots k) ls -> threads_only ls ->
  calls_ok par c -> nested par c (start c slots k) ls ->
  nth_error (ths s) q = Some u -> holding u ->
  (forall j t, j <> 0%nat -> j <> q -> nth_error (ths s) j = Some t ->
     t_pc t = Idle \/ holding t \/ exists i rest, t_pc t = Fill i rest /\ i <> nxt c (x_hold (sh s))) ->
  exists n m s', run c s (repeat (LRun 0) n ++ repeat (LRun q) m) = Some s' /\
    nested par c s (repeat (LRun 0) n ++ repeat (LRun q) m) /\
    g_held (gh s') = g_held (gh s) ++ [(q, t_msg u)].
Proof. exact inner_progress. Qed.
Print Assumptions C119_progress_partial.
(* the queue is full of records that the writer has not got to; the outer
   statement came last but one *)
Definition room_ls : list label :=
  concat (repeat (LLog 1 [96] :: R 22 1) 8) ++ LLog 1 [97] :: R 7 1 ++ (LLog 2 [99] :: R 17 2) ++ LLog 2 [100] :: R 4 2.
Example C119_progress_ex : exists s u t, reaches ca sl 3 room_ls s /\ no_lap ca (start ca sl 3) room_ls /\
  threads_only room_ls /\ nested par2 ca (start ca sl 3) room_ls /\
  nth_error (ths s) 2 = Some u /\ holding u /\ nxt ca (x_hold (sh s)) = x_read (sh s) /\
  nth_error (ths s) 1 = Some t /\ t_pc t = Fill 8 [97] /\ nxt ca (x_hold (sh s)) = 0 /\
  (forall j v, j <> 0%nat -> j <> 2%nat -> nth_error (ths s) j = Some v ->
     t_pc v = Idle \/ exists i rest, t_pc v = Fill i rest /\ i <> nxt ca (x_hold (sh s))).
Proof.
  do 3 eexists. split; [vm_compute; reflexivity|]. split; [apply no_lapb_ok; vm_compute; reflexivity|].
  split; [unfold threads_only, room_ls, R; cbn [repeat app concat]; repeat (constructor; [exact I|]); constructor|].
  split; [apply nestedb_ok; vm_compute; reflexivity|].
  split; [vm_compute; reflexivity|]. split; [exact I|]. split; [vm_compute; reflexivity|].
  split; [vm_compute; reflexivity|]. split; [vm_compute; reflexivity|]. split; [vm_compute; reflexivity|].
  intros j v J0 J2 V. destruct j as [|[|[|[|j]]]]; try contradiction.
  - right. vm_compute in V. injection V as <-. do 2 eexists. split; [reflexivity|]. vm_compute. discriminate.
  - left. vm_compute in V. injection V as <-. reflexivity.
  - vm_compute in V. destruct j; discriminate.
Qed.
