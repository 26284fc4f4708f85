(* StopLogger returns, or a writer waits for the lock that StopLogger holds. *)
From Coq Require Import ZArith List Bool Lia ZifyBool ZifyNat Arith Wf_nat.
From Verif Require Import Base LoggerState Load LoadProofs Stop StopSpec.
Import ListNotations.
Open Scope Z_scope.

Definition phase (p : spc) (i : nat) : nat :=
  match p with
  | SBegin | SLock | SCheck => 0
  | SChan k => if (i <? k)%nat then 2 else 0
  | SJoin k => if (i <? k)%nat then 2 else if (i =? k)%nat then 1 else 0
  | SClean | SDone _ => 2
  end.
Definition wok (ph : nat) (w : writer) : Prop :=
  match ph with
  | O => w_async w = true -> w_state w = CHANNEL_STATE_RUNNING /\ w_pc w <> WEnd
  | S O => w_async w = true /\ (w_state w = CHANNEL_STATE_WAITING_FINISH /\ w_pc w <> WEnd \/ w_state w = CHANNEL_STATE_FINISH /\ w_pc w = WEnd /\ w_left w = O)
  | _ => w_state w = CHANNEL_STATE_NULL /\ (w_async w = true -> w_pc w = WEnd /\ w_left w = O)
  end.
Definition owns (p : spc) : bool := match p with SCheck | SChan _ | SJoin _ | SClean => true | _ => false end.
Definition state_of (p : spc) : Z :=
  match p with SBegin | SLock | SCheck => LOGGER_STATE_RUNNING | SChan _ | SJoin _ | SClean => LOGGER_STATE_CLOSING | SDone _ => LOGGER_STATE_UNINIT end.
Record J (s : sys) : Prop := mkJ {
  j_lock : forall i, q_lock s = Writer i <-> stands s i WApply;
  j_own : q_lock s = Stopper <-> owns (q_stop s) = true;
  j_state : q_state s = state_of (q_stop s);
  j_ws : forall i w, nth_error (q_ws s) i = Some w -> wok (phase (q_stop s) i) w;
  j_join : forall k, q_stop s = SJoin k -> (k < length (q_ws s))%nat;
  j_chan : forall k, q_stop s = SChan k -> (k <= length (q_ws s))%nat;
  j_done : forall z, q_stop s = SDone z -> z = 0
}.
Lemma J_called : forall s, called s -> J s.
Proof.
  intros s (ST & SP & NL & LK & WS). split.
  - exact LK.
  - rewrite SP. cbn. split; [congruence|discriminate].
  - rewrite SP. exact ST.
  - intros i w N. rewrite SP. cbn. exact (WS i w N).
  - intros k E. congruence.
  - intros k E. congruence.
  - intros z E. congruence.
Qed.

(* changing writer i *)
Lemma stands_put : forall s s' i w' j p, (i < length (q_ws s))%nat -> q_ws s' = put_nth (q_ws s) i w' ->
  (stands s' j p <-> if (j =? i)%nat then w_async w' = true /\ w_pc w' = p else stands s j p).
Proof.
  intros s s' i w' j p L E. unfold stands. rewrite E. destruct (Nat.eqb_spec j i) as [-> |NE].
  - rewrite put_nth_same by exact L. split; [intros (w & A & B & C); injection A as <-; auto|intros [A B]; exists w'; auto].
  - rewrite put_nth_other by assumption. reflexivity.
Qed.
Lemma ws_put : forall s i w' ph, (i < length (q_ws s))%nat -> (forall j w, nth_error (q_ws s) j = Some w -> j <> i -> wok (ph j) w) -> wok (ph i) w' ->
  forall j w, nth_error (put_nth (q_ws s) i w') j = Some w -> wok (ph j) w.
Proof.
  intros s i w' ph L H1 H2 j w N. destruct (Nat.eq_dec j i) as [-> |NE]; [rewrite put_nth_same in N by exact L; injection N as <-; exact H2|]. rewrite put_nth_other in N by assumption. exact (H1 j w N NE).
Qed.
(* a writer's step that keeps the lock *)
Lemma J_write : forall s i w w', J s -> nth_error (q_ws s) i = Some w -> w_async w = true -> w_async w' = true -> w_pc w <> WApply -> w_pc w' <> WApply -> wok (phase (q_stop s) i) w' -> J (set_w s i w').
Proof.
  intros s i w w' [A B C D E F G] N AW AW' P1 P2 OK. assert (L : (i < length (q_ws s))%nat) by (apply nth_error_Some; congruence). split; cbn [set_w q_state q_lock q_stop q_ws]; try rewrite put_nth_len by exact L; auto.
  - intros j. rewrite A. rewrite (stands_put s (set_w s i w') i w' j WApply L eq_refl). destruct (Nat.eqb_spec j i) as [-> |NE]; [|reflexivity].
    split; [intros (w0 & N0 & _ & P0); congruence|intros [_ P0]; congruence].
  - apply ws_put; auto.
Qed.
Lemma J_write_step : forall i ch s, J s -> J (write_step i ch s).
Proof.
  intros i ch s H. unfold write_step. destruct (nth_error (q_ws s) i) as [w|] eqn:N; [|exact H]. destruct (w_async w) eqn:AW; [|exact H]. cbn [negb].
  pose proof (j_ws s H i w N) as OK. assert (L : (i < length (q_ws s))%nat) by (apply nth_error_Some; congruence).
  assert (OKP : forall l n p, w_pc w <> WEnd -> p <> WEnd -> wok (phase (q_stop s) i) (mkWriter true (w_state w) l n p)).
  { intros l n p P1 P2. unfold wok in *. destruct (phase (q_stop s) i) as [|[|ph]]; cbn [w_async w_state w_pc w_left].
    - intros _. destruct (OK AW) as [X Y]. auto.
    - split; [reflexivity|]. destruct OK as [_ [[X Y]|[_ [Y _]]]]; [left; auto|congruence].
    - destruct OK as [_ Y]. destruct (Y AW). congruence. }
  assert (NN : w_pc w <> WEnd -> w_state w <> CHANNEL_STATE_NULL).
  { intros P. unfold wok in OK. destruct (phase (q_stop s) i) as [|[|ph]].
    - destruct (OK AW) as [X _]. rewrite X. discriminate.
    - destruct OK as [_ [[X _]|[X _]]]; rewrite X; discriminate.
    - destruct OK as [_ Y]. destruct (Y AW). congruence. }
  destruct (w_pc w) eqn:PC.
  - destruct (w_left w) as [|l] eqn:LE.
    + replace (w_state w =? CHANNEL_STATE_NULL) with false by (specialize (NN ltac:(discriminate)); lia). apply (J_write s i w); try assumption; try reflexivity; try discriminate; try congruence. rewrite ?AW. apply OKP; discriminate.
    + apply (J_write s i w); try assumption; try reflexivity; try discriminate; try congruence. rewrite ?AW. apply OKP; discriminate.
  - destruct (w_news w) as [|n]; [|destruct (ch && (q_state s =? LOGGER_STATE_RUNNING))]; apply (J_write s i w); unfold at_pc; try assumption; try reflexivity; try discriminate; try congruence; rewrite ?AW; apply OKP; discriminate.
  - destruct (q_lock s) eqn:LK; try exact H. destruct H as [A B C D E F G]. split; cbn [q_state q_lock q_stop q_ws]; try rewrite put_nth_len by exact L; auto.
    + intros j. rewrite (stands_put s (mkSys (q_state s) (Writer i) (q_stop s) (put_nth (q_ws s) i (at_pc w WApply))) i (at_pc w WApply) j WApply L eq_refl). destruct (Nat.eqb_spec j i) as [-> |NE]; [split; [intros _; split; [exact AW|reflexivity]|reflexivity]|].
      rewrite <- A. rewrite LK. split; [congruence|discriminate].
    + rewrite <- B, LK. split; discriminate.
    + apply ws_put; [exact L|auto|]. unfold at_pc. rewrite ?AW. apply OKP; discriminate.
  - assert (LK : q_lock s = Writer i) by (apply (j_lock s H); exists w; auto). destruct H as [A B C D E F G]. split; cbn [q_state q_lock q_stop q_ws]; try rewrite put_nth_len by exact L; auto.
    + intros j. rewrite (stands_put s (mkSys (q_state s) Free (q_stop s) (put_nth (q_ws s) i (at_pc w WTest))) i (at_pc w WTest) j WApply L eq_refl). destruct (Nat.eqb_spec j i) as [-> |NE]; [split; [discriminate|intros [_ X]; discriminate X]|].
      rewrite <- A. rewrite LK. split; [discriminate|congruence].
    + rewrite <- B, LK. split; discriminate.
    + apply ws_put; [exact L|auto|]. unfold at_pc. rewrite ?AW. apply OKP; discriminate.
  - destruct ((w_state w =? CHANNEL_STATE_RUNNING) || negb (w_left w =? 0)%nat) eqn:T; apply (J_write s i w); unfold at_pc; try assumption; try reflexivity; try discriminate; try congruence.
    + rewrite ?AW. apply OKP; discriminate.
    + unfold wok in *. cbn [w_async w_state w_pc w_left]. destruct (phase (q_stop s) i) as [|[|ph]].
      * destruct (OK AW) as [X _]. rewrite X in T. discriminate T.
      * split; [reflexivity|]. right. split; [reflexivity|]. split; [reflexivity|]. lia.
      * destruct OK as [_ Y]. destruct (Y AW). congruence.
  - exact H.
Qed.
Lemma phase_next : forall k j, j <> k -> phase (SChan (S k)) j = phase (SChan k) j.
Proof. intros k j N. unfold phase. destruct (Nat.ltb_spec j (S k)), (Nat.ltb_spec j k); try reflexivity; lia. Qed.
Lemma phase_join : forall k j, j <> k -> phase (SJoin k) j = phase (SChan k) j.
Proof. intros k j N. unfold phase. replace (j =? k)%nat with false by lia. destruct (j <? k)%nat; reflexivity. Qed.
Lemma J_stop_step : forall s, J s -> J (stop_step s).
Proof.
  intros s H. pose proof H as [A B C D E F G]. unfold stop_step. destruct (q_stop s) as [| | |k|k| |z] eqn:SP.
  - rewrite C. cbn [state_of]. change (LOGGER_STATE_RUNNING =? LOGGER_STATE_RUNNING) with true. cbn iota. split; cbn [set_stop q_state q_lock q_stop q_ws]; auto; discriminate.
  - destruct (q_lock s) eqn:LK; try exact H. split; cbn [q_state q_lock q_stop q_ws]; auto; try discriminate.
    + intros i. split; [discriminate|]. intros X. apply A in X. discriminate X.
    + split; reflexivity.
  - rewrite C. cbn [state_of]. change (LOGGER_STATE_RUNNING =? LOGGER_STATE_RUNNING) with true. cbn iota. split; cbn [q_state q_lock q_stop q_ws]; auto; try discriminate. intros k E1. injection E1 as <-. lia.
  - destruct (nth_error (q_ws s) k) as [w|] eqn:N.
    + assert (L : (k < length (q_ws s))%nat) by (apply nth_error_Some; congruence). pose proof (D k w N) as OK. cbn [phase] in OK. rewrite Nat.ltb_irrefl in OK. cbn [wok] in OK.
      destruct (w_async w) eqn:AW.
      * destruct (OK eq_refl) as [X Y]. rewrite X. change (CHANNEL_STATE_RUNNING =? CHANNEL_STATE_RUNNING) with true. cbn iota. split; cbn [set_stop set_w q_state q_lock q_stop q_ws]; try rewrite put_nth_len by exact L; auto; try discriminate.
        -- intros i. rewrite A. set (w' := in_state w CHANNEL_STATE_WAITING_FINISH). rewrite (stands_put s (set_stop (set_w s k w') (SJoin k)) k w' i WApply L eq_refl). destruct (Nat.eqb_spec i k) as [-> |NE]; [|reflexivity].
           split; [intros (w0 & N0 & A0 & P0); assert (w0 = w) by congruence; subst w0; split; [exact AW|exact P0]|intros [A0 P0]; exists w; auto].
        -- apply ws_put; [exact L| |].
           ++ intros j w0 N0 NE. rewrite phase_join by exact NE. exact (D j w0 N0).
           ++ cbn [phase]. rewrite Nat.ltb_irrefl, Nat.eqb_refl. cbn. split; [exact AW|]. left. split; [reflexivity|exact Y].
        -- intros k0 E0. injection E0 as <-. exact L.
      * split; cbn [set_stop set_w q_state q_lock q_stop q_ws]; try rewrite put_nth_len by exact L; auto; try discriminate.
        -- intros i. rewrite A. set (w' := in_state w CHANNEL_STATE_NULL). rewrite (stands_put s (set_stop (set_w s k w') (SChan (S k))) k w' i WApply L eq_refl). destruct (Nat.eqb_spec i k) as [-> |NE]; [|reflexivity].
           split; [intros (w0 & N0 & A0 & P0); congruence|intros [A0 P0]; cbn in A0; congruence].
        -- apply ws_put; [exact L| |].
           ++ intros j w0 N0 NE. rewrite phase_next by exact NE. exact (D j w0 N0).
           ++ cbn [phase]. replace (k <? S k)%nat with true by lia. cbn. split; [reflexivity|congruence].
        -- intros k0 E0. injection E0 as <-. lia.
    + split; cbn [set_stop q_state q_lock q_stop q_ws]; auto; try discriminate. intros i w N0. specialize (D i w N0). apply nth_error_None in N. assert (i < length (q_ws s))%nat by (apply nth_error_Some; congruence).
      cbn [phase] in D. replace (i <? k)%nat with true in D by lia. exact D.
  - destruct (nth_error (q_ws s) k) as [w|] eqn:N; [|exact H]. destruct (w_pc w) eqn:PC; try exact H.
    assert (L : (k < length (q_ws s))%nat) by (apply nth_error_Some; congruence). pose proof (D k w N) as OK. cbn [phase] in OK. rewrite Nat.ltb_irrefl, Nat.eqb_refl in OK. cbn [wok] in OK. destruct OK as [AW [[_ X]|[X [_ Y]]]]; [congruence|].
    split; cbn [set_stop set_w q_state q_lock q_stop q_ws]; try rewrite put_nth_len by exact L; auto; try discriminate.
    + intros i. rewrite A. set (w' := in_state w CHANNEL_STATE_NULL). rewrite (stands_put s (set_stop (set_w s k w') (SChan (S k))) k w' i WApply L eq_refl). destruct (Nat.eqb_spec i k) as [-> |NE]; [|reflexivity].
      split; [intros (w0 & N0 & A0 & P0); congruence|intros [A0 P0]; cbn in P0; congruence].
    + apply ws_put; [exact L| |].
      * intros j w0 N0 NE. rewrite phase_next by exact NE. rewrite <- phase_join by exact NE. exact (D j w0 N0).
      * cbn [phase]. replace (k <? S k)%nat with true by lia. cbn. split; [reflexivity|]. intros _. auto.
    + intros k0 E0. injection E0 as <-. lia.
  - split; cbn [q_state q_lock q_stop q_ws]; auto; try discriminate.
    + intros i. split; [discriminate|]. intros X. apply A in X. pose proof (proj2 B eq_refl). congruence.
    + split; discriminate.
    + intros z E0. injection E0 as <-. reflexivity.
  - exact H.
Qed.
Lemma J_step : forall l s, J s -> J (step l s).
Proof. intros [[|i] ch] s H; [exact (J_stop_step s H)|exact (J_write_step i ch s H)]. Qed.
Lemma J_run : forall f s n, J s -> J (run f s n).
Proof. intros f s n H. induction n as [|n IH]; [exact H|apply J_step, IH]. Qed.

(* ---- progress ---- *)
(* what is left of hot updates *)
Definition hot_w (w : writer) : nat :=
  if w_async w then (3 * w_news w + match w_pc w with WLock => 2 | WApply => 1 | _ => 0 end)%nat else 0%nat.
Fixpoint hot_sum (l : list writer) : nat := match l with [] => 0%nat | w :: l => (hot_w w + hot_sum l)%nat end.
Lemma hot_put : forall l i w w', nth_error l i = Some w -> (hot_sum (put_nth l i w') + hot_w w = hot_sum l + hot_w w')%nat.
Proof.
  intros l. induction l as [|a l IH]; intros [|i] w w' N; try discriminate.
  - injection N as ->. unfold put_nth. cbn [firstn skipn app hot_sum]. lia.
  - cbn in N. specialize (IH i w w' N). unfold put_nth in *. cbn [firstn skipn app hot_sum] in *. lia.
Qed.
(* what is left of a thread that was told to end *)
Definition rank_w (w : writer) : nat :=
  match w_pc w, w_left w with
  | WDrain, l => (4 * l + 3)%nat
  | WHot, O => 2%nat
  | WHot, l => (4 * l + 5)%nat
  | WTest, O => 1%nat
  | WTest, l => (4 * l + 4)%nat
  | _, _ => 0%nat
  end.
Definition rank_s (n : nat) (p : spc) : nat :=
  match p with
  | SBegin => 2 * n + 5
  | SLock => 2 * n + 4
  | SCheck => 2 * n + 3
  | SChan k => 2 * (n - k) + 2
  | SJoin k => 2 * (n - k) + 1
  | SClean => 1
  | SDone _ => 0
  end%nat.
Definition rank_j (s : sys) : nat :=
  match q_stop s with SJoin k => match nth_error (q_ws s) k with Some w => rank_w w | None => 0 end | _ => 0 end%nat.
Definition meas := (nat * nat * nat)%type.
Definition measure (s : sys) : meas := (rank_s (length (q_ws s)) (q_stop s), hot_sum (q_ws s), rank_j s).
Definition lt3 (a b : meas) : Prop :=
  let '(a1, a2, a3) := a in let '(b1, b2, b3) := b in (a1 < b1 \/ a1 = b1 /\ (a2 < b2 \/ a2 = b2 /\ a3 < b3))%nat.
Lemma lt3_wf : well_founded lt3.
Proof.
  assert (K : forall a b c, Acc lt3 (a, b, c)).
  { intros a. induction a as [a IA] using (well_founded_induction lt_wf). intros b. induction b as [b IB] using (well_founded_induction lt_wf). intros c. induction c as [c IC] using (well_founded_induction lt_wf).
    constructor. intros [[x y] z] [H|[-> [H|[-> H]]]]; auto. }
  intros [[a b] c]. apply K.
Qed.
(* the thread whose move brings StopLogger forward *)
Definition helpful (s : sys) : thread :=
  match q_stop s with
  | SLock => match q_lock s with Writer i => TWrite i | _ => TStop end
  | SJoin k => match nth_error (q_ws s) k with Some w => match w_pc w with WEnd => TStop | _ => TWrite k end | None => TStop end
  | _ => TStop
  end.
Definition over (s : sys) : Prop := (exists z, returned s z) \/ deadlocked s.

(* a writer's move *)
Lemma write_measure : forall i ch s, J s -> ~ over s ->
  lt3 (measure (write_step i ch s)) (measure s) \/ (measure (write_step i ch s) = measure s /\ helpful (write_step i ch s) = helpful s /\ helpful s <> TWrite i).
Proof.
  intros i ch s H NO. unfold write_step. destruct (nth_error (q_ws s) i) as [w|] eqn:N.
  2:{ right. split; [reflexivity|]. split; [reflexivity|]. unfold helpful. destruct (q_stop s) as [| | |k|k| |z] eqn:SP; try discriminate.
      - destruct (q_lock s) eqn:LK; try discriminate. intros E. injection E as ->. apply (j_lock s H) in LK. destruct LK as (w & A & _). congruence.
      - destruct (nth_error (q_ws s) k) as [w|] eqn:NK; [|discriminate]. destruct (w_pc w); try discriminate; intros E; injection E as ->; congruence. }
  destruct (w_async w) eqn:AW; cbn [negb].
  2:{ right. split; [reflexivity|]. split; [reflexivity|]. unfold helpful. destruct (q_stop s) as [| | |k|k| |z] eqn:SP; try discriminate.
      - destruct (q_lock s) eqn:LK; try discriminate. intros E. injection E as ->. apply (j_lock s H) in LK. destruct LK as (w0 & A & B & _). congruence.
      - destruct (nth_error (q_ws s) k) as [w0|] eqn:NK; [|discriminate]. pose proof (j_ws s H k w0 NK) as OK. rewrite SP in OK. cbn [phase] in OK. rewrite Nat.ltb_irrefl, Nat.eqb_refl in OK. destruct OK as [OK _]. destruct (w_pc w0); try discriminate; intros E; injection E as ->; congruence. }
  assert (L : (i < length (q_ws s))%nat) by (apply nth_error_Some; congruence).
  (* the new writer w', with or without a change of the lock *)
  assert (K : forall lk w', w_async w' = true -> (hot_w w' < hot_w w \/ hot_w w' = hot_w w /\ lk = q_lock s /\ (q_stop s = SJoin i -> rank_w w' < rank_w w) /\ (q_stop s = SLock -> q_lock s <> Writer i))%nat ->
    let s' := mkSys (q_state s) lk (q_stop s) (put_nth (q_ws s) i w') in
    lt3 (measure s') (measure s) \/ (measure s' = measure s /\ helpful s' = helpful s /\ helpful s <> TWrite i)).
  { intros lk w' AW' HH s'. pose proof (hot_put (q_ws s) i w w' N) as HP. unfold measure, s'. cbn [q_ws q_stop]. rewrite put_nth_len by exact L.
    destruct HH as [HH|(HH & -> & RJ & NL)]; [left; right; split; [reflexivity|]; left; lia|].
    assert (HE : hot_sum (put_nth (q_ws s) i w') = hot_sum (q_ws s)) by lia. rewrite HE. destruct (q_stop s) as [| | |k|k| |z] eqn:SP.
    1-4,6-7: right; unfold rank_j, helpful; cbn [q_stop q_lock q_ws]; rewrite SP; repeat split; try discriminate.
    - destruct (q_lock s) eqn:LK; try discriminate. intros E. injection E as ->. exact (NL eq_refl eq_refl).
    - unfold rank_j, helpful. cbn [q_stop q_lock q_ws]. rewrite SP. destruct (Nat.eq_dec k i) as [-> |NE].
      + left. right. split; [reflexivity|]. right. split; [reflexivity|]. rewrite put_nth_same by exact L. rewrite N. exact (RJ eq_refl).
      + right. rewrite put_nth_other by assumption. split; [reflexivity|]. split; [reflexivity|]. destruct (nth_error (q_ws s) k) as [w0|]; [|discriminate]. destruct (w_pc w0); congruence. }
  pose proof (j_ws s H i w N) as OK.
  assert (NLK : w_pc w <> WApply -> q_lock s <> Writer i) by (intros P E; apply (j_lock s H) in E; destruct E as (w0 & A & _ & B); congruence).
  assert (JN : q_stop s = SJoin i -> w_pc w <> WEnd -> w_state w = CHANNEL_STATE_WAITING_FINISH).
  { intros SP P. rewrite SP in OK. cbn [phase] in OK. rewrite Nat.ltb_irrefl, Nat.eqb_refl in OK. destruct OK as [_ [[X _]|[_ [X _]]]]; [exact X|congruence]. }
  assert (ST : q_stop s = SJoin i -> q_state s = LOGGER_STATE_CLOSING) by (intros SP; rewrite (j_state s H), SP; reflexivity).
  destruct (w_pc w) eqn:PC.
  - destruct (w_left w) as [|l] eqn:LE; unfold set_w; apply K; try exact AW; try reflexivity; right; (split; [unfold hot_w; cbn; rewrite ?AW, ?PC; lia|]); (split; [reflexivity|]); (split; [intros _; unfold rank_w; cbn [w_pc w_left]; rewrite PC, LE; lia|intros _; apply NLK; discriminate]).
  - assert (TT : lt3 (measure (set_w s i (at_pc w WTest))) (measure s) \/ (measure (set_w s i (at_pc w WTest)) = measure s /\ helpful (set_w s i (at_pc w WTest)) = helpful s /\ helpful s <> TWrite i)).
    { unfold set_w. apply K; [first [exact AW|reflexivity]|]. right. split; [unfold hot_w; cbn; rewrite ?AW, ?PC; lia|]. split; [reflexivity|]. split; [|intros _; apply NLK; discriminate]. intros _. unfold rank_w. cbn [at_pc w_pc w_left]. rewrite PC. destruct (w_left w); lia. }
    destruct (w_news w) as [|n] eqn:NW; [exact TT|]. destruct (ch && (q_state s =? LOGGER_STATE_RUNNING)); [|exact TT]. unfold set_w. apply K; [first [exact AW|reflexivity]|]. left. unfold hot_w. cbn. rewrite ?AW, ?PC, ?NW. lia.
  - destruct (q_lock s) eqn:LK.
    + apply K; [first [exact AW|reflexivity]|]. left. unfold hot_w. cbn. rewrite ?AW, ?PC. lia.
    + exfalso. apply NO. right. split; [exact LK|]. exists i, w. auto.
    + right. split; [reflexivity|]. split; [reflexivity|]. unfold helpful. destruct (q_stop s) as [| | |k|k| |z] eqn:SP; try discriminate.
      * rewrite LK. intros E. injection E as ->. exact (NLK ltac:(discriminate) eq_refl).
      * exfalso. pose proof (proj2 (j_own s H)) as X. rewrite SP in X. specialize (X eq_refl). congruence.
  - apply K; [first [exact AW|reflexivity]|]. left. unfold hot_w. cbn. rewrite ?AW, ?PC. lia.
  - destruct ((w_state w =? CHANNEL_STATE_RUNNING) || negb (w_left w =? 0)%nat) eqn:T; unfold set_w; (apply K; [first [exact AW|reflexivity]|]); right; (split; [unfold hot_w; cbn; rewrite ?AW, ?PC; lia|]); (split; [reflexivity|]); (split; [|intros _; apply NLK; discriminate]); intros SP; unfold rank_w; cbn [at_pc w_pc w_left]; rewrite PC.
    + rewrite (JN SP ltac:(discriminate)) in T. destruct (w_left w); [discriminate T|lia].
    + destruct (w_left w); lia.
  - right. split; [reflexivity|]. split; [reflexivity|]. unfold helpful. destruct (q_stop s) as [| | |k|k| |z] eqn:SP; try discriminate.
    + destruct (q_lock s) eqn:LK; try discriminate. intros E. injection E as ->. exact (NLK ltac:(discriminate) eq_refl).
    + destruct (nth_error (q_ws s) k) as [w0|] eqn:NK; [|discriminate]. destruct (w_pc w0) eqn:P0; try discriminate; intros E; injection E as ->; congruence.
Qed.
(* StopLogger's move *)
Lemma stop_measure : forall s, J s -> ~ over s ->
  lt3 (measure (stop_step s)) (measure s) \/ (stop_step s = s /\ helpful s <> TStop).
Proof.
  intros s H NO. unfold stop_step. destruct (q_stop s) as [| | |k|k| |z] eqn:SP; unfold measure.
  - left. left. rewrite SP. destruct (q_state s =? LOGGER_STATE_RUNNING); cbn; lia.
  - destruct (q_lock s) eqn:LK.
    + left. left. rewrite SP. cbn. lia.
    + pose proof (proj1 (j_own s H) LK) as X. rewrite SP in X. discriminate X.
    + right. split; [reflexivity|]. unfold helpful. rewrite SP, LK. discriminate.
  - left. left. rewrite SP. destruct (q_state s =? LOGGER_STATE_RUNNING); cbn; lia.
  - left. left. rewrite SP. pose proof (j_chan s H k SP). destruct (nth_error (q_ws s) k) as [w|] eqn:N.
    + assert (L : (k < length (q_ws s))%nat) by (apply nth_error_Some; congruence). destruct (w_async w); cbn [set_stop set_w q_ws q_stop]; rewrite put_nth_len by exact L; cbn [rank_s]; lia.
    + cbn. lia.
  - pose proof (j_join s H k SP) as L. destruct (nth_error (q_ws s) k) as [w|] eqn:N; [|apply nth_error_None in N; lia].
    destruct (w_pc w) eqn:PC; try (right; split; [reflexivity|]; unfold helpful; rewrite SP, N, PC; discriminate).
    left. left. rewrite SP. cbn [set_stop set_w q_ws q_stop]. rewrite put_nth_len by exact L. cbn [rank_s]. lia.
  - left. left. rewrite SP. cbn. lia.
  - exfalso. apply NO. left. exists z. exact SP.
Qed.
Lemma over_dec : forall s, over s \/ ~ over s.
Proof.
  intros s. unfold over, returned, deadlocked.
  assert (D : (exists i, stands s i WLock) \/ ~ exists i, stands s i WLock).
  { unfold stands. induction (q_ws s) as [|w l IH]; [right; intros (i & w & N & _); destruct i; discriminate|].
    destruct IH as [(i & w0 & N & X)|IH]; [left; exists (S i), w0; auto|]. destruct (w_async w) eqn:A; [|right; intros ([|i] & w0 & N & X & Y); [cbn in N; congruence|apply IH; exists i, w0; auto]].
    destruct (w_pc w) eqn:P; try (right; intros ([|i] & w0 & N & X & Y); [cbn in N; congruence|apply IH; exists i, w0; auto]). left. exists O, w. auto. }
  destruct (q_stop s) as [| | |k|k| |z]; try (destruct (q_lock s); destruct D; try (left; right; split; [reflexivity|assumption]); right; intros [[z Z]|[X Y]]; try discriminate; try contradiction; auto).
  left. left. exists z. reflexivity.
Qed.
Lemma step_measure : forall l s, J s -> ~ over s ->
  lt3 (measure (step l s)) (measure s) \/ (measure (step l s) = measure s /\ helpful (step l s) = helpful s /\ helpful s <> fst l).
Proof.
  intros [[|i] ch] s H NO; cbn [fst snd step].
  - unfold step. cbn [fst]. destruct (stop_measure s H NO) as [A|[A B]]; [left; exact A|right]. rewrite A. auto.
  - exact (write_measure i ch s H NO).
Qed.
Lemma eventually : forall f s, J s -> fair f -> exists n, over (run f s n).
Proof.
  intros f s H F. assert (K : forall m n, measure (run f s n) = m -> exists n', over (run f s n')).
  { intros m. induction m as [m IH] using (well_founded_induction lt3_wf). intros n M. destruct (F (helpful (run f s n)) n) as (t & LE & HT).
    (* until the helpful thread moves *)
    assert (W : forall d n0, (n0 + d = t)%nat -> measure (run f s n0) = m -> helpful (run f s n0) = fst (f t) -> exists n', over (run f s n')).
    { intros d. induction d as [|d ID]; intros n0 E M0 H0; (destruct (over_dec (run f s n0)) as [O|NO]; [exists n0; exact O|]); pose proof (step_measure (f n0) (run f s n0) (J_run f s n0 H) NO) as SM.
      - assert (n0 = t) by lia. subst n0. destruct SM as [A|(_ & _ & A)]; [apply (IH _ ltac:(rewrite <- M0; exact A) (S t) eq_refl)|congruence].
      - destruct SM as [A|(A & B & _)]; [apply (IH _ ltac:(rewrite <- M0; exact A) (S n0) eq_refl)|]. apply (ID (S n0)); [lia|cbn [run]; congruence|cbn [run]; congruence]. }
    apply (W (t - n)%nat n); [lia|exact M|congruence]. }
  exact (K (measure (run f s O)) O eq_refl).
Qed.
Lemma done_stopped : forall s z, J s -> returned s z -> z = 0 /\ stopped s.
Proof.
  intros s z H R. unfold returned in R. split; [exact (j_done s H z R)|]. split; [rewrite (j_state s H), R; reflexivity|]. split.
  - destruct (q_lock s) as [| |i] eqn:LK; [reflexivity| |].
    + pose proof (proj1 (j_own s H) LK) as X. rewrite R in X. discriminate X.
    + apply (j_lock s H) in LK. destruct LK as (w & N & A & P). pose proof (j_ws s H i w N) as OK. rewrite R in OK. cbn in OK. destruct OK as [_ Y]. destruct (Y A). congruence.
  - intros i w N. pose proof (j_ws s H i w N) as OK. rewrite R in OK. exact OK.
Qed.

(* ---- a deadlock is for ever ---- *)
Lemma deadlock_step : forall l s, J s -> deadlocked s -> deadlocked (step l s).
Proof.
  intros [[|i] ch] s H (LK & j & w & N & A & P); unfold step; cbn [fst snd].
  - pose proof (proj1 (j_own s H) LK) as OW. pose proof (j_ws s H j w N) as OK. assert (NP : phase (q_stop s) j <> 2%nat) by (intros E; rewrite E in OK; destruct OK as [_ Y]; destruct (Y A); congruence).
    assert (KEEP : forall k w' p, (k < length (q_ws s))%nat -> (k = j -> w_async w' = true /\ w_pc w' = WLock) -> deadlocked (set_stop (set_w s k w') p)).
    { intros k w' p L E. split; [exact LK|]. exists j. apply (stands_put s (set_stop (set_w s k w') p) k w' j WLock L eq_refl). destruct (Nat.eqb_spec j k) as [-> |NE]; [auto|exists w; auto]. }
    unfold stop_step. destruct (q_stop s) as [| | |k|k| |z] eqn:SP; try discriminate OW.
    + rewrite (j_state s H), SP. cbn. split; [exact LK|]. exists j, w. auto.
    + destruct (nth_error (q_ws s) k) as [w0|] eqn:NK; [|split; [exact LK|exists j, w; auto]]. assert (L : (k < length (q_ws s))%nat) by (apply nth_error_Some; congruence).
      destruct (w_async w0) eqn:A0; apply KEEP; try exact L; intros ->; assert (w0 = w) by congruence; subst w0; [|congruence]. destruct (w_state w =? CHANNEL_STATE_RUNNING); auto.
    + destruct (nth_error (q_ws s) k) as [w0|] eqn:NK; [|split; [exact LK|exists j, w; auto]]. assert (L : (k < length (q_ws s))%nat) by (apply nth_error_Some; congruence).
      destruct (w_pc w0) eqn:P0; try solve [split; [exact LK|exists j, w; auto]]. apply KEEP; [exact L|]. intros ->. congruence.
    + cbn in NP. congruence.
  - unfold write_step. destruct (nth_error (q_ws s) i) as [w0|] eqn:NI; [|split; [exact LK|exists j, w; auto]]. destruct (w_async w0) eqn:A0; cbn [negb]; [|split; [exact LK|exists j, w; auto]].
    assert (L : (i < length (q_ws s))%nat) by (apply nth_error_Some; congruence).
    assert (KEEP : forall w', w_pc w0 <> WLock -> deadlocked (set_w s i w')).
    { intros w' E. split; [exact LK|]. exists j. apply (stands_put s (set_w s i w') i w' j WLock L eq_refl). destruct (Nat.eqb_spec j i) as [-> |NE]; [congruence|exists w; auto]. }
    destruct (w_pc w0) eqn:P0.
    + destruct (w_left w0); apply KEEP; discriminate.
    + destruct (w_news w0); [apply KEEP; discriminate|]. destruct (ch && (q_state s =? LOGGER_STATE_RUNNING)); apply KEEP; discriminate.
    + rewrite LK. split; [exact LK|exists j, w; auto].
    + assert (X : q_lock s = Writer i) by (apply (j_lock s H); exists w0; auto). congruence.
    + destruct ((w_state w0 =? CHANNEL_STATE_RUNNING) || negb (w_left w0 =? 0)%nat); apply KEEP; discriminate.
    + split; [exact LK|exists j, w; auto].
Qed.
Lemma deadlock_forever : forall f s n, J s -> deadlocked s -> deadlocked (run f s n).
Proof. intros f s n H D. induction n as [|n IH]; [exact D|]. cbn [run]. apply deadlock_step; [apply J_run, H|exact IH]. Qed.
Lemma deadlock_not_done : forall s z, J s -> deadlocked s -> ~ returned s z.
Proof. intros s z H [LK _] R. pose proof (proj1 (j_own s H) LK) as X. rewrite R in X. discriminate X. Qed.

(* ---- without news no writer wants the lock ---- *)
Lemma quiet_step : forall l s, hot_sum (q_ws s) = O -> hot_sum (q_ws (step l s)) = O.
Proof.
  intros [[|i] ch] s Q; unfold step; cbn [fst snd].
  - assert (K : forall k w w', nth_error (q_ws s) k = Some w -> hot_w w' = hot_w w -> hot_sum (put_nth (q_ws s) k w') = O) by (intros k w w' N E; pose proof (hot_put (q_ws s) k w w' N); lia).
    unfold stop_step. destruct (q_stop s) as [| | |k|k| |z]; try exact Q.
    + destruct (q_lock s); exact Q.
    + destruct (q_state s =? LOGGER_STATE_RUNNING); exact Q.
    + destruct (nth_error (q_ws s) k) as [w|] eqn:N; [|exact Q]. destruct (w_async w) eqn:A; cbn [set_stop set_w q_ws]; apply (K k w _ N); [destruct (w_state w =? CHANNEL_STATE_RUNNING)|]; reflexivity.
    + destruct (nth_error (q_ws s) k) as [w|] eqn:N; [|exact Q]. destruct (w_pc w) eqn:P; try exact Q. cbn [set_stop set_w q_ws]. apply (K k w _ N). reflexivity.
  - unfold write_step. destruct (nth_error (q_ws s) i) as [w|] eqn:N; [|exact Q]. destruct (w_async w) eqn:A; cbn [negb]; [|exact Q].
    assert (HW : hot_w w = O) by (clear - Q N; revert i N; induction (q_ws s) as [|a l IH]; intros [|i] N; try discriminate; cbn [hot_sum] in Q; [injection N as ->; lia|apply (IH ltac:(lia) i N)]).
    unfold hot_w in HW. rewrite A in HW.
    assert (K : forall w', hot_w w' = O -> hot_sum (put_nth (q_ws s) i w') = O) by (intros w' E; pose proof (hot_put (q_ws s) i w w' N) as X; unfold hot_w in X at 1; rewrite A in X; lia).
    destruct (w_pc w) eqn:P; try lia.
    + destruct (w_left w); cbn [set_w q_ws]; apply K; unfold hot_w; cbn; lia.
    + destruct (w_news w) eqn:NW; [|lia]. cbn [set_w q_ws]. apply K. unfold hot_w. cbn. rewrite A, NW. reflexivity.
    + destruct ((w_state w =? CHANNEL_STATE_RUNNING) || negb (w_left w =? 0)%nat); cbn [set_w q_ws]; apply K; unfold hot_w; cbn; rewrite ?A; lia.
Qed.
Lemma quiet_run : forall f s n, hot_sum (q_ws s) = O -> hot_sum (q_ws (run f s n)) = O.
Proof. intros f s n Q. induction n as [|n IH]; [exact Q|apply quiet_step, IH]. Qed.
Lemma quiet_free : forall s, hot_sum (q_ws s) = O -> ~ deadlocked s.
Proof.
  intros s Q (_ & i & w & N & A & P). assert (HW : hot_w w = O) by (clear - Q N; revert i N; induction (q_ws s) as [|a l IH]; intros [|i] N; try discriminate; cbn [hot_sum] in Q; [injection N as ->; lia|apply (IH ltac:(lia) i N)]).
  unfold hot_w in HW. rewrite A, P in HW. lia.
Qed.
Lemma quiet_sum : forall l, (forall i w, nth_error l i = Some w -> w_async w = true -> w_news w = O /\ w_pc w <> WLock /\ w_pc w <> WApply) -> hot_sum l = O.
Proof.
  intros l. induction l as [|a l IH]; intros H; [reflexivity|]. cbn [hot_sum]. rewrite IH by (intros i w N; exact (H (S i) w N)). unfold hot_w. destruct (w_async a) eqn:A; [|reflexivity]. destruct (H O a eq_refl A) as (X & Y & Z). rewrite X. destruct (w_pc a); try reflexivity; congruence.
Qed.
