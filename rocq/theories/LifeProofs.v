(* Concurrent start and stop calls take effect one after the other. *)
From Coq Require Import String ZArith List Bool Lia ZifyBool.
From Verif Require Import Base BaseFacts LoggerState ParseVal Lexer ParseCfg Load LoadSpec LoadProofs Life LifeSpec.
Import ListNotations. Open Scope Z_scope.

(* ---- the calls ---- *)
Lemma set_state_idem : forall g m cs a b, set_state (set_chans (set_state g a) m cs) b = set_state (set_chans g m cs) b.
Proof. reflexivity. Qed.
Lemma raise_state : forall th g m a, raise th (set_state g a) m = raise th g m.
Proof.
  intros th g m a. unfold raise. destruct (start_chans th 0 (sm_size m) (sm_chans m)) as [[z| |] cs]; [|reflexivity|reflexivity].
  destruct z; [reflexivity| |]; destruct (stop_chans th 0 (sm_size m) cs) as [[z1| |] cs1]; reflexivity.
Qed.
Lemma lower_state : forall g m a, lower (set_state g a) m = lower g m.
Proof. intros g m a. unfold lower. destruct (stop_chans _ _ _ _) as [r cs]. reflexivity. Qed.
Lemma start_logger_raise : forall e th g m, lg_state g = LOGGER_STATE_UNINIT -> lg_shm g = Some m -> bad_size e m = false ->
  start_logger e th g = raise th g m.
Proof. intros e th g m U M B. unfold start_logger, raise. rewrite U, M. unfold bad_size in B. rewrite B. reflexivity. Qed.
Lemma raise_facts : forall th g m r g', raise th g m = (r, g') -> lg_shm g' <> None /\ (lg_state g' = LOGGER_STATE_RUNNING <-> r = Code 0) /\
  (forall m', lg_shm g' = Some m' -> sm_size m' = sm_size m) /\ (r <> Code 0 -> lg_state g' = LOGGER_STATE_UNINIT \/ lg_state g' = LOGGER_STATE_INITING).
Proof.
  intros th g m r g' H. unfold raise in H. destruct (start_chans th 0 (sm_size m) (sm_chans m)) as [r1 cs].
  assert (X : exists cs' st, g' = set_state (set_chans g m cs') st /\ (st = LOGGER_STATE_RUNNING <-> r = Code 0) /\ (r <> Code 0 -> st = LOGGER_STATE_UNINIT \/ st = LOGGER_STATE_INITING)).
  { destruct r1 as [z| |].
    - destruct z as [|p|p].
      + injection H as <- <-. exists cs, LOGGER_STATE_RUNNING. split; [reflexivity|]. split; [tauto|]. intros []; reflexivity.
      + destruct (stop_chans th 0 (sm_size m) cs) as [r2 cs2]. destruct r2; injection H as <- <-; eexists; eexists; (split; [reflexivity|]); (split; [split; intros E; discriminate E|auto]).
      + destruct (stop_chans th 0 (sm_size m) cs) as [r2 cs2]. destruct r2; injection H as <- <-; eexists; eexists; (split; [reflexivity|]); (split; [split; intros E; discriminate E|auto]).
    - injection H as <- <-. eexists; eexists; (split; [reflexivity|]); (split; [split; intros E; discriminate E|auto]).
    - injection H as <- <-. eexists; eexists; (split; [reflexivity|]); (split; [split; intros E; discriminate E|auto]). }
  destruct X as (cs' & st & -> & A & B). cbn [set_state set_chans set_shm lg_shm lg_state]. split; [discriminate|]. split; [exact A|].
  split; [intros m' E; injection E as <-; reflexivity|exact B].
Qed.

Lemma init_publish : forall e g c g1, loads c -> lg_state g = LOGGER_STATE_UNINIT -> publish e g (text_of c) = Ret g1 -> init_of e g1 c = init_of e g c.
Proof.
  intros e g c g1 L U P.
  assert (Y : forall t path, publish e g t = Ret g1 -> init_yaml e g1 t path = init_yaml e g t path).
  { clear P. intros t path P. unfold publish in P. unfold init_yaml. rewrite U.
    destruct (parse_logger (y_fuel e) (y_pe e) (y_old e) t) as [[ret s]| |] eqn:PL; cbn [bind] in P; try discriminate.
    destruct (negb (ret =? PEC_NONE)) eqn:R.
    - injection P as <-. rewrite U. reflexivity.
    - destruct (lg_shm g) as [m0|] eqn:M0.
      + injection P as <-. rewrite U, M0. reflexivity.
      + destruct (load_shm e (s_shm s)) as [z o] eqn:LS. destruct z as [|z|z].
        * destruct o as [m|]; injection P as <-.
          -- cbn [set_shm lg_state lg_shm lg_name lg_desc lg_key lg_hot lg_path]. rewrite U. cbn [negb Z.eqb]. cbn [bind]. rewrite R. cbn [bind]. rewrite LS. reflexivity.
          -- rewrite U, M0. cbn [bind lg_shm lg_key]. reflexivity.
        * injection P as <-. rewrite U, M0. reflexivity.
        * injection P as <-. rewrite U, M0. reflexivity. }
  destruct c as [th t|th path [[mt t]|]|th|]; cbn [loads] in L; try contradiction; cbn [init_of text_of] in *.
  - apply Y. exact P.
  - unfold init_file. rewrite (Y t path P). reflexivity.
Qed.
Lemma publish_facts : forall e g t g1, publish e g t = Ret g1 -> lg_state g1 = lg_state g /\ (lg_shm g1 = None -> lg_shm g = None).
Proof.
  intros e g t g1 H. unfold publish in H.
  destruct (parse_logger (y_fuel e) (y_pe e) (y_old e) t) as [[ret s]| |] eqn:PL; cbn [bind] in H; try discriminate.
  assert (X : g1 = g \/ exists m, g1 = set_shm g m).
  { destruct (negb (ret =? PEC_NONE)); [injection H as <-; auto|]. destruct (lg_shm g) eqn:M; [injection H as <-; auto|].
    destruct (load_shm e (s_shm s)) as [z o]. destruct z as [|k|k]; [destruct o as [m|]|..]; injection H as <-; eauto. }
  destruct X as [-> |(m & ->)]; [auto|]. cbn [set_shm lg_state lg_shm]. split; [reflexivity|discriminate].
Qed.
Lemma init_yaml_facts : forall e g t path z g1, lg_state g = LOGGER_STATE_UNINIT -> init_yaml e g t path = Ret (z, g1) ->
  lg_state g1 = LOGGER_STATE_UNINIT /\ (lg_shm g1 = None -> lg_shm g = None).
Proof.
  intros e g t path z g1 U H. unfold init_yaml in H. rewrite U in H. cbn [negb Z.eqb LOGGER_STATE_UNINIT] in H.
  destruct (parse_logger (y_fuel e) (y_pe e) (y_old e) t) as [[ret s]| |] eqn:PL; cbn [bind] in H; try discriminate.
  destruct (negb (ret =? PEC_NONE)) eqn:R; [injection H as <- <-; auto|].
  cbn [lg_shm lg_key] in H. destruct (match lg_shm g with Some m => (0, Some m) | None => load_shm e (s_shm s) end) as [ret1 [m|]].
  - destruct (negb (ret1 =? 0)) eqn:R1; injection H as <- <-; [cbn [lg_state lg_shm]; auto|]. cbn [set_shm lg_state lg_shm]. split; [reflexivity|discriminate].
  - injection H as <- <-. cbn [lg_state lg_shm]. auto.
Qed.
Lemma init_facts : forall e g c z g1, lg_state g = LOGGER_STATE_UNINIT -> init_of e g c = Ret (z, g1) ->
  lg_state g1 = LOGGER_STATE_UNINIT /\ (lg_shm g1 = None -> lg_shm g = None).
Proof.
  intros e g c z g1 U H. destruct c as [th t|th path [[mt t]|]|th|]; cbn [init_of init_file] in H; try (injection H as <- <-; auto).
  - eapply init_yaml_facts; eassumption.
  - destruct (init_yaml e g t path) as [[z1 g2]| |] eqn:Y; cbn [bind] in H; try discriminate. destruct (init_yaml_facts _ _ _ _ _ _ U Y) as [A B].
    destruct (negb (z1 =? 0)); [injection H as <- <-; auto|]. destruct (lg_shm g2) as [m|]; [|discriminate]. injection H as <- <-. cbn [set_shm lg_state lg_shm]. split; [exact A|discriminate].
Qed.

Lemma bad_size_no : forall e g m, lg_shm g = Some m -> bad_size e m = true -> no_size e g.
Proof. intros e g m M B m' E. unfold bad_size in B. assert (m' = m) by congruence. subst m'. lia. Qed.
Lemma good_size : forall e g m, lg_shm g = Some m -> bad_size e m = false -> ~ no_size e g.
Proof. intros e g m M B N. specialize (N m M). unfold bad_size in B. lia. Qed.
Lemma not_no_size : forall e g, ~ no_size e g -> exists m, lg_shm g = Some m /\ bad_size e m = false.
Proof.
  intros e g N. destruct (lg_shm g) as [m|] eqn:M; [|exfalso; apply N; intros m E; congruence]. exists m. split; [reflexivity|].
  destruct (bad_size e m) eqn:B; [|reflexivity]. exfalso. apply N. eapply bad_size_no; eassumption.
Qed.

(* what each call does alone *)
Lemma call_init : forall e g c r g', loads c -> lg_state g = LOGGER_STATE_UNINIT ->
  (exists z g1, init_of e g c = Ret (z, g1) /\ (r, g') = if negb (z =? 0) then (Code z, g1) else start_logger e (threads_of c) g1) ->
  do_call e g (as_call c) = Ret (r, g').
Proof.
  intros e g c r g' L U (z & g1 & H & E). destruct c as [th t|th path [[mt t]|]|th|]; cbn [loads] in L; try contradiction;
    cbn [as_call do_call init_of threads_of] in *; unfold parse_and_start, load_and_start, then_start; rewrite U, H;
    cbn [negb Z.eqb LOGGER_STATE_UNINIT bind]; destruct (negb (z =? 0)); rewrite E; reflexivity.
Qed.
Lemma call_stop : forall e g m, lg_state g = LOGGER_STATE_RUNNING -> lg_shm g = Some m -> bad_size e m = false ->
  do_call e g CStop = Ret (Code 0, lower g m).
Proof.
  intros e g m R M B. cbn [do_call]. unfold stop_logger. rewrite M. unfold bad_size in B. rewrite B, R. cbn [negb Z.eqb LOGGER_STATE_RUNNING Pos.eqb].
  unfold lower. destruct (stop_chans _ _ _ _) as [r cs]. reflexivity.
Qed.

(* ---- the invariant ---- *)
Definition held (p : pc) : bool :=
  match p with Held _ | Reading _ | Filling _ | Nested _ | Raising _ | Lowering | Leaving _ _ | Stuck _ => true | _ => false end.
Definition call_of (p : pc) : option (api * option res) :=
  match p with
  | Idle => None
  | Fast c | Locking c | Held c | Reading c | Filling c | Nested c | Raising c => Some (c, None)
  | AskShm th | AskSize th => Some (AStart th, None)
  | AskState | Lowering => Some (AStop, None)
  | Leaving c r => Some (c, Some r)
  | Stuck c => Some (c, Some Blocked)
  end.
(* the logger that others see, where [gs] is the one after the calls that took effect *)
Definition agrees (e : lenv) (gs g : lg) (p : pc) : Prop :=
  match p with
  | Reading c => g = gs /\ loads c
  | Filling c => loads c /\ lg_state gs = LOGGER_STATE_UNINIT /\ publish e gs (text_of c) = Ret g
  | Nested c => loads c /\ lg_state gs = LOGGER_STATE_UNINIT /\ init_of e gs c = Ret (0, g)
  | Raising c => exists g1 m, g = set_state g1 LOGGER_STATE_INITING /\ starts c /\ lg_state gs = LOGGER_STATE_UNINIT /\
      lg_state g1 = LOGGER_STATE_UNINIT /\ lg_shm g1 = Some m /\ bad_size e m = false /\
      (g1 = gs /\ (exists th, c = AStart th) \/ loads c /\ init_of e gs c = Ret (0, g1))
  | Lowering => g = set_state gs LOGGER_STATE_CLOSING /\ lg_state gs = LOGGER_STATE_RUNNING
  | _ => g = gs
  end.
Definition pc_of (s : life) (i : nat) : pc := fst (f_th s i).
Definition seen (e : lenv) (gs : lg) (s : life) : Prop :=
  match f_lock s with None => f_lg s = gs | Some i => agrees e gs (f_lg s) (pc_of s i) end.
Definition inv (e : lenv) (g0 : lg) (s : life) : Prop :=
  exists gs p, serial e g0 (f_ev s) gs p /\ steady e gs /\ (forall i, p i = call_of (pc_of s i)) /\
    (forall i, f_lock s = Some i <-> held (pc_of s i) = true) /\ seen e gs s.

(* what a thread sees without the lock *)
Lemma sees : forall e gs s i, seen e gs s -> (forall i, f_lock s = Some i <-> held (pc_of s i) = true) -> held (pc_of s i) = false ->
  (lg_state (f_lg s) <> LOGGER_STATE_UNINIT -> lg_state gs <> LOGGER_STATE_UNINIT \/ exists j c, j <> i /\ call_of (pc_of s j) = Some (c, None) /\ starts c) /\
  (lg_state (f_lg s) <> LOGGER_STATE_RUNNING -> lg_state gs <> LOGGER_STATE_RUNNING \/ exists j c, j <> i /\ call_of (pc_of s j) = Some (c, None) /\ c = AStop) /\
  (lg_shm (f_lg s) = None -> lg_shm gs = None) /\
  (forall m, lg_shm (f_lg s) = Some m -> bad_size e m = true -> no_size e gs \/ exists j c, j <> i /\ call_of (pc_of s j) = Some (c, None) /\ loads c).
Proof.
  intros e gs s i S L N. unfold seen in S. destruct (f_lock s) as [j|] eqn:LK.
  - assert (J : held (pc_of s j) = true) by (apply L; reflexivity). assert (JI : j <> i) by congruence.
    destruct (pc_of s j) as [|c|th|th| |c|c|c|c|c|c| |c r|c] eqn:PJ; try discriminate J; cbn [agrees] in S;
      try (rewrite S; split; [tauto|]; split; [tauto|]; split; [tauto|]; intros m M B; left; eapply bad_size_no; eassumption).
    + destruct S as [-> _]. split; [tauto|]. split; [tauto|]. split; [tauto|]. intros m M B. left. eapply bad_size_no; eassumption.
    + destruct S as (LD & U & P). destruct (publish_facts _ _ _ _ P) as [A B]. rewrite A. split; [tauto|]. split; [tauto|]. split; [exact B|].
      intros m M BS. right. exists j, c. rewrite PJ. auto.
    + destruct S as (LD & U & P). destruct (init_facts _ _ _ _ _ U P) as [A B]. rewrite A. split; [congruence|]. split; [intros _; left; rewrite U; discriminate|].
      split; [exact B|]. intros m M BS. right. exists j, c. rewrite PJ. auto.
    + destruct S as (g1 & m & -> & ST & U & U1 & M & B & _). cbn [set_state lg_state lg_shm]. split; [intros _; right; exists j, c; rewrite PJ; auto|].
      split; [intros _; left; rewrite U; discriminate|]. split; [congruence|]. intros m' M' B'. congruence.
    + destruct S as (-> & R). cbn [set_state lg_state lg_shm]. split; [intros _; left; rewrite R; discriminate|].
      split; [intros _; right; exists j, AStop; rewrite PJ; auto|]. split; [tauto|]. intros m M B. left. eapply bad_size_no; eassumption.
  - rewrite S. split; [tauto|]. split; [tauto|]. split; [tauto|]. intros m M B. left. eapply bad_size_no; eassumption.
Qed.

(* ---- one step ---- *)
Lemma pc_at : forall s g lk l i x j, pc_of (mkLife g lk (at_th (f_th s) i x) l) j = if Nat.eqb j i then fst x else pc_of s j.
Proof. intros. unfold pc_of, at_th. cbn [f_th]. destruct (Nat.eqb j i); reflexivity. Qed.
Lemma call_at : forall (p : pending) s i x y g lk l, (forall j, p j = call_of (pc_of s j)) -> call_of (fst x) = y ->
  forall j, mark p i y j = call_of (pc_of (mkLife g lk (at_th (f_th s) i x) l) j).
Proof. intros p s i x y g lk l P X j. rewrite pc_at. unfold mark. destruct (Nat.eqb j i); [congruence|apply P]. Qed.
Lemma call_keep : forall (p : pending) s i x g lk l, (forall j, p j = call_of (pc_of s j)) -> call_of (fst x) = call_of (pc_of s i) ->
  forall j, p j = call_of (pc_of (mkLife g lk (at_th (f_th s) i x) l) j).
Proof. intros p s i x g lk l P X j. rewrite pc_at. destruct (Nat.eqb j i) eqn:E; [|apply P]. apply Nat.eqb_eq in E. subst j. rewrite P. congruence. Qed.
Lemma held_keep : forall s i x g l, (forall j, f_lock s = Some j <-> held (pc_of s j) = true) -> held (fst x) = held (pc_of s i) ->
  forall j, f_lock s = Some j <-> held (pc_of (mkLife g (f_lock s) (at_th (f_th s) i x) l) j) = true.
Proof. intros s i x g l H X j. rewrite pc_at. destruct (Nat.eqb j i) eqn:E; [|apply H]. apply Nat.eqb_eq in E. subst j. rewrite X. apply H. Qed.
Lemma seen_keep : forall e gs s i x l, seen e gs s -> (forall j, f_lock s = Some j <-> held (pc_of s j) = true) -> held (pc_of s i) = false ->
  seen e gs (mkLife (f_lg s) (f_lock s) (at_th (f_th s) i x) l).
Proof.
  intros e gs s i x l S H N. unfold seen in *. cbn [f_lock f_lg]. destruct (f_lock s) as [j|] eqn:LK; [|exact S]. rewrite pc_at.
  destruct (Nat.eqb j i) eqn:E; [|exact S]. apply Nat.eqb_eq in E. subst j. pose proof (proj1 (H i) eq_refl). congruence.
Qed.
Lemma seen_mine : forall e gs s i x g l, f_lock s = Some i -> agrees e gs g (fst x) -> seen e gs (mkLife g (f_lock s) (at_th (f_th s) i x) l).
Proof. intros e gs s i x g l LK A. unfold seen. cbn [f_lock f_lg]. rewrite LK, pc_at, Nat.eqb_refl. exact A. Qed.

(* a thread that is not inside goes on, or is refused *)
Lemma step_out : forall e g0 s i p', inv e g0 s -> held (pc_of s i) = false -> held p' = false -> call_of p' = call_of (pc_of s i) ->
  inv e g0 (go s i p').
Proof.
  intros e g0 s i p' (gs & p & SE & ST & P & H & S) N N' C. exists gs, p. unfold go. cbn [f_ev]. split; [exact SE|]. split; [exact ST|].
  split; [apply call_keep; [exact P|exact C]|]. split; [cbn [f_lock]; apply held_keep; [exact H|cbn [fst]; congruence]|apply seen_keep; assumption].
Qed.
Lemma step_refuse : forall e g0 s i c z s', inv e g0 s -> held (pc_of s i) = false -> call_of (pc_of s i) = Some (c, None) ->
  (forall gs p, seen e gs s -> (forall j, p j = call_of (pc_of s j)) -> (forall i, f_lock s = Some i <-> held (pc_of s i) = true) -> excuse e gs p i c (Code z)) ->
  refuse s i c z = Ret s' -> inv e g0 s'.
Proof.
  intros e g0 s i c z s' (gs & p & SE & ST & P & H & S) N C X E. injection E as <-. unfold say, go. cbn [f_lg f_lock f_th f_ev].
  exists gs, (mark (mark p i (Some (c, Some (Code z)))) i None). split.
  - cbn [f_ev]. change [Refused i c (Code z); Ended i (Code z)] with ([Refused i c (Code z)] ++ [Ended i (Code z)]). rewrite app_assoc.
    apply se_ended with (c := c); [|unfold mark; rewrite Nat.eqb_refl; reflexivity]. apply se_refused; [exact SE|rewrite P; exact C|]. apply X; assumption.
  - split; [exact ST|]. split.
    + intros j. rewrite pc_at. unfold mark. destruct (Nat.eqb j i); [reflexivity|apply P].
    + split; [cbn [f_lock]; apply held_keep; [exact H|cbn [fst held]; congruence]|]. apply (seen_keep e gs s i (Idle, _)); assumption.
Qed.
(* with the lock *)
Lemma step_in : forall e g0 s i p' g', inv e g0 s -> held (pc_of s i) = true -> held p' = true -> call_of p' = call_of (pc_of s i) ->
  (forall gs, steady e gs -> agrees e gs (f_lg s) (pc_of s i) -> agrees e gs g' p') ->
  inv e g0 (go (with_lg s g') i p').
Proof.
  intros e g0 s i p' g' (gs & p & SE & ST & P & H & S) N N' C A. assert (LK : f_lock s = Some i) by (apply H; exact N).
  exists gs, p. unfold go, with_lg. cbn [f_lg f_lock f_th f_ev]. split; [exact SE|]. split; [exact ST|].
  split; [apply call_keep; [exact P|exact C]|]. split; [cbn [f_lock]; apply held_keep; [exact H|cbn [fst]; congruence]|].
  apply seen_mine; [exact LK|]. cbn [fst]. apply A; [exact ST|]. unfold seen in S. rewrite LK in S. exact S.
Qed.
Lemma step_give_up : forall e g0 s i c z s', inv e g0 s -> held (pc_of s i) = true -> call_of (pc_of s i) = Some (c, None) ->
  (forall gs p, agrees e gs (f_lg s) (pc_of s i) -> f_lg s = gs /\ excuse e gs p i c (Code z)) ->
  give_up s i c z = Ret s' -> inv e g0 s'.
Proof.
  intros e g0 s i c z s' (gs & p & SE & ST & P & H & S) N C X E. injection E as <-. unfold say, go. cbn [f_lg f_lock f_th f_ev].
  assert (LK : f_lock s = Some i) by (apply H; exact N). unfold seen in S. rewrite LK in S. destruct (X gs p S) as [E X1].
  exists gs, (mark p i (Some (c, Some (Code z)))). split; [cbn [f_ev]; apply se_refused; [exact SE|rewrite P; exact C|exact X1]|].
  split; [exact ST|]. split; [apply call_at; [exact P|reflexivity]|]. split; [cbn [f_lock]; apply held_keep; [exact H|cbn [fst held]; congruence]|].
  apply seen_mine; [exact LK|exact E].
Qed.
Lemma step_effect : forall e g0 s i c r g' s', inv e g0 s -> held (pc_of s i) = true -> call_of (pc_of s i) = Some (c, None) ->
  (forall gs, steady e gs -> agrees e gs (f_lg s) (pc_of s i) -> do_call e gs (as_call c) = Ret (r, g') /\ steady e g') ->
  effect s i c r g' = Ret s' -> inv e g0 s'.
Proof.
  intros e g0 s i c r g' s' (gs & p & SE & ST & P & H & S) N C X E. injection E as <-. unfold say, go, with_lg. cbn [f_lg f_lock f_th f_ev].
  assert (LK : f_lock s = Some i) by (apply H; exact N). unfold seen in S. rewrite LK in S. destruct (X gs ST S) as [E ST'].
  exists g', (mark p i (Some (c, Some r))). split; [cbn [f_ev]; apply (se_did e g0 _ gs); [exact SE|rewrite P; exact C|exact E]|].
  split; [exact ST'|]. split; [apply call_at; [exact P|destruct r; reflexivity]|].
  split; [cbn [f_lock]; apply held_keep; [exact H|cbn [fst held]; destruct r; cbn [held]; congruence]|].
  apply seen_mine; [exact LK|]. destruct r; reflexivity.
Qed.

Lemma steady_uninit : forall e g, lg_state g <> LOGGER_STATE_RUNNING -> steady e g.
Proof. intros e g N R. contradiction. Qed.
Lemma raised_steady : forall e th g m r g', bad_size e m = false -> raise th g m = (r, g') -> steady e g'.
Proof.
  intros e th g m r g' B R _. destruct (raise_facts _ _ _ _ _ R) as (A & _ & C & _). destruct (lg_shm g') as [m'|] eqn:M; [|congruence].
  apply (good_size e g' m' M). specialize (C m' eq_refl). unfold bad_size in *. rewrite C. exact B.
Qed.

Theorem lstep_inv : forall e g0 i s s', inv e g0 s -> lstep e i s = Ret s' -> inv e g0 s'.
Proof.
  intros e g0 i s s' I H. unfold lstep in H. fold (pc_of s i) in H. cbv zeta in H.
  destruct (pc_of s i) as [|c|th|th| |c|c|c|c|c|c| |c r|c] eqn:PC.
  - destruct (snd (f_th s i)) as [|c l]; [injection H as <-; exact I|]. injection H as <-. destruct I as (gs & p & SE & ST & P & HL & S).
    exists gs, (mark p i (Some (c, None))). cbn [f_ev]. split; [apply se_began; [exact SE|rewrite P, PC; reflexivity]|]. split; [exact ST|].
    split; [apply call_at; [exact P|reflexivity]|]. split; [cbn [f_lock]; apply held_keep; [exact HL|rewrite PC; reflexivity]|]. apply seen_keep; [exact S|exact HL|rewrite PC; reflexivity].
  - assert (USE : forall c, pc_of s i = Fast c -> starts c -> lg_state (f_lg s) <> LOGGER_STATE_UNINIT -> refuse s i c E_LOGGER_IN_USE = Ret s' -> inv e g0 s').
    { clear H c PC. intros c PC SC U H. apply (step_refuse e g0 s i c E_LOGGER_IN_USE); [exact I|rewrite PC; reflexivity|rewrite PC; reflexivity| |exact H].
      intros gs p S P HL. apply ex_use; [exact SC|]. destruct (sees e gs s i S HL) as (A & _); [rewrite PC; reflexivity|].
      destruct (A U) as [X|(j & c' & J & C & X)]; [left; exact X|right; exists j, c'; rewrite P; auto]. }
    destruct c as [th t|th path file|th|].
    + destruct (negb (lg_state (f_lg s) =? LOGGER_STATE_UNINIT)) eqn:U; [apply (USE _ PC); [discriminate|lia|exact H]|]. injection H as <-.
      apply step_out; [exact I|rewrite PC; reflexivity|reflexivity|rewrite PC; reflexivity].
    + destruct (negb (lg_state (f_lg s) =? LOGGER_STATE_UNINIT)) eqn:U; [apply (USE _ PC); [discriminate|lia|exact H]|]. injection H as <-.
      apply step_out; [exact I|rewrite PC; reflexivity|reflexivity|rewrite PC; reflexivity].
    + destruct (negb (lg_state (f_lg s) =? LOGGER_STATE_UNINIT)) eqn:U; [apply (USE _ PC); [discriminate|lia|exact H]|]. injection H as <-.
      apply step_out; [exact I|rewrite PC; reflexivity|reflexivity|rewrite PC; reflexivity].
    + destruct (lg_shm (f_lg s)) as [m|] eqn:M; [|discriminate H]. destruct (bad_size e m) eqn:B.
      * apply (step_refuse e g0 s i AStop E_INVALID_CHANNEL_SIZE); [exact I|rewrite PC; reflexivity|rewrite PC; reflexivity| |exact H].
        intros gs p S P HL. apply ex_size; [left; reflexivity|]. destruct (sees e gs s i S HL) as (_ & _ & _ & A); [rewrite PC; reflexivity|].
        destruct (A m M B) as [X|(j & c' & J & C & X)]; [left; exact X|right; exists j, c'; rewrite P; auto].
      * injection H as <-. apply step_out; [exact I|rewrite PC; reflexivity|reflexivity|rewrite PC; reflexivity].
  - destruct (lg_shm (f_lg s)) as [m|] eqn:M.
    + injection H as <-. apply step_out; [exact I|rewrite PC; reflexivity|reflexivity|rewrite PC; reflexivity].
    + apply (step_refuse e g0 s i (AStart th) E_LOGGER_NOT_INIT); [exact I|rewrite PC; reflexivity|rewrite PC; reflexivity| |exact H].
      intros gs p S P HL. apply ex_init. destruct (sees e gs s i S HL) as (_ & _ & A & _); [rewrite PC; reflexivity|]. exact (A M).
  - destruct (lg_shm (f_lg s)) as [m|] eqn:M; [|discriminate H]. destruct (bad_size e m) eqn:B.
    + apply (step_refuse e g0 s i (AStart th) E_INVALID_CHANNEL_SIZE); [exact I|rewrite PC; reflexivity|rewrite PC; reflexivity| |exact H].
      intros gs p S P HL. apply ex_size; [right; eexists; reflexivity|]. destruct (sees e gs s i S HL) as (_ & _ & _ & A); [rewrite PC; reflexivity|].
      destruct (A m M B) as [X|(j & c' & J & C & X)]; [left; exact X|right; exists j, c'; rewrite P; auto].
    + injection H as <-. apply step_out; [exact I|rewrite PC; reflexivity|reflexivity|rewrite PC; reflexivity].
  - destruct (negb (lg_state (f_lg s) =? LOGGER_STATE_RUNNING)) eqn:U.
    + apply (step_refuse e g0 s i AStop E_LOGGER_NOT_RUNNING); [exact I|rewrite PC; reflexivity|rewrite PC; reflexivity| |exact H].
      intros gs p S P HL. apply ex_run. destruct (sees e gs s i S HL) as (_ & A & _); [rewrite PC; reflexivity|].
      destruct (A ltac:(lia)) as [X|(j & c' & J & C & X)]; [left; exact X|right; exists j, c'; rewrite P; auto].
    + injection H as <-. apply step_out; [exact I|rewrite PC; reflexivity|reflexivity|rewrite PC; reflexivity].
  - destruct (f_lock s) as [j|] eqn:LK; injection H as <-; [exact I|]. destruct I as (gs & p & SE & ST & P & HL & S).
    exists gs, p. unfold go. cbn [f_lg f_lock f_th f_ev]. split; [exact SE|]. split; [exact ST|]. split; [apply call_keep; [exact P|rewrite PC; reflexivity]|].
    split.
    + intros j. rewrite pc_at. rewrite LK in HL. destruct (Nat.eqb j i) eqn:E; [apply Nat.eqb_eq in E; subst j; cbn [fst held]; tauto|].
      apply Nat.eqb_neq in E. rewrite <- HL. split; intros X; [injection X as X; congruence|discriminate X].
    + unfold seen in S. rewrite LK in S. unfold seen. cbn [f_lock f_lg]. rewrite pc_at, Nat.eqb_refl. exact S.
  - assert (HD : forall c z, pc_of s i = Held c -> (forall gs p, f_lg s = gs -> excuse e gs p i c (Code z)) -> give_up s i c z = Ret s' -> inv e g0 s').
    { clear H c PC. intros c z PC X H. apply (step_give_up e g0 s i c z); [exact I|rewrite PC; reflexivity|rewrite PC; reflexivity| |exact H].
      intros gs p A. rewrite PC in A. cbn [agrees] in A. auto. }
    assert (RD : forall c, pc_of s i = Held c -> loads c -> inv e g0 (go s i (Reading c))).
    { clear H c PC. intros c PC L. replace s with (with_lg s (f_lg s)) by (destruct s; reflexivity).
      apply step_in; [destruct s; exact I|rewrite PC; reflexivity|reflexivity|rewrite PC; reflexivity|]. intros gs _ A. rewrite PC in A. cbn [agrees] in *. auto. }
    destruct c as [th t|th path [[mt t]|]|th|].
    + destruct (negb (lg_state (f_lg s) =? LOGGER_STATE_UNINIT)) eqn:U.
      * apply (HD _ _ PC) in H; [exact H|]. intros gs p <-. apply ex_use; [discriminate|left; lia].
      * injection H as <-. apply RD; [exact PC|exact Logic.I].
    + injection H as <-. apply RD; [exact PC|exact Logic.I].
    + apply (HD _ _ PC) in H; [exact H|]. intros gs p _. apply ex_file.
    + destruct (negb (lg_state (f_lg s) =? LOGGER_STATE_UNINIT)) eqn:U.
      * apply (HD _ _ PC) in H; [exact H|]. intros gs p <-. apply ex_use; [discriminate|left; lia].
      * destruct (lg_shm (f_lg s)) as [m|] eqn:M; [|discriminate H]. destruct (bad_size e m) eqn:B.
        -- apply (HD _ _ PC) in H; [exact H|]. intros gs p <-. apply ex_size; [right; eexists; reflexivity|left; eapply bad_size_no; eassumption].
        -- injection H as <-. apply step_in; [exact I|rewrite PC; reflexivity|reflexivity|rewrite PC; reflexivity|]. intros gs _ A. rewrite PC in A. cbn [agrees] in *. subst gs.
           exists (f_lg s), m. split; [reflexivity|]. split; [discriminate|]. assert (lg_state (f_lg s) = LOGGER_STATE_UNINIT) by lia. split; [assumption|]. split; [assumption|].
           split; [exact M|]. split; [exact B|]. left. split; [reflexivity|eexists; reflexivity].
    + destruct (negb (lg_state (f_lg s) =? LOGGER_STATE_RUNNING)) eqn:U.
      * apply (HD _ _ PC) in H; [exact H|]. intros gs p <-. apply ex_run. left. lia.
      * injection H as <-. apply step_in; [exact I|rewrite PC; reflexivity|reflexivity|rewrite PC; reflexivity|]. intros gs _ A. rewrite PC in A. cbn [agrees] in *. subst gs. split; [reflexivity|lia].
  - destruct (negb (lg_state (f_lg s) =? LOGGER_STATE_UNINIT)) eqn:U.
    + apply (step_give_up e g0 s i c E_LOGGER_IN_USE); [exact I|rewrite PC; reflexivity|rewrite PC; reflexivity| |exact H].
      intros gs p A. rewrite PC in A. cbn [agrees] in A. destruct A as [A L]. split; [exact A|]. apply ex_use; [intros ->; exact L|left; rewrite <- A; lia].
    + destruct (publish e (f_lg s) (text_of c)) as [g1| |] eqn:PB; cbn [bind] in H; try discriminate. injection H as <-.
      apply step_in; [exact I|rewrite PC; reflexivity|reflexivity|rewrite PC; reflexivity|]. intros gs _ A. rewrite PC in A. cbn [agrees] in *. destruct A as [<- L].
      split; [exact L|]. split; [lia|exact PB].
  - destruct (init_of e (f_lg s) c) as [[z g1]| |] eqn:IN; cbn [bind] in H; try discriminate. destruct (negb (z =? 0)) eqn:Z0.
    + apply (step_effect e g0 s i c (Code z) g1); [exact I|rewrite PC; reflexivity|rewrite PC; reflexivity| |exact H].
      intros gs ST A. rewrite PC in A. cbn [agrees] in A. destruct A as (L & U & PB). rewrite (init_publish _ _ _ _ L U PB) in IN.
      split; [apply call_init; [exact L|exact U|]; exists z, g1; split; [exact IN|rewrite Z0; reflexivity]|].
      apply steady_uninit. destruct (init_facts _ _ _ _ _ U IN) as [-> _]. discriminate.
    + injection H as <-. apply step_in; [exact I|rewrite PC; reflexivity|reflexivity|rewrite PC; reflexivity|]. intros gs _ A. rewrite PC in A. cbn [agrees] in *. destruct A as (L & U & PB).
      rewrite (init_publish _ _ _ _ L U PB) in IN. split; [exact L|]. split; [exact U|]. replace z with 0 in IN by lia. exact IN.
  - assert (NE : forall z, start_logger e (threads_of c) (f_lg s) = (Code z, f_lg s) -> effect s i c (Code z) (f_lg s) = Ret s' -> inv e g0 s').
    { intros z SL H1. apply (step_effect e g0 s i c (Code z) (f_lg s)); [exact I|rewrite PC; reflexivity|rewrite PC; reflexivity| |exact H1].
      intros gs ST A. rewrite PC in A. cbn [agrees] in A. destruct A as (L & U & IN).
      split; [apply call_init; [exact L|exact U|]; exists 0, (f_lg s); split; [exact IN|cbn [Z.eqb negb]; congruence]|].
      apply steady_uninit. destruct (init_facts _ _ _ _ _ U IN) as [-> _]. discriminate. }
    unfold start_logger in NE. destruct (negb (lg_state (f_lg s) =? LOGGER_STATE_UNINIT)) eqn:U; [apply (NE _ eq_refl H)|].
    destruct (lg_shm (f_lg s)) as [m|] eqn:M; [|apply (NE _ eq_refl H)]. unfold bad_size in H. destruct ((x_maxch (y_pe e) <? sm_size m) || (sm_size m <=? 0)) eqn:B; [apply (NE _ eq_refl H)|].
    injection H as <-. apply step_in; [exact I|rewrite PC; reflexivity|reflexivity|rewrite PC; reflexivity|]. intros gs _ A. rewrite PC in A. cbn [agrees] in *. destruct A as (L & U1 & IN).
    exists (f_lg s), m. split; [reflexivity|]. split; [intros ->; exact L|]. split; [exact U1|]. split; [lia|]. split; [exact M|]. split; [exact B|]. right. auto.
  - destruct (lg_shm (f_lg s)) as [m|] eqn:M; [|discriminate H]. destruct (raise (threads_of c) (f_lg s) m) as [r g'] eqn:R.
    apply (step_effect e g0 s i c r g'); [exact I|rewrite PC; reflexivity|rewrite PC; reflexivity| |exact H].
    intros gs ST A. rewrite PC in A. cbn [agrees] in A. destruct A as (g1 & m1 & E & SC & U & U1 & M1 & B & X). rewrite E in M. cbn [set_state lg_shm] in M. assert (m1 = m) by congruence. subst m1.
    rewrite E, raise_state in R. split; [|exact (raised_steady _ _ _ _ _ _ B R)].
    destruct X as [(-> & th & ->)|(L & IN)].
    + cbn [as_call do_call threads_of] in *. rewrite (start_logger_raise e th gs m U M1 B), R. reflexivity.
    + apply call_init; [exact L|exact U|]. exists 0, g1. split; [exact IN|]. cbn [Z.eqb negb]. rewrite (start_logger_raise e _ g1 m U1 M1 B), R. reflexivity.
  - destruct (lg_shm (f_lg s)) as [m|] eqn:M; [|discriminate H].
    apply (step_effect e g0 s i AStop (Code 0) (lower (f_lg s) m)); [exact I|rewrite PC; reflexivity|rewrite PC; reflexivity| |exact H].
    intros gs ST A. rewrite PC in A. cbn [agrees] in A. destruct A as (E & R). rewrite E in M. cbn [set_state lg_shm] in M. rewrite E, lower_state.
    destruct (not_no_size e gs (ST R)) as (m' & M' & B). assert (m' = m) by congruence. subst m'.
    split; [apply call_stop; assumption|]. apply steady_uninit. unfold lower. destruct (stop_chans _ _ _ _) as [r cs]. discriminate.
  - injection H as <-. destruct I as (gs & p & SE & ST & P & HL & S). unfold say, go. cbn [f_lg f_lock f_th f_ev].
    assert (LK : f_lock s = Some i) by (apply HL; rewrite PC; reflexivity). unfold seen in S. rewrite LK, PC in S. cbn [agrees] in S.
    exists gs, (mark p i None). cbn [f_ev]. split; [apply se_ended with (c := c); [exact SE|rewrite P, PC; reflexivity]|]. split; [exact ST|].
    split; [apply call_at; [exact P|reflexivity]|]. split.
    + intros j. cbn [f_lock]. rewrite pc_at. split; intros X; [discriminate X|]. destruct (Nat.eqb j i) eqn:E; [discriminate X|]. apply HL in X. rewrite LK in X. injection X as ->. rewrite Nat.eqb_refl in E. discriminate E.
    + exact S.
  - injection H as <-. exact I.
Qed.

Theorem life_serial : forall e g0 todo l s, steady e g0 -> life_run e l (life0 g0 todo) = Ret s -> inv e g0 s.
Proof.
  intros e g0 todo l s ST. assert (I0 : inv e g0 (life0 g0 todo)).
  { exists g0, (fun _ => None). split; [constructor|]. split; [exact ST|]. split; [reflexivity|]. split; [|reflexivity]. intros i. split; intros X; discriminate X. }
  revert I0. generalize (life0 g0 todo). induction l as [|i l IH]; intros s0 I0 H; cbn [life_run] in H; [injection H as <-; exact I0|].
  destruct (lstep e i s0) as [s1| |] eqn:S; cbn [bind] in H; try discriminate. apply (IH s1); [|exact H]. eapply lstep_inv; eassumption.
Qed.

(* ---- starts and stops alternate ---- *)
Lemma start_runs : forall e th g r g', start_logger e th g = (r, g') ->
  (r = Code 0 -> lg_state g = LOGGER_STATE_UNINIT /\ lg_state g' = LOGGER_STATE_RUNNING) /\ (r <> Code 0 -> runs g' = runs g).
Proof.
  intros e th g r g' H. destruct (negb (lg_state g =? LOGGER_STATE_UNINIT)) eqn:U.
  { unfold start_logger in H. rewrite U in H. injection H as <- <-. split; [discriminate|reflexivity]. }
  destruct (lg_shm g) as [m|] eqn:M.
  2:{ unfold start_logger in H. rewrite U, M in H. injection H as <- <-. split; [discriminate|reflexivity]. }
  destruct (bad_size e m) eqn:B.
  { unfold start_logger in H. unfold bad_size in B. rewrite U, M, B in H. injection H as <- <-. split; [discriminate|reflexivity]. }
  rewrite (start_logger_raise e th g m) in H; [|lia|exact M|exact B]. destruct (raise_facts _ _ _ _ _ H) as (_ & A & _ & C).
  split; [intros ->; split; [lia|apply A; reflexivity]|]. intros N. unfold runs. destruct (C N) as [-> | ->]; replace (lg_state g) with LOGGER_STATE_UNINIT by lia; reflexivity.
Qed.
Lemma then_start_runs : forall e th g o r g', (forall z g1, lg_state g = LOGGER_STATE_UNINIT -> o = Ret (z, g1) -> lg_state g1 = LOGGER_STATE_UNINIT) ->
  then_start e th g o = Ret (r, g') ->
  (r = Code 0 -> lg_state g = LOGGER_STATE_UNINIT /\ lg_state g' = LOGGER_STATE_RUNNING) /\ (r <> Code 0 -> runs g' = runs g).
Proof.
  intros e th g o r g' O H. unfold then_start in H. destruct (negb (lg_state g =? LOGGER_STATE_UNINIT)) eqn:U; [injection H as <- <-; split; [discriminate|reflexivity]|].
  destruct o as [[z g1]| |]; cbn [bind] in H; try discriminate. assert (U0 : lg_state g = LOGGER_STATE_UNINIT) by lia. specialize (O z g1 U0 eq_refl). destruct (negb (z =? 0)) eqn:Z0.
  - injection H as <- <-. split; [intros E; injection E as ->; discriminate Z0|]. intros _. unfold runs. rewrite O, U0. reflexivity.
  - injection H as H. destruct (start_runs _ _ _ _ _ H) as [A B]. split; [intros R; destruct (A R); auto|]. intros N. rewrite (B N). unfold runs. rewrite O, U0. reflexivity.
Qed.
Lemma do_runs : forall e g c r g', do_call e g (as_call c) = Ret (r, g') ->
  runs g' = runs g + (if started (Did 0 c r) then 1 else 0) - (if stopped (Did 0 c r) then 1 else 0).
Proof.
  intros e g c r g' H.
  assert (ST : starts c -> (r = Code 0 -> lg_state g = LOGGER_STATE_UNINIT /\ lg_state g' = LOGGER_STATE_RUNNING) /\ (r <> Code 0 -> runs g' = runs g) ->
    runs g' = runs g + (if started (Did 0 c r) then 1 else 0) - (if stopped (Did 0 c r) then 1 else 0)).
  { intros SC [A B]. assert (R : r = Code 0 \/ r <> Code 0) by (destruct r as [z| |]; [destruct z as [|q|q]|..]; (left; reflexivity) || (right; discriminate)). destruct R as [-> |N].
    - destruct (A eq_refl) as [X Y]. unfold runs. rewrite X, Y. destruct c; [reflexivity|reflexivity|reflexivity|contradiction SC; reflexivity].
    - rewrite (B N). destruct c as [th t|th path file|th|]; [..|contradiction SC; reflexivity]; cbn [started stopped]; destruct r as [z| |]; try lia; destruct z; try lia; contradiction N; reflexivity. }
  destruct c as [th t|th path file|th|]; cbn [as_call do_call] in H.
  - apply ST; [discriminate|]. apply (then_start_runs _ _ _ _ _ _) in H; [exact H|]. intros z g1 U Y. exact (proj1 (init_yaml_facts _ _ _ _ _ _ U Y)).
  - apply ST; [discriminate|]. apply (then_start_runs _ _ _ _ _ _) in H; [exact H|]. intros z g1 U Y. exact (proj1 (init_facts e g (ALoad th path file) z g1 U Y)).
  - apply ST; [discriminate|]. injection H as H. exact (start_runs _ _ _ _ _ H).
  - unfold stop_logger in H. destruct (lg_shm g) as [m|]; [|discriminate H]. destruct ((x_maxch (y_pe e) <? sm_size m) || (sm_size m <=? 0)); [injection H as <- <-; cbn [started stopped E_INVALID_CHANNEL_SIZE]; lia|].
    destruct (negb (lg_state g =? LOGGER_STATE_RUNNING)) eqn:R; [injection H as <- <-; cbn [started stopped E_LOGGER_NOT_RUNNING]; lia|].
    destruct (stop_chans _ _ _ _) as [r1 cs]. injection H as <- <-. cbn [started stopped]. unfold runs. cbn [set_state lg_state]. replace (lg_state g =? LOGGER_STATE_RUNNING) with true by lia. reflexivity.
Qed.
Lemma count_app : forall f l x, count f (l ++ [x]) = count f l + (if f x then 1 else 0).
Proof. intros f l x. unfold count. rewrite filter_app, zlen_app. cbn [filter]. destruct (f x); reflexivity. Qed.
Theorem serial_count : forall e g0 l g p, serial e g0 l g p -> runs g0 + count started l = count stopped l + runs g.
Proof.
  intros e g0 l g p H. induction H as [|l g p i c S IH N|l g p i c r g' S IH N D|l g p i c r S IH N D|l g p i c r S IH N]; [cbn [count filter]; change (runs g0 + 0 = 0 + runs g0); lia|..]; rewrite !count_app; try (cbn [started stopped]; lia).
  pose proof (do_runs _ _ _ _ _ D) as X. change (started (Did i c r)) with (started (Did 0 c r)). change (stopped (Did i c r)) with (stopped (Did 0 c r)). lia.
Qed.

(* ---- every call returns ---- *)
Definition rank (p : pc) : nat :=
  match p with
  | Idle | Stuck _ => 0 | Leaving _ _ => 1 | Raising _ | Lowering => 2 | Nested _ => 3 | Filling _ => 4 | Reading _ => 5
  | Held _ => 6 | Locking _ => 7 | AskState | AskSize _ => 8 | AskShm _ => 9 | Fast _ => 10
  end%nat.
Definition weight (x : pc * list api) : nat := (rank (fst x) + 11 * length (snd x))%nat.
Definition total (n : nat) (s : life) : nat := list_sum (map (fun i => weight (f_th s i)) (seq 0 n)).
(* nothing to do, or waiting *)
Definition idle_at (s : life) (i : nat) : Prop :=
  f_th s i = (Idle, []) \/ ((exists c, pc_of s i = Locking c) /\ f_lock s <> None) \/ exists c, pc_of s i = Stuck c.

Lemma lstep_weight : forall e i s s', lstep e i s = Ret s' ->
  (s' = s /\ idle_at s i) \/ ((weight (f_th s' i) < weight (f_th s i))%nat /\ forall j, j <> i -> f_th s' j = f_th s j).
Proof.
  intros e i s s' H. unfold lstep in H. cbv zeta in H.
  assert (G : forall g lk p l, (rank p < rank (fst (f_th s i)))%nat ->
    (weight (f_th (mkLife g lk (at_th (f_th s) i (p, snd (f_th s i))) l) i) < weight (f_th s i))%nat /\ forall j, j <> i -> f_th (mkLife g lk (at_th (f_th s) i (p, snd (f_th s i))) l) j = f_th s j).
  { intros g lk p l R. cbn [f_th]. unfold at_th. rewrite Nat.eqb_refl. unfold weight. cbn [fst snd]. split; [lia|]. intros j J. apply Nat.eqb_neq in J. rewrite J. reflexivity. }
  unfold refuse, give_up, effect, say, go, with_lg in H. cbn [f_lg f_lock f_th f_ev] in H.
  destruct (fst (f_th s i)) as [|c|th|th| |c|c|c|c|c|c| |c r|c] eqn:PC.
  - destruct (snd (f_th s i)) as [|c l] eqn:T.
    + injection H as <-. left. split; [reflexivity|]. left. destruct (f_th s i). cbn [fst snd] in *. congruence.
    + injection H as <-. right. cbn [f_th]. unfold at_th. rewrite Nat.eqb_refl. split; [unfold weight; rewrite PC, T; cbn [fst snd rank length]; lia|]. intros j J. apply Nat.eqb_neq in J. rewrite J. reflexivity.
  - right. destruct c as [th t|th path file|th|].
    + destruct (negb _) in H; injection H as <-; apply G; cbn [rank]; lia.
    + destruct (negb _) in H; injection H as <-; apply G; cbn [rank]; lia.
    + destruct (negb _) in H; injection H as <-; apply G; cbn [rank]; lia.
    + destruct (lg_shm (f_lg s)); [|discriminate H]. destruct (bad_size _ _); injection H as <-; apply G; cbn [rank]; lia.
  - right. destruct (lg_shm (f_lg s)); injection H as <-; apply G; cbn [rank]; lia.
  - right. destruct (lg_shm (f_lg s)); [|discriminate H]. destruct (bad_size _ _); injection H as <-; apply G; cbn [rank]; lia.
  - right. destruct (negb _) in H; injection H as <-; apply G; cbn [rank]; lia.
  - destruct (f_lock s) eqn:LK; injection H as <-.
    + left. split; [reflexivity|]. right. left. split; [exists c; exact PC|congruence].
    + right. apply G. cbn [rank]. lia.
  - right. destruct c as [th t|th path [[mt t]|]|th|].
    + destruct (negb _) in H; injection H as <-; apply G; cbn [rank]; lia.
    + injection H as <-; apply G; cbn [rank]; lia.
    + injection H as <-; apply G; cbn [rank]; lia.
    + destruct (negb _) in H; [injection H as <-; apply G; cbn [rank]; lia|]. destruct (lg_shm (f_lg s)); [|discriminate H]. destruct (bad_size _ _); injection H as <-; apply G; cbn [rank]; lia.
    + destruct (negb _) in H; injection H as <-; apply G; cbn [rank]; lia.
  - right. destruct (negb _) in H; [injection H as <-; apply G; cbn [rank]; lia|]. destruct (publish _ _ _); cbn [bind] in H; try discriminate. injection H as <-; apply G; cbn [rank]; lia.
  - right. destruct (init_of _ _ _) as [[z g1]| |]; cbn [bind] in H; try discriminate. destruct (negb _) in H; injection H as <-; apply G; cbn [rank]; lia.
  - right. destruct (negb _) in H; [injection H as <-; apply G; cbn [rank]; lia|]. destruct (lg_shm (f_lg s)); [|injection H as <-; apply G; cbn [rank]; lia]. destruct (bad_size _ _); injection H as <-; apply G; cbn [rank]; lia.
  - right. destruct (lg_shm (f_lg s)); [|discriminate H]. destruct (raise _ _ _) as [r g1]. injection H as <-. apply G. destruct r; cbn [rank]; lia.
  - right. destruct (lg_shm (f_lg s)); [|discriminate H]. injection H as <-. apply G. cbn [rank]. lia.
  - right. injection H as <-. apply G. cbn [rank]. lia.
  - injection H as <-. left. split; [reflexivity|]. right. right. exists c. exact PC.
Qed.
Lemma sum_less : forall (f g : nat -> nat) l, (forall i, In i l -> (f i <= g i)%nat) ->
  (list_sum (map f l) <= list_sum (map g l))%nat /\ forall i, In i l -> (f i < g i)%nat -> (list_sum (map f l) < list_sum (map g l))%nat.
Proof.
  intros f g l. induction l as [|x l IH]; intros A; [split; [apply le_n|intros i []]|]. cbn [map].
  change (list_sum (f x :: map f l)) with (f x + list_sum (map f l))%nat. change (list_sum (g x :: map g l)) with (g x + list_sum (map g l))%nat.
  destruct IH as [I1 I2]; [intros i J; apply A; right; exact J|]. pose proof (A x (or_introl eq_refl)). split; [lia|].
  intros i [-> |J] L; [lia|]. specialize (I2 i J L). lia.
Qed.
Lemma lstep_total : forall e n i s s', (i < n)%nat -> lstep e i s = Ret s' -> (s' = s /\ idle_at s i) \/ (total n s' < total n s)%nat.
Proof.
  intros e n i s s' N H. destruct (lstep_weight e i s s' H) as [A|[A B]]; [left; exact A|right]. unfold total.
  destruct (sum_less (fun j => weight (f_th s' j)) (fun j => weight (f_th s j)) (seq 0 n)) as [_ X].
  - intros j _. destruct (Nat.eq_dec j i) as [-> |J]; [lia|rewrite (B j J); lia].
  - apply (X i); [apply in_seq; lia|exact A].
Qed.
Lemma run_total : forall e n l s s', Forall (fun i => (i < n)%nat) l -> life_run e l s = Ret s' -> (total n s' <= total n s)%nat /\
  (total n s' = total n s -> s' = s /\ forall i, In i l -> idle_at s i).
Proof.
  intros e n. induction l as [|i l IH]; intros s s' F H; cbn [life_run] in H; [injection H as <-; split; [lia|]; intros _; split; [reflexivity|intros i []]|].
  inversion F as [|? ? F1 F2]; subst. destruct (lstep e i s) as [s1| |] eqn:S; cbn [bind] in H; try discriminate. destruct (IH s1 s' F2 H) as [A B].
  destruct (lstep_total e n i s s1 F1 S) as [[-> ID]|LT]; [|split; lia]. split; [exact A|]. intros E. destruct (B E) as [-> C]. split; [reflexivity|].
  intros j [<- |J]; [exact ID|apply C; exact J].
Qed.
Lemma run_app : forall e l1 l2 s, life_run e (l1 ++ l2) s = let! s1 := life_run e l1 s in life_run e l2 s1.
Proof. intros e. induction l1 as [|i l1 IH]; intros l2 s; cbn [life_run app bind]; [reflexivity|]. destruct (lstep e i s); cbn [bind]; [apply IH|reflexivity|reflexivity]. Qed.
Lemma rounds_end : forall e n rs s s', Forall (round n) rs -> life_run e (concat rs) s = Ret s' -> (total n s < length rs)%nat ->
  forall i, (i < n)%nat -> idle_at s' i.
Proof.
  intros e n. induction rs as [|r rs IH]; intros s s' F H T; cbn [length] in T; [lia|]. inversion F as [|? ? [R1 R2] F2]; subst.
  cbn [concat] in H. rewrite run_app in H. destruct (life_run e r s) as [s1| |] eqn:S; cbn [bind] in H; try discriminate.
  destruct (run_total e n r s s1 R1 S) as [A B]. destruct (Nat.eq_dec (total n s1) (total n s)) as [E|E].
  - destruct (B E) as [-> C]. assert (Q : forall l, Forall (fun i => (i < n)%nat) l -> life_run e l s = Ret s).
    { clear - C R2. induction l as [|i l IH]; intros F; [reflexivity|]. inversion F as [|? ? F1 F2]; subst. cbn [life_run].
      assert (L : lstep e i s = Ret s).
      { destruct (C i (R2 i F1)) as [X|[[(c & X) LK]|(c & X)]]; unfold lstep, pc_of in *; rewrite X; cbn [fst snd]; try reflexivity. destruct (f_lock s); [reflexivity|congruence]. }
      rewrite L. cbn [bind]. exact (IH F2). }
    rewrite Q in H; [injection H as <-; intros i I; exact (C i (R2 i I))|]. clear - F2. induction F2 as [|x l [X _] F IH]; cbn [concat]; [constructor|]. apply Forall_app. auto.
  - exact (IH s1 s' F2 H ltac:(lia)).
Qed.
Lemma total0 : forall n g todo, total n (life0 g todo) = (11 * list_sum (map (fun i => length (todo i)) (seq 0 n)))%nat.
Proof.
  intros n g todo. unfold total, life0. cbn [f_th]. induction (seq 0 n) as [|x l IH]; [reflexivity|]. cbn [map]. unfold list_sum in *. cbn [fold_right]. rewrite IH. unfold weight. cbn [fst snd rank]. lia.
Qed.
Lemma serial_blocked : forall e g0 l g p, serial e g0 l g p -> forall i c, p i = Some (c, Some Blocked) -> In (Did i c Blocked) l.
Proof.
  intros e g0 l g p H. induction H as [|l g p i c S IH N|l g p i c r g' S IH N D|l g p i c r S IH N D|l g p i c r S IH N]; intros j c' E; [discriminate E|..];
    unfold mark in E; apply in_or_app; destruct (Nat.eqb j i) eqn:J; try (left; apply IH; exact E).
  - discriminate E.
  - apply Nat.eqb_eq in J. subst j. injection E as -> ->. right. left. reflexivity.
  - apply Nat.eqb_eq in J. subst j. injection E as -> ->. inversion D.
  - discriminate E.
Qed.
Theorem life_returns : forall e g0 n todo rs s, steady e g0 -> (forall i, (n <= i)%nat -> todo i = []) -> Forall (round n) rs ->
  (11 * list_sum (map (fun i => length (todo i)) (seq 0 n)) < length rs)%nat -> life_run e (concat rs) (life0 g0 todo) = Ret s ->
  (exists i c, In (Did i c Blocked) (f_ev s)) \/ f_lock s = None /\ forall i, f_th s i = (Idle, []).
Proof.
  intros e g0 n todo rs s ST TD F LN H. destruct (life_serial e g0 todo _ s ST H) as (gs & p & SE & _ & P & HL & S).
  assert (ID : forall i, (i < n)%nat -> idle_at s i) by (apply (rounds_end e n rs (life0 g0 todo) s F H); rewrite total0; exact LN).
  assert (REST : forall i, (n <= i)%nat -> f_th s i = (Idle, [])).
  { assert (FA : Forall (fun i => (i < n)%nat) (concat rs)) by (clear - F; induction F as [|x l [X _] F IH]; cbn [concat]; [constructor|apply Forall_app; auto]).
    assert (B0 : forall i, (n <= i)%nat -> f_th (life0 g0 todo) i = (Idle, [])) by (intros i I; unfold life0; cbn [f_th]; rewrite TD by exact I; reflexivity).
    revert B0 H. clear - FA. generalize (life0 g0 todo). induction (concat rs) as [|x l IH]; intros s0 B0 H i I; cbn [life_run] in H; [injection H as <-; apply B0; exact I|].
    inversion FA as [|? ? F1 F2]; subst. destruct (lstep e x s0) as [s1| |] eqn:L; cbn [bind] in H; try discriminate. apply (IH F2 s1); [|exact H|exact I].
    intros j J. destruct (lstep_weight e x s0 s1 L) as [[-> _]|[_ B]]; [apply B0; exact J|rewrite B by lia; apply B0; exact J]. }
  assert (BL : forall i c, pc_of s i = Stuck c -> In (Did i c Blocked) (f_ev s)) by (intros i c PC; apply (serial_blocked _ _ _ _ _ SE); rewrite P, PC; reflexivity).
  destruct (f_lock s) as [j|] eqn:LK.
  - assert (HJ : held (pc_of s j) = true) by (apply HL; reflexivity). left. destruct (Nat.lt_ge_cases j n) as [J|J].
    + destruct (ID j J) as [X|[[(c & X) _]|(c & X)]]; [unfold pc_of in HJ; rewrite X in HJ; discriminate HJ|rewrite X in HJ; discriminate HJ|]. exists j, c. apply BL. exact X.
    + unfold pc_of in HJ. rewrite (REST j J) in HJ. discriminate HJ.
  - right. split; [reflexivity|]. intros i. destruct (Nat.lt_ge_cases i n) as [I|I]; [|apply REST; exact I].
    destruct (ID i I) as [X|[[_ X]|(c & X)]]; [exact X|congruence|]. assert (HI : held (pc_of s i) = true) by (rewrite X; reflexivity). apply HL in HI. discriminate HI.
Qed.

(* ---- no undefined behaviour ---- *)
Definition safe (e : lenv) (s : life) : Prop :=
  lg_shm (f_lg s) <> None /\ forall i, Forall (readable e) (snd (f_th s i)) /\ forall c r, call_of (pc_of s i) = Some (c, r) -> readable e c /\ match pc_of s i with Reading _ | Filling _ => loads c | _ => True end.
Lemma safe_go : forall e s i p g lk l, lg_shm g <> None -> safe e s ->
  (forall c r, call_of p = Some (c, r) -> readable e c /\ match p with Reading _ | Filling _ => loads c | _ => True end) ->
  safe e (mkLife g lk (at_th (f_th s) i (p, snd (f_th s i))) l).
Proof.
  intros e s i p g lk l G [_ A] B. split; [exact G|]. intros j. rewrite pc_at. cbn [f_th fst]. unfold at_th. destruct (Nat.eqb j i) eqn:E; [|exact (A j)].
  cbn [snd]. split; [exact (proj1 (A i))|exact B].
Qed.
Lemma lstep_safe : forall e i s, safe e s -> exists s', lstep e i s = Ret s' /\ safe e s'.
Proof.
  intros e i s S. pose proof S as [SH A]. destruct (A i) as [TD CO]. unfold lstep. fold (pc_of s i). cbv zeta.
  unfold refuse, give_up, effect, say, go, with_lg. cbn [f_lg f_lock f_th f_ev].
  destruct (lg_shm (f_lg s)) as [m|] eqn:M; [|congruence]. assert (M' : lg_shm (f_lg s) <> None) by congruence.
  destruct (pc_of s i) as [|c|th|th| |c|c|c|c|c|c| |c r|c] eqn:PC; cbn [call_of] in CO.
  - destruct (snd (f_th s i)) as [|c l] eqn:T; [exists s; auto|]. eexists. split; [reflexivity|]. split; [exact M'|]. intros j. rewrite pc_at. cbn [f_th]. unfold at_th. destruct (Nat.eqb j i); [|exact (A j)].
    inversion TD as [|? ? T1 T2]; subst. cbn [fst snd call_of]. split; [exact T2|]. intros c0 r E. injection E as <- _. auto.
  - assert (K : forall p, (forall c' r, call_of p = Some (c', r) -> c' = c) -> match p with Reading _ | Filling _ => False | _ => True end -> forall l, safe e (mkLife (f_lg s) (f_lock s) (at_th (f_th s) i (p, snd (f_th s i))) l)).
    { intros p CP NP l. apply safe_go; [exact M'|exact S|]. intros c' r E. rewrite (CP c' r E). split; [exact (proj1 (CO c None eq_refl))|destruct p; auto; contradiction]. }
    destruct c as [th t|th path file|th|]; [destruct (negb _)|destruct (negb _)|destruct (negb _)|destruct (bad_size e m)]; eexists; (split; [reflexivity|]); apply K;
      solve [exact Logic.I|intros c' r E; first [discriminate E|injection E as <- _; reflexivity]].
  - eexists. split; [reflexivity|]. apply safe_go; [exact M'|exact S|]. intros c' r E. injection E as <- _. split; [exact (proj1 (CO _ _ eq_refl))|exact Logic.I].
  - destruct (bad_size e m); eexists; (split; [reflexivity|]); (apply safe_go; [exact M'|exact S|]); intros c' r E; [discriminate E|]. injection E as <- _. split; [exact (proj1 (CO _ _ eq_refl))|exact Logic.I].
  - destruct (negb _); eexists; (split; [reflexivity|]); (apply safe_go; [exact M'|exact S|]); intros c' r E; [discriminate E|]. injection E as <- _. split; [exact (proj1 (CO _ _ eq_refl))|exact Logic.I].
  - destruct (f_lock s); [exists s; auto|]. eexists. split; [reflexivity|]. apply safe_go; [exact M'|exact S|]. intros c' r E. injection E as <- _. split; [exact (proj1 (CO _ _ eq_refl))|exact Logic.I].
  - assert (K : forall p g l, lg_shm g <> None -> (forall c' r, call_of p = Some (c', r) -> c' = c) -> match p with Reading _ | Filling _ => loads c | _ => True end -> safe e (mkLife g (f_lock s) (at_th (f_th s) i (p, snd (f_th s i))) l)).
    { intros p g l G CP NP. apply safe_go; [exact G|exact S|]. intros c' r E. rewrite (CP c' r E). split; [exact (proj1 (CO c None eq_refl))|exact NP]. }
    assert (F : forall z, lg_shm (set_state (f_lg s) z) <> None) by (intros z; exact M').
    destruct c as [th t|th path [[mt t]|]|th|]; [destruct (negb _)| | |destruct (negb _); [|destruct (bad_size e m)]|destruct (negb _)]; eexists; (split; [reflexivity|]);
      (apply K; [solve [exact M'|apply F]|solve [intros c' r E; injection E as <- _; reflexivity]|exact Logic.I]).
  - destruct (CO c None eq_refl) as [RD LD]. destruct (negb _).
    + eexists. split; [reflexivity|]. apply safe_go; [exact M'|exact S|]. intros c' r E. injection E as <- _. auto.
    + destruct (RD LD) as ([ret q] & PL). unfold publish. rewrite PL, M. cbn [bind]. destruct (negb _); eexists; (split; [reflexivity|]); (apply safe_go; [exact M'|exact S|]); intros c' r E; injection E as <- _; auto.
  - destruct (CO c None eq_refl) as [RD LD]. destruct (RD LD) as ([ret q] & PL).
    assert (Y : forall path, exists z g1, init_yaml e (f_lg s) (text_of c) path = Ret (z, g1) /\ lg_shm g1 <> None).
    { intros path. unfold init_yaml. destruct (negb (lg_state (f_lg s) =? _)); [eexists; eexists; split; [reflexivity|exact M']|]. rewrite PL. cbn [bind]. destruct (negb (ret =? _)); [eexists; eexists; split; [reflexivity|exact M']|].
      cbn [lg_shm]. rewrite M. cbn [negb Z.eqb]. eexists. eexists. split; [reflexivity|]. cbn [set_shm lg_shm]. discriminate. }
    assert (IN : exists z g1, init_of e (f_lg s) c = Ret (z, g1) /\ lg_shm g1 <> None).
    { destruct c as [th t|th path [[mt t]|]|th|]; cbn [loads] in LD; try contradiction; cbn [init_of text_of] in *; [exact (Y [])|]. destruct (Y path) as (z & g1 & E & G). unfold init_file. rewrite E. cbn [bind].
      destruct (negb (z =? 0)); [eexists; eexists; split; [reflexivity|exact G]|]. destruct (lg_shm g1) eqn:G1; [|congruence]. eexists. eexists. split; [reflexivity|]. discriminate. }
    destruct IN as (z & g1 & E & G). rewrite E. cbn [bind]. destruct (negb (z =? 0)); eexists; (split; [reflexivity|]); (apply safe_go; [exact G|exact S|]); intros c' r E1; injection E1 as <- _; auto.
  - destruct (CO c None eq_refl) as [RD _]. destruct (negb _); [|destruct (bad_size e m)]; eexists; (split; [reflexivity|]); (apply safe_go; [exact M'|exact S|]); intros c' r E1; injection E1 as <- _; auto.
  - destruct (CO c None eq_refl) as [RD _]. destruct (raise _ _ _) as [r g1] eqn:R. destruct (raise_facts _ _ _ _ _ R) as [G _]. eexists. split; [reflexivity|]. apply safe_go; [exact G|exact S|].
    intros c' r' E1. destruct r; injection E1 as <- _; auto.
  - destruct (CO AStop None eq_refl) as [RD _]. eexists. split; [reflexivity|]. apply safe_go; [|exact S|intros c' r' E1; injection E1 as <- _; auto]. unfold lower. destruct (stop_chans _ _ _ _) as [r cs]. discriminate.
  - eexists. split; [reflexivity|]. apply safe_go; [exact M'|exact S|]. intros c' r' E1. discriminate E1.
  - exists s. auto.
Qed.
Theorem life_safe : forall e g0 todo l, lg_shm g0 <> None -> (forall i, Forall (readable e) (todo i)) -> exists s, life_run e l (life0 g0 todo) = Ret s.
Proof.
  intros e g0 todo l G T. assert (S0 : safe e (life0 g0 todo)) by (split; [exact G|]; intros i; split; [exact (T i)|intros c r E; discriminate E]).
  revert S0. generalize (life0 g0 todo). induction l as [|i l IH]; intros s S; cbn [life_run]; [eexists; reflexivity|]. destruct (lstep_safe e i s S) as (s1 & E & S1). rewrite E. cbn [bind]. apply IH. exact S1.
Qed.

(* ---- what a thread has been answered ---- *)
Definition out_of (x : option (api * option res)) : list res := match x with Some (_, Some r) => [r] | _ => [] end.
Lemma answers_app : forall i l x, answers i (l ++ x) = answers i l ++ answers i x.
Proof. intros. unfold answers. apply flat_map_app. Qed.
Lemma verdicts_app : forall i l x, verdicts i (l ++ x) = verdicts i l ++ verdicts i x.
Proof. intros. unfold verdicts. apply flat_map_app. Qed.
Lemma serial_answers : forall e g0 l g p, serial e g0 l g p -> forall i, answers i l ++ out_of (p i) = verdicts i l.
Proof.
  intros e g0 l g p H. induction H as [|l g p i c S IH N|l g p i c r g' S IH N D|l g p i c r S IH N D|l g p i c r S IH N]; intros j; [reflexivity|..];
    rewrite answers_app, verdicts_app, <- (IH j); unfold mark; cbn [answers verdicts flat_map]; rewrite ?(Nat.eqb_sym i j); destruct (Nat.eqb j i) eqn:J; cbn [app]; rewrite ?app_nil_r; try reflexivity;
    apply Nat.eqb_eq in J; subst j; rewrite N; cbn [out_of]; rewrite ?app_nil_r; reflexivity.
Qed.
Lemma begun_app : forall i l x, begun i (l ++ x) = begun i l ++ begun i x.
Proof. intros. unfold begun. apply flat_map_app. Qed.
Lemma lstep_begun : forall e i s s' j, lstep e i s = Ret s' -> begun j (f_ev s') ++ snd (f_th s' j) = begun j (f_ev s) ++ snd (f_th s j).
Proof.
  intros e i s s' j H. unfold lstep in H. cbv zeta in H.
  assert (G : forall g lk p l, (forall k, begun k l = []) -> begun j (f_ev (mkLife g lk (at_th (f_th s) i (p, snd (f_th s i))) (f_ev s ++ l))) ++ snd (f_th (mkLife g lk (at_th (f_th s) i (p, snd (f_th s i))) (f_ev s ++ l)) j) = begun j (f_ev s) ++ snd (f_th s j)).
  { intros g lk p l R. cbn [f_th f_ev]. rewrite begun_app, R, app_nil_r. unfold at_th. destruct (Nat.eqb j i) eqn:J; [apply Nat.eqb_eq in J; subst j|]; reflexivity. }
  assert (G0 : forall g lk p, begun j (f_ev (mkLife g lk (at_th (f_th s) i (p, snd (f_th s i))) (f_ev s))) ++ snd (f_th (mkLife g lk (at_th (f_th s) i (p, snd (f_th s i))) (f_ev s)) j) = begun j (f_ev s) ++ snd (f_th s j)).
  { intros g lk p. specialize (G g lk p [] (fun _ => eq_refl)). rewrite app_nil_r in G. exact G. }
  unfold refuse, give_up, effect, say, go, with_lg in H. cbn [f_lg f_lock f_th f_ev] in H.
  destruct (fst (f_th s i)) as [|c|th|th| |c|c|c|c|c|c| |c r|c] eqn:PC.
  - destruct (snd (f_th s i)) as [|c l] eqn:T; [injection H as <-; reflexivity|].
    injection H as <-. cbn [f_th f_ev]. rewrite begun_app. unfold at_th. cbn [begun flat_map]. rewrite (Nat.eqb_sym i j). destruct (Nat.eqb j i) eqn:J; cbn [app]; rewrite ?app_nil_r; [|reflexivity].
    apply Nat.eqb_eq in J. subst j. rewrite T, <- app_assoc. reflexivity.
  - destruct c as [th t|th path file|th|].
    + destruct (negb _) in H; injection H as <-; (apply G; intros k; reflexivity) || apply G0.
    + destruct (negb _) in H; injection H as <-; (apply G; intros k; reflexivity) || apply G0.
    + destruct (negb _) in H; injection H as <-; (apply G; intros k; reflexivity) || apply G0.
    + destruct (lg_shm (f_lg s)); [|discriminate H]. destruct (bad_size _ _); injection H as <-; (apply G; intros k; reflexivity) || apply G0.
  - destruct (lg_shm (f_lg s)); injection H as <-; (apply G; intros k; reflexivity) || apply G0.
  - destruct (lg_shm (f_lg s)); [|discriminate H]. destruct (bad_size _ _); injection H as <-; (apply G; intros k; reflexivity) || apply G0.
  - destruct (negb _) in H; injection H as <-; (apply G; intros k; reflexivity) || apply G0.
  - destruct (f_lock s); injection H as <-; [reflexivity|apply G0].
  - destruct c as [th t|th path [[mt t]|]|th|].
    + destruct (negb _) in H; injection H as <-; (apply G; intros k; reflexivity) || apply G0.
    + injection H as <-; apply G0.
    + injection H as <-; apply G; intros k; reflexivity.
    + destruct (negb _) in H; [injection H as <-; apply G; intros k; reflexivity|]. destruct (lg_shm (f_lg s)); [|discriminate H]. destruct (bad_size _ _); injection H as <-; (apply G; intros k; reflexivity) || apply G0.
    + destruct (negb _) in H; injection H as <-; (apply G; intros k; reflexivity) || apply G0.
  - destruct (negb _) in H; [injection H as <-; apply G; intros k; reflexivity|]. destruct (publish _ _ _); cbn [bind] in H; try discriminate. injection H as <-; apply G0.
  - destruct (init_of _ _ _) as [[z g1]| |]; cbn [bind] in H; try discriminate. destruct (negb _) in H; injection H as <-; (apply G; intros k; reflexivity) || apply G0.
  - destruct (negb _) in H; [injection H as <-; apply G; intros k; reflexivity|]. destruct (lg_shm (f_lg s)); [|injection H as <-; apply G; intros k; reflexivity]. destruct (bad_size _ _); injection H as <-; (apply G; intros k; reflexivity) || apply G0.
  - destruct (lg_shm (f_lg s)); [|discriminate H]. destruct (raise _ _ _) as [r g1]. injection H as <-. apply G; intros k; reflexivity.
  - destruct (lg_shm (f_lg s)); [|discriminate H]. injection H as <-. apply G; intros k; reflexivity.
  - injection H as <-. apply G; intros k; reflexivity.
  - injection H as <-. reflexivity.
Qed.
Lemma run_begun : forall e l s s' j, life_run e l s = Ret s' -> begun j (f_ev s') ++ snd (f_th s' j) = begun j (f_ev s) ++ snd (f_th s j).
Proof.
  intros e. induction l as [|i l IH]; intros s s' j H; cbn [life_run] in H; [injection H as <-; reflexivity|].
  destruct (lstep e i s) as [s1| |] eqn:S; cbn [bind] in H; try discriminate. rewrite (IH s1 s' j H). exact (lstep_begun e i s s1 j S).
Qed.
Lemma reach_steady : forall e g, lenv_ok e -> reach e g -> steady e g.
Proof.
  intros e g E R U. destruct (LoadProofs.reach_inv e g E R) as [W V]. destruct (V U) as (m & M & P). intros N. specialize (N m M). destruct (W m M). lia.
Qed.

(* ---- the theorems ---- *)
Theorem life_is_serial : forall e g0 todo l s, lenv_ok e -> reach e g0 -> life_run e l (life0 g0 todo) = Ret s ->
  exists g p, serial e g0 (f_ev s) g p /\ (f_lock s = None -> f_lg s = g) /\
    forall i, begun i (f_ev s) ++ snd (f_th s i) = todo i /\ (fst (f_th s i) = Idle -> p i = None /\ answers i (f_ev s) = verdicts i (f_ev s)).
Proof.
  intros e g0 todo l s E R H. destruct (life_serial e g0 todo l s (reach_steady e g0 E R) H) as (g & p & SE & _ & P & HL & A). exists g, p. split; [exact SE|]. split.
  - intros L. unfold seen in A. rewrite L in A. exact A.
  - intros i. split; [exact (run_begun e l (life0 g0 todo) s i H)|]. intros F. assert (N : p i = None) by (rewrite P; unfold pc_of; rewrite F; reflexivity).
    split; [exact N|]. pose proof (serial_answers _ _ _ _ _ SE i) as X. rewrite N in X. cbn [out_of] in X. rewrite app_nil_r in X. exact X.
Qed.
Theorem life_alternates : forall e g0 todo l s, lenv_ok e -> reach e g0 -> life_run e l (life0 g0 todo) = Ret s ->
  count stopped (f_ev s) <= runs g0 + count started (f_ev s) <= count stopped (f_ev s) + 1 /\
  (f_lock s = None -> runs g0 + count started (f_ev s) = count stopped (f_ev s) + runs (f_lg s)).
Proof.
  intros e g0 todo l s E R H. destruct (life_is_serial e g0 todo l s E R H) as (g & p & SE & A & _). pose proof (serial_count _ _ _ _ _ SE) as C. split.
  - unfold runs in *. destruct (lg_state g =? _); lia.
  - intros L. rewrite (A L). exact C.
Qed.

Definition rests (g : lg) : Prop := lg_state g = LOGGER_STATE_UNINIT \/ lg_state g = LOGGER_STATE_RUNNING.
Lemma call_code : forall e g c r g', lenv_ok e -> LoadProofs.inv e g -> prompt (threads_of c) -> do_call e g (as_call c) = Ret (r, g') ->
  (exists z, r = Code z) /\ (rests g -> rests g').
Proof.
  intros e g c r g' E IV P H.
  assert (ST : forall th g1, prompt th -> LoadProofs.inv e g1 -> lg_state g1 = LOGGER_STATE_UNINIT -> start_logger e th g1 = (r, g') -> (exists z, r = Code z) /\ (rests g -> rests g')).
  { intros th g1 PT I1 U S. destruct (start_prompt e th g1 r g' I1 PT S U) as (z & -> & A & B). split; [eexists; reflexivity|]. intros _. unfold rests. destruct (Z.eq_dec z 0); auto. }
  assert (TH : forall th o, prompt th -> (forall z g1, lg_state g = LOGGER_STATE_UNINIT -> o = Ret (z, g1) -> lg_state g1 = LOGGER_STATE_UNINIT /\ LoadProofs.inv e g1) -> then_start e th g o = Ret (r, g') -> (exists z, r = Code z) /\ (rests g -> rests g')).
  { intros th o PT OK D. unfold then_start in D. destruct (negb (lg_state g =? LOGGER_STATE_UNINIT)) eqn:U; [injection D as <- <-; split; [eexists; reflexivity|auto]|].
    destruct o as [[z g1]| |]; cbn [bind] in D; try discriminate. destruct (OK z g1 ltac:(lia) eq_refl) as [U1 I1]. destruct (negb (z =? 0)); [injection D as <- <-; split; [eexists; reflexivity|left; exact U1]|].
    injection D as D. exact (ST th g1 PT I1 U1 D). }
  destruct c as [th t|th path file|th|]; cbn [as_call do_call threads_of] in *.
  - apply (TH th (init_yaml e g t [])); [exact P| |exact H]. intros z g1 U Y. destruct (init_yaml_cases e g t [] z g1 E IV Y) as (S1 & I1 & _). rewrite S1. auto.
  - apply (TH th (init_file e g path file)); [exact P| |exact H]. intros z g1 U Y. destruct (init_file_cases e g path file z g1 E IV Y) as (S1 & I1 & _). rewrite S1. auto.
  - injection H as H. destruct (lg_state g =? LOGGER_STATE_UNINIT) eqn:U; [exact (ST th g P IV ltac:(lia) H)|]. unfold start_logger in H. rewrite U in H. cbn [negb] in H. injection H as <- <-. split; [eexists; reflexivity|auto].
  - unfold stop_logger in H. destruct (lg_shm g) as [m|]; [|discriminate H]. destruct ((x_maxch (y_pe e) <? sm_size m) || (sm_size m <=? 0)); [injection H as <- <-; split; [eexists; reflexivity|auto]|].
    destruct (negb _); [injection H as <- <-; split; [eexists; reflexivity|auto]|]. destruct (stop_chans _ _ _ _). injection H as <- <-. split; [eexists; reflexivity|]. intros _. left. reflexivity.
Qed.
Lemma serial_prompt : forall e g0 l g p, lenv_ok e -> LoadProofs.inv e g0 -> serial e g0 l g p ->
  (forall i, Forall (fun c => prompt (threads_of c)) (begun i l)) ->
  LoadProofs.inv e g /\ (rests g0 -> rests g) /\ (forall i c o, p i = Some (c, o) -> In c (begun i l)) /\ forall i c, ~ In (Did i c Blocked) l.
Proof.
  intros e g0 l g p E I0 H. induction H as [|l g p i c S IH N|l g p i c r g' S IH N D|l g p i c r S IH N D|l g p i c r S IH N]; intros PR.
  - split; [exact I0|]. split; [auto|]. split; [discriminate|auto].
  - destruct IH as (A & B & C & K); [intros j; specialize (PR j); rewrite begun_app in PR; apply Forall_app in PR; tauto|]. split; [exact A|]. split; [exact B|]. split.
    + intros j c' o Q. rewrite begun_app. apply in_or_app. unfold mark in Q. destruct (Nat.eqb j i) eqn:J; [|left; exact (C j c' o Q)]. apply Nat.eqb_eq in J. subst j. injection Q as -> _. right. cbn. rewrite Nat.eqb_refl. left. reflexivity.
    + intros j c' Q. apply in_app_or in Q as [Q|[Q|[]]]; [exact (K _ _ Q)|discriminate Q].
  - destruct IH as (A & B & C & K); [intros j; specialize (PR j); rewrite begun_app in PR; apply Forall_app in PR; tauto|].
    assert (PC : prompt (threads_of c)).
    { specialize (PR i). rewrite Forall_forall in PR. apply PR. rewrite begun_app. apply in_or_app. left. exact (C i c None N). }
    destruct (call_code e g c r g' E A PC D) as ((z & ->) & RS). split; [exact (call_inv e g (as_call c) _ g' E A D)|]. split; [auto|]. split.
    + intros j c' o Q. rewrite begun_app. apply in_or_app. left. unfold mark in Q. destruct (Nat.eqb j i) eqn:J; [|exact (C j c' o Q)]. apply Nat.eqb_eq in J. subst j. injection Q as -> _. exact (C i c' None N).
    + intros j c' Q. apply in_app_or in Q as [Q|[Q|[]]]; [exact (K _ _ Q)|discriminate Q].
  - destruct IH as (A & B & C & K); [intros j; specialize (PR j); rewrite begun_app in PR; apply Forall_app in PR; tauto|]. split; [exact A|]. split; [exact B|]. split.
    + intros j c' o Q. rewrite begun_app. apply in_or_app. left. unfold mark in Q. destruct (Nat.eqb j i) eqn:J; [|exact (C j c' o Q)]. apply Nat.eqb_eq in J. subst j. injection Q as -> _. exact (C i c' None N).
    + intros j c' Q. apply in_app_or in Q as [Q|[Q|[]]]; [exact (K _ _ Q)|discriminate Q].
  - destruct IH as (A & B & C & K); [intros j; specialize (PR j); rewrite begun_app in PR; apply Forall_app in PR; tauto|]. split; [exact A|]. split; [exact B|]. split.
    + intros j c' o Q. rewrite begun_app. apply in_or_app. left. unfold mark in Q. destruct (Nat.eqb j i) eqn:J; [discriminate Q|exact (C j c' o Q)].
    + intros j c' Q. apply in_app_or in Q as [Q|[Q|[]]]; [exact (K _ _ Q)|discriminate Q].
Qed.
Theorem life_all_return : forall e g0 n todo rs s, lenv_ok e -> reach e g0 -> rests g0 ->
  (forall i, (n <= i)%nat -> todo i = []) -> (forall i, Forall (fun c => prompt (threads_of c)) (todo i)) -> Forall (round n) rs ->
  (11 * list_sum (map (fun i => length (todo i)) (seq 0 n)) < length rs)%nat -> life_run e (concat rs) (life0 g0 todo) = Ret s ->
  f_lock s = None /\ (forall i, f_th s i = (Idle, []) /\ length (answers i (f_ev s)) = length (todo i)) /\ rests (f_lg s).
Proof.
  intros e g0 n todo rs s E R RS TD PR F LN H. destruct (life_is_serial e g0 todo _ s E R H) as (g & p & SE & A & T).
  assert (PB : forall i, Forall (fun c => prompt (threads_of c)) (begun i (f_ev s))).
  { intros i. specialize (PR i). rewrite <- (proj1 (T i)) in PR. apply Forall_app in PR. tauto. }
  destruct (serial_prompt e g0 _ g p E (LoadProofs.reach_inv e g0 E R) SE PB) as (_ & RG & _ & NB).
  destruct (life_returns e g0 n todo rs s (reach_steady e g0 E R) TD F LN H) as [(i & c & Q)|[L ID]]; [exfalso; exact (NB i c Q)|].
  split; [exact L|]. split; [|rewrite (A L); auto]. intros i. split; [exact (ID i)|]. destruct (T i) as [T1 T2]. rewrite (ID i) in T1, T2. cbn [fst snd] in *. rewrite app_nil_r in T1. destruct (T2 eq_refl) as [PN AV]. rewrite AV, <- T1.
  clear - SE PN. assert (K : forall l g p, serial e g0 l g p -> forall i, length (begun i l) = (length (verdicts i l) + match p i with Some (_, None) => 1 | _ => 0 end)%nat).
  { clear. intros l g p H. induction H as [|l g p i c S IH N|l g p i c r g' S IH N D|l g p i c r S IH N D|l g p i c r S IH N]; intros j; [reflexivity|..];
      rewrite begun_app, verdicts_app, !app_length, (IH j); unfold mark; cbn [begun verdicts flat_map]; rewrite ?(Nat.eqb_sym i j); destruct (Nat.eqb j i) eqn:J; cbn [app length]; try lia;
      apply Nat.eqb_eq in J; subst j; rewrite N; lia. }
  specialize (K _ _ _ SE i). rewrite PN in K. lia.
Qed.
