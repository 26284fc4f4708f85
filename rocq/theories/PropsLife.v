(* Start and stop calls made by several threads at once: C118. *)
From Coq Require Import String ZArith List Bool Lia.
From Verif Require Import Base BaseFacts LoggerState ParseVal Lexer ParseCfg ParseSpec PropsParse Load LoadSpec LoadProofs PropsLoad Life LifeSpec LifeProofs.
Import ListNotations. Open Scope Z_scope.

(* ---- an example: a logger that was loaded, started and stopped ---- *)
Definition lf_up : lg := ex_g ex_old.
Definition lf_off : lg := match stop_logger ex_env lf_up with Ret (_, g) => g | _ => lf_up end.
Lemma lf_up_reach : reach ex_env lf_up.
Proof. apply (ex_g_reach ex_old (Code 0)); [vm_compute; reflexivity|reflexivity]. Qed.
Lemma lf_off_reach : reach ex_env lf_off.
Proof. apply (reach_call ex_env lf_up CStop (Code 0)); [exact lf_up_reach|vm_compute; reflexivity|discriminate]. Qed.
Definition calls (ts : list (list api)) (i : nat) : list api := nth i ts [].
Definition lf_late : Z -> tstart := fun _ => Late.
(* thread 0 is inside StartLogger while thread 1 tries both *)
Definition lf_two : nat -> list api := calls [[AStart up]; [AStart up; AStop]].
Definition lf_order : list nat := repeat 0%nat 6 ++ repeat 1%nat 5 ++ repeat 0%nat 2.
Definition lf_state_of (o : outcome life) : option (Z * option nat * (list res * list res) * (pc * list api) * (pc * list api) * (Z * Z)) :=
  match o with
  | Ret s => Some (lg_state (f_lg s), f_lock s, (answers 0 (f_ev s), answers 1 (f_ev s)), f_th s 0, f_th s 1, (count started (f_ev s), count stopped (f_ev s)))
  | _ => None
  end.
Definition lf_run (g : lg) (todo : nat -> list api) (l : list nat) : life :=
  match life_run ex_env l (life0 g todo) with Ret s => s | _ => life0 g todo end.

(* ---- C118 ---- *)
(* Whatever the threads do, the calls that are not refused take effect one after the
   other, each exactly as if it were alone; the logger is what they left; and a call is
   refused only for the reason it gives, or because another call is under way. *)
Theorem C118_serial_partial : forall e g0 todo l s, lenv_ok e -> reach e g0 -> life_run e l (life0 g0 todo) = Ret s ->
  exists g p, serial e g0 (f_ev s) g p /\ (f_lock s = None -> f_lg s = g) /\
    forall i, begun i (f_ev s) ++ snd (f_th s i) = todo i /\
      (fst (f_th s i) = Idle -> p i = None /\ answers i (f_ev s) = verdicts i (f_ev s)).
Proof. exact life_is_serial. Qed.
Print Assumptions C118_serial_partial.
Example C118_serial_hypotheses : lenv_ok ex_env /\ reach ex_env lf_off /\ lg_state lf_off = LOGGER_STATE_UNINIT /\
  lf_state_of (life_run ex_env lf_order (life0 lf_off lf_two)) =
    Some (LOGGER_STATE_RUNNING, None, ([Code 0], [Code E_LOGGER_IN_USE; Code E_LOGGER_NOT_RUNNING]), (Idle, []), (Idle, []), (1, 0)).
Proof. split; [exact ex_env_ok|]. split; [exact lf_off_reach|]. split; vm_compute; reflexivity. Qed.

(* Successful starts and stops alternate: of several starts at once at most one
   succeeds, of several stops of a running logger at most one. *)
Theorem C118_alternate : forall e g0 todo l s, lenv_ok e -> reach e g0 -> life_run e l (life0 g0 todo) = Ret s ->
  count stopped (f_ev s) <= runs g0 + count started (f_ev s) <= count stopped (f_ev s) + 1 /\
  (f_lock s = None -> runs g0 + count started (f_ev s) = count stopped (f_ev s) + runs (f_lg s)).
Proof. exact life_alternates. Qed.
Print Assumptions C118_alternate.
Example C118_alternate_result : exists s, life_run ex_env (repeat 0%nat 6 ++ repeat 1%nat 5 ++ repeat 0%nat 2 ++ repeat 1%nat 4) (life0 lf_up (calls [[AStop]; [AStop; AStart up]])) = Ret s /\
  count started (f_ev s) = 0 /\ count stopped (f_ev s) = 1 /\ runs lf_up = 1 /\ runs (f_lg s) = 0.
Proof. exists (lf_run lf_up (calls [[AStop]; [AStop; AStart up]]) (repeat 0%nat 6 ++ repeat 1%nat 5 ++ repeat 0%nat 2 ++ repeat 1%nat 4)). vm_compute. repeat split; reflexivity. Qed.

(* Every call returns, if the writer threads come up or give up and every thread is
   scheduled often enough, and the logger is then started or stopped. *)
Theorem C118_returns : forall e g0 n todo rs s, lenv_ok e -> reach e g0 ->
  lg_state g0 = LOGGER_STATE_UNINIT \/ lg_state g0 = LOGGER_STATE_RUNNING ->
  (forall i, (n <= i)%nat -> todo i = []) -> (forall i, Forall (fun c => prompt (threads_of c)) (todo i)) -> Forall (round n) rs ->
  (11 * list_sum (map (fun i => length (todo i)) (seq 0 n)) < length rs)%nat -> life_run e (concat rs) (life0 g0 todo) = Ret s ->
  f_lock s = None /\ (forall i, f_th s i = (Idle, []) /\ length (answers i (f_ev s)) = length (todo i)) /\
  (lg_state (f_lg s) = LOGGER_STATE_UNINIT \/ lg_state (f_lg s) = LOGGER_STATE_RUNNING).
Proof. exact life_all_return. Qed.
Print Assumptions C118_returns.
Example C118_returns_hypotheses :
  (forall i, (2 <= i)%nat -> lf_two i = []) /\ (forall i, Forall (fun c => prompt (threads_of c)) (lf_two i)) /\ Forall (round 2) (repeat [1; 0]%nat 34) /\
  (11 * list_sum (map (fun i => length (lf_two i)) (seq 0 2)) < length (repeat [1; 0]%nat 34))%nat /\
  lf_state_of (life_run ex_env (concat (repeat [1; 0]%nat 34)) (life0 lf_off lf_two)) =
    Some (LOGGER_STATE_UNINIT, None, ([Code E_LOGGER_IN_USE], [Code 0; Code 0]), (Idle, []), (Idle, []), (1, 1)).
Proof.
  split; [intros [|[|[|i]]] I; [lia|lia|reflexivity..]|]. split.
  - intros [|[|[|i]]]; [..|constructor|constructor]; cbn [lf_two calls nth]; repeat constructor; intros k; left; reflexivity.
  - split; [apply Forall_forall; intros r R; apply repeat_spec in R; subst r; split; [repeat constructor|intros [|[|i]] I; [right; left; reflexivity|left; reflexivity|lia]]|].
    split; [cbn; lia|vm_compute; reflexivity].
Qed.

(* No call makes the program undefined, once the logger has been loaded and as long as
   the texts can be read. *)
Theorem C118_safe : forall e g0 todo l, lg_shm g0 <> None -> (forall i, Forall (readable e) (todo i)) -> exists s, life_run e l (life0 g0 todo) = Ret s.
Proof. exact life_safe. Qed.
Print Assumptions C118_safe.
Example C118_safe_result : lg_shm lf_off <> None /\ readable ex_env (AParse up ex_new) /\ readable ex_env AStop /\
  lf_state_of (life_run ex_env (concat (repeat [0; 0; 1]%nat 16)) (life0 lf_off (calls [[AParse up ex_new]; [AParse up ex_old; AStop]]))) =
    Some (LOGGER_STATE_UNINIT, None, ([Code 0], [Code E_LOGGER_IN_USE; Code 0]), (Idle, []), (Idle, []), (1, 1)).
Proof. split; [vm_compute; discriminate|]. split; [intros _; eexists; vm_compute; reflexivity|]. split; [intros []|]. vm_compute. reflexivity. Qed.

(* The answers are not those of any order of the calls: while one thread starts the
   logger another is told that it is in use, and then that it is not running. *)
Theorem C118_answers_refuted : exists e g0 a b c l s, lenv_ok e /\ reach e g0 /\ lg_state g0 = LOGGER_STATE_UNINIT /\
  life_run e l (life0 g0 (calls [[a]; [b; c]])) = Ret s /\ (forall i, f_th s i = (Idle, [])) /\
  exists x y z, answers 0 (f_ev s) = [x] /\ answers 1 (f_ev s) = [y; z] /\
    in_turn e g0 [a; b; c] <> Ret [x; y; z] /\ in_turn e g0 [b; a; c] <> Ret [y; x; z] /\ in_turn e g0 [b; c; a] <> Ret [y; z; x].
Proof.
  exists ex_env, lf_off, (AStart up), (AStart up), AStop, lf_order, (lf_run lf_off lf_two lf_order).
  split; [exact ex_env_ok|]. split; [exact lf_off_reach|]. split; [vm_compute; reflexivity|]. split; [vm_compute; reflexivity|].
  split; [intros [|[|i]]; [vm_compute; reflexivity|vm_compute; reflexivity|]|].
  - destruct i; vm_compute; reflexivity.
  - exists (Code 0), (Code E_LOGGER_IN_USE), (Code E_LOGGER_NOT_RUNNING). split; [vm_compute; reflexivity|]. split; [vm_compute; reflexivity|].
    split; [vm_compute; discriminate|]. split; vm_compute; discriminate.
Qed.
Print Assumptions C118_answers_refuted.

(* A start can be refused because the logger is in use although no start succeeds. *)
Theorem C118_in_use_refuted : exists e g0 todo l s, lenv_ok e /\ reach e g0 /\ lg_state g0 = LOGGER_STATE_UNINIT /\
  life_run e l (life0 g0 todo) = Ret s /\ (forall i, f_th s i = (Idle, [])) /\
  answers 0 (f_ev s) = [Code E_CHANNEL_THREAD_FAILED] /\ answers 1 (f_ev s) = [Code E_LOGGER_IN_USE] /\ count started (f_ev s) = 0.
Proof.
  set (todo := calls [[AParse lf_late ex_async]; [AStart up]]). set (l := repeat 0%nat 7 ++ repeat 1%nat 2 ++ repeat 0%nat 2).
  exists ex_env, lf_off, todo, l, (lf_run lf_off todo l).
  split; [exact ex_env_ok|]. split; [exact lf_off_reach|]. split; [vm_compute; reflexivity|]. split; [vm_compute; reflexivity|].
  split; [intros [|[|i]]; [vm_compute; reflexivity|vm_compute; reflexivity|destruct i; vm_compute; reflexivity]|]. split; [vm_compute; reflexivity|]. split; vm_compute; reflexivity.
Qed.
Print Assumptions C118_in_use_refuted.

(* StopLogger can return although another thread is still about to stop the writer
   threads: the channels are still running. *)
Theorem C118_stopped_refuted : exists e g0 todo l s c, lenv_ok e /\ reach e g0 /\ lg_state g0 = LOGGER_STATE_RUNNING /\
  life_run e l (life0 g0 todo) = Ret s /\ answers 1 (f_ev s) = [Code E_LOGGER_NOT_RUNNING] /\ f_th s 1 = (Idle, []) /\
  count stopped (f_ev s) = 0 /\ chan_at (f_lg s) 0 = Some c /\ lc_state c = CHANNEL_STATE_RUNNING.
Proof.
  set (todo := calls [[AStop]; [AStop]]). set (l := repeat 0%nat 5 ++ repeat 1%nat 3).
  exists ex_env, lf_up, todo, l, (lf_run lf_up todo l). eexists.
  split; [exact ex_env_ok|]. split; [exact lf_up_reach|]. split; [vm_compute; reflexivity|]. split; [vm_compute; reflexivity|].
  split; [vm_compute; reflexivity|]. split; [vm_compute; reflexivity|]. split; [vm_compute; reflexivity|]. split; vm_compute; reflexivity.
Qed.
Print Assumptions C118_stopped_refuted.
