(* From the text of a configuration to the devices that a statement reaches. *)
From Coq Require Import String ZArith List Bool Lia ZifyBool ZifyNat ZifyN.
From Verif Require Import Base BaseFacts LoggerState ParseVal Lexer ParseCfg TextSpec ValSpec CfgSpec CfgProofs PropsParse PropsCfg.
From Verif Require Import Filter FilterSpec Load LoadSpec LoadProofs PropsLoad FastStart FastSpec FastProofs RouteSpec RouteProofs.
Import ListNotations.
Open Scope Z_scope.

(* ---- C90: the logger that starts without a configuration file ---- *)
(* Builds with the default maxima; any logger that is not in use, loaded before or
   not.  The middle condition is C50's: the parser leaves shm_key unset. *)
Theorem C90_default : forall e th g, x_maxch (y_pe e) = 2 -> x_maxdev (y_pe e) = 20 -> (3000 <= y_fuel e)%nat -> lenv_ok e ->
  reach e g -> lg_state g = LOGGER_STATE_UNINIT -> y_old e <= 0 \/ lg_shm g <> None -> th 0 = Up ->
  exists g', fast_start_default e th g = Ret (Code 0, g') /\ serves false (as_logger e g') /\
    map (fun c => map (fun d => (pd_out d, pd_file d)) (pc_devs (lc_p c))) (chans g') = places /\
    Forall (fun c => Forall (fun d => pd_out d = DEVICE_OUT_FILE -> nth 8 (pd_cfg d) 0 = 100000000 /\ nth 9 (pd_cfg d) 0 = 4) (pc_devs (lc_p c))) (chans g') /\
    lg_name g' = lg_name g /\ lg_hot g' = false.
Proof. exact fast_default. Qed.
Print Assumptions C90_default.

Definition fx_env : lenv := mkLenv std_env 3000 0 (y_attach ex_env).
Example fx_env_ok : lenv_ok fx_env.
Proof. destruct ex_env_ok. split; assumption. Qed.
Example C90_ex : exists g', fast_start_default fx_env up (init_logger (s2z "app")) = Ret (Code 0, g') /\
  block_input (as_logger fx_env g') 0 PRIORITY_ERROR 7 8 = Ret false /\
  match g_chs (as_logger fx_env g') with [a; b] =>
    dispatch a (mkRec PRIORITY_ERROR 7 8) = Ret [0; 1; 2] /\ dispatch a (mkRec PRIORITY_INFO 7 8) = Ret [0; 2] /\ dispatch a (mkRec PRIORITY_DEBUG 7 8) = Ret [0] /\
    dispatch b (mkRec PRIORITY_INFO 7 8) = Ret [0; 1; 2] /\ dispatch b (mkRec PRIORITY_DEBUG 7 8) = Ret [0]
  | _ => False end.
Proof.
  destruct (C90_default fx_env up (init_logger (s2z "app"))) as (g' & A & (B & c0 & c1 & C & _ & _ & D0 & D1) & _); try reflexivity.
  - exact fx_env_ok.
  - apply reach_new.
  - left. discriminate.
  - exists g'. split; [exact A|]. split; [apply B|]. rewrite C, !D0, !D1. repeat split.
Qed.

(* ---- C91: the same for debugging ---- *)
Theorem C91_debug : forall e th g, x_maxch (y_pe e) = 2 -> x_maxdev (y_pe e) = 20 -> (3000 <= y_fuel e)%nat -> lenv_ok e ->
  reach e g -> lg_state g = LOGGER_STATE_UNINIT -> y_old e <= 0 \/ lg_shm g <> None -> th 0 = Up ->
  exists l, fast_start_debug e th g = Ret (Code 0, l) /\ serves true l /\
    map (fun c => map d_out (firstn (Z.to_nat (c_size c)) (c_devs c))) (g_chs l) = map (map fst) places.
Proof. exact fast_debug. Qed.
Print Assumptions C91_debug.

Example C91_ex : exists l, fast_start_debug fx_env up (init_logger (s2z "app")) = Ret (Code 0, l) /\
  match g_chs l with [a; b] => dispatch a (mkRec PRIORITY_DEBUG 7 8) = Ret [0; 2] /\ dispatch a (mkRec PRIORITY_ERROR 7 8) = Ret [0; 1; 2] /\ dispatch b (mkRec PRIORITY_TRACE 7 8) = Ret [0; 1]
  | _ => False end.
Proof.
  destruct (C91_debug fx_env up (init_logger (s2z "app"))) as (l & A & (B & c0 & c1 & C & _ & _ & D0 & D1) & _); try reflexivity.
  - exact fx_env_ok.
  - apply reach_new.
  - left. discriminate.
  - exists l. split; [exact A|]. rewrite C, !D0, !D1. repeat split.
Qed.

(* ---- C92: a documented configuration routes as it says ---- *)
Theorem C92_loaded : forall e g th path mtime eol m is t, lenv_ok e -> reach e g -> lg_state g = LOGGER_STATE_UNINIT -> all_up th ->
  line_end eol -> x_maxdev (y_pe e) < 2 ^ 31 -> x_maxch (y_pe e) < 2 ^ 31 -> log_text eol m 0 is t -> Forall (gitem_ok (x_maxdev (y_pe e))) is ->
  want_chans 0 is <> [] -> zlen (want_chans 0 is) <= x_maxch (y_pe e) -> zlen t + 1 < Z.of_nat (y_fuel e) ->
  has_memory e g (pick (fun i => match i with GShm n => Some n | _ => None end) is (y_old e)) ->
  exists g', load_and_start e th g path (Some (mtime, t)) = Ret (Code 0, g') /\ lg_state g' = LOGGER_STATE_RUNNING /\
    forall k w, nth_error (want_chans 0 is) k = Some w -> routed (as_logger e g') k w.
Proof.
  intros e g th path mtime eol m is t E R ST UP EOL MD MC LT OK NE MX FU HM.
  destruct (C45_read_back eol m (y_pe e) (y_old e) is t (y_fuel e) EOL MD MC LT OK NE MX FU) as (s & P & CH & _ & _ & _ & SH). rewrite <- SH in HM. rewrite <- CH in NE |- *.
  destruct (load_running e g th path mtime t s E R ST UP P NE HM) as (g' & L & R' & RN & _ & CK). exists g'. split; [exact L|]. split; [exact RN|].
  intros k w N. destruct (CK k w N) as (c & CA & <- & CS). exact (routes_of e g' k c E (reach_inv e g' E R') RN CA CS).
Qed.
Print Assumptions C92_loaded.

Lemma ex_memory : has_memory ex_env (init_logger []) 255.
Proof. right. right. eexists. reflexivity. Qed.
Example C92_ex : exists g' w, load_and_start ex_env up (init_logger []) (s2z "log.yaml") (Some (100, ex_written)) = Ret (Code 0, g') /\
  routed (as_logger ex_env g') 0 w /\ chan_scope w 5 7 /\ block_input (as_logger ex_env g') 0 PRIORITY_WARN 8 7 = Ret false /\
  block_input (as_logger ex_env g') 0 PRIORITY_WARN 3 7 = Ret true /\ block_input (as_logger ex_env g') 0 PRIORITY_DEBUG 8 7 = Ret true.
Proof.
  destruct C45_ex as (LT & OK & _).
  destruct (C92_loaded ex_env (init_logger []) up (s2z "log.yaml") 100 [10] 0 ex_items ex_written ex_env_ok (reach_new _ _) eq_refl (fun _ => eq_refl)) as (g' & L & _ & RT).
  - left. reflexivity.
  - reflexivity.
  - reflexivity.
  - exact LT.
  - exact OK.
  - vm_compute. discriminate.
  - vm_compute. discriminate.
  - vm_compute. reflexivity.
  - exact ex_memory.
  - exists g'. eexists. split; [exact L|]. split; [apply RT; vm_compute; reflexivity|]. split.
    + split; [vm_compute; repeat split; intros; try discriminate; lia|]. repeat constructor; vm_compute; intros; discriminate.
    + assert (EQ : exists g2, load_and_start ex_env up (init_logger []) (s2z "log.yaml") (Some (100, ex_written)) = Ret (Code 0, g2) /\
        block_input (as_logger ex_env g2) 0 PRIORITY_WARN 8 7 = Ret false /\ block_input (as_logger ex_env g2) 0 PRIORITY_WARN 3 7 = Ret true /\ block_input (as_logger ex_env g2) 0 PRIORITY_DEBUG 8 7 = Ret true)
        by (eexists; split; [vm_compute; reflexivity|]; vm_compute; auto).
      destruct EQ as (g2 & L2 & Q). assert (g2 = g') by congruence. subst g2. exact Q.
Qed.

(* ---- C93: a hot update routes by the new file ---- *)
(* Of the channel that makes the check; the others go on as before until theirs. *)
Theorem C93_updated : forall e g id now mtime c eol m is t w, lenv_ok e -> reach e g -> chan_at g id = Some c -> lc_state c = CHANNEL_STATE_RUNNING ->
  lg_hot g = true -> lg_path g <> [] -> lg_state g = LOGGER_STATE_RUNNING -> 5 <= now - lc_check c -> mtime <> lc_mtime c ->
  line_end eol -> x_maxdev (y_pe e) < 2 ^ 31 -> x_maxch (y_pe e) < 2 ^ 31 -> log_text eol m 0 is t -> Forall (gitem_ok (x_maxdev (y_pe e))) is ->
  zlen (want_chans 0 is) <= x_maxch (y_pe e) -> zlen t + 1 < Z.of_nat (y_fuel e) -> nth_error (want_chans 0 is) id = Some w ->
  zlen (pc_devs (lc_p c)) <= zlen (pc_devs w) ->
  (forall n d d', nth_error (pc_devs (lc_p c)) n = Some d -> nth_error (pc_devs w) n = Some d' -> pd_in d = pd_in d') ->
  exists g', hot_update e g (Z.of_nat id) now (Some (mtime, t)) = Ret (0, g') /\ routed (as_logger e g') id w /\
    forall j cj, j <> id -> chan_at g j = Some cj -> lc_state cj = CHANNEL_STATE_RUNNING -> routed (as_logger e g') j (lc_p cj).
Proof.
  intros e g id now mtime c eol m is t w E R CA CS HT PA ST DU MT EOL MD MC LT OK MX FU N LN SI.
  assert (NE : want_chans 0 is <> []) by (intros Q; rewrite Q in N; destruct id; discriminate).
  destruct (C45_read_back eol m (y_pe e) (y_old e) is t (y_fuel e) EOL MD MC LT OK NE MX FU) as (s & P & CH & _). rewrite <- CH in N.
  exact (hot_routes e g id now mtime t c s w E R CA CS HT PA ST DU MT P N LN SI).
Qed.
Print Assumptions C93_updated.

Definition ex_c0 : lchan := Eval vm_compute in match chan_at (ex_g ex_old) 0 with Some c => c | None => zero_chan ex_env end.
Definition ex_w0 : pchan := Eval vm_compute in nth 0 (want_chans 0 ex_items) (chan0 0).
Lemma ex_c0_at : chan_at (ex_g ex_old) 0 = Some ex_c0.
Proof. vm_compute. reflexivity. Qed.
Lemma ex_w0_at : nth_error (want_chans 0 ex_items) 0 = Some ex_w0.
Proof. vm_compute. reflexivity. Qed.
Lemma ex_old_runs : lg_hot (ex_g ex_old) = true /\ lg_path (ex_g ex_old) = s2z "log.yaml" /\ lg_state (ex_g ex_old) = LOGGER_STATE_RUNNING.
Proof. vm_compute. auto. Qed.
Lemma ex_old_reach : reach ex_env (ex_g ex_old).
Proof. apply (ex_g_reach ex_old (Code 0) (ex_g ex_old)); [vm_compute; reflexivity|reflexivity]. Qed.
Lemma ex_written_fits : zlen (want_chans 0 ex_items) <= 2 /\ zlen ex_written + 1 < 2000.
Proof. vm_compute. split; [discriminate|reflexivity]. Qed.
Example C93_ex : exists g', zlen (pc_devs (lc_p ex_c0)) = 1 /\ zlen (pc_devs ex_w0) = 2 /\ chan_at (ex_g ex_old) 0 = Some ex_c0 /\
  hot_update ex_env (ex_g ex_old) 0 105 (Some (200, ex_written)) = Ret (0, g') /\ routed (as_logger ex_env g') 0 ex_w0.
Proof.
  destruct C45_ex as (LT & OK & _). destruct ex_old_runs as (HT & PA & ST). destruct ex_written_fits as [F1 F2].
  pose proof (C93_updated ex_env (ex_g ex_old) 0 105 200 ex_c0 [10] 0 ex_items ex_written ex_w0 ex_env_ok ex_old_reach ex_c0_at eq_refl HT) as T. rewrite PA in T.
  specialize (T ltac:(discriminate) ST ltac:(vm_compute; discriminate) ltac:(vm_compute; discriminate) (or_introl eq_refl) eq_refl eq_refl LT OK F1 F2 ex_w0_at ltac:(vm_compute; discriminate)).
  destruct T as (g' & H & RT & _).
  - intros [|[|n]] d d' A B; try discriminate A. injection A as <-. injection B as <-. reflexivity.
  - exists g'. split; [reflexivity|]. split; [reflexivity|]. split; [exact ex_c0_at|]. split; [exact H|exact RT].
Qed.
