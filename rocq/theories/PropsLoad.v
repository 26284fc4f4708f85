(* Loading, hot update and the life cycle: C51, C52, C53, C55, C77, C78, C79. *)
From Coq Require Import String ZArith List Bool Lia ZifyBool ZifyNat ZifyN.
From Verif Require Import Base BaseFacts LoggerState ParseVal Lexer ParseCfg ParseSpec ParseInv PropsParse Load LoadSpec LoadProofs.
Import ListNotations.
Open Scope Z_scope.

(* ---- examples ---- *)
Definition ex_two (hot : string) (prio : string) : text := ex_lines
  [hot; "- channel: 0"; "    sync: sync"; "    - device: 0"; "        out_type: file"; prio; "- channel: 1"; "    sync: sync"; prio]%string.
Definition ex_old : text := ex_two "hot_update: true" "    priority: trace".
Definition ex_new : text := ex_two "hot_update: true" "    priority: alarm".
Definition ex_off : text := ex_two "hot_update: false" "    priority: alarm".
Definition ex_one : text := ex_lines ["hot_update: true"; "- channel: 0"; "    sync: sync"; "    priority: alarm"]%string.
(* a segment can be attached for any key *)
Definition ex_env : lenv := mkLenv std_env 2000 0 (fun key => (0, Some (mkShmem (Some key) 0 (repeat (zero_chan (mkLenv std_env 0 0 (fun _ => (0, None)))) 2)))).
Example ex_env_ok : lenv_ok ex_env.
Proof.
  split.
  - left. reflexivity.
  - intros n a H. discriminate H.
  - vm_compute. discriminate.
  - vm_compute. discriminate.
  - intros key m H. injection H as <-. discriminate.
  - intros key z m H. injection H as _ <-. split; [reflexivity|]. repeat constructor.
Qed.
Definition up : Z -> tstart := fun _ => Up.
Definition ex_load (t : text) : outcome (res * lg) := load_and_start ex_env up (init_logger (s2z "app")) (s2z "log.yaml") (Some (100, t)).
Definition ex_g (t : text) : lg := match ex_load t with Ret (_, g) => g | _ => init_logger [] end.
Lemma ex_g_reach : forall t r g, ex_load t = Ret (r, g) -> r = Code 0 -> reach ex_env g.
Proof. intros t r g H ->. apply (reach_call ex_env (init_logger (s2z "app")) (CLoad up (s2z "log.yaml") (Some (100, t))) (Code 0) g); [constructor|exact H|discriminate]. Qed.

(* ---- C51: a hot update applies exactly the new file's settings ---- *)
Theorem C51_applied : forall e g id now mtime t c s p, lenv_ok e -> reach e g -> chan_at g id = Some c ->
  lg_hot g = true -> lg_path g <> [] -> lg_state g = LOGGER_STATE_RUNNING -> 5 <= now - lc_check c -> mtime <> lc_mtime c ->
  parse_logger (y_fuel e) (y_pe e) (y_old e) t = Ret (0, s) -> nth_error (s_chs s) id = Some p ->
  exists g' c', hot_update e g (Z.of_nat id) now (Some (mtime, t)) = Ret (0, g') /\ chan_at g' id = Some c' /\
    updated (x_maxdev (y_pe e)) c p c' /\ (forall j, j <> id -> chan_at g' j = chan_at g j) /\ same_logger g g' /\
    (forall i x, i = 23%nat \/ i = 24%nat -> nth_error (lc_log c) i = Some x -> nth_error (lc_log c') i = Some (x + 1)).
Proof.
  intros e g id now mt t c s p E R CA HT PA ST DU MT P NP.
  destruct (hot_applied e g id now mt t c s p E (reach_inv e g E R) CA HT PA ST DU MT P NP) as (g' & c' & A & B & C & _ & _ & D & F & _ & _ & G).
  exists g', c'. auto 10.
Qed.
Print Assumptions C51_applied.
Theorem C51_rejected : forall e g id now mtime t c s z, lenv_ok e -> reach e g -> chan_at g id = Some c ->
  lg_hot g = true -> lg_path g <> [] -> lg_state g = LOGGER_STATE_RUNNING -> 5 <= now - lc_check c -> mtime <> lc_mtime c ->
  parse_logger (y_fuel e) (y_pe e) (y_old e) t = Ret (z, s) -> z <> 0 ->
  exists g' c', hot_update e g (Z.of_nat id) now (Some (mtime, t)) = Ret (z, g') /\ chan_at g' id = Some c' /\ lc_p c' = lc_p c /\ lc_state c' = lc_state c /\
    lc_mtime c' = lc_mtime c /\ same_counters c c' /\ (forall j, j <> id -> chan_at g' j = chan_at g j) /\ same_logger g g' /\ lg_hot g' = true.
Proof. intros e g id now mt t c s z E R. exact (hot_rejected e g id now mt t c s z E (reach_inv e g E R)). Qed.
Print Assumptions C51_rejected.
Example C51_ex : exists g c s p z s2, ex_load ex_old = Ret (Code 0, g) /\ chan_at g 1 = Some c /\ lg_hot g = true /\ lg_state g = LOGGER_STATE_RUNNING /\ lg_path g = s2z "log.yaml" /\ lc_mtime c = 100 /\ lc_check c = 0 /\
  parse_logger 2000 std_env 0 ex_new = Ret (0, s) /\ nth_error (s_chs s) 1 = Some p /\ pc_cfg p <> pc_cfg (lc_p c) /\ parse_logger 2000 std_env 0 (s2z "?") = Ret (z, s2) /\ z <> 0.
Proof. do 6 eexists. split; [vm_compute; reflexivity|]. split; [vm_compute; reflexivity|]. do 5 (split; [reflexivity|]). split; [vm_compute; reflexivity|]. split; [vm_compute; reflexivity|]. split; [vm_compute; discriminate|]. split; [vm_compute; reflexivity|discriminate]. Qed.

(* ---- C52: a hot update reaches every channel ---- *)
(* Missing: new files that switch hot update off or lack a channel, and files
   changed within the second of their last modification. *)
Theorem C52_all_channels_partial : forall e g mtime t s l, lenv_ok e -> reach e g -> lg_hot g = true -> lg_path g <> [] -> lg_state g = LOGGER_STATE_RUNNING ->
  parse_logger (y_fuel e) (y_pe e) (y_old e) t = Ret (0, s) -> s_hot s = true ->
  (forall i c, chan_at g i = Some c -> lc_mtime c <> mtime /\ exists p, nth_error (s_chs s) i = Some p) ->
  (forall i c, chan_at g i = Some c -> exists now, In (i, now) l /\ 5 <= now - lc_check c) ->
  exists g', checks e g (Some (mtime, t)) l = Ret g' /\ same_logger g g' /\
    forall i c, chan_at g i = Some c -> exists c' p, chan_at g' i = Some c' /\ nth_error (s_chs s) i = Some p /\ updated (x_maxdev (y_pe e)) c p c'.
Proof. intros e g mt t s l E R. exact (checks_new e g mt t s l E (reach_inv e g E R)). Qed.
Print Assumptions C52_all_channels_partial.
Example C52_ex : exists g s g' c0 c1, ex_load ex_old = Ret (Code 0, g) /\ lg_hot g = true /\ parse_logger 2000 std_env 0 ex_new = Ret (0, s) /\ s_hot s = true /\ zlen (s_chs s) = 2 /\ chans g = [c0; c1] /\ lc_mtime c0 = 100 /\ lc_mtime c1 = 100 /\
  checks ex_env g (Some (200, ex_new)) [(1%nat, 3); (1%nat, 6); (0%nat, 7); (1%nat, 30)] = Ret g' /\ chan_at g' 1 <> chan_at g 1.
Proof. do 5 eexists. split; [vm_compute; reflexivity|]. split; [reflexivity|]. split; [vm_compute; reflexivity|]. split; [reflexivity|]. split; [reflexivity|]. split; [vm_compute; reflexivity|]. split; [reflexivity|]. split; [reflexivity|]. split; [vm_compute; reflexivity|vm_compute; discriminate]. Qed.
(* the first channel that reads a file with hot_update off keeps the others from it *)
Theorem C52_switched_off_refuted : exists g g' s p c', reach ex_env g /\ lg_state g = LOGGER_STATE_RUNNING /\ lg_hot g = true /\ parse_logger 2000 std_env 0 ex_off = Ret (0, s) /\
  (forall i c, chan_at g i = Some c -> lc_mtime c = 100 /\ lc_check c = 0) /\
  checks ex_env g (Some (200, ex_off)) [(0%nat, 10); (1%nat, 10); (0%nat, 20); (1%nat, 20)] = Ret g' /\
  nth_error (s_chs s) 1 = Some p /\ chan_at g' 1 = Some c' /\ chan_at g 1 = Some c' /\ pc_cfg (lc_p c') <> pc_cfg p.
Proof.
  exists (ex_g ex_old). do 4 eexists. split; [apply (ex_g_reach ex_old (Code 0)); [vm_compute; reflexivity|reflexivity]|]. split; [vm_compute; reflexivity|]. split; [vm_compute; reflexivity|]. split; [vm_compute; reflexivity|].
  split; [intros [|[|[|i]]] c H; vm_compute in H; try discriminate; injection H as <-; split; reflexivity|]. split; [vm_compute; reflexivity|]. split; [vm_compute; reflexivity|]. split; [vm_compute; reflexivity|]. split; [vm_compute; reflexivity|vm_compute; discriminate].
Qed.
Print Assumptions C52_switched_off_refuted.
(* a second change of the file within the same second is never seen *)
Theorem C52_same_second_unseen : forall e g id now mtime t c, lenv_ok e -> reach e g -> chan_at g id = Some c -> lg_hot g = true -> lg_path g <> [] -> mtime = lc_mtime c ->
  exists r g' c', hot_update e g (Z.of_nat id) now (Some (mtime, t)) = Ret (r, g') /\ chan_at g' id = Some c' /\ lc_p c' = lc_p c.
Proof.
  intros e g id now mt t c E R CA HT PA MT. destruct (Z_lt_ge_dec (now - lc_check c) 5) as [EA|DU].
  - exists 0, g, c. split; [exact (hot_early e g id now _ c CA HT PA EA)|auto].
  - destruct (hot_same_time e g id now mt t c (reach_inv e g E R) CA HT PA ltac:(lia) MT) as (g' & c' & A & B & C & _). exists E_CONFIG_NO_CHANGE, g', c'. auto.
Qed.
Print Assumptions C52_same_second_unseen.
Theorem C52_same_second_refuted : exists g g' c c' s p, reach ex_env g /\ chan_at g 0 = Some c /\ parse_logger 2000 std_env 0 ex_one = Ret (0, s) /\ nth_error (s_chs s) 0 = Some p /\
  checks ex_env g (Some (100, ex_one)) [(0%nat, 110); (0%nat, 120)] = Ret g' /\ chan_at g' 0 = Some c' /\ pc_cfg (lc_p c') <> pc_cfg p.
Proof.
  exists (ex_g ex_old). do 5 eexists. split; [apply (ex_g_reach ex_old (Code 0)); [vm_compute; reflexivity|reflexivity]|]. split; [vm_compute; reflexivity|]. split; [vm_compute; reflexivity|]. split; [vm_compute; reflexivity|]. split; [vm_compute; reflexivity|]. split; [vm_compute; reflexivity|vm_compute; discriminate].
Qed.
Print Assumptions C52_same_second_refuted.

(* ---- C77: a channel that the new file lacks keeps its settings ---- *)
(* Missing: channel 0, see below. *)
Theorem C77_absent_partial : forall e g id now mtime t c s, lenv_ok e -> reach e g -> chan_at g id = Some c -> (id <> 0)%nat ->
  lg_hot g = true -> lg_path g <> [] -> lg_state g = LOGGER_STATE_RUNNING -> 5 <= now - lc_check c -> mtime <> lc_mtime c ->
  parse_logger (y_fuel e) (y_pe e) (y_old e) t = Ret (0, s) -> nth_error (s_chs s) id = None ->
  exists g' c', hot_update e g (Z.of_nat id) now (Some (mtime, t)) = Ret (E_VERSION_MISMATCH, g') /\ chan_at g' id = Some c' /\ lc_p c' = lc_p c /\ lc_state c' = lc_state c /\ same_counters c c' /\ same_logger g g' /\
    forall j, j <> id -> chan_at g' j = chan_at g j.
Proof.
  intros e g id now mt t c s E R CA NZ HT PA ST DU MT P NP. pose proof (reach_inv e g E R) as IV. destruct (chan_at_some g id c CA) as (m & SM & LI & NC). rewrite (hot_due e g id now mt t c m SM LI NC HT PA ST DU MT). rewrite P. cbn [bind].
  change (negb (0 =? PEC_NONE)) with false. cbn iota zeta. apply nth_error_None in NP. rewrite (nth_overflow _ _ NP). replace (pc_id (chan0 0) =? Z.of_nat id) with false by (cbn [chan0 pc_id]; lia). rewrite orb_true_r.
  assert (LL : (id < length (sm_chans m))%nat) by (apply nth_error_Some; congruence). pose proof (sw_logs e m (iv_shm e g IV m SM)) as LG. rewrite Forall_forall in LG. destruct (LG c (nth_error_In _ _ NC)) as (L1 & L2 & L3).
  eexists. eexists. split; [reflexivity|]. split; [rewrite (chan_at_put g m id _ _ id SM LL LI), Nat.eqb_refl; reflexivity|]. split; [reflexivity|]. split; [reflexivity|]. split; [apply (checked_counters c _ 0 L1); [reflexivity|left; reflexivity]|].
  split; [repeat split|]. intros j NJ. rewrite (chan_at_put g m id _ _ j SM LL LI). replace (j =? id)%nat with false by lia. reflexivity.
Qed.
Print Assumptions C77_absent_partial.
Example C77_ex : exists g c s, ex_load ex_old = Ret (Code 0, g) /\ chan_at g 1 = Some c /\ lc_mtime c = 100 /\ lc_check c = 0 /\ parse_logger 2000 std_env 0 ex_one = Ret (0, s) /\ nth_error (s_chs s) 1 = None.
Proof. do 3 eexists. split; [vm_compute; reflexivity|]. split; [vm_compute; reflexivity|]. split; [reflexivity|]. split; [reflexivity|]. split; [vm_compute; reflexivity|reflexivity]. Qed.
(* a file with only a comment clears the settings of channel 0 *)
Theorem C77_emptied_refuted : exists g g' c c' s, reach ex_env g /\ chan_at g 0 = Some c /\ parse_logger 2000 std_env 0 (s2z "# nothing yet") = Ret (0, s) /\ s_chs s = [] /\
  hot_update ex_env g 0 10 (Some (200, s2z "# nothing yet")) = Ret (0, g') /\ chan_at g' 0 = Some c' /\ fld (pc_cfg (lc_p c)) CHANNEL_CFG_PRIORITY <> 0 /\ pc_cfg (lc_p c') = repeat 0 7.
Proof.
  exists (ex_g ex_one). do 4 eexists. split; [apply (ex_g_reach ex_one (Code 0)); [vm_compute; reflexivity|reflexivity]|]. split; [vm_compute; reflexivity|]. split; [vm_compute; reflexivity|]. split; [reflexivity|]. split; [vm_compute; reflexivity|]. split; [vm_compute; reflexivity|]. split; [vm_compute; discriminate|reflexivity].
Qed.
Print Assumptions C77_emptied_refuted.

(* ---- C78: the hook follows a virtual device added by a hot update ---- *)
Definition ex_virtual : text := ex_lines ["hot_update: true"; "- channel: 0"; "    sync: sync"; "    - device: 0"; "        out_type: file"; "    - device: 1"; "        out_type: virtual"]%string.
Definition ex_plain : text := ex_lines ["hot_update: true"; "- channel: 0"; "    sync: sync"; "    - device: 0"; "        out_type: file"]%string.
(* the stream looks at the device virtual_device_id_ only, fn_stream.h:183-189 *)
Theorem C78_virtual_refuted : exists g g' c' d0 d1, reach ex_env g /\ hot_update ex_env g 0 10 (Some (200, ex_virtual)) = Ret (0, g') /\ chan_at g' 0 = Some c' /\
  pc_devs (lc_p c') = [d0; d1] /\ pd_out d1 = DEVICE_OUT_VIRTUAL /\ pd_out d0 <> DEVICE_OUT_VIRTUAL /\ pc_virtual (lc_p c') <> pd_id d1.
Proof.
  exists (ex_g ex_plain). do 4 eexists. split; [apply (ex_g_reach ex_plain (Code 0)); [vm_compute; reflexivity|reflexivity]|]. split; [vm_compute; reflexivity|]. split; [vm_compute; reflexivity|]. split; [reflexivity|]. split; [reflexivity|]. split; vm_compute; discriminate.
Qed.
Print Assumptions C78_virtual_refuted.

(* The hook goes on with the device it had: that device stays of its kind and
   takes the filters that the new file gives to its number.  Missing: a device
   that becomes the channel's virtual device only now. *)
Theorem C78_kept_partial : forall e g id now mtime t c s p i d, lenv_ok e -> reach e g -> chan_at g id = Some c ->
  lg_hot g = true -> lg_path g <> [] -> lg_state g = LOGGER_STATE_RUNNING -> 5 <= now - lc_check c -> mtime <> lc_mtime c ->
  parse_logger (y_fuel e) (y_pe e) (y_old e) t = Ret (0, s) -> nth_error (s_chs s) id = Some p ->
  pc_virtual (lc_p c) = Z.of_nat i -> nth_error (pc_devs (lc_p c)) i = Some d ->
  exists g' c' d', hot_update e g (Z.of_nat id) now (Some (mtime, t)) = Ret (0, g') /\ chan_at g' id = Some c' /\
    pc_virtual (lc_p c') = Z.of_nat i /\ nth_error (pc_devs (lc_p c')) i = Some d' /\ pd_out d' = pd_out d /\ pd_id d' = pd_id d /\
    pd_cfg d' = match nth_error (pc_devs p) i with Some n => pd_cfg n | None => pd_cfg d end.
Proof.
  intros e g id now mt t c s p i d E R CA HT PA ST DU MT P NP V ND.
  destruct (hot_applied e g id now mt t c s p E (reach_inv e g E R) CA HT PA ST DU MT P NP) as (g' & c' & H & CA' & U & _ & _ & _ & _ & _ & V' & _).
  destruct U as (_ & M & _). specialize (M i). rewrite ND in M. unfold merged in M.
  exists g', c'. destruct (nth_error (pc_devs p) i) as [n|]; eexists; (split; [exact H|]); (split; [exact CA'|]); (split; [congruence|]); (split; [exact M|]); auto.
Qed.
Print Assumptions C78_kept_partial.
Definition ex_virtual2 : text := ex_lines ["hot_update: true"; "- channel: 0"; "    sync: sync"; "    - device: 0"; "        out_type: file"; "    - device: 1"; "        out_type: virtual"; "        priority: warn"]%string.
Example C78_kept_ex : exists g c d s p g' c' d', ex_load ex_virtual = Ret (Code 0, g) /\ chan_at g 0 = Some c /\ pc_virtual (lc_p c) = 1 /\
  nth_error (pc_devs (lc_p c)) 1 = Some d /\ pd_out d = DEVICE_OUT_VIRTUAL /\ parse_logger 2000 std_env 0 ex_virtual2 = Ret (0, s) /\ nth_error (s_chs s) 0 = Some p /\
  hot_update ex_env (ex_g ex_virtual) 0 10 (Some (200, ex_virtual2)) = Ret (0, g') /\ chan_at g' 0 = Some c' /\ nth_error (pc_devs (lc_p c')) 1 = Some d' /\
  fld (pd_cfg d') DEVICE_CFG_PRIORITY = PRIORITY_WARN /\ fld (pd_cfg d) DEVICE_CFG_PRIORITY <> PRIORITY_WARN.
Proof.
  do 8 eexists. split; [vm_compute; reflexivity|]. split; [vm_compute; reflexivity|]. split; [reflexivity|]. split; [vm_compute; reflexivity|]. split; [reflexivity|].
  split; [vm_compute; reflexivity|]. split; [vm_compute; reflexivity|]. split; [vm_compute; reflexivity|]. split; [vm_compute; reflexivity|]. split; [vm_compute; reflexivity|].
  split; [vm_compute; reflexivity|vm_compute; discriminate].
Qed.

(* ---- C53: starting and stopping follow the life cycle ---- *)
(* Missing: stopping a logger that was never initialised, threads that cannot be
   created or that come up long after the wait. *)
Theorem C53_life_cycle_partial : forall e g, lenv_ok e -> reach e g ->
  (forall th, lg_state g <> LOGGER_STATE_UNINIT -> start_logger e th g = (Code E_LOGGER_IN_USE, g)) /\
  (forall th t, lg_state g <> LOGGER_STATE_UNINIT -> parse_and_start e th g t = Ret (Code E_LOGGER_IN_USE, g)) /\
  (forall th path file, lg_state g <> LOGGER_STATE_UNINIT -> load_and_start e th g path file = Ret (Code E_LOGGER_IN_USE, g)) /\
  (lg_state g <> LOGGER_STATE_RUNNING -> lg_shm g <> None -> exists z, z <> 0 /\ stop_logger e g = Ret (Code z, g)) /\
  (forall c r g', (exists th, prompt th /\ (c = CStart th \/ (exists t, c = CParse th t) \/ exists path file, c = CLoad th path file)) ->
     lg_state g = LOGGER_STATE_UNINIT -> do_call e g c = Ret (r, g') ->
     exists z, r = Code z /\ (z = 0 -> lg_state g' = LOGGER_STATE_RUNNING) /\ (z <> 0 -> lg_state g' = LOGGER_STATE_UNINIT)) /\
  (lg_state g = LOGGER_STATE_RUNNING -> exists g', stop_logger e g = Ret (Code 0, g') /\ lg_state g' = LOGGER_STATE_UNINIT /\ (forall i c, chan_at g' i = Some c -> lc_state c = CHANNEL_STATE_NULL) /\
     forall th, all_up th -> exists g2, start_logger e th g' = (Code 0, g2) /\ lg_state g2 = LOGGER_STATE_RUNNING /\ forall i c, chan_at g2 i = Some c -> lc_state c = CHANNEL_STATE_RUNNING).
Proof.
  intros e g E R. pose proof (reach_inv e g E R) as IV. repeat split.
  - intros th N. unfold start_logger. replace (lg_state g =? LOGGER_STATE_UNINIT) with false by lia. reflexivity.
  - intros th t N. unfold parse_and_start, then_start. replace (lg_state g =? LOGGER_STATE_UNINIT) with false by lia. reflexivity.
  - intros th path file N. unfold load_and_start, then_start. replace (lg_state g =? LOGGER_STATE_UNINIT) with false by lia. reflexivity.
  - intros N SH. unfold stop_logger. destruct (lg_shm g) as [m|]; [|congruence]. destruct ((x_maxch (y_pe e) <? sm_size m) || (sm_size m <=? 0)); [eexists; split; [|reflexivity]; discriminate|].
    replace (lg_state g =? LOGGER_STATE_RUNNING) with false by lia. eexists. split; [|reflexivity]. discriminate.
  - intros c r g' (th & PT & C) ST H.
    assert (TS : forall o, (forall z g1, o = Ret (z, g1) -> inv e g1 /\ lg_state g1 = LOGGER_STATE_UNINIT) -> then_start e th g o = Ret (r, g') -> exists z, r = Code z /\ (z = 0 -> lg_state g' = LOGGER_STATE_RUNNING) /\ (z <> 0 -> lg_state g' = LOGGER_STATE_UNINIT)).
    { intros o A B. unfold then_start in B. rewrite ST in B. change (negb (LOGGER_STATE_UNINIT =? LOGGER_STATE_UNINIT)) with false in B. cbn iota in B. destruct o as [[z g1]| |]; cbn [bind] in B; try discriminate. destruct (A z g1 eq_refl) as [I1 S1].
      destruct (negb (z =? 0)) eqn:Z0; injection B as B; [intros; subst; exists z; split; [reflexivity|]; split; [intros ->; discriminate|auto]|]. exact (start_prompt e th g1 r g' I1 PT B S1). }
    destruct C as [-> | [(t & ->) | (path & file & ->)]]; cbn [do_call] in H.
    + injection H as EQ. exact (start_prompt e th g r g' IV PT EQ ST).
    + apply (TS (init_yaml e g t [])); [|exact H]. intros z g1 Y. destruct (init_yaml_cases e g t [] z g1 E IV Y) as (A & B & _). split; [exact B|congruence].
    + apply (TS (init_file e g path file)); [|exact H]. intros z g1 Y. destruct (init_file_cases e g path file z g1 E IV Y) as (A & B & _). split; [exact B|congruence].
  - intros ST. destruct (stop_running e g IV ST) as (g' & SP & S1 & SH & _ & NU). exists g'. split; [exact SP|]. split; [exact S1|]. split; [exact NU|]. intros th U. exact (start_all_up e th g' (stop_inv e g (Code 0) g' IV SP) U S1 SH).
Qed.
Print Assumptions C53_life_cycle_partial.
Example C53_ex : exists g g1 g2, ex_load ex_old = Ret (Code 0, g) /\ lg_state g = LOGGER_STATE_RUNNING /\ stop_logger ex_env g = Ret (Code 0, g1) /\ lg_state g1 = LOGGER_STATE_UNINIT /\ lg_shm g1 <> None /\
  start_logger ex_env up g1 = (Code 0, g2) /\ lg_state g2 = LOGGER_STATE_RUNNING /\ zlen (chans g2) = 2.
Proof. do 3 eexists. split; [vm_compute; reflexivity|]. split; [reflexivity|]. split; [vm_compute; reflexivity|]. split; [reflexivity|]. split; [discriminate|]. split; [vm_compute; reflexivity|]. split; reflexivity. Qed.
(* stopping a logger that was never initialised reads through a null pointer *)
Theorem C53_stop_fresh_refuted : exists e g, lenv_ok e /\ reach e g /\ lg_state g = LOGGER_STATE_UNINIT /\ stop_logger e g = Ub.
Proof. exists ex_env, (init_logger []). split; [exact ex_env_ok|]. split; [constructor|]. split; reflexivity. Qed.
Print Assumptions C53_stop_fresh_refuted.
Definition ex_async : text := ex_lines ["- channel: 0"; "    sync: async"]%string.
(* a thread that cannot be created leaves a logger that can neither be started nor
   stopped nor destroyed *)
Theorem C53_thrown_refuted : exists th g, reach ex_env g /\ parse_and_start ex_env th (init_logger []) ex_async = Ret (Thrown, g) /\
  (forall th', start_logger ex_env th' g = (Code E_LOGGER_IN_USE, g)) /\ stop_logger ex_env g = Ret (Code E_LOGGER_NOT_RUNNING, g) /\ destroy ex_env g = Ret None.
Proof.
  exists (fun _ => Throws). eexists. split; [apply (reach_call ex_env (init_logger []) (CParse (fun _ => Throws) ex_async) Thrown); [constructor|vm_compute; reflexivity|discriminate]|].
  split; [vm_compute; reflexivity|]. split; [intros th'; reflexivity|]. split; vm_compute; reflexivity.
Qed.
Print Assumptions C53_thrown_refuted.
(* a thread that needs long to come up blocks the start for ever *)
Theorem C53_slow_refuted : exists th g, parse_and_start ex_env th (init_logger []) ex_async = Ret (Blocked, g).
Proof. exists (fun _ => Slow). eexists. vm_compute. reflexivity. Qed.
Print Assumptions C53_slow_refuted.

(* ---- C55: statistics survive a restart ---- *)
(* Missing: channels that the new configuration lacks. *)
Theorem C55_restart_partial : forall e g g1 th t g2, lenv_ok e -> reach e g -> lg_state g = LOGGER_STATE_RUNNING -> stop_logger e g = Ret (Code 0, g1) -> prompt th -> parse_and_start e th g1 t = Ret (Code 0, g2) ->
  exists s, parse_logger (y_fuel e) (y_pe e) (y_old e) t = Ret (0, s) /\ zlen (chans g2) = zlen (s_chs s) /\ lg_hot g2 = s_hot s /\
    (forall i p, nth_error (s_chs s) i = Some p -> exists c2, chan_at g2 i = Some c2 /\ lc_p c2 = p /\ forall c, chan_at g i = Some c -> lc_log c2 = lc_log c /\ lc_dlog c2 = lc_dlog c).
Proof.
  intros e g g1 th t g2 E R ST SP PT PS. pose proof (reach_inv e g E R) as IV. destruct (stop_running e g IV ST) as (g1' & SP' & S1 & (m & SM & SZ) & LK & _). assert (g1' = g1) by congruence. subst g1'.
  pose proof (stop_inv e g (Code 0) g1 IV SP) as I1. unfold parse_and_start, then_start in PS. rewrite S1 in PS. change (negb (LOGGER_STATE_UNINIT =? LOGGER_STATE_UNINIT)) with false in PS. cbn iota in PS.
  destruct (init_yaml e g1 t []) as [[z g3]| |] eqn:Y; cbn [bind] in PS; try discriminate. destruct (negb (z =? 0)) eqn:Z0; [injection PS as -> _; discriminate|]. assert (z = 0) by lia. subst z.
  destruct (init_yaml_keeps e g1 t [] g3 m I1 SM Y) as (s & m3 & P & SM3 & SZ3 & CH3 & HT3). destruct (init_yaml_cases e g1 t [] 0 g3 E I1 Y) as (S3 & I3 & _). destruct (parsed_fit e t s E P) as [MX _].
  exists s. split; [exact P|]. injection PS as PS. unfold start_logger in PS. rewrite S3, S1 in PS. change (negb (LOGGER_STATE_UNINIT =? LOGGER_STATE_UNINIT)) with false in PS. cbn iota in PS. rewrite SM3 in PS.
  destruct ((x_maxch (y_pe e) <? sm_size m3) || (sm_size m3 <=? 0)); [discriminate|]. pose proof (start_like th (sm_size m3) (sm_chans m3) 0) as LK3. destruct (start_code th (sm_size m3) (sm_chans m3) 0 PT) as [z0 RZ].
  destruct (start_chans th 0 (sm_size m3) (sm_chans m3)) as [r0 cs]. cbn [fst snd] in *. subst r0. destruct z0; [|destruct (stop_chans th 0 (sm_size m3) cs) as [[] ?]; discriminate|destruct (stop_chans th 0 (sm_size m3) cs) as [[] ?]; discriminate].
  injection PS as <-. pose proof (sw_len e m (iv_shm e g1 I1 m SM)) as LN. pose proof (like_len _ _ LK3) as LL. rewrite CH3, take_len in LL.
  split; [unfold chans; cbn [set_state set_chans set_shm lg_shm sm_size sm_chans]; rewrite SZ3; unfold zlen in *; rewrite firstn_length; lia|]. split; [exact HT3|].
  intros i p NP. assert (LI : (i < length (s_chs s))%nat) by (apply nth_error_Some; congruence).
  destruct (nth_error (sm_chans m) i) as [o|] eqn:NO; [|apply nth_error_None in NO; unfold zlen in *; lia]. destruct (nth_error cs i) as [c2|] eqn:NC; [|apply nth_error_None in NC; unfold zlen in *; lia].
  destruct (like_nth _ _ i c2 LK3 NC) as (c3 & N3 & EQ). rewrite CH3, (take_nth e (sm_chans m) (s_chs s) i p o NP NO) in N3. injection N3 as <-. exists c2. split.
  - erewrite chan_at_nth by reflexivity. cbn [sm_size sm_chans]. rewrite SZ3. replace (i <? Z.to_nat (zlen (s_chs s)))%nat with true by (unfold zlen; lia). exact NC.
  - rewrite EQ. split; [reflexivity|]. intros c CA. cbn [with_state lc_log lc_dlog].
    destruct (nth_error (chans g1) i) as [c1|] eqn:N1.
    + destruct (like_nth _ _ i c1 LK N1) as (c0 & N0 & EQ1). unfold chan_at in CA. assert (c0 = c) by congruence. subst c0. change (nth_error (chans g1) i) with (chan_at g1 i) in N1. destruct (chan_at_some g1 i c1 N1) as (m' & SM' & _ & NM). assert (m' = m) by congruence. subst m'. assert (c1 = o) by congruence. subst c1. rewrite EQ1. split; reflexivity.
    + apply nth_error_None in N1. rewrite <- (like_len _ _ LK) in N1. unfold chan_at in CA. assert (i < length (chans g))%nat by (apply nth_error_Some; congruence). lia.
Qed.
Print Assumptions C55_restart_partial.
Example C55_ex : exists g g1 g2, ex_load ex_old = Ret (Code 0, g) /\ stop_logger ex_env g = Ret (Code 0, g1) /\ parse_and_start ex_env up g1 ex_new = Ret (Code 0, g2) /\ zlen (chans g2) = 2.
Proof. do 3 eexists. split; [vm_compute; reflexivity|]. split; [vm_compute; reflexivity|]. split; [vm_compute; reflexivity|reflexivity]. Qed.
(* counters of a channel that the new configuration lacks are cleared: here the hot
   update checks of channel 1, lost over a restart with one channel only *)
Theorem C55_dropped_refuted : exists g g1 g2 g3 g4 c c', reach ex_env g /\ lg_state g = LOGGER_STATE_RUNNING /\ stop_logger ex_env g = Ret (Code 0, g1) /\ parse_and_start ex_env up g1 ex_one = Ret (Code 0, g2) /\
  stop_logger ex_env g2 = Ret (Code 0, g3) /\ parse_and_start ex_env up g3 ex_old = Ret (Code 0, g4) /\ chan_at g 1 = Some c /\ chan_at g4 1 = Some c' /\ fld (lc_log c) CHANNEL_LOG_HOTUPDATE_CHECK = 1 /\ fld (lc_log c') CHANNEL_LOG_HOTUPDATE_CHECK = 0.
Proof.
  eexists. do 6 eexists. split.
  - apply (reach_call ex_env (ex_g ex_old) (CHot 1 10 None) (Code E_INVALID_CONFIG_PATH)); [apply (ex_g_reach ex_old (Code 0)); [vm_compute; reflexivity|reflexivity]|vm_compute; reflexivity|discriminate].
  - split; [reflexivity|]. split; [vm_compute; reflexivity|]. split; [vm_compute; reflexivity|]. split; [vm_compute; reflexivity|]. split; [vm_compute; reflexivity|]. split; [vm_compute; reflexivity|]. split; [vm_compute; reflexivity|]. split; reflexivity.
Qed.
Print Assumptions C55_dropped_refuted.

(* ---- C79: a logger can be destroyed after any sequence of calls ---- *)
(* Missing: loggers whose last configuration asks for another kind of memory than
   the one in use, and the failed starts of C53_thrown_refuted. *)
Theorem C79_destroy_partial : forall e g, lenv_ok e -> reach e g -> lg_state g = LOGGER_STATE_UNINIT \/ lg_state g = LOGGER_STATE_RUNNING ->
  (forall m seg, lg_shm g = Some m -> sm_seg m = Some seg -> 0 < lg_key g) ->
  exists g', destroy e g = Ret (Some g') /\ lg_state g' = LOGGER_STATE_UNINIT /\ lg_shm g' = None.
Proof.
  intros e g E R ST K. pose proof (reach_inv e g E R) as IV.
  assert (U : forall g1, lg_state g1 = LOGGER_STATE_UNINIT -> (forall m seg, lg_shm g1 = Some m -> sm_seg m = Some seg -> 0 < lg_key g1) -> exists g', unload g1 = Ret g' /\ lg_state g' = LOGGER_STATE_UNINIT /\ lg_shm g' = None).
  { intros g1 S1 K1. unfold unload. destruct (lg_shm g1) as [m|] eqn:SM; [|exists g1; auto]. destruct (0 <? lg_key g1) eqn:KP; [eexists; split; [reflexivity|]; auto|].
    destruct (sm_seg m) as [seg|] eqn:SG; [specialize (K1 m seg eq_refl SG); lia|]. eexists. split; [reflexivity|]. auto. }
  unfold destroy. destruct ST as [ST|ST].
  - replace (lg_state g =? LOGGER_STATE_UNINIT) with true by lia. destruct (U g ST K) as (g' & A & B). rewrite A. exists g'. split; [reflexivity|exact B].
  - rewrite ST. change (LOGGER_STATE_RUNNING =? LOGGER_STATE_UNINIT) with false. cbn iota. destruct (iv_run e g IV ST) as (m & SM & SZ). pose proof (sw_size e m (iv_shm e g IV m SM)). unfold stop_logger. rewrite SM.
    replace ((x_maxch (y_pe e) <? sm_size m) || (sm_size m <=? 0)) with false by lia. rewrite ST. change (negb (LOGGER_STATE_RUNNING =? LOGGER_STATE_RUNNING)) with false. cbn iota.
    destruct (stop_chans (fun _ => Up) 0 (sm_size m) (sm_chans m)) as [r cs]. cbn [bind]. cbn [set_state lg_state]. change (LOGGER_STATE_UNINIT =? LOGGER_STATE_UNINIT) with true. cbn iota.
    destruct (U (set_state (set_chans g m cs) LOGGER_STATE_UNINIT) eq_refl) as (g' & A & B); [intros m' seg EQ SG; injection EQ as <-; exact (K m seg SM SG)|]. rewrite A. exists g'. split; [reflexivity|exact B].
Qed.
Print Assumptions C79_destroy_partial.
Definition ex_shm : text := ex_lines ["shm_key: 4096"; "- channel: 0"; "    sync: sync"]%string.
Definition ex_heap : text := ex_lines ["shm_key: 0"; "- channel: 0"; "    sync: sync"]%string.
Example C79_ex : exists g m, parse_and_start ex_env up (init_logger []) ex_shm = Ret (Code 0, g) /\ lg_state g = LOGGER_STATE_RUNNING /\ lg_shm g = Some m /\ sm_seg m = Some 4096 /\ lg_key g = 4096.
Proof. do 2 eexists. split; [vm_compute; reflexivity|]. split; [reflexivity|]. split; [reflexivity|]. split; reflexivity. Qed.
(* restarting without the key makes the destructor delete an attached segment *)
Theorem C79_destroy_refuted : exists g g1 g2 g3, reach ex_env g /\ parse_and_start ex_env up (init_logger []) ex_shm = Ret (Code 0, g) /\ stop_logger ex_env g = Ret (Code 0, g1) /\
  parse_and_start ex_env up g1 ex_heap = Ret (Code 0, g2) /\ stop_logger ex_env g2 = Ret (Code 0, g3) /\ destroy ex_env g3 = Ub.
Proof.
  do 4 eexists. split; [apply (reach_call ex_env (init_logger []) (CParse up ex_shm) (Code 0)); [constructor|vm_compute; reflexivity|discriminate]|].
  split; [vm_compute; reflexivity|]. split; [vm_compute; reflexivity|]. split; [vm_compute; reflexivity|]. split; vm_compute; reflexivity.
Qed.
Print Assumptions C79_destroy_refuted.

(* ---- C80: a load takes exactly the file's settings ---- *)
Theorem C80_loaded : forall e g th path mtime t g', lenv_ok e -> reach e g -> prompt th -> load_and_start e th g path (Some (mtime, t)) = Ret (Code 0, g') ->
  exists s, parse_logger (y_fuel e) (y_pe e) (y_old e) t = Ret (0, s) /\ map lc_p (chans g') = s_chs s /\ s_chs s <> [] /\
    (forall i c, chan_at g' i = Some c -> lc_mtime c = mtime /\ lc_check c = 0) /\
    lg_path g' = path /\ lg_hot g' = s_hot s /\ lg_key g' = s_shm s /\
    (s_name s <> [] -> lg_name g' = s_name s) /\ (s_name s = [] -> lg_name g' = lg_name g) /\
    (s_desc s <> [] -> lg_desc g' = s_desc s) /\ (s_desc s = [] -> lg_desc g' = lg_desc g).
Proof. exact load_takes. Qed.
Print Assumptions C80_loaded.
Theorem C80_refused : forall e g th path mtime t s z, lg_state g = LOGGER_STATE_UNINIT -> parse_logger (y_fuel e) (y_pe e) (y_old e) t = Ret (z, s) -> z <> 0 ->
  load_and_start e th g path (Some (mtime, t)) = Ret (Code z, g) /\ parse_and_start e th g t = Ret (Code z, g).
Proof.
  intros e g th path mt t s z ST P NZ. unfold load_and_start, parse_and_start, then_start, init_file, init_yaml. rewrite ST. change (negb (LOGGER_STATE_UNINIT =? LOGGER_STATE_UNINIT)) with false. cbn iota. rewrite P. cbn [bind].
  replace (negb (z =? PEC_NONE)) with true by (unfold PEC_NONE; lia). cbn [bind]. replace (negb (z =? 0)) with true by lia. cbn [bind]. replace (negb (z =? 0)) with true by lia. split; reflexivity.
Qed.
Print Assumptions C80_refused.
Example C80_ex : exists g', load_and_start ex_env up (init_logger (s2z "app")) (s2z "log.yaml") (Some (100, ex_old)) = Ret (Code 0, g') /\ zlen (chans g') = 2 /\ lg_name g' = s2z "app".
Proof. eexists. split; [vm_compute; reflexivity|]. split; reflexivity. Qed.
