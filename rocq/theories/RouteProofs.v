(* From loaded and hot-updated settings to the devices that are reached. *)
From Coq Require Import String ZArith List Bool Lia ZifyBool ZifyNat ZifyN Sorted.
From Verif Require Import Base BaseFacts LoggerState ParseVal Lexer ParseCfg Filter FilterSpec FilterProofs Load LoadSpec LoadProofs FastStart RouteSpec.
Import ListNotations.
Open Scope Z_scope.

Lemma as_has_device : forall maxdev c j d, zlen (pc_devs (lc_p c)) <= maxdev ->
  has_device (as_chan maxdev c) j d <-> exists n p, j = Z.of_nat n /\ nth_error (pc_devs (lc_p c)) n = Some p /\ d = as_dev p.
Proof.
  intros maxdev c j d L. unfold has_device, as_chan. cbn [c_size c_devs]. split.
  - intros [B N]. exists (Z.to_nat j). rewrite nth_error_app1 in N by (rewrite map_length; unfold zlen in B; lia). rewrite nth_error_map in N. destruct (nth_error (pc_devs (lc_p c)) (Z.to_nat j)) as [p|] eqn:E; [|discriminate]. injection N as <-. exists p. split; [lia|auto].
  - intros (n & p & -> & N & ->). assert (LT : (n < length (pc_devs (lc_p c)))%nat) by (apply nth_error_Some; congruence). split; [unfold zlen; lia|]. rewrite Nat2Z.id.
    rewrite nth_error_app1 by (rewrite map_length; exact LT). rewrite nth_error_map, N. reflexivity.
Qed.

Lemma routes_of : forall e g k c, lenv_ok e -> inv e g -> lg_state g = LOGGER_STATE_RUNNING -> chan_at g k = Some c -> lc_state c = CHANNEL_STATE_RUNNING -> routed (as_logger e g) k (lc_p c).
Proof.
  intros e g k c E IV ST CA CS. destruct (chan_at_some g k c CA) as (m & SM & LI & NC). pose proof (iv_shm e g IV m SM) as W. pose proof (sw_size e m W) as SZ. pose proof (sw_len e m W) as LE.
  destruct (sw_fit e m W k c NC ltac:(lia)) as (_ & _ & MX & _). set (D := x_maxdev (y_pe e)) in *.
  assert (CH : nth_error (g_chs (as_logger e g)) k = Some (as_chan D c)) by (unfold as_logger; rewrite SM; cbn [g_chs]; rewrite nth_error_map, NC; reflexivity).
  assert (SO : sound_channel (as_chan D c)).
  { unfold sound_channel, as_chan. cbn [c_size c_devs]. split; [apply zlen_nonneg|]. rewrite zlen_app. unfold zlen at 2. rewrite map_length. unfold zlen. lia. }
  intros p ca i [SC SD].
  assert (DS : devices_scope (as_chan D c) ca i).
  { intros j d HD. apply as_has_device in HD; [|exact MX]. destruct HD as (n & q & -> & NQ & ->). rewrite Forall_forall in SD. exact (SD q (nth_error_In _ _ NQ)). }
  split.
  - destruct (block_input_correct (as_logger e g) (Z.of_nat k) p ca i) as (b & BI & BB).
    + rewrite Nat2Z.id. intros ch Q. rewrite CH in Q. injection Q as <-. split; [exact SO|]. split; [exact SC|exact DS].
    + unfold as_logger. rewrite SM. cbn [g_size g_chs]. unfold zlen in *. rewrite map_length. lia.
    + exists b. split; [exact BI|]. rewrite BB. clear BB BI. unfold admitted. rewrite Nat2Z.id. split.
      * intros (_ & _ & _ & ch & Q & _ & LT & j & d & HD & [ON1 ON2] & AC). rewrite CH in Q. injection Q as <-. split; [exact LT|]. apply as_has_device in HD; [|exact MX]. destruct HD as (n & q & -> & NQ & ->).
        exists q. split; [exact (nth_error_In _ _ NQ)|]. split; [exact ON1|]. split; [exact ON2|exact AC].
      * intros (LT & q & IN & ON1 & ON2 & AC). destruct (In_nth_error _ _ IN) as [n NQ]. unfold as_logger at 1 2 3. rewrite SM. cbn [g_shm g_state g_size]. split; [reflexivity|]. split; [exact ST|]. split; [lia|].
        exists (as_chan D c). split; [exact CH|]. split; [exact CS|]. split; [exact LT|]. exists (Z.of_nat n), (as_dev q). split; [apply as_has_device; [exact MX|]; exists n, q; auto|]. split; [split; [exact ON1|exact ON2]|exact AC].
  - destruct (dispatch_correct (as_chan D c) (mkRec p ca i) SO DS) as (ids & DI & SS & IN). exists (as_chan D c), ids. split; [exact CH|]. split; [exact DI|]. split; [exact SS|].
    intros j. rewrite IN. split.
    + intros (d & HD & [ON1 ON2] & AC). apply as_has_device in HD; [|exact MX]. destruct HD as (n & q & EQ & NQ & ->). exists n, q. split; [exact EQ|]. split; [exact NQ|]. split; [exact ON1|]. split; [exact ON2|exact AC].
    + intros (n & q & EQ & NQ & ON1 & ON2 & AC). exists (as_dev q). split; [apply as_has_device; [exact MX|]; exists n, q; auto|]. split; [split; [exact ON1|exact ON2]|exact AC].
Qed.

Lemma init_ok : forall e g t path s, lenv_ok e -> inv e g -> lg_state g = LOGGER_STATE_UNINIT -> parse_logger (y_fuel e) (y_pe e) (y_old e) t = Ret (0, s) -> s_chs s <> [] -> has_memory e g (s_shm s) ->
  exists g1, init_yaml e g t path = Ret (0, g1) /\ lg_state g1 = LOGGER_STATE_UNINIT.
Proof.
  intros e g t path s E IV ST P NE HM. unfold init_yaml. rewrite ST. change (negb (LOGGER_STATE_UNINIT =? LOGGER_STATE_UNINIT)) with false. cbn iota. rewrite P. cbn [bind]. change (negb (0 =? PEC_NONE)) with false. cbn iota. cbn [lg_shm lg_key].
  destruct (parsed_fit e t s E P) as [MX _].
  assert (MM : exists m, match lg_shm g with Some m => (0, Some m) | None => load_shm e (s_shm s) end = (0, Some m)).
  { destruct (lg_shm g) as [m|] eqn:SM; [eauto|]. unfold load_shm. destruct (s_shm s <=? 0) eqn:K; [eauto|]. destruct HM as [HM | [HM | HM]]; [congruence|lia|exact HM]. }
  destruct MM as [m MM]. rewrite MM. change (negb (0 =? 0)) with false. cbn iota. cbn [sm_size]. assert (1 <= zlen (s_chs s)) by (destruct (s_chs s); [congruence|rewrite zlen_cons; pose proof (zlen_nonneg _ l); lia]).
  replace ((x_maxch (y_pe e) <? zlen (s_chs s)) || (zlen (s_chs s) <=? 0)) with false by lia. eexists. split; [reflexivity|]. reflexivity.
Qed.

Lemma load_running : forall e g th path mt t s, lenv_ok e -> reach e g -> lg_state g = LOGGER_STATE_UNINIT -> all_up th ->
  parse_logger (y_fuel e) (y_pe e) (y_old e) t = Ret (0, s) -> s_chs s <> [] -> has_memory e g (s_shm s) ->
  exists g', load_and_start e th g path (Some (mt, t)) = Ret (Code 0, g') /\ reach e g' /\ lg_state g' = LOGGER_STATE_RUNNING /\
    map lc_p (chans g') = s_chs s /\ (forall k w, nth_error (s_chs s) k = Some w -> exists c, chan_at g' k = Some c /\ lc_p c = w /\ lc_state c = CHANNEL_STATE_RUNNING).
Proof.
  intros e g th path mt t s E R ST UP P NE HM. pose proof (reach_inv e g E R) as IV. destruct (init_ok e g t path s E IV ST P NE HM) as (g1 & I1 & S1).
  destruct (init_yaml_takes e g t path g1 E IV I1) as (s' & m & old & P' & SM & SZ & CH & OL & S1' & _). assert (s' = s) by congruence. subst s'.
  set (g2 := set_shm g1 (first_chans (set_mtime mt) m)).
  assert (FI : init_file e g path (Some (mt, t)) = Ret (0, g2)) by (unfold init_file; rewrite I1; cbn [bind]; change (negb (0 =? 0)) with false; cbn iota; rewrite SM; reflexivity).
  assert (IV2 : inv e g2) by (destruct (init_file_cases e g path (Some (mt, t)) 0 g2 E IV FI) as (_ & A & _); exact A).
  assert (H1 : 1 <= zlen (s_chs s)) by (destruct (s_chs s); [congruence|rewrite zlen_cons; pose proof (zlen_nonneg _ l); lia]).
  destruct (start_all_up e th g2 IV2 UP S1) as (g' & GO & RN & CS); [exists (first_chans (set_mtime mt) m); split; [reflexivity|cbn; lia]|].
  assert (L : load_and_start e th g path (Some (mt, t)) = Ret (Code 0, g')).
  { unfold load_and_start, then_start. rewrite ST. change (negb (LOGGER_STATE_UNINIT =? LOGGER_STATE_UNINIT)) with false. cbn iota. rewrite FI. cbn [bind]. change (negb (0 =? 0)) with false. cbn iota. rewrite GO. reflexivity. }
  destruct (load_takes e g th path mt t g' E R (fun i => or_introl (UP i)) L) as (s' & P2 & MP & _). assert (s' = s) by congruence. subst s'.
  exists g'. split; [exact L|]. split; [apply (reach_call e g (CLoad th path (Some (mt, t))) (Code 0) g' R); [exact L|discriminate]|]. split; [exact RN|]. split; [exact MP|].
  intros k w N. rewrite <- MP, nth_error_map in N. change (nth_error (chans g') k) with (chan_at g' k) in N. destruct (chan_at g' k) as [c|] eqn:C; [|discriminate]. injection N as <-. exists c. split; [reflexivity|]. split; [reflexivity|exact (CS k c C)].
Qed.

(* a channel's routes depend on the settings and inputs of its devices only *)
Definition same_routes (a b : pchan) : Prop :=
  pc_cfg a = pc_cfg b /\ forall n, option_map (fun d => (pd_in d, pd_cfg d)) (nth_error (pc_devs a) n) = option_map (fun d => (pd_in d, pd_cfg d)) (nth_error (pc_devs b) n).
Lemma same_sym : forall a b, same_routes a b -> same_routes b a.
Proof. intros a b [C D]. split; [auto|]. intros n. symmetry. apply D. Qed.
Lemma same_nth : forall a b n d, same_routes a b -> nth_error (pc_devs a) n = Some d -> exists d', nth_error (pc_devs b) n = Some d' /\ pd_in d' = pd_in d /\ pd_cfg d' = pd_cfg d.
Proof.
  intros a b n d [_ D] N. specialize (D n). rewrite N in D. destruct (nth_error (pc_devs b) n) as [d'|]; [|discriminate]. cbn in D. injection D as A B. exists d'. auto.
Qed.
Lemma same_takes : forall d d' p c i, pd_in d' = pd_in d -> pd_cfg d' = pd_cfg d -> dev_takes d p c i -> dev_takes d' p c i.
Proof. intros d d' p c i A B. unfold dev_takes. rewrite A, B. auto. Qed.
Lemma routed_same : forall l k a b, same_routes a b -> routed l k a -> routed l k b.
Proof.
  intros l k a b S R p c i [SC SD]. pose proof (same_sym _ _ S) as T. assert (SA : chan_scope a c i).
  { destruct S as [C D]. split; [rewrite C; exact SC|]. apply Forall_forall. intros d IN. destruct (In_nth_error _ _ IN) as [n N]. destruct (same_nth a b n d (conj C D) N) as (d' & N' & _ & B).
    rewrite Forall_forall in SD. pose proof (SD d' (nth_error_In _ _ N')) as Q. unfold dev_scope in *. rewrite B in Q. exact Q. }
  destruct (R p c i SA) as [(bb & BI & BB) (ch & ids & CH & DI & SS & IN)]. split.
  - exists bb. split; [exact BI|]. rewrite BB. unfold chan_lets. rewrite (proj1 S). split; intros (LT & d & ID & DT); (split; [exact LT|]); destruct (In_nth_error _ _ ID) as [n N].
    + destruct (same_nth a b n d S N) as (d' & N' & A & B). exists d'. split; [exact (nth_error_In _ _ N')|exact (same_takes d d' _ _ _ A B DT)].
    + destruct (same_nth b a n d T N) as (d' & N' & A & B). exists d'. split; [exact (nth_error_In _ _ N')|exact (same_takes d d' _ _ _ A B DT)].
  - exists ch, ids. split; [exact CH|]. split; [exact DI|]. split; [exact SS|]. intros j. rewrite IN. split; intros (n & d & EJ & N & DT); exists n.
    + destruct (same_nth a b n d S N) as (d' & N' & A & B). exists d'. split; [exact EJ|]. split; [exact N'|exact (same_takes d d' _ _ _ A B DT)].
    + destruct (same_nth b a n d T N) as (d' & N' & A & B). exists d'. split; [exact EJ|]. split; [exact N'|exact (same_takes d d' _ _ _ A B DT)].
Qed.

Lemma hot_routes : forall e g id now mt t c s w, lenv_ok e -> reach e g -> chan_at g id = Some c -> lc_state c = CHANNEL_STATE_RUNNING ->
  lg_hot g = true -> lg_path g <> [] -> lg_state g = LOGGER_STATE_RUNNING -> 5 <= now - lc_check c -> mt <> lc_mtime c ->
  parse_logger (y_fuel e) (y_pe e) (y_old e) t = Ret (0, s) -> nth_error (s_chs s) id = Some w ->
  zlen (pc_devs (lc_p c)) <= zlen (pc_devs w) -> (forall n d d', nth_error (pc_devs (lc_p c)) n = Some d -> nth_error (pc_devs w) n = Some d' -> pd_in d = pd_in d') ->
  exists g', hot_update e g (Z.of_nat id) now (Some (mt, t)) = Ret (0, g') /\ routed (as_logger e g') id w /\
    forall j cj, j <> id -> chan_at g j = Some cj -> lc_state cj = CHANNEL_STATE_RUNNING -> routed (as_logger e g') j (lc_p cj).
Proof.
  intros e g id now mt t c s w E R CA CS HT PA ST DU MT P N LN SI. pose proof (reach_inv e g E R) as IV.
  destruct (hot_applied e g id now mt t c s w E IV CA HT PA ST DU MT P N) as (g' & c' & HU & CA' & UP & _ & _ & OT & SL & _).
  pose proof (hot_inv e g id now _ _ _ E IV HU) as IV'. exists g'. split; [exact HU|].
  destruct SL as (SL & _). destruct UP as (UC & UD & _ & _ & _ & US & _). split.
  - apply (routed_same _ _ (lc_p c')); [|apply routes_of; congruence]. split; [exact UC|]. intros n. rewrite UD. unfold merged. destruct (nth_error (pc_devs (lc_p c)) n) as [d|] eqn:ND; [|reflexivity].
    assert (LT : (n < length (pc_devs (lc_p c)))%nat) by (apply nth_error_Some; congruence). destruct (nth_error (pc_devs w) n) as [d'|] eqn:NW; [|apply nth_error_None in NW; unfold zlen in LN; lia].
    cbn. rewrite (SI n d d' ND NW). reflexivity.
  - intros j cj J CJ SJ. apply routes_of; try congruence. rewrite OT by exact J. exact CJ.
Qed.
