(* Loading, hot update and the life cycle of a logger. *)
From Coq Require Import String ZArith List Bool Lia ZifyBool ZifyNat ZifyN.
From Verif Require Import Base BaseFacts LoggerState ParseVal Lexer ParseCfg ParseSpec ParseInv PropsParse Load LoadSpec.
Import ListNotations.
Open Scope Z_scope.

(* ---- lists ---- *)
Lemma put_nth_len : forall A (l : list A) i x, (i < length l)%nat -> length (put_nth l i x) = length l.
Proof. intros A l i x H. unfold put_nth. rewrite app_length, firstn_length. cbn [length]. rewrite skipn_length. lia. Qed.
Lemma put_nth_same : forall A (l : list A) i x, (i < length l)%nat -> nth_error (put_nth l i x) i = Some x.
Proof. intros A l i x H. unfold put_nth. rewrite nth_error_app2 by (rewrite firstn_length; lia). rewrite firstn_length. replace (i - Nat.min i (length l))%nat with O by lia. reflexivity. Qed.
Lemma nth_error_skipn : forall A (l : list A) n i, nth_error (skipn n l) i = nth_error l (n + i).
Proof. intros A l. induction l as [|a l IH]; intros [|n] i; try reflexivity; [destruct i; reflexivity|]. cbn [skipn]. rewrite IH. reflexivity. Qed.
Lemma nth_error_firstn : forall A (l : list A) n i, (i < n)%nat -> nth_error (firstn n l) i = nth_error l i.
Proof. intros A l. induction l as [|a l IH]; intros [|n] [|i] H; try reflexivity; try lia. cbn. apply IH. lia. Qed.
Lemma put_nth_other : forall A (l : list A) i j x, (i < length l)%nat -> j <> i -> nth_error (put_nth l i x) j = nth_error l j.
Proof.
  intros A l i j x H N. unfold put_nth. destruct (Nat.lt_ge_cases j i).
  - rewrite nth_error_app1 by (rewrite firstn_length; lia). apply nth_error_firstn. lia.
  - rewrite nth_error_app2 by (rewrite firstn_length; lia). rewrite firstn_length. replace (j - Nat.min i (length l))%nat with (S (j - S i))%nat by lia. cbn [nth_error].
    rewrite nth_error_skipn. f_equal. lia.
Qed.
Lemma cput_put : forall l i v, cput l i v = put_nth l (Z.to_nat i) v.
Proof. reflexivity. Qed.
Lemma ext_nth : forall A (l l' : list A), (forall i, nth_error l i = nth_error l' i) -> l = l'.
Proof.
  intros A l. induction l as [|a l IH]; intros [|b l'] H; [reflexivity|specialize (H O); discriminate|specialize (H O); discriminate|].
  pose proof (H O) as E. injection E as ->. f_equal. apply IH. intros i. exact (H (S i)).
Qed.

(* ---- merging devices ---- *)
Definition in_order (ds : list pdev) : Prop := forall i d, nth_error ds i = Some d -> pd_id d = Z.of_nat i.
Lemma hot_devs_merge : forall maxdev src i dst, in_order dst -> (i <= length dst)%nat -> (forall k s, nth_error src k = Some s -> pd_id s = Z.of_nat (i + k)) -> Z.of_nat i + zlen src <= maxdev ->
  exists ds, hot_devs maxdev (Z.of_nat i) src dst = Ret (0, ds) /\
    forall k, nth_error ds k = if (k <? i)%nat then nth_error dst k else merged (nth_error dst k) (nth_error src (k - i)).
Proof.
  intros maxdev src. induction src as [|s src IH]; intros i dst OR L ID M.
  - exists dst. split; [reflexivity|]. intros k. destruct (k <? i)%nat; [reflexivity|]. replace (nth_error (@nil pdev) (k - i)) with (@None pdev) by (destruct (k - i)%nat; reflexivity). destruct (nth_error dst k); reflexivity.
  - assert (IS : pd_id s = Z.of_nat i) by (specialize (ID O s eq_refl); lia). rewrite zlen_cons in M. pose proof (zlen_nonneg _ src).
    assert (ID' : forall k s0, nth_error src k = Some s0 -> pd_id s0 = Z.of_nat (S i + k)) by (intros k s0 E; specialize (ID (S k) s0 E); lia).
    cbn [hot_devs]. rewrite IS, Z.eqb_refl. cbn [negb]. replace (Z.to_nat (Z.of_nat i)) with i by lia. replace (Z.of_nat i + 1) with (Z.of_nat (S i)) by lia.
    destruct (nth_error dst i) as [d|] eqn:D.
    + pose proof (OR i d D) as OD. rewrite OD, Z.eqb_refl. cbn [negb].
      assert (LI : (i < length dst)%nat) by (apply nth_error_Some; congruence).
      destruct (IH (S i) (put_nth dst i (set_dev_cfg d (pd_cfg s)))) as (ds & E & N).
      * intros k d' K. destruct (Nat.eq_dec k i) as [-> |NE]; [rewrite put_nth_same in K by exact LI; injection K as <-; exact OD|]. rewrite put_nth_other in K by assumption. exact (OR k d' K).
      * rewrite put_nth_len by exact LI. lia.
      * exact ID'.
      * lia.
      * exists ds. split; [exact E|]. intros k. rewrite N. destruct (Nat.ltb_spec k (S i)); destruct (Nat.ltb_spec k i); try lia.
        -- apply put_nth_other; lia.
        -- replace k with i by lia. rewrite put_nth_same by exact LI. rewrite D. replace (i - i)%nat with O by lia. reflexivity.
        -- rewrite put_nth_other by lia. replace (k - i)%nat with (S (k - S i)) by lia. reflexivity.
    + apply nth_error_None in D. replace (zlen dst =? Z.of_nat i) with true by (unfold zlen; lia). cbn [negb]. replace (maxdev <=? zlen dst) with false by (unfold zlen in *; lia).
      assert (LI : length dst = i) by lia.
      destruct (IH (S i) (dst ++ [s])) as (ds & E & N).
      * intros k d' K. destruct (Nat.lt_ge_cases k (length dst)); [rewrite nth_error_app1 in K by assumption; exact (OR k d' K)|]. rewrite nth_error_app2 in K by assumption.
        destruct (k - length dst)%nat as [|j] eqn:J; [cbn in K; injection K as <-; lia|destruct j; discriminate].
      * rewrite app_length. cbn. lia.
      * exact ID'.
      * lia.
      * exists ds. split; [exact E|]. intros k. rewrite N. destruct (Nat.ltb_spec k (S i)); destruct (Nat.ltb_spec k i); try lia.
        -- apply nth_error_app1. lia.
        -- replace k with i by lia. rewrite nth_error_app2 by lia. replace (i - length dst)%nat with O by lia. replace (i - i)%nat with O by lia. replace (nth_error dst i) with (@None pdev) by (symmetry; apply nth_error_None; lia). reflexivity.
        -- replace (nth_error (dst ++ [s]) k) with (nth_error dst k); [replace (k - i)%nat with (S (k - S i)) by lia; reflexivity|].
           transitivity (@None pdev); [apply nth_error_None; lia|symmetry; apply nth_error_None; rewrite app_length; cbn; lia].
Qed.

(* ---- the invariant ---- *)
Definition chan_fit (maxdev : Z) (i : nat) (p : pchan) : Prop :=
  pc_id p = Z.of_nat i /\ in_order (pc_devs p) /\ zlen (pc_devs p) <= maxdev /\ (pc_type p = CHANNEL_ASYNC \/ pc_type p = CHANNEL_SYNC).
Record shm_wf (e : lenv) (m : shmem) : Prop := mkShmWf {
  sw_len : zlen (sm_chans m) = x_maxch (y_pe e);
  sw_size : 0 <= sm_size m <= x_maxch (y_pe e);
  sw_logs : Forall (log_wf (x_maxdev (y_pe e))) (sm_chans m);
  sw_fit : forall i c, nth_error (sm_chans m) i = Some c -> Z.of_nat i < sm_size m -> chan_fit (x_maxdev (y_pe e)) i (lc_p c)
}.
Record inv (e : lenv) (g : lg) : Prop := mkInv {
  iv_shm : forall m, lg_shm g = Some m -> shm_wf e m;
  iv_run : lg_state g = LOGGER_STATE_RUNNING -> exists m, lg_shm g = Some m /\ 1 <= sm_size m
}.
Lemma inv_new : forall e name, inv e (init_logger name).
Proof. intros e name. split; [intros m E; discriminate E|intros E; discriminate E]. Qed.

Lemma zero_log_wf : forall e, lenv_ok e -> log_wf (x_maxdev (y_pe e)) (zero_chan e).
Proof.
  intros e E. unfold log_wf, zero_chan. cbn [lc_log lc_dlog]. pose proof (lo_maxdev e E). split; [reflexivity|]. split; [unfold zlen; rewrite repeat_length; lia|].
  apply Forall_forall. intros x I. apply repeat_spec in I. subst x. reflexivity.
Qed.
Lemma load_wf : forall e key z m, lenv_ok e -> load_shm e key = (z, Some m) -> zlen (sm_chans m) = x_maxch (y_pe e) /\ Forall (log_wf (x_maxdev (y_pe e))) (sm_chans m).
Proof.
  intros e key z m E H. unfold load_shm in H. destruct (key <=? 0); [|exact (lo_attach e E key z m H)]. injection H as _ <-. unfold fresh_shm. cbn [sm_chans].
  pose proof (lo_maxch e E). split; [unfold zlen; rewrite repeat_length; lia|]. apply Forall_forall. intros x I. apply repeat_spec in I. subst x. apply zero_log_wf, E.
Qed.
Lemma take_len : forall e old new, length (take_chans e new old) = length old.
Proof. intros e old. induction old as [|o old IH]; intros [|p new]; cbn [take_chans length]; auto. Qed.
Lemma take_nth : forall e old new i p o, nth_error new i = Some p -> nth_error old i = Some o -> nth_error (take_chans e new old) i = Some (mkLchan p 0 0 0 (lc_log o) (lc_dlog o)).
Proof.
  intros e old. induction old as [|a old IH]; intros [|b new] [|i] p o N O; try discriminate.
  - cbn in *. injection N as ->. injection O as ->. reflexivity.
  - cbn in *. exact (IH new i p o N O).
Qed.
Lemma take_behind : forall e old new i, (length new <= i < length old)%nat -> nth_error (take_chans e new old) i = Some (zero_chan e).
Proof.
  intros e old. induction old as [|a old IH]; intros [|b new] [|i] H; cbn [length] in H; try lia; cbn [take_chans nth_error]; [reflexivity| |].
  - apply IH. cbn. lia.
  - apply IH. lia.
Qed.
Lemma take_logs : forall e old new, lenv_ok e -> Forall (log_wf (x_maxdev (y_pe e))) old -> Forall (log_wf (x_maxdev (y_pe e))) (take_chans e new old).
Proof.
  intros e old. induction old as [|a old IH]; intros [|b new] E F; cbn [take_chans]; constructor; try (apply IH; [exact E|exact (Forall_inv_tail F)]).
  - apply zero_log_wf, E.
  - pose proof (Forall_inv F) as A. exact A.
Qed.
Lemma parsed_fit : forall e t s, lenv_ok e -> parse_logger (y_fuel e) (y_pe e) (y_old e) t = Ret (0, s) ->
  zlen (s_chs s) <= x_maxch (y_pe e) /\ forall i p, nth_error (s_chs s) i = Some p -> chan_fit (x_maxdev (y_pe e)) i p.
Proof.
  intros e t s E P. pose proof (lo_maxch e E). pose proof (lo_maxdev e E).
  destruct (C44_wellformed (y_pe e) (y_fuel e) (y_old e) t s (lo_arith e E) (lo_dns e E) ltac:(lia) ltac:(lia) P) as ([M ID F] & _). split; [exact M|].
  intros i p N. rewrite Forall_forall in F. specialize (F p (nth_error_In _ _ N)). destruct F as [W1 W2 W3 W4 W5 W6 W7 W8]. split; [exact (ID i p N)|]. split; [exact W6|]. split; [exact W5|exact W1].
Qed.
Lemma take_wf : forall e seg t s old, lenv_ok e -> parse_logger (y_fuel e) (y_pe e) (y_old e) t = Ret (0, s) -> zlen old = x_maxch (y_pe e) -> Forall (log_wf (x_maxdev (y_pe e))) old ->
  shm_wf e (mkShmem seg (zlen (s_chs s)) (take_chans e (s_chs s) old)).
Proof.
  intros e seg t s old E P L F. destruct (parsed_fit e t s E P) as [M FIT]. split; cbn [sm_chans sm_size].
  - unfold zlen in *. rewrite take_len. exact L.
  - pose proof (zlen_nonneg _ (s_chs s)). lia.
  - apply take_logs; assumption.
  - intros i c N I. assert (LI : (i < length (s_chs s))%nat) by (unfold zlen in I; lia). destruct (nth_error (s_chs s) i) as [p|] eqn:NP; [|apply nth_error_None in NP; lia].
    destruct (nth_error old i) as [o|] eqn:NO; [|apply nth_error_None in NO; unfold zlen in *; lia]. rewrite (take_nth e old (s_chs s) i p o NP NO) in N. injection N as <-. exact (FIT i p NP).
Qed.

(* InitFromYMAL *)
Lemma init_yaml_cases : forall e g t path r g', lenv_ok e -> inv e g -> init_yaml e g t path = Ret (r, g') ->
  lg_state g' = lg_state g /\ inv e g' /\ (r = 0 -> lg_state g = LOGGER_STATE_UNINIT /\ exists m, lg_shm g' = Some m /\ 1 <= sm_size m).
Proof.
  intros e g t path r g' E I H. unfold init_yaml in H. destruct (negb (lg_state g =? LOGGER_STATE_UNINIT)) eqn:S0.
  { injection H as <- <-. split; [reflexivity|]. split; [exact I|]. discriminate. }
  assert (SU : lg_state g = LOGGER_STATE_UNINIT) by (unfold LOGGER_STATE_UNINIT in *; lia).
  destruct (parse_logger (y_fuel e) (y_pe e) (y_old e) t) as [[ret s]| |] eqn:P; cbn [bind] in H; try discriminate.
  destruct (negb (ret =? PEC_NONE)) eqn:R0.
  { injection H as <- <-. split; [reflexivity|]. split; [exact I|]. unfold PEC_NONE in R0. intros ->. discriminate. }
  assert (ret = 0) by (unfold PEC_NONE in R0; lia). subst ret.
  set (g1 := mkLg (lg_state g) (s_hot s) path (if 0 <? zlen (s_name s) then s_name s else lg_name g) (if 0 <? zlen (s_desc s) then s_desc s else lg_desc g) (s_shm s) (lg_shm g)) in *.
  assert (I1 : inv e g1) by (split; [exact (iv_shm e g I)|exact (iv_run e g I)]).
  assert (W : forall z m, match lg_shm g1 with Some m => (0, Some m) | None => load_shm e (lg_key g1) end = (z, Some m) -> zlen (sm_chans m) = x_maxch (y_pe e) /\ Forall (log_wf (x_maxdev (y_pe e))) (sm_chans m)).
  { intros z m Q. destruct (lg_shm g1) as [m0|] eqn:SM; [injection Q as _ <-; destruct (iv_shm e g1 I1 m0 SM) as [A B C D]; auto|exact (load_wf e (lg_key g1) z m E Q)]. }
  destruct (match lg_shm g1 with Some m => (0, Some m) | None => load_shm e (lg_key g1) end) as [z m] eqn:Q. destruct m as [m|].
  - destruct (negb (z =? 0)) eqn:Z0.
    { injection H as <- <-. split; [reflexivity|]. split; [exact I1|]. lia. }
    destruct (W z m eq_refl) as [L F]. pose proof (take_wf e (sm_seg m) t s (sm_chans m) E P L F) as WF. cbn [sm_size] in H. injection H as <- <-. split; [reflexivity|]. split.
    + split; [intros m' EQ; injection EQ as <-; exact WF|]. cbn [set_shm lg_state g1]. rewrite SU. discriminate.
    + intros R. split; [exact SU|]. eexists. split; [reflexivity|]. cbn [sm_size]. destruct ((x_maxch (y_pe e) <? zlen (s_chs s)) || (zlen (s_chs s) <=? 0)) eqn:Q2; [discriminate|]. lia.
  - injection H as <- <-. split; [reflexivity|]. split; [exact I1|]. intros ->. exfalso.
    destruct (lg_shm g1) as [m0|] eqn:SM; [discriminate|]. unfold load_shm in Q. destruct (lg_key g1 <=? 0); [discriminate|]. exact (lo_code e E _ _ Q eq_refl).
Qed.

Lemma first_chans_nth : forall f m i, nth_error (sm_chans (first_chans f m)) i = if (i <? Z.to_nat (sm_size m))%nat then option_map f (nth_error (sm_chans m) i) else nth_error (sm_chans m) i.
Proof.
  intros f m i. unfold first_chans. cbn [sm_chans]. set (n := Z.to_nat (sm_size m)). generalize (sm_chans m). clearbody n. clear m. revert i. induction n as [|n IH]; intros [|i] [|a l]; try reflexivity.
  - cbn [firstn map skipn app nth_error option_map]. destruct (S i <? S n)%nat; reflexivity.
  - cbn [firstn map skipn app nth_error]. rewrite IH. reflexivity.
Qed.
Lemma first_chans_len : forall f m, length (sm_chans (first_chans f m)) = length (sm_chans m).
Proof. intros f m. unfold first_chans. cbn [sm_chans]. rewrite app_length, map_length, <- app_length, firstn_skipn. reflexivity. Qed.
(* a change that keeps the parsed part and the counters' arrays keeps well-formedness *)
Lemma wf_change : forall e m m', shm_wf e m -> sm_size m' = sm_size m -> length (sm_chans m') = length (sm_chans m) ->
  (forall i c', nth_error (sm_chans m') i = Some c' -> exists c, nth_error (sm_chans m) i = Some c /\ lc_p c' = lc_p c /\ lc_log c' = lc_log c /\ lc_dlog c' = lc_dlog c) -> shm_wf e m'.
Proof.
  intros e m m' [L S0 LO FI] SZ LE H. split.
  - unfold zlen in *. rewrite LE. exact L.
  - rewrite SZ. exact S0.
  - apply Forall_forall. intros c' IN. apply In_nth_error in IN. destruct IN as [i N]. destruct (H i c' N) as (c & NC & _ & B & C). rewrite Forall_forall in LO. specialize (LO c (nth_error_In _ _ NC)). unfold log_wf in *. rewrite B, C. exact LO.
  - intros i c' N SI. destruct (H i c' N) as (c & NC & A & _ & _). rewrite A. apply (FI i c NC). rewrite <- SZ. exact SI.
Qed.
Lemma init_file_cases : forall e g path file r g', lenv_ok e -> inv e g -> init_file e g path file = Ret (r, g') ->
  lg_state g' = lg_state g /\ inv e g' /\ (r = 0 -> lg_state g = LOGGER_STATE_UNINIT /\ exists m, lg_shm g' = Some m /\ 1 <= sm_size m).
Proof.
  intros e g path file r g' E I H. unfold init_file in H. destruct file as [[mt t]|]; [|injection H as <- <-; split; [reflexivity|]; split; [exact I|discriminate]].
  destruct (init_yaml e g t path) as [[ret g1]| |] eqn:Y; cbn [bind] in H; try discriminate. destruct (init_yaml_cases e g t path ret g1 E I Y) as (S1 & I1 & R1).
  destruct (negb (ret =? 0)) eqn:Q; [injection H as <- <-; split; [exact S1|]; split; [exact I1|]; intros ->; discriminate|].
  assert (ret = 0) by lia. destruct (R1 H0) as (SU & m & SM & SZ). rewrite SM in H. injection H as <- <-. split; [exact S1|]. split.
  - split.
    + intros m' EQ. injection EQ as <-. apply (wf_change e m); [exact (iv_shm e g1 I1 m SM)|reflexivity|apply first_chans_len|].
      intros i c' N. rewrite first_chans_nth in N. destruct (i <? Z.to_nat (sm_size m))%nat; [|exists c'; auto]. destruct (nth_error (sm_chans m) i) as [c|]; [|discriminate]. injection N as <-. exists c. auto.
    + cbn [set_shm lg_state]. rewrite S1, SU. discriminate.
  - intros _. split; [exact SU|]. eexists. split; [reflexivity|]. exact SZ.
Qed.

(* ---- starting and stopping touch only channel_state_ ---- *)
Definition like (cs cs' : list lchan) : Prop := Forall2 (fun c c' => c' = with_state (lc_state c') c) cs cs'.
Lemma like_refl : forall cs, like cs cs.
Proof. intros cs. induction cs as [|c cs IH]; constructor; [destruct c; reflexivity|exact IH]. Qed.
Lemma like_trans : forall a b c, like a b -> like b c -> like a c.
Proof.
  intros a b c H. revert c. induction H as [|x y a b XY H IH]; intros c K; inversion K as [|y' z b' c' YZ K' E1 E2]; subst; constructor; [|apply IH; exact K'].
  rewrite YZ. rewrite XY. reflexivity.
Qed.
Lemma like_nth : forall cs cs' i c', like cs cs' -> nth_error cs' i = Some c' -> exists c, nth_error cs i = Some c /\ c' = with_state (lc_state c') c.
Proof. intros cs cs' i c' H. revert i. induction H as [|x y a b XY H IH]; intros [|i] N; try discriminate; cbn in *; [injection N as <-; eauto|apply IH; exact N]. Qed.
Lemma like_len : forall cs cs', like cs cs' -> length cs = length cs'.
Proof. intros cs cs' H. induction H; cbn; congruence. Qed.
Lemma start_like : forall th size cs i, like cs (snd (start_chans th i size cs)).
Proof.
  intros th size cs. induction cs as [|c cs IH]; intros i; cbn [start_chans]; [constructor|]. destruct (size <=? i); [apply like_refl|].
  specialize (IH (i + 1)). destruct (start_chans th (i + 1) size cs) as [r l]. cbn [snd] in IH.
  destruct (pc_type (lc_p c) =? CHANNEL_SYNC); [constructor; [reflexivity|exact IH]|]. destruct (pc_type (lc_p c) =? CHANNEL_ASYNC); [|apply like_refl].
  destruct (th i); try apply like_refl. constructor; [reflexivity|exact IH].
Qed.
Lemma stop_like : forall size cs th i, like cs (snd (stop_chans th i size cs)).
Proof.
  intros size cs. induction cs as [|c cs IH]; intros th i; cbn [stop_chans]; [constructor|]. destruct (size <=? i); [apply like_refl|].
  pose proof (IH th (i + 1)) as A. pose proof (IH (fun _ => Up) (i + 1)) as B. destruct (stop_chans th (i + 1) size cs) as [r l]. destruct (stop_chans (fun _ => Up) (i + 1) size cs) as [r2 l2]. cbn [snd] in A, B.
  destruct (pc_type (lc_p c) =? CHANNEL_SYNC); [constructor; [reflexivity|exact A]|]. destruct (pc_type (lc_p c) =? CHANNEL_ASYNC); [|apply like_refl].
  destruct (th i); try apply like_refl; constructor; try reflexivity; assumption.
Qed.
Lemma like_wf : forall e m cs, shm_wf e m -> like (sm_chans m) cs -> shm_wf e (mkShmem (sm_seg m) (sm_size m) cs).
Proof.
  intros e m cs W K. apply (wf_change e m); [exact W|reflexivity|cbn [sm_chans]; symmetry; exact (like_len _ _ K)|].
  intros i c' N. destruct (like_nth _ _ i c' K N) as (c & NC & ->). exists c. auto.
Qed.
Lemma start_inv : forall e th g r g', inv e g -> start_logger e th g = (r, g') -> inv e g'.
Proof.
  intros e th g r g' I H. unfold start_logger in H. destruct (negb (lg_state g =? LOGGER_STATE_UNINIT)); [injection H as _ <-; exact I|].
  destruct (lg_shm g) as [m|] eqn:SM; [|injection H as _ <-; exact I]. destruct ((x_maxch (y_pe e) <? sm_size m) || (sm_size m <=? 0)) eqn:Q; [injection H as _ <-; exact I|].
  pose proof (iv_shm e g I m SM) as W. pose proof (start_like th (sm_size m) (sm_chans m) 0) as LK. destruct (start_chans th 0 (sm_size m) (sm_chans m)) as [r0 cs]. cbn [snd] in LK.
  assert (K : forall st cs', like (sm_chans m) cs' -> inv e (set_state (set_chans g m cs') st)).
  { intros st cs' LK'. split; [intros m' EQ; injection EQ as <-; apply like_wf; assumption|]. intros _. eexists. split; [reflexivity|]. cbn [sm_size]. lia. }
  pose proof (stop_like (sm_size m) cs th 0) as LS. destruct (stop_chans th 0 (sm_size m) cs) as [r1 cs1]. cbn [snd] in LS. pose proof (like_trans _ _ _ LK LS) as LT.
  destruct r0 as [z| |]; [destruct z; [|destruct r1|destruct r1]| |]; injection H as _ <-; apply K; assumption.
Qed.
Lemma stop_inv : forall e g r g', inv e g -> stop_logger e g = Ret (r, g') -> inv e g'.
Proof.
  intros e g r g' I H. unfold stop_logger in H. destruct (lg_shm g) as [m|] eqn:SM; [|discriminate]. destruct ((x_maxch (y_pe e) <? sm_size m) || (sm_size m <=? 0)) eqn:Q; [injection H as _ <-; exact I|].
  destruct (negb (lg_state g =? LOGGER_STATE_RUNNING)); [injection H as _ <-; exact I|]. pose proof (stop_like (sm_size m) (sm_chans m) (fun _ => Up) 0) as LS.
  destruct (stop_chans (fun _ => Up) 0 (sm_size m) (sm_chans m)) as [r1 cs1]. injection H as _ <-. split; [intros m' EQ; injection EQ as <-; apply like_wf; [exact (iv_shm e g I m SM)|exact LS]|discriminate].
Qed.

(* ---- hot update ---- *)
Lemma inc_len : forall l i v, 0 <= i < zlen l -> zlen (inc l i v) = zlen l.
Proof. intros l i v H. unfold inc. rewrite cput_put. unfold zlen in *. rewrite put_nth_len; lia. Qed.
Lemma inc_other : forall l i v j, 0 <= i < zlen l -> j <> Z.to_nat i -> nth_error (inc l i v) j = nth_error l j.
Proof. intros l i v j H N. unfold inc. rewrite cput_put. apply put_nth_other; [unfold zlen in H; lia|exact N]. Qed.
Lemma inc_same : forall l i v x, 0 <= i -> nth_error l (Z.to_nat i) = Some x -> nth_error (inc l i v) (Z.to_nat i) = Some (x + v).
Proof.
  intros l i v x H N. unfold inc. rewrite cput_put, put_nth_same by (apply nth_error_Some; congruence). f_equal. f_equal. unfold fld. apply nth_error_nth. exact N.
Qed.
Lemma merged_order : forall dst src ds, in_order dst -> in_order src -> (forall k, nth_error ds k = merged (nth_error dst k) (nth_error src k)) -> in_order ds.
Proof.
  intros dst src ds A B N k d H. rewrite N in H. destruct (nth_error dst k) as [x|] eqn:X; destruct (nth_error src k) as [y|] eqn:Y; cbn in H; try discriminate; injection H as <-; cbn [pd_id]; eauto.
Qed.
Lemma merged_len : forall dst src ds, (forall k, nth_error ds k = merged (nth_error dst k) (nth_error src k)) -> zlen ds = Z.max (zlen dst) (zlen src).
Proof.
  intros dst src ds N. assert (Q : forall k, (k < length ds)%nat <-> (k < length dst \/ k < length src)%nat).
  { intros k. rewrite <- !nth_error_Some. rewrite N. destruct (nth_error dst k), (nth_error src k); cbn; intuition congruence. }
  unfold zlen. pose proof (Q (length ds)). pose proof (Q (Nat.max (length dst) (length src))). pose proof (Q (length ds - 1)%nat). lia.
Qed.
Lemma merge_all : forall maxdev src dst, in_order dst -> in_order src -> zlen src <= maxdev ->
  exists ds, hot_devs maxdev 0 src dst = Ret (0, ds) /\ forall k, nth_error ds k = merged (nth_error dst k) (nth_error src k).
Proof.
  intros maxdev src dst A B M. destruct (hot_devs_merge maxdev src O dst A (Nat.le_0_l _)) as (ds & E & N); [intros k s0 K; exact (B k s0 K)|exact M|].
  exists ds. split; [exact E|]. intros k. rewrite N. cbn. rewrite Nat.sub_0_r. reflexivity.
Qed.
Lemma put_wf : forall e m id c', shm_wf e m -> (id < length (sm_chans m))%nat -> log_wf (x_maxdev (y_pe e)) c' -> (Z.of_nat id < sm_size m -> chan_fit (x_maxdev (y_pe e)) id (lc_p c')) ->
  shm_wf e (mkShmem (sm_seg m) (sm_size m) (put_nth (sm_chans m) id c')).
Proof.
  intros e m id c' [L S0 LO FI] I A B. split; cbn [sm_chans sm_size].
  - unfold zlen in *. rewrite put_nth_len by exact I. exact L.
  - exact S0.
  - apply Forall_forall. intros x IN. apply In_nth_error in IN. destruct IN as [i N]. destruct (Nat.eq_dec i id) as [-> |NE].
    + rewrite put_nth_same in N by exact I. injection N as <-. exact A.
    + rewrite put_nth_other in N by assumption. rewrite Forall_forall in LO. exact (LO x (nth_error_In _ _ N)).
  - intros i c N SI. destruct (Nat.eq_dec i id) as [-> |NE].
    + rewrite put_nth_same in N by exact I. injection N as <-. exact (B SI).
    + rewrite put_nth_other in N by assumption. exact (FI i c N SI).
Qed.
Lemma hot_inv : forall e g id now file r g', lenv_ok e -> inv e g -> hot_update e g (Z.of_nat id) now file = Ret (r, g') -> inv e g'.
Proof.
  intros e g id now file r g' E I H. unfold hot_update in H. destruct (lg_shm g) as [m|] eqn:SM; [|discriminate]. pose proof (iv_shm e g I m SM) as W.
  destruct (sm_size m <=? Z.of_nat id) eqn:SZ; [injection H as _ <-; exact I|]. destruct (negb (lg_hot g)); [injection H as _ <-; exact I|]. destruct (zlen (lg_path g) =? 0); [injection H as _ <-; exact I|].
  replace (Z.to_nat (Z.of_nat id)) with id in H by lia. destruct (nth_error (sm_chans m) id) as [c|] eqn:NC; [|discriminate]. destruct (now - lc_check c <? 5); [injection H as _ <-; exact I|].
  assert (LI : (id < length (sm_chans m))%nat) by (apply nth_error_Some; congruence).
  pose proof (sw_fit e m W id c NC ltac:(lia)) as F. pose proof (sw_logs e m W) as LG. rewrite Forall_forall in LG. specialize (LG c (nth_error_In _ _ NC)). destruct LG as (L1 & L2 & L3).
  assert (K : forall c' h, log_wf (x_maxdev (y_pe e)) c' -> chan_fit (x_maxdev (y_pe e)) id (lc_p c') ->
     inv e (mkLg (lg_state g) h (lg_path g) (lg_name g) (lg_desc g) (lg_key g) (Some (mkShmem (sm_seg m) (sm_size m) (put_nth (sm_chans m) id c'))))).
  { intros c' h A B. split; [intros m' EQ; injection EQ as <-; apply put_wf; auto|]. intros R. eexists. split; [reflexivity|]. cbn [sm_size]. destruct (iv_run e g I R) as (m' & EQ & Z1). congruence. }
  assert (W1 : forall mt, log_wf (x_maxdev (y_pe e)) (mkLchan (lc_p c) (lc_state c) mt now (inc (lc_log c) CHANNEL_LOG_HOTUPDATE_CHECK 1) (lc_dlog c))) by (intros mt; split; [cbn [lc_log]; rewrite inc_len by (rewrite L1; unfold CHANNEL_LOG_HOTUPDATE_CHECK; lia); exact L1|split; assumption]).
  destruct file as [[mt t]|]; [|injection H as _ <-; apply K; [apply W1|exact F]]. cbn [lc_mtime] in H.
  destruct (mt =? lc_mtime c); [injection H as _ <-; apply K; [apply W1|exact F]|]. destruct (negb (lg_state g =? LOGGER_STATE_RUNNING)); [injection H as _ <-; apply K; [apply W1|exact F]|].
  destruct (parse_logger (y_fuel e) (y_pe e) (y_old e) t) as [[ret s]| |] eqn:P; cbn [bind] in H; try discriminate.
  destruct (negb (ret =? PEC_NONE)) eqn:R0; [injection H as _ <-; apply K; [apply W1|exact F]|].
  assert (ret = 0) by (unfold PEC_NONE in R0; lia). subst ret. destruct (parsed_fit e t s E P) as [M FIT]. cbn [set_mtime lc_p lc_state lc_check lc_log lc_dlog lc_mtime] in H.
  set (src := nth id (s_chs s) (chan0 0)) in *. destruct F as (F1 & F2 & F3 & F4).
  assert (B : in_order (pc_devs src) /\ zlen (pc_devs src) <= x_maxdev (y_pe e)).
  { unfold src. destruct (nth_error (s_chs s) id) as [p|] eqn:NP; [rewrite (nth_error_nth _ _ _ NP); destruct (FIT id p NP) as (_ & A & B & _); auto|]. apply nth_error_None in NP. rewrite nth_overflow by exact NP. pose proof (lo_maxdev e E). split; [intros i d D; destruct i; discriminate|exact H0]. }
  destruct B as [B1 B2]. destruct (negb (pc_id (lc_p c) =? pc_id src) || negb (pc_id src =? Z.of_nat id)); [injection H as _ <-; apply K; [apply W1|split; [exact F1|]; auto]|].
  destruct (merge_all (x_maxdev (y_pe e)) (pc_devs src) (pc_devs (lc_p c)) F2 B1 B2) as (ds & HD & ND). rewrite HD in H. cbn [bind] in H. injection H as _ <-. apply K.
  - split; [cbn [lc_log]|split; assumption]. change (0 =? 0) with true. cbn iota. assert (L0 : zlen (inc (lc_log c) CHANNEL_LOG_HOTUPDATE_CHECK 1) = 25) by (rewrite inc_len by (rewrite L1; unfold CHANNEL_LOG_HOTUPDATE_CHECK; lia); exact L1).
    rewrite inc_len by (rewrite L0; unfold CHANNEL_LOG_HOTUPDATE_CHANGE; lia). exact L0.
  - cbn [lc_p]. split; [exact F1|]. cbn [pc_devs pc_type]. split; [exact (merged_order _ _ _ F2 B1 ND)|]. split; [rewrite (merged_len _ _ _ ND); lia|exact F4].
Qed.
Lemma call_inv : forall e g c r g', lenv_ok e -> inv e g -> do_call e g c = Ret (r, g') -> inv e g'.
Proof.
  intros e g c r g' E I H.
  assert (TS : forall th o, (forall z g1, o = Ret (z, g1) -> inv e g1) -> then_start e th g o = Ret (r, g') -> inv e g').
  { intros th o A B. unfold then_start in B. destruct (negb (lg_state g =? LOGGER_STATE_UNINIT)); [injection B as _ <-; exact I|]. destruct o as [[z g1]| |]; cbn [bind] in B; try discriminate. specialize (A z g1 eq_refl).
    destruct (negb (z =? 0)); injection B; [intros <- _; exact A|]. intros EQ. exact (start_inv e th g1 r g' A EQ). }
  destruct c as [th t|th path file|th| |id now file]; cbn [do_call] in H.
  - apply (TS th (init_yaml e g t [])); [|exact H]. intros z g1 Y. exact (proj1 (proj2 (init_yaml_cases e g t [] z g1 E I Y))).
  - apply (TS th (init_file e g path file)); [|exact H]. intros z g1 Y. exact (proj1 (proj2 (init_file_cases e g path file z g1 E I Y))).
  - injection H as EQ. exact (start_inv e th g r g' I EQ).
  - exact (stop_inv e g r g' I H).
  - destruct (hot_update e g (Z.of_nat id) now file) as [[z g1]| |] eqn:HU; cbn [bind] in H; try discriminate. injection H as _ <-. exact (hot_inv e g id now file z g1 E I HU).
Qed.
Lemma reach_inv : forall e g, lenv_ok e -> reach e g -> inv e g.
Proof. intros e g E R. induction R as [name|g c r g' R IH H NB]; [apply inv_new|exact (call_inv e g c r g' E IH H)]. Qed.

Lemma chan_at_nth : forall g m i, lg_shm g = Some m -> chan_at g i = if (i <? Z.to_nat (sm_size m))%nat then nth_error (sm_chans m) i else None.
Proof.
  intros g m i E. unfold chan_at, chans. rewrite E. destruct (Nat.ltb_spec i (Z.to_nat (sm_size m))); [apply nth_error_firstn; assumption|].
  apply nth_error_None. rewrite firstn_length. lia.
Qed.
Lemma chan_at_some : forall g i c, chan_at g i = Some c -> exists m, lg_shm g = Some m /\ (i < Z.to_nat (sm_size m))%nat /\ nth_error (sm_chans m) i = Some c.
Proof.
  intros g i c H. destruct (lg_shm g) as [m|] eqn:E; [|unfold chan_at, chans in H; rewrite E in H; destruct i; discriminate]. rewrite (chan_at_nth g m i E) in H.
  destruct (Nat.ltb_spec i (Z.to_nat (sm_size m))); [|discriminate]. eauto.
Qed.
Lemma chan_at_put : forall g m id c' h j, lg_shm g = Some m -> (id < length (sm_chans m))%nat -> (id < Z.to_nat (sm_size m))%nat ->
  chan_at (mkLg (lg_state g) h (lg_path g) (lg_name g) (lg_desc g) (lg_key g) (Some (mkShmem (sm_seg m) (sm_size m) (put_nth (sm_chans m) id c')))) j =
  if (j =? id)%nat then Some c' else chan_at g j.
Proof.
  intros g m id c' h j E L L2. erewrite chan_at_nth by reflexivity. rewrite (chan_at_nth g m j E). cbn [sm_size sm_chans]. destruct (Nat.eqb_spec j id) as [-> |NE].
  - rewrite put_nth_same by exact L. replace (id <? Z.to_nat (sm_size m))%nat with true by lia. reflexivity.
  - rewrite put_nth_other by assumption. reflexivity.
Qed.
Lemma checked_counters : forall c c1 n, zlen (lc_log c) = 25 -> lc_dlog c1 = lc_dlog c -> (lc_log c1 = inc (lc_log c) CHANNEL_LOG_HOTUPDATE_CHECK 1 \/ lc_log c1 = inc (inc (lc_log c) CHANNEL_LOG_HOTUPDATE_CHECK 1) CHANNEL_LOG_HOTUPDATE_CHANGE n) -> same_counters c c1.
Proof.
  intros c c1 n L D H. split; [exact D|]. intros i A B.
  assert (L0 : zlen (inc (lc_log c) CHANNEL_LOG_HOTUPDATE_CHECK 1) = 25) by (rewrite inc_len by (rewrite L; unfold CHANNEL_LOG_HOTUPDATE_CHECK; lia); exact L).
  destruct H as [-> | ->].
  - apply inc_other; [rewrite L; unfold CHANNEL_LOG_HOTUPDATE_CHECK; lia|exact A].
  - rewrite inc_other; [|rewrite L0; unfold CHANNEL_LOG_HOTUPDATE_CHANGE; lia|exact B]. apply inc_other; [rewrite L; unfold CHANNEL_LOG_HOTUPDATE_CHECK; lia|exact A].
Qed.
Lemma same_logger_refl : forall g, same_logger g g.
Proof. intros g. repeat split. Qed.

Lemma path_nonempty : forall l : text, l <> [] -> (zlen l =? 0) = false.
Proof. intros [|x l] H; [congruence|]. rewrite zlen_cons. pose proof (zlen_nonneg _ l). lia. Qed.
(* a check that is due, up to the parser's answer *)
Lemma hot_due : forall e g id now mt t c m, lg_shm g = Some m -> (id < Z.to_nat (sm_size m))%nat -> nth_error (sm_chans m) id = Some c ->
  lg_hot g = true -> lg_path g <> [] -> lg_state g = LOGGER_STATE_RUNNING -> 5 <= now - lc_check c -> mt <> lc_mtime c ->
  let c1 mt := mkLchan (lc_p c) (lc_state c) mt now (inc (lc_log c) CHANNEL_LOG_HOTUPDATE_CHECK 1) (lc_dlog c) in
  let put h c := mkLg (lg_state g) h (lg_path g) (lg_name g) (lg_desc g) (lg_key g) (Some (mkShmem (sm_seg m) (sm_size m) (put_nth (sm_chans m) id c))) in
  hot_update e g (Z.of_nat id) now (Some (mt, t)) =
  (let! r := parse_logger (y_fuel e) (y_pe e) (y_old e) t in
   let '(ret, s) := r in
   if negb (ret =? PEC_NONE) then Ret (ret, put (lg_hot g) (c1 (lc_mtime c)))
   else
     let src := nth id (s_chs s) (chan0 0) in
     if negb (pc_id (lc_p c) =? pc_id src) || negb (pc_id src =? Z.of_nat id) then Ret (E_VERSION_MISMATCH, put (s_hot s) (c1 mt))
     else
       let! r := hot_devs (x_maxdev (y_pe e)) 0 (pc_devs src) (pc_devs (lc_p c)) in
       let '(ret, ds) := r in
       Ret (ret, put (s_hot s) (mkLchan (mkPchan (pc_id (lc_p c)) (pc_type (lc_p c)) (pc_virtual (lc_p c)) (pc_cfg src) ds) (lc_state c) mt now
          (if ret =? 0 then inc (inc (lc_log c) CHANNEL_LOG_HOTUPDATE_CHECK 1) CHANNEL_LOG_HOTUPDATE_CHANGE 1 else inc (lc_log c) CHANNEL_LOG_HOTUPDATE_CHECK 1) (lc_dlog c)))).
Proof.
  intros e g id now mt t c m SM LI NC HT PA ST DU MT c1 put. unfold hot_update. rewrite SM. replace (sm_size m <=? Z.of_nat id) with false by lia. rewrite HT. cbn [negb].
  rewrite (path_nonempty _ PA). replace (Z.to_nat (Z.of_nat id)) with id by lia. rewrite NC.
  replace (now - lc_check c <? 5) with false by lia. cbn [lc_mtime]. replace (mt =? lc_mtime c) with false by lia. replace (lg_state g =? LOGGER_STATE_RUNNING) with true by lia. cbn [negb].
  unfold put, c1. rewrite <- HT. reflexivity.
Qed.
Lemma hot_applied : forall e g id now mt t c s p, lenv_ok e -> inv e g -> chan_at g id = Some c ->
  lg_hot g = true -> lg_path g <> [] -> lg_state g = LOGGER_STATE_RUNNING -> 5 <= now - lc_check c -> mt <> lc_mtime c ->
  parse_logger (y_fuel e) (y_pe e) (y_old e) t = Ret (0, s) -> nth_error (s_chs s) id = Some p ->
  exists g' c', hot_update e g (Z.of_nat id) now (Some (mt, t)) = Ret (0, g') /\ chan_at g' id = Some c' /\ updated (x_maxdev (y_pe e)) c p c' /\
    lc_mtime c' = mt /\ lc_check c' = now /\ (forall j, j <> id -> chan_at g' j = chan_at g j) /\ same_logger g g' /\ lg_hot g' = s_hot s /\
    pc_virtual (lc_p c') = pc_virtual (lc_p c) /\
    (forall i x, i = 23%nat \/ i = 24%nat -> nth_error (lc_log c) i = Some x -> nth_error (lc_log c') i = Some (x + 1)).
Proof.
  intros e g id now mt t c s p E IV CA HT PA ST DU MT P NP. destruct (chan_at_some g id c CA) as (m & SM & LI & NC). rewrite (hot_due e g id now mt t c m SM LI NC HT PA ST DU MT). rewrite P. cbn [bind].
  change (negb (0 =? PEC_NONE)) with false. cbn iota zeta. rewrite (nth_error_nth _ _ _ NP). pose proof (iv_shm e g IV m SM) as W. destruct (sw_fit e m W id c NC ltac:(lia)) as (F1 & F2 & F3 & F4).
  destruct (parsed_fit e t s E P) as [M FIT]. destruct (FIT id p NP) as (G1 & G2 & G3 & G4). rewrite F1, G1, !Z.eqb_refl. cbn [negb orb].
  destruct (merge_all (x_maxdev (y_pe e)) (pc_devs p) (pc_devs (lc_p c)) F2 G2 G3) as (ds & HD & ND). rewrite HD. cbn [bind]. change (0 =? 0) with true. cbn iota.
  assert (LL : (id < length (sm_chans m))%nat) by (apply nth_error_Some; congruence). pose proof (sw_logs e m W) as LG. rewrite Forall_forall in LG. destruct (LG c (nth_error_In _ _ NC)) as (L1 & L2 & L3).
  eexists. eexists. split; [reflexivity|]. split; [rewrite (chan_at_put g m id _ _ id SM LL LI), Nat.eqb_refl; reflexivity|].
  split; [|split; [reflexivity|split; [reflexivity|split; [|split; [repeat split|split; [reflexivity|split; [reflexivity|]]]]]]].
  - split; [reflexivity|]. split; [exact ND|]. split; [cbn [lc_p pc_devs]; rewrite (merged_len _ _ _ ND); lia|]. split; [cbn [lc_p pc_id]; symmetry; exact F1|]. split; [reflexivity|]. split; [reflexivity|].
    apply (checked_counters c _ 1 L1); [reflexivity|right; reflexivity].
  - intros j NJ. rewrite (chan_at_put g m id _ _ j SM LL LI). replace (j =? id)%nat with false by lia. reflexivity.
  - cbn [lc_log]. assert (L0 : zlen (inc (lc_log c) CHANNEL_LOG_HOTUPDATE_CHECK 1) = 25) by (rewrite inc_len by (rewrite L1; unfold CHANNEL_LOG_HOTUPDATE_CHECK; lia); exact L1).
    intros i x [-> | ->] N.
    + rewrite inc_other; [|rewrite L0; unfold CHANNEL_LOG_HOTUPDATE_CHANGE; lia|unfold CHANNEL_LOG_HOTUPDATE_CHANGE; lia]. exact (inc_same (lc_log c) 23 1 x ltac:(lia) N).
    + apply (inc_same _ 24 1 x ltac:(lia)). rewrite <- N. apply inc_other; [rewrite L1; unfold CHANNEL_LOG_HOTUPDATE_CHECK; lia|unfold CHANNEL_LOG_HOTUPDATE_CHECK; lia].
Qed.
Lemma hot_rejected : forall e g id now mt t c s z, lenv_ok e -> inv e g -> chan_at g id = Some c ->
  lg_hot g = true -> lg_path g <> [] -> lg_state g = LOGGER_STATE_RUNNING -> 5 <= now - lc_check c -> mt <> lc_mtime c ->
  parse_logger (y_fuel e) (y_pe e) (y_old e) t = Ret (z, s) -> z <> 0 ->
  exists g' c', hot_update e g (Z.of_nat id) now (Some (mt, t)) = Ret (z, g') /\ chan_at g' id = Some c' /\ lc_p c' = lc_p c /\ lc_state c' = lc_state c /\
    lc_mtime c' = lc_mtime c /\ same_counters c c' /\ (forall j, j <> id -> chan_at g' j = chan_at g j) /\ same_logger g g' /\ lg_hot g' = true.
Proof.
  intros e g id now mt t c s z E IV CA HT PA ST DU MT P NZ. destruct (chan_at_some g id c CA) as (m & SM & LI & NC). rewrite (hot_due e g id now mt t c m SM LI NC HT PA ST DU MT). rewrite P. cbn [bind].
  replace (negb (z =? PEC_NONE)) with true by (unfold PEC_NONE; lia). assert (LL : (id < length (sm_chans m))%nat) by (apply nth_error_Some; congruence).
  pose proof (sw_logs e m (iv_shm e g IV m SM)) as LG. rewrite Forall_forall in LG. destruct (LG c (nth_error_In _ _ NC)) as (L1 & L2 & L3).
  eexists. eexists. split; [reflexivity|]. split; [rewrite (chan_at_put g m id _ _ id SM LL LI), Nat.eqb_refl; reflexivity|]. repeat (split; [reflexivity|]).
  split; [apply (checked_counters c _ 0 L1); [reflexivity|left; reflexivity]|]. split; [|split; [repeat split|exact HT]].
  intros j NJ. rewrite (chan_at_put g m id _ _ j SM LL LI). replace (j =? id)%nat with false by lia. reflexivity.
Qed.

(* ---- the checks of all channels ---- *)
(* channel [i] has been updated *)
Definition fresh (e : lenv) (g : lg) (mt : Z) (s : lstate) (i : nat) (g' : lg) : Prop :=
  exists c c' p, chan_at g i = Some c /\ chan_at g' i = Some c' /\ lc_mtime c' = mt /\ nth_error (s_chs s) i = Some p /\ updated (x_maxdev (y_pe e)) c p c'.
(* every channel is as it was or has been updated *)
Definition midway (e : lenv) (g : lg) (mt : Z) (s : lstate) (g' : lg) : Prop :=
  inv e g' /\ same_logger g g' /\ lg_hot g' = true /\
  (forall i, chan_at g i = None -> chan_at g' i = None) /\
  forall i c, chan_at g i = Some c -> chan_at g' i = Some c \/ fresh e g mt s i g'.
Lemma same_counters_trans : forall a b c, same_counters a b -> same_counters b c -> same_counters a c.
Proof. intros a b c [A B] [C D]. split; [congruence|]. intros i N1 N2. rewrite D, B by assumption. reflexivity. Qed.
Lemma hot_outside : forall e g id now file, inv e g -> lg_state g = LOGGER_STATE_RUNNING -> chan_at g id = None -> hot_update e g (Z.of_nat id) now file = Ret (E_INVALID_CHANNEL_SIZE, g).
Proof.
  intros e g id now file IV ST CA. destruct (iv_run e g IV ST) as (m & SM & SZ). unfold hot_update. rewrite SM. rewrite (chan_at_nth g m id SM) in CA. destruct (iv_shm e g IV m SM) as [L S0 _ _].
  destruct (Nat.ltb_spec id (Z.to_nat (sm_size m))); [apply nth_error_None in CA; unfold zlen in *; lia|]. replace (sm_size m <=? Z.of_nat id) with true by lia. reflexivity.
Qed.
Lemma hot_early : forall e g id now file c, chan_at g id = Some c -> lg_hot g = true -> lg_path g <> [] -> now - lc_check c < 5 -> hot_update e g (Z.of_nat id) now file = Ret (0, g).
Proof.
  intros e g id now file c CA HT PA NW. destruct (chan_at_some g id c CA) as (m & SM & LI & NC). unfold hot_update. rewrite SM. replace (sm_size m <=? Z.of_nat id) with false by lia. rewrite HT. cbn [negb].
  rewrite (path_nonempty _ PA). replace (Z.to_nat (Z.of_nat id)) with id by lia. rewrite NC. replace (now - lc_check c <? 5) with true by lia. reflexivity.
Qed.
Lemma hot_same_time : forall e g id now mt t c, inv e g -> chan_at g id = Some c -> lg_hot g = true -> lg_path g <> [] -> 5 <= now - lc_check c -> mt = lc_mtime c ->
  exists g' c', hot_update e g (Z.of_nat id) now (Some (mt, t)) = Ret (E_CONFIG_NO_CHANGE, g') /\ chan_at g' id = Some c' /\ lc_p c' = lc_p c /\ lc_state c' = lc_state c /\ lc_mtime c' = lc_mtime c /\ same_counters c c' /\
    (forall j, j <> id -> chan_at g' j = chan_at g j) /\ same_logger g g' /\ lg_hot g' = true.
Proof.
  intros e g id now mt t c IV CA HT PA DU MT. destruct (chan_at_some g id c CA) as (m & SM & LI & NC). unfold hot_update. rewrite SM. replace (sm_size m <=? Z.of_nat id) with false by lia. rewrite HT. cbn [negb].
  rewrite (path_nonempty _ PA). replace (Z.to_nat (Z.of_nat id)) with id by lia. rewrite NC. replace (now - lc_check c <? 5) with false by lia. cbn [lc_mtime]. replace (mt =? lc_mtime c) with true by lia.
  assert (LL : (id < length (sm_chans m))%nat) by (apply nth_error_Some; congruence). pose proof (sw_logs e m (iv_shm e g IV m SM)) as LG. rewrite Forall_forall in LG. destruct (LG c (nth_error_In _ _ NC)) as (L1 & L2 & L3).
  eexists. eexists. split; [reflexivity|]. unfold set_shm. split; [rewrite (chan_at_put g m id _ _ id SM LL LI), Nat.eqb_refl; reflexivity|]. repeat (split; [reflexivity|]).
  split; [apply (checked_counters c _ 0 L1); [reflexivity|left; reflexivity]|]. split; [|split; [repeat split|exact HT]].
  intros j NJ. rewrite (chan_at_put g m id _ _ j SM LL LI). replace (j =? id)%nat with false by lia. reflexivity.
Qed.
Lemma same_logger_trans : forall a b c, same_logger a b -> same_logger b c -> same_logger a c.
Proof. intros a b c (A1 & A2 & A3 & A4 & A5) (B1 & B2 & B3 & B4 & B5). repeat split; congruence. Qed.
Lemma fresh_other : forall e g mt s i g' g'', chan_at g'' i = chan_at g' i -> fresh e g mt s i g' -> fresh e g mt s i g''.
Proof. intros e g mt s i g' g'' EQ (c & c' & p & A & B & C). exists c, c', p. rewrite EQ. auto. Qed.
Lemma check_step : forall e g mt t s g' id now, lenv_ok e -> lg_path g <> [] -> lg_state g = LOGGER_STATE_RUNNING ->
  parse_logger (y_fuel e) (y_pe e) (y_old e) t = Ret (0, s) -> s_hot s = true ->
  (forall i c, chan_at g i = Some c -> lc_mtime c <> mt /\ exists p, nth_error (s_chs s) i = Some p) ->
  midway e g mt s g' ->
  exists r g'', hot_update e g' (Z.of_nat id) now (Some (mt, t)) = Ret (r, g'') /\ midway e g mt s g'' /\ (forall i, fresh e g mt s i g' -> fresh e g mt s i g'') /\
    (forall c, chan_at g id = Some c -> 5 <= now - lc_check c -> fresh e g mt s id g'').
Proof.
  intros e g mt t s g' id now E PA ST P HS NEW MW. pose proof MW as (IV & SL & HT & OUT & IN). pose proof SL as (ST' & PA' & _).
  assert (PG : lg_path g' <> []) by congruence. assert (SG : lg_state g' = LOGGER_STATE_RUNNING) by congruence.
  assert (STAY : forall g2 c, chan_at g id = Some c -> inv e g2 -> same_logger g' g2 -> lg_hot g2 = true -> (forall j, j <> id -> chan_at g2 j = chan_at g' j) -> fresh e g mt s id g2 ->
    midway e g mt s g2 /\ (forall i, fresh e g mt s i g' -> fresh e g mt s i g2)).
  { intros g2 c CA I2 S2 H2 OT FR. split.
    - split; [exact I2|]. split; [exact (same_logger_trans _ _ _ SL S2)|]. split; [exact H2|]. split.
      + intros i NI. destruct (Nat.eq_dec i id) as [-> |NE]; [congruence|]. rewrite OT by exact NE. auto.
      + intros i c0 C0. destruct (Nat.eq_dec i id) as [-> |NE]; [right; exact FR|]. destruct (IN i c0 C0) as [A|A]; [left; rewrite OT by exact NE; exact A|right; exact (fresh_other e g mt s i g' g2 (OT i NE) A)].
    - intros i FI. destruct (Nat.eq_dec i id) as [-> |NE]; [exact FR|]. exact (fresh_other e g mt s i g' g2 (OT i NE) FI). }
  destruct (chan_at g id) as [c|] eqn:CA.
  - destruct (IN id c CA) as [CG|FR].
    + destruct (Z_lt_ge_dec (now - lc_check c) 5) as [EA|DU].
      * exists 0, g'. split; [exact (hot_early e g' id now _ c CG HT PG EA)|]. split; [exact MW|]. split; [auto|]. intros c0 C0 D0. injection C0 as <-. lia.
      * destruct (NEW id c CA) as (MT & p & NP). destruct (hot_applied e g' id now mt t c s p E IV CG HT PG SG ltac:(lia) ltac:(congruence) P NP) as (g2 & c2 & HU & C2 & UP & M2 & _ & OT & S2 & H2 & _).
        assert (FR : fresh e g mt s id g2) by (exists c, c2, p; auto). destruct (STAY g2 c eq_refl (hot_inv e g' id now _ 0 g2 E IV HU) S2 ltac:(congruence) OT FR) as [A B]. exists 0, g2. auto.
    + pose proof FR as (c0 & c1 & p & C0 & C1 & M1 & NP & UP). assert (c0 = c) by congruence. subst c0. destruct (Z_lt_ge_dec (now - lc_check c1) 5) as [EA|DU].
      * exists 0, g'. split; [exact (hot_early e g' id now _ c1 C1 HT PG EA)|]. split; [exact MW|]. split; [auto|]. intros. exact FR.
      * destruct (hot_same_time e g' id now mt t c1 IV C1 HT PG ltac:(lia) ltac:(congruence)) as (g2 & c2 & HU & C2 & LP & LS & LM & SC & OT & S2 & H2).
        assert (FR2 : fresh e g mt s id g2).
        { exists c, c2, p. split; [exact CA|]. split; [exact C2|]. split; [congruence|]. split; [exact NP|]. destruct UP as (U1 & U2 & U3 & U4 & U5 & U6 & U7). unfold updated. rewrite LP, LS. repeat (split; [assumption|]). exact (same_counters_trans _ _ _ U7 SC). }
        destruct (STAY g2 c eq_refl (hot_inv e g' id now _ _ g2 E IV HU) S2 H2 OT FR2) as [A B]. exists E_CONFIG_NO_CHANGE, g2. auto.
  - exists E_INVALID_CHANNEL_SIZE, g'. split; [exact (hot_outside e g' id now _ IV SG (OUT id CA))|]. split; [exact MW|]. split; [auto|]. discriminate.
Qed.
Lemma checks_all : forall e g mt t s l g', lenv_ok e -> lg_path g <> [] -> lg_state g = LOGGER_STATE_RUNNING ->
  parse_logger (y_fuel e) (y_pe e) (y_old e) t = Ret (0, s) -> s_hot s = true ->
  (forall i c, chan_at g i = Some c -> lc_mtime c <> mt /\ exists p, nth_error (s_chs s) i = Some p) ->
  midway e g mt s g' ->
  exists g'', checks e g' (Some (mt, t)) l = Ret g'' /\ midway e g mt s g'' /\ (forall i, fresh e g mt s i g' -> fresh e g mt s i g'') /\
    (forall id now c, In (id, now) l -> chan_at g id = Some c -> 5 <= now - lc_check c -> fresh e g mt s id g'').
Proof.
  intros e g mt t s l. induction l as [|[id now] l IH]; intros g' E PA ST P HS NEW MW.
  - exists g'. split; [reflexivity|]. split; [exact MW|]. split; [auto|]. intros id now c [].
  - destruct (check_step e g mt t s g' id now E PA ST P HS NEW MW) as (r & g2 & HU & MW2 & K2 & D2). destruct (IH g2 E PA ST P HS NEW MW2) as (g3 & CH & MW3 & K3 & D3).
    exists g3. cbn [checks]. rewrite HU. cbn [bind snd]. split; [exact CH|]. split; [exact MW3|]. split; [auto|].
    intros id0 now0 c [EQ|IN] CA DU; [injection EQ as <- <-; apply K3; exact (D2 c CA DU)|exact (D3 id0 now0 c IN CA DU)].
Qed.
Lemma checks_new : forall e g mt t s l, lenv_ok e -> inv e g -> lg_hot g = true -> lg_path g <> [] -> lg_state g = LOGGER_STATE_RUNNING ->
  parse_logger (y_fuel e) (y_pe e) (y_old e) t = Ret (0, s) -> s_hot s = true ->
  (forall i c, chan_at g i = Some c -> lc_mtime c <> mt /\ exists p, nth_error (s_chs s) i = Some p) ->
  (forall i c, chan_at g i = Some c -> exists now, In (i, now) l /\ 5 <= now - lc_check c) ->
  exists g', checks e g (Some (mt, t)) l = Ret g' /\ same_logger g g' /\
    forall i c, chan_at g i = Some c -> exists c' p, chan_at g' i = Some c' /\ nth_error (s_chs s) i = Some p /\ updated (x_maxdev (y_pe e)) c p c'.
Proof.
  intros e g mt t s l E IV HT PA ST P HS NEW DU. assert (M0 : midway e g mt s g) by (split; [exact IV|]; split; [apply same_logger_refl|]; split; [exact HT|]; split; auto).
  destruct (checks_all e g mt t s l g E PA ST P HS NEW M0) as (g' & CH & (_ & SL & _) & _ & D). exists g'. split; [exact CH|]. split; [exact SL|].
  intros i c CA. destruct (DU i c CA) as (now & IN & NW). destruct (D i now c IN CA NW) as (c0 & c' & p & A & B & _ & C & U). assert (c0 = c) by congruence. subst c0. eauto.
Qed.

(* ---- life cycle ---- *)
Lemma start_up : forall th size cs i, (forall j, th j = Up) -> (forall k c, nth_error cs k = Some c -> i + Z.of_nat k < size -> pc_type (lc_p c) = CHANNEL_ASYNC \/ pc_type (lc_p c) = CHANNEL_SYNC) ->
  fst (start_chans th i size cs) = Code 0 /\ forall k c, nth_error (snd (start_chans th i size cs)) k = Some c -> i + Z.of_nat k < size -> lc_state c = CHANNEL_STATE_RUNNING.
Proof.
  intros th size cs. induction cs as [|c cs IH]; intros i U T; cbn [start_chans]; [split; [reflexivity|intros [|k]; discriminate]|].
  destruct (Z.leb_spec size i); [split; [reflexivity|]; intros k c0 _ Q; lia|].
  specialize (IH (i + 1) U). destruct (start_chans th (i + 1) size cs) as [r l]. cbn [fst snd] in IH. destruct IH as [R N]; [intros k c0 K Q; apply (T (S k) c0 K); lia|]. subst r.
  assert (G : forall k c0, nth_error (with_state CHANNEL_STATE_RUNNING c :: l) k = Some c0 -> i + Z.of_nat k < size -> lc_state c0 = CHANNEL_STATE_RUNNING).
  { intros [|k] c0 K Q; [injection K as <-; reflexivity|]. apply (N k c0 K). lia. }
  rewrite U. destruct (T O c eq_refl ltac:(lia)) as [-> | ->]; cbn; auto.
Qed.
Lemma stop_ok : forall size cs th i, prompt th -> (forall k c, nth_error cs k = Some c -> i + Z.of_nat k < size -> pc_type (lc_p c) = CHANNEL_ASYNC \/ pc_type (lc_p c) = CHANNEL_SYNC) ->
  fst (stop_chans th i size cs) = Code 0 /\ forall k c, nth_error (snd (stop_chans th i size cs)) k = Some c -> i + Z.of_nat k < size -> lc_state c = CHANNEL_STATE_NULL.
Proof.
  intros size cs. induction cs as [|c cs IH]; intros th i U T; cbn [stop_chans]; [split; [reflexivity|intros [|k]; discriminate]|].
  destruct (Z.leb_spec size i); [split; [reflexivity|]; intros k c0 _ Q; lia|].
  assert (T' : forall k c0, nth_error cs k = Some c0 -> i + 1 + Z.of_nat k < size -> pc_type (lc_p c0) = CHANNEL_ASYNC \/ pc_type (lc_p c0) = CHANNEL_SYNC) by (intros k c0 K Q; apply (T (S k) c0 K); lia).
  pose proof (IH th (i + 1) U T') as [R N]. pose proof (IH (fun _ => Up) (i + 1) (fun _ => or_introl eq_refl) T') as [R2 N2].
  destruct (stop_chans th (i + 1) size cs) as [r l]. destruct (stop_chans (fun _ => Up) (i + 1) size cs) as [r2 l2]. cbn [fst snd] in *. subst r r2.
  assert (G : forall l, (forall k c, nth_error l k = Some c -> i + 1 + Z.of_nat k < size -> lc_state c = CHANNEL_STATE_NULL) -> forall k c0, nth_error (with_state CHANNEL_STATE_NULL c :: l) k = Some c0 -> i + Z.of_nat k < size -> lc_state c0 = CHANNEL_STATE_NULL).
  { intros l0 NN [|k] c0 K Q; [injection K as <-; reflexivity|]. apply (NN k c0 K). lia. }
  pose proof (G l N) as G1. pose proof (G l2 N2) as G2. destruct (T O c eq_refl ltac:(lia)) as [-> | ->]; cbn; [|split; [reflexivity|exact G1]].
  destruct (U i) as [-> | ->]; cbn; (split; [reflexivity|assumption]).
Qed.
Lemma like_types : forall e m cs, shm_wf e m -> like (sm_chans m) cs -> forall k c, nth_error cs k = Some c -> 0 + Z.of_nat k < sm_size m -> pc_type (lc_p c) = CHANNEL_ASYNC \/ pc_type (lc_p c) = CHANNEL_SYNC.
Proof.
  intros e m cs W LK k c N Q. destruct (like_nth _ _ k c LK N) as (c0 & N0 & ->). destruct (sw_fit e m W k c0 N0 ltac:(lia)) as (_ & _ & _ & T). exact T.
Qed.
Lemma start_code : forall th size cs i, prompt th -> exists z, fst (start_chans th i size cs) = Code z.
Proof.
  intros th size cs. induction cs as [|c cs IH]; intros i U; cbn [start_chans]; [eexists; reflexivity|]. destruct (size <=? i); [eexists; reflexivity|]. specialize (IH (i + 1) U). destruct (start_chans th (i + 1) size cs) as [r l].
  destruct (pc_type (lc_p c) =? CHANNEL_SYNC); [exact IH|]. destruct (pc_type (lc_p c) =? CHANNEL_ASYNC); [|eexists; reflexivity]. destruct (U i) as [-> | ->]; [exact IH|eexists; reflexivity].
Qed.
Lemma start_prompt : forall e th g r g', inv e g -> prompt th -> start_logger e th g = (r, g') -> lg_state g = LOGGER_STATE_UNINIT ->
  exists z, r = Code z /\ (z = 0 -> lg_state g' = LOGGER_STATE_RUNNING) /\ (z <> 0 -> lg_state g' = LOGGER_STATE_UNINIT).
Proof.
  intros e th g r g' IV U H ST. unfold start_logger in H. rewrite ST in H. change (negb (LOGGER_STATE_UNINIT =? LOGGER_STATE_UNINIT)) with false in H. cbn iota in H.
  destruct (lg_shm g) as [m|] eqn:SM; [|injection H as <- <-; eexists; split; [reflexivity|]; split; [discriminate|auto]].
  destruct ((x_maxch (y_pe e) <? sm_size m) || (sm_size m <=? 0)); [injection H as <- <-; eexists; split; [reflexivity|]; split; [discriminate|auto]|].
  pose proof (iv_shm e g IV m SM) as W. pose proof (start_like th (sm_size m) (sm_chans m) 0) as LK. destruct (start_code th (sm_size m) (sm_chans m) 0 U) as [z RZ]. destruct (start_chans th 0 (sm_size m) (sm_chans m)) as [r0 cs]. cbn [fst snd] in *. subst r0.
  pose proof (proj1 (stop_ok (sm_size m) cs th 0 U (like_types e m cs W LK))) as R1. destruct (stop_chans th 0 (sm_size m) cs) as [r1 cs1]. cbn [fst] in R1. subst r1.
  destruct z; injection H as <- <-; eexists; (split; [reflexivity|]); split; try reflexivity; try (intros; congruence); intros; lia.
Qed.
Lemma start_all_up : forall e th g, inv e g -> all_up th -> lg_state g = LOGGER_STATE_UNINIT -> (exists m, lg_shm g = Some m /\ 1 <= sm_size m) ->
  exists g', start_logger e th g = (Code 0, g') /\ lg_state g' = LOGGER_STATE_RUNNING /\ forall i c, chan_at g' i = Some c -> lc_state c = CHANNEL_STATE_RUNNING.
Proof.
  intros e th g IV U ST (m & SM & SZ). unfold start_logger. rewrite ST. change (negb (LOGGER_STATE_UNINIT =? LOGGER_STATE_UNINIT)) with false. cbn iota. rewrite SM. pose proof (iv_shm e g IV m SM) as W. pose proof (sw_size e m W).
  replace ((x_maxch (y_pe e) <? sm_size m) || (sm_size m <=? 0)) with false by lia. destruct (start_up th (sm_size m) (sm_chans m) 0 U (like_types e m _ W (like_refl _))) as [R N].
  destruct (start_chans th 0 (sm_size m) (sm_chans m)) as [r0 cs]. cbn [fst snd] in *. subst r0. eexists. split; [reflexivity|]. split; [reflexivity|].
  intros i c CA. destruct (chan_at_some _ i c CA) as (m' & EQ & LI & NC). injection EQ as <-. cbn [sm_chans sm_size] in *. apply (N i c NC). lia.
Qed.
Lemma stop_running : forall e g, inv e g -> lg_state g = LOGGER_STATE_RUNNING ->
  exists g', stop_logger e g = Ret (Code 0, g') /\ lg_state g' = LOGGER_STATE_UNINIT /\ (exists m, lg_shm g' = Some m /\ 1 <= sm_size m) /\ like (chans g) (chans g') /\ forall i c, chan_at g' i = Some c -> lc_state c = CHANNEL_STATE_NULL.
Proof.
  intros e g IV ST. destruct (iv_run e g IV ST) as (m & SM & SZ). unfold stop_logger. rewrite SM. pose proof (iv_shm e g IV m SM) as W. pose proof (sw_size e m W).
  replace ((x_maxch (y_pe e) <? sm_size m) || (sm_size m <=? 0)) with false by lia. rewrite ST. change (negb (LOGGER_STATE_RUNNING =? LOGGER_STATE_RUNNING)) with false. cbn iota.
  destruct (stop_ok (sm_size m) (sm_chans m) (fun _ => Up) 0 (fun _ => or_introl eq_refl) (like_types e m _ W (like_refl _))) as [R N]. pose proof (stop_like (sm_size m) (sm_chans m) (fun _ => Up) 0) as LK.
  destruct (stop_chans (fun _ => Up) 0 (sm_size m) (sm_chans m)) as [r0 cs]. cbn [fst snd] in *. eexists. split; [reflexivity|]. split; [reflexivity|]. split; [eexists; split; [reflexivity|exact SZ]|]. split.
  - unfold chans. rewrite SM. cbn [set_state set_chans set_shm lg_shm sm_size sm_chans]. clear - LK. revert LK. generalize (Z.to_nat (sm_size m)). generalize (sm_chans m). intros l n LK. revert n. induction LK as [|x y a b XY LK IH]; intros [|n]; cbn [firstn]; constructor; auto. apply IH.
  - intros i c CA. destruct (chan_at_some _ i c CA) as (m' & EQ & LI & NC). injection EQ as <-. cbn [sm_chans sm_size] in *. apply (N i c NC). lia.
Qed.

(* ---- restart ---- *)
Lemma init_yaml_keeps : forall e g t path g' m, inv e g -> lg_shm g = Some m -> init_yaml e g t path = Ret (0, g') ->
  exists s m', parse_logger (y_fuel e) (y_pe e) (y_old e) t = Ret (0, s) /\ lg_shm g' = Some m' /\ sm_size m' = zlen (s_chs s) /\ sm_chans m' = take_chans e (s_chs s) (sm_chans m) /\ lg_hot g' = s_hot s.
Proof.
  intros e g t path g' m IV SM H. unfold init_yaml in H. destruct (negb (lg_state g =? LOGGER_STATE_UNINIT)); [discriminate|].
  destruct (parse_logger (y_fuel e) (y_pe e) (y_old e) t) as [[ret s]| |] eqn:P; cbn [bind] in H; try discriminate.
  destruct (negb (ret =? PEC_NONE)) eqn:R0; [injection H as -> _; discriminate|]. assert (ret = 0) by (unfold PEC_NONE in R0; lia). subst ret.
  cbn [lg_shm] in H. rewrite SM in H. change (negb (0 =? 0)) with false in H. cbn iota in H. injection H as _ <-. exists s. eexists. split; [reflexivity|]. split; [reflexivity|]. repeat split.
Qed.

(* ---- what a load takes ---- *)
Lemma init_yaml_takes : forall e g t path g', lenv_ok e -> inv e g -> init_yaml e g t path = Ret (0, g') ->
  exists s m old, parse_logger (y_fuel e) (y_pe e) (y_old e) t = Ret (0, s) /\ lg_shm g' = Some m /\ sm_size m = zlen (s_chs s) /\ sm_chans m = take_chans e (s_chs s) old /\ zlen old = x_maxch (y_pe e) /\ 1 <= sm_size m /\
    lg_path g' = path /\ lg_hot g' = s_hot s /\ lg_key g' = s_shm s /\ lg_name g' = (if 0 <? zlen (s_name s) then s_name s else lg_name g) /\ lg_desc g' = (if 0 <? zlen (s_desc s) then s_desc s else lg_desc g) /\ lg_state g' = LOGGER_STATE_UNINIT.
Proof.
  intros e g t path g' E IV H. destruct (init_yaml_cases e g t path 0 g' E IV H) as (S1 & _ & Q). destruct (Q eq_refl) as (SU & m1 & SM1 & SZ1). unfold init_yaml in H. destruct (negb (lg_state g =? LOGGER_STATE_UNINIT)); [discriminate|].
  destruct (parse_logger (y_fuel e) (y_pe e) (y_old e) t) as [[ret s]| |] eqn:P; cbn [bind] in H; try discriminate.
  destruct (negb (ret =? PEC_NONE)) eqn:R0; [injection H as -> _; discriminate|]. assert (ret = 0) by (unfold PEC_NONE in R0; lia). subst ret. cbn [lg_shm lg_key] in H.
  assert (W : forall z m, match lg_shm g with Some m => (0, Some m) | None => load_shm e (s_shm s) end = (z, Some m) -> zlen (sm_chans m) = x_maxch (y_pe e)).
  { intros z m X. destruct (lg_shm g) as [m0|] eqn:SM; [injection X as _ <-; exact (sw_len e m0 (iv_shm e g IV m0 SM))|exact (proj1 (load_wf e _ z m E X))]. }
  destruct (match lg_shm g with Some m => (0, Some m) | None => load_shm e (s_shm s) end) as [z [m|]] eqn:X.
  - destruct (negb (z =? 0)) eqn:Z0; [injection H as -> _; discriminate|]. injection H as _ <-. cbn [set_shm lg_shm] in SM1. injection SM1 as <-. cbn [sm_size] in SZ1. exists s. eexists. exists (sm_chans m). split; [reflexivity|]. split; [reflexivity|]. split; [reflexivity|]. split; [reflexivity|].
    split; [exact (W z m eq_refl)|]. split; [exact SZ1|]. repeat (split; [reflexivity|]). exact SU.
  - injection H as _ <-. cbn [lg_shm] in SM1. rewrite SM1 in X. discriminate X.
Qed.
Lemma take_parsed : forall e new old, (length new <= length old)%nat -> map lc_p (firstn (length new) (take_chans e new old)) = new /\ Forall (fun c => lc_mtime c = 0 /\ lc_check c = 0) (firstn (length new) (take_chans e new old)).
Proof.
  intros e new. induction new as [|p new IH]; intros [|o old] L; cbn [length] in L; try lia; try (split; [reflexivity|constructor]).
  destruct (IH old ltac:(lia)) as [A B]. cbn [take_chans length firstn map lc_p]. split; [rewrite A; reflexivity|]. constructor; [split; reflexivity|exact B].
Qed.
Lemma like_firstn : forall a b n, like a b -> like (firstn n a) (firstn n b).
Proof. intros a b n H. revert n. induction H as [|x y a b XY H IH]; intros [|n]; cbn [firstn]; constructor; [exact XY|apply IH]. Qed.
Lemma like_map : forall a b, like a b -> map lc_p b = map lc_p a.
Proof. intros a b H. induction H as [|x y a b XY H IH]; [reflexivity|]. cbn [map]. rewrite IH, XY. reflexivity. Qed.
Lemma name_rule : forall a b : text, (a <> [] -> (if 0 <? zlen a then a else b) = a) /\ (a = [] -> (if 0 <? zlen a then a else b) = b).
Proof. intros [|x a] b; (split; [intros H|intros H]); try congruence; [reflexivity|]. rewrite zlen_cons. pose proof (zlen_nonneg _ a). replace (0 <? 1 + zlen a) with true by lia. reflexivity. Qed.
Lemma load_takes : forall e g th path mtime t g', lenv_ok e -> reach e g -> prompt th -> load_and_start e th g path (Some (mtime, t)) = Ret (Code 0, g') ->
  exists s, parse_logger (y_fuel e) (y_pe e) (y_old e) t = Ret (0, s) /\ map lc_p (chans g') = s_chs s /\ s_chs s <> [] /\
    (forall i c, chan_at g' i = Some c -> lc_mtime c = mtime /\ lc_check c = 0) /\
    lg_path g' = path /\ lg_hot g' = s_hot s /\ lg_key g' = s_shm s /\
    (s_name s <> [] -> lg_name g' = s_name s) /\ (s_name s = [] -> lg_name g' = lg_name g) /\
    (s_desc s <> [] -> lg_desc g' = s_desc s) /\ (s_desc s = [] -> lg_desc g' = lg_desc g).
Proof.
  intros e g th path mt t g' E R PT H. pose proof (reach_inv e g E R) as IV. unfold load_and_start, then_start in H. destruct (negb (lg_state g =? LOGGER_STATE_UNINIT)); [discriminate|].
  unfold init_file in H. destruct (init_yaml e g t path) as [[z g1]| |] eqn:Y; cbn [bind] in H; try discriminate.
  destruct (negb (z =? 0)) eqn:Z0; [cbn [bind] in H; rewrite Z0 in H; injection H as -> _; discriminate|]. assert (z = 0) by lia. subst z.
  destruct (init_yaml_takes e g t path g1 E IV Y) as (s & m & old & P & SM & SZ & CH & OL & S1 & GP & GH & GK & GN & GD & GS). rewrite SM in H. cbn [bind] in H. change (negb (0 =? 0)) with false in H. cbn iota in H.
  destruct (parsed_fit e t s E P) as [MX _]. set (m2 := first_chans (set_mtime mt) m) in *. injection H as H. unfold start_logger in H. cbn [set_shm lg_state lg_shm] in H. rewrite GS in H. change (negb (LOGGER_STATE_UNINIT =? LOGGER_STATE_UNINIT)) with false in H. cbn iota in H.
  destruct ((x_maxch (y_pe e) <? sm_size m2) || (sm_size m2 <=? 0)); [discriminate|]. pose proof (start_like th (sm_size m2) (sm_chans m2) 0) as LK. destruct (start_code th (sm_size m2) (sm_chans m2) 0 PT) as [z0 RZ].
  destruct (start_chans th 0 (sm_size m2) (sm_chans m2)) as [r0 cs]. cbn [fst snd] in *. subst r0. destruct z0; [|destruct (stop_chans th 0 (sm_size m2) cs) as [[] ?]; discriminate|destruct (stop_chans th 0 (sm_size m2) cs) as [[] ?]; discriminate].
  injection H as <-. exists s. split; [exact P|].
  assert (LN : (length (s_chs s) <= length old)%nat) by (unfold zlen in *; lia). destruct (take_parsed e (s_chs s) old LN) as [TP TF].
  assert (C2 : firstn (Z.to_nat (sm_size m2)) (sm_chans m2) = map (set_mtime mt) (firstn (length (s_chs s)) (take_chans e (s_chs s) old))).
  { unfold m2, first_chans. cbn [sm_size sm_chans]. rewrite SZ, CH. unfold zlen. rewrite Nat2Z.id. set (l := take_chans e (s_chs s) old) in *. assert (LL : length (map (set_mtime mt) (firstn (length (s_chs s)) l)) = length (s_chs s)) by (rewrite map_length, firstn_length; unfold l; rewrite take_len; lia).
    rewrite firstn_app, LL, Nat.sub_diag. cbn [firstn]. rewrite app_nil_r. rewrite <- LL at 1. apply firstn_all. }
  pose proof (like_firstn _ _ (Z.to_nat (sm_size m2)) LK) as LF. rewrite C2 in LF.
  split; [unfold chans; cbn [set_state set_chans set_shm lg_shm sm_size sm_chans]; rewrite (like_map _ _ LF), map_map; cbn [set_mtime lc_p]; exact TP|].
  split; [intros Q; rewrite Q in SZ; change (zlen (@nil pchan)) with 0 in SZ; lia|]. split.
  - intros i c CA. unfold chan_at, chans in CA. cbn [set_state set_chans set_shm lg_shm sm_size sm_chans] in CA. destruct (like_nth _ _ i c LF CA) as (c0 & N0 & ->). rewrite nth_error_map in N0. destruct (nth_error (firstn (length (s_chs s)) (take_chans e (s_chs s) old)) i) as [c1|] eqn:N1; [|discriminate]. injection N0 as <-.
    rewrite Forall_forall in TF. destruct (TF c1 (nth_error_In _ _ N1)) as [_ B]. split; [reflexivity|exact B].
  - cbn [set_state set_chans set_shm lg_path lg_hot lg_key lg_name lg_desc]. split; [exact GP|]. split; [exact GH|]. split; [exact GK|]. rewrite GN, GD. destruct (name_rule (s_name s) (lg_name g)) as [A B]. destruct (name_rule (s_desc s) (lg_desc g)) as [C D]. auto.
Qed.
