(* From log statements to the files: proofs. *)
From Coq Require Import String ZArith List Bool Lia ZifyBool ZifyNat ZifyN.
From Verif Require Import Base BaseFacts LoggerState Filter FilterSpec FilterProofs Stream StreamSpec StreamProofs RenderProofs PrefixProofs
  FileName FileDev FileDevSpec FileRunProofs World WorldSpec WorldProofs WorldSeq Disk DiskSpec DiskProofs.
Import ListNotations.
Open Scope Z_scope.

Lemma writes_app : forall ts p i a b, disk_writes ts p i (a ++ b) = disk_writes ts p i a ++ disk_writes ts p i b.
Proof. intros ts p i a b. induction a as [|x a IH]; [reflexivity|]. destruct x; cbn [app disk_writes]; rewrite IH; reflexivity. Qed.
Lemma part_app : forall x a b, part x (a ++ b) = part x a ++ part x b.
Proof. intros. unfold part. rewrite filter_app, map_app. reflexivity. Qed.
Lemma run_app : forall e conf a b d, disk_run e conf d (a ++ b) = let! d := disk_run e conf d a in disk_run e conf d b.
Proof.
  intros e conf a. induction a as [|[x [r i]] a IH]; intros b d; cbn [app disk_run bind]; [reflexivity|].
  destruct (disk_step e conf d x r i); cbn [bind]; [apply IH|reflexivity|reflexivity].
Qed.

Lemma part_out : forall i evs k j d p t a b ts q fi, World.io_file i evs k j = true ->
  part (a, b) (disk_writes ts q fi (outputs i evs k j d p t)) = if (d_out d =? 2) && (k =? a) && (j =? b) then [(mkRec ts q t, fi)] else [].
Proof.
  intros i evs k j d p t a b ts q fi F. unfold outputs. destruct (d_out d =? 2) eqn:E.
  - assert (d_out d = 2) as -> by lia. rewrite F. cbn [disk_writes andb]. rewrite part_cons. unfold same. cbn [fst snd]. destruct ((k =? a) && (j =? b)); reflexivity.
  - cbn [andb]. destruct (d_out d) as [|x|x]; try reflexivity. destruct x as [x|x|]; [destruct x; try reflexivity|destruct x; try reflexivity; lia|reflexivity].
    destruct (World.io_sock i evs k j && (0 <? World.io_sent i evs k j)); reflexivity.
Qed.

(* what one delivery brings to the files *)
Lemma delivered_part : forall i k p c n t j ds evs evs' f, (forall e a b, World.io_file i e a b = true) -> delivered i k p c n t j ds evs evs' f -> 0 <= j ->
  exists new, evs' = evs ++ new /\ forall a b ts q fi,
    (a = k /\ (exists d, j <= b /\ nth_error ds (Z.to_nat (b - j)) = Some d /\ device_on d /\ device_accepts d p c n /\ d_out d = 2) /\
       part (a, b) (disk_writes ts q fi new) = [(mkRec ts q t, fi)]) \/
    (~ (a = k /\ exists d, j <= b /\ nth_error ds (Z.to_nat (b - j)) = Some d /\ device_on d /\ device_accepts d p c n /\ d_out d = 2) /\
       part (a, b) (disk_writes ts q fi new) = []).
Proof.
  intros i k p c n t j ds evs evs' f IO H. induction H as [j evs|j d ds evs evs' f N H IH|j d ds evs evs' f O1 O2 H IH]; intros J.
  - exists []. rewrite app_nil_r. split; [reflexivity|]. intros a b ts q fi. right. split; [|reflexivity]. intros (_ & d & _ & D & _). destruct (Z.to_nat (b - j)); discriminate.
  - destruct (IH ltac:(lia)) as (new & E & IH1). exists new. split; [exact E|]. intros a b ts q fi.
    destruct (IH1 a b ts q fi) as [(A1 & (e & A2 & A3 & A4) & A5)|(A1 & A2)].
    + left. split; [exact A1|]. split; [|exact A5]. exists e. split; [lia|]. split; [|exact A4]. replace (Z.to_nat (b - j)) with (S (Z.to_nat (b - (j + 1)))) by lia. exact A3.
    + right. split; [|exact A2]. intros (B1 & e & B2 & B3 & B4 & B5 & B6). destruct (Z.eq_dec b j) as [-> |NE].
      * rewrite Z.sub_diag in B3. cbn in B3. injection B3 as <-. tauto.
      * apply A1. split; [exact B1|]. exists e. split; [lia|]. split; [|tauto]. replace (Z.to_nat (b - j)) with (S (Z.to_nat (b - (j + 1)))) in B3 by lia. exact B3.
  - destruct (IH ltac:(lia)) as (new & E & IH1). rewrite <- app_assoc in E. eexists. split; [exact E|]. intros a b ts q fi.
    rewrite writes_app, part_app, (part_out i evs k j d p t a b ts q fi (IO _ _ _)).
    destruct (IH1 a b ts q fi) as [(A1 & (e & A2 & A3 & A4) & A5)|(A1 & A2)].
    + left. split; [exact A1|]. assert (j =? b = false) as JB by lia. rewrite JB, andb_false_r. split; [|exact A5].
      exists e. split; [lia|]. split; [|exact A4]. replace (Z.to_nat (b - j)) with (S (Z.to_nat (b - (j + 1)))) by lia. exact A3.
    + rewrite A2, app_nil_r. destruct ((d_out d =? 2) && (k =? a) && (j =? b)) eqn:Q.
      * left. assert (a = k /\ b = j /\ d_out d = 2) as (-> & -> & D2) by lia. split; [reflexivity|]. split; [|reflexivity]. exists d. split; [lia|]. rewrite Z.sub_diag. split; [reflexivity|]. tauto.
      * right. split; [|reflexivity]. intros (B1 & e & B2 & B3 & B4 & B5 & B6). destruct (Z.eq_dec b j) as [-> |NE].
        -- rewrite Z.sub_diag in B3. cbn in B3. injection B3 as <-. lia.
        -- apply A1. split; [exact B1|]. exists e. split; [lia|]. split; [|tauto]. replace (Z.to_nat (b - j)) with (S (Z.to_nat (b - (j + 1)))) in B3 by lia. exact B3.
Qed.

Lemma nth_firstn_some : forall A (l : list A) n m x, nth_error (firstn n l) m = Some x -> nth_error l m = Some x.
Proof. intros A l. induction l as [|y l IH]; intros [|n] [|m] x H; cbn in *; try discriminate; [exact H|]. eapply IH, H. Qed.
Lemma nth_firstn_lt : forall A (l : list A) n m x, nth_error l m = Some x -> (m < n)%nat -> nth_error (firstn n l) m = Some x.
Proof. intros A l. induction l as [|y l IH]; intros [|n] [|m] x H LT; cbn in *; try discriminate; try lia; [exact H|]. apply IH; [exact H|lia]. Qed.

(* one statement *)
Lemma stmt_writes : forall W o i w s, shape W w -> calm W w -> in_sense w (t_chan s) (t_cat s) (t_ident s) -> well_formed W o i s -> -3 <= t_prio s <= 10 ->
  (forall e x y, World.io_file i e x y = true) ->
  exists w' r T new, log_stmt W i w s = Ret (w', r) /\ statement_text W o i s T /\ shape W w' /\ calm W w' /\ alike w w' /\ w_ev w' = w_ev w ++ new /\
    forall k j ts q fi, (goes_to w k j s /\ part (k, j) (disk_writes ts q fi new) = [(mkRec ts q (line W T), fi)]) \/
                        (~ goes_to w k j s /\ part (k, j) (disk_writes ts q fi new) = []).
Proof.
  intros W o i w s SH CM M WF P IO. pose proof SH as (CAP & S2 & S3 & S4 & S5 & S6).
  assert (DEC: admitted (w_lg w) (t_chan s) (t_prio s) (t_cat s) (t_ident s) \/ ~ admitted (w_lg w) (t_chan s) (t_prio s) (t_cat s) (t_ident s)).
  { destruct (block_input_correct (w_lg w) (t_chan s) (t_prio s) (t_cat s) (t_ident s)) as (b & _ & B); [|exact S3|].
    { intros ch H. rewrite Forall_forall in S5. destruct (M ch H). split; [|tauto]. specialize (S5 ch (nth_error_In _ _ H)). unfold chan_ok in S5. unfold sound_channel. tauto. }
    destruct b; [right; intros A; apply B in A; discriminate|left; apply B; reflexivity]. }
  destruct DEC as [AD|NA].
  - destruct (admitted_chan _ _ _ _ _ AD) as (ch & CA & _). assert (exists r, ring_at w (t_chan s) r) as (r & RA).
    { destruct CA as (K & C). destruct (nth_error (w_rings w) (Z.to_nat (t_chan s))) as [r|] eqn:E; [exists r; split; assumption|]. apply nth_error_None in E. unfold zlen in S4, S3. lia. }
    destruct (CM _ ch r CA RA) as (TY & EM & ND & U).
    destruct (log_sync W o i w s ch r SH M CA RA EM U AD WF P TY ND) as (w1 & T & R & TX & WT).
    pose proof (written_alike _ _ _ _ _ _ _ _ _ WT) as AL. pose proof (written_calm _ _ _ _ _ _ _ _ _ WT CM) as CM1. pose proof WT as (_ & SH1 & ch0 & ch1 & r0 & r1 & f & CA0 & _ & _ & DL & _).
    rewrite (chan_at_fun _ _ _ _ CA0 CA) in DL.
    destruct (delivered_part i _ _ _ _ _ 0 _ _ _ _ IO DL ltac:(lia)) as (new & EV & FI).
    exists w1, 0, T, new. split; [exact R|]. split; [exact TX|]. split; [exact SH1|]. split; [exact CM1|]. split; [exact AL|]. split; [exact EV|].
    intros k j ts q fi. destruct (FI k j ts q fi) as [(A1 & (d & A2 & A3 & A4 & A5 & A6) & A7)|(A1 & A2)].
    + left. split; [|exact A7]. split; [congruence|]. rewrite A1. split; [exact AD|]. exists ch, d. split; [exact CA|]. split; [|tauto]. rewrite Z.sub_0_r in A3.
      destruct (shape_at _ _ _ _ _ SH CA RA) as (CO & _). unfold chan_ok in CO. assert (Z.to_nat j < length (firstn (Z.to_nat (c_size ch)) (c_devs ch)))%nat as LT by (apply nth_error_Some; congruence).
      rewrite firstn_length in LT. split; [lia|]. eapply nth_firstn_some, A3.
    + right. split; [|exact A2]. intros (G1 & G2 & ch2 & d & G3 & G4 & G5 & G6 & G7). apply A1. split; [congruence|]. exists d.
      subst k. rewrite (chan_at_fun _ _ _ _ G3 CA) in G4. destruct G4 as (G4 & G8). split; [lia|]. rewrite Z.sub_0_r. split; [|tauto].
      apply nth_firstn_lt; [exact G8|lia].
  - destruct (text_exists W o i s CAP WF) as (T & TX). exists w, (-1), T, []. rewrite (log_blocked W i w s SH M NA), app_nil_r.
    split; [reflexivity|]. split; [exact TX|]. split; [exact SH|]. split; [exact CM|]. split; [apply alike_refl|]. split; [reflexivity|].
    intros k j ts q fi. right. split; [|reflexivity]. intros (G1 & G2 & _). subst k. contradiction.
Qed.

(* the records of one statement are sound *)
Definition sound_rec (W : wcfg) (fi : FileDev.io) (x : drec * FileDev.io) : Prop :=
  valid_prio (fst x) /\ 5 <= r_ts (fst x) /\ snd x = fi /\ zlen (r_text (fst x)) <= e_cap (W_env W).
Lemma part_in : forall x ws, In x ws -> In (snd x) (part (fst x) ws).
Proof.
  intros x ws H. unfold part. apply in_map. apply filter_In. split; [exact H|]. unfold meant_for. lia.
Qed.
Lemma part_forall : forall (P : drec * FileDev.io -> Prop) ws a, Forall (fun x => P (snd x)) ws -> Forall P (part a ws).
Proof.
  intros P ws a H. unfold part. rewrite Forall_map. rewrite Forall_forall in *. intros x X. apply filter_In in X. apply H, X.
Qed.
Lemma line_cap : forall W T, 2 <= e_cap (W_env W) -> zlen (line W T) <= e_cap (W_env W).
Proof. intros W T C. unfold line, zlen. rewrite app_length, firstn_length. cbn [length]. lia. Qed.

Lemma disk_returns : forall e conf ds (Q : drec * FileDev.io -> Prop), (forall a s x, In a ds -> Q x -> exists s', dev_step e (conf a) s (fst x) (snd x) = Ret s') ->
  forall l d, Forall (fun x => In (fst x) ds /\ Q (snd x)) l -> exists d', disk_run e conf d l = Ret d'.
Proof.
  intros e conf ds Q R. induction l as [|[a [r i]] l IH]; intros d F; [exists d; reflexivity|]. inversion F as [|? ? (A & V) F']; subst. cbn [fst snd] in *.
  cbn [disk_run]. unfold disk_step. destruct (R a (dev_at d a) (r, i) A V) as (s' & E). cbn [fst snd] in E. rewrite E. cbn [bind]. apply IH, F'.
Qed.

Lemma seq_disk : forall W o e conf ds fi l w d, shape W w -> calm W w ->
  (forall k j ch dv, chan_at w k ch -> has_device ch j dv -> d_out dv = 2 -> In (k, j) ds) ->
  (forall a s x, In a ds -> sound_rec W fi x -> exists s', dev_step e (conf a) s (fst x) (snd x) = Ret s') ->
  Forall (fun a => in_sense w (t_chan (fst a)) (t_cat (fst a)) (t_ident (fst a)) /\ well_formed W o (snd a) (fst a) /\ 0 <= t_prio (fst a) <= 6 /\
                   5 <= World.io_ts (snd a) /\ forall e x y, World.io_file (snd a) e x y = true) l ->
  exists w' d' Ts ws, log_and_write W e conf fi w d l = Ret (w', d') /\ alike w w' /\
    Forall2 (fun a T => statement_text W o (snd a) (fst a) T) l Ts /\
    disk_run e conf d ws = Ret d' /\ Forall (fun x => In (fst x) ds /\ sound_rec W fi (snd x)) ws /\
    forall k j, picked (fun a => goes_to w k j (fst a)) l (map (line W) Ts) (map (fun x => r_text (fst x)) (part (k, j) ws)).
Proof.
  intros W o e conf ds fi l. induction l as [|(s & i) l IH]; intros w d SH CM DS RT FA.
  { exists w, d, [], []. split; [reflexivity|]. split; [apply alike_refl|]. split; [constructor|]. split; [reflexivity|]. split; [constructor|]. intros. constructor. }
  inversion FA as [|? ? (M & WF & P & TS & IO) FA']; subst. cbn [fst snd] in *.
  destruct (stmt_writes W o i w s SH CM M WF ltac:(lia) IO) as (w1 & r & T & new & R & TX & SH1 & CM1 & AL & EV & PT).
  set (ws1 := disk_writes (World.io_ts i) (t_prio s) fi new).
  assert (F1 : Forall (fun x => In (fst x) ds /\ sound_rec W fi (snd x)) ws1).
  { rewrite Forall_forall. intros [[k j] x] X. apply part_in in X. cbn [fst snd] in *.
    destruct (PT k j (World.io_ts i) (t_prio s) fi) as [(G & E)|(_ & E)]; fold ws1 in E; rewrite E in X; [|destruct X].
    destruct X as [<-|[]]. destruct G as (_ & _ & ch & dv & G1 & G2 & _ & _ & G3). split; [eapply DS; eassumption|].
    unfold sound_rec, valid_prio. cbn [fst snd r_prio r_ts r_text]. split; [lia|]. split; [exact TS|]. split; [reflexivity|]. apply line_cap, SH. }
  destruct (disk_returns e conf ds _ RT ws1 d F1) as (d1 & R1).
  destruct (IH w1 d1 SH1 CM1) as (w2 & d2 & Ts & ws & RUN & AL2 & F2 & RD & FW & PK).
  { intros k j ch dv C H D. destruct (chan_alike w w1 k ch AL C) as (ch0 & C0 & S1 & S2 & S3 & S4 & S5 & S6). apply (DS k j ch0 dv C0); [|exact D]. unfold has_device in *. rewrite <- S3, <- S6. exact H. }
  { exact RT. }
  { eapply Forall_impl; [|exact FA']. intros (s' & i') (X1 & X2). split; [eapply sense_alike; eassumption|exact X2]. }
  exists w2, d2, (T :: Ts), (ws1 ++ ws).
  split. { cbn [log_and_write]. rewrite R. cbn [bind]. rewrite EV, skipn_app, skipn_all, Nat.sub_diag. cbn [app skipn]. fold ws1. rewrite R1. cbn [bind]. exact RUN. }
  split; [eapply alike_trans; eassumption|]. split; [constructor; assumption|]. split; [rewrite run_app, R1; exact RD|]. split; [apply Forall_app; split; assumption|].
  intros k j. specialize (PK k j). rewrite part_app, map_app. cbn [map].
  assert (PK' : picked (fun a : stmt * World.io => goes_to w k j (fst a)) l (map (line W) Ts) (map (fun x => r_text (fst x)) (part (k, j) ws))).
  { clear -PK AL. induction PK; constructor; try assumption; [eapply goes_to_alike; [apply alike_sym; exact AL|assumption]|]. intros G. apply H. eapply goes_to_alike; eassumption. }
  destruct (PT k j (World.io_ts i) (t_prio s) fi) as [(G & E)|(G & E)]; fold ws1 in E; rewrite E; cbn [map app fst r_text]; [apply pk_yes|apply pk_no]; assumption.
Qed.

(* ---- a device that takes every record ---- *)
Lemma open_try : forall e c s r i s', last_try s = 0 -> io_open i = true -> (forall p, dev_path e c (r_ts r) = Ret p -> zlen p < 250) ->
  open_device e c s r i = Ret s' -> last_try s' = 0.
Proof.
  intros e c s r i s' L O P. unfold open_device. cbv zeta. set (s0 := if close_file _ _ _ then _ else _).
  assert (L0 : last_try s0 = 0) by (unfold s0; destruct (close_file _ _ _); [exact L|exact L]).
  destruct (d_open s0). { intros [= <-]. exact L0. }
  destruct (dev_path e c (r_ts r)) as [p| |] eqn:PP; try discriminate. cbn [bind]. specialize (P p eq_refl).
  destruct (250 <=? zlen p) eqn:B; [lia|]. destruct (roll_files _ _ _ _ _) as [f| |]; try discriminate. cbn [bind]. rewrite O. cbn [negb].
  intros [= <-]. reflexivity.
Qed.
Lemma step_try : forall e c s r i s', last_try s = 0 -> io_open i = true -> valid_prio r -> (forall p, dev_path e c (r_ts r) = Ret p -> zlen p < 250) ->
  dev_step e c s r i = Ret s' -> last_try s' = 0.
Proof.
  intros e c s r i s' L O V P. unfold dev_step. cbv zeta. destruct (match d_open s with Some _ => false | None => _ end). { intros [= <-]. exact L. }
  destruct (open_device e c s r i) as [s1| |] eqn:E; try discriminate. cbn [bind]. pose proof (open_try _ _ _ _ _ _ L O P E) as L1.
  destruct (d_open s1) as [p|] eqn:OP; [|intros [= <-]; exact L1]. unfold valid_prio in V. destruct ((DEVICE_LOG_PRIORITY + r_prio r <? 0) || (DEVICE_LOG_MAX_ID <=? DEVICE_LOG_PRIORITY + r_prio r)) eqn:U; [discriminate|].
  assert (LW : last_try (file_write s1 (r_text r) i) = last_try s1). { unfold file_write. rewrite OP. destruct (zlen (r_text r) <=? 0); reflexivity. }
  intros H. apply (f_equal (fun x => match x with Ret x => last_try x | _ => 0 end)) in H. cbv beta iota in H. rewrite <- H. unfold last_try in *. cbn [d_log]. unfold linc, lset.
  repeat match goal with |- context [DEVICE_LOG_LAST_TRY_CREATE_TIMESTAMP =? ?k] => replace (DEVICE_LOG_LAST_TRY_CREATE_TIMESTAMP =? k) with false by
    (unfold DEVICE_LOG_LAST_TRY_CREATE_TIMESTAMP, DEVICE_LOG_PRIORITY, DEVICE_LOG_TOTAL_WRITE_LINE, DEVICE_LOG_TOTAL_WRITE_BYTE, DEVICE_LOG_CUR_FILE_SIZE; lia) end.
  congruence.
Qed.
Lemma run_all : forall e c l s s', last_try s = 0 -> Forall (fun x => valid_prio (fst x) /\ 5 <= r_ts (fst x) /\ io_open (snd x) = true) l ->
  (forall t p, dev_path e c t = Ret p -> zlen p < 250) -> dev_run e c s l = Ret s' -> drun e c s l (map (fun x => r_text (fst x)) l) s'.
Proof.
  intros e c. induction l as [|[r i] l IH]; intros s s' L F P H; cbn [dev_run] in H.
  { injection H as <-. constructor. }
  inversion F as [|? ? (V & T & O) F']; subst. cbn [fst snd] in *. destruct (dev_step e c s r i) as [s1| |] eqn:E; try discriminate. cbn [bind] in H.
  assert (LT : last_try s + 5 <= r_ts r) by lia.
  pose proof (step_takes e c s r i s1 V E (or_intror LT) O (fun p => P _ p)) as TK.
  pose proof (drun_cons e c s r i s1 l _ s' E (IH s1 s' (step_try _ _ _ _ _ _ L O V (fun p => P _ p) E) F' P H)) as D. rewrite TK in D. exact D.
Qed.

Lemma steps_return : forall conf (ds : list did), (forall a, In a ds -> rolls (conf a) < INT_MAX) -> exists F, forall e, ~ In 36 (v_name (e_env e)) -> (F <= e_fuel e)%nat ->
  forall a s r i, In a ds -> valid_prio r -> exists s', dev_step e (conf a) s r i = Ret s'.
Proof.
  intros conf. induction ds as [|b ds IH]; intros R; [exists O; intros; contradiction|].
  destruct (IH (fun a A => R a (or_intror A))) as (F1 & H1). destruct (step_returns (conf b) (R b (or_introl eq_refl))) as (F2 & H2).
  exists (Nat.max F1 F2). intros e N FU a s r i [<-|A] V; [apply H2; [exact N|lia|exact V]|apply H1; [exact N|lia|exact A|exact V]].
Qed.

Lemma disk_end : forall W o conf ds fi (p : did -> text), (forall a, In a ds -> rolls (conf a) < INT_MAX) -> exists F, forall e l w d,
  (F <= e_fuel e)%nat -> ~ In 36 (v_name (e_env e)) -> shape W w -> calm W w ->
  (forall k j ch dv, chan_at w k ch -> has_device ch j dv -> d_out dv = 2 -> In (k, j) ds) ->
  (forall a, In a ds -> zlen (p a) < 250 /\ (forall t, dev_path e (conf a) t = Ret (p a)) /\ forall b, In b ds -> p a = p b -> a = b) ->
  io_open fi = true -> e_cap (W_env W) <= io_wr fi ->
  (forall a, In a ds -> k_open d a = None /\ k_log d a DEVICE_LOG_LAST_TRY_CREATE_TIMESTAMP = 0) ->
  Forall (fun a => in_sense w (t_chan (fst a)) (t_cat (fst a)) (t_ident (fst a)) /\ well_formed W o (snd a) (fst a) /\ 0 <= t_prio (fst a) <= 6 /\
                   5 <= World.io_ts (snd a) /\ forall e x y, World.io_file (snd a) e x y = true) l ->
  exists w' d' Ts, log_and_write W e conf fi w d l = Ret (w', d') /\ Forall2 (fun a T => statement_text W o (snd a) (fst a) T) l Ts /\
    (forall q, (forall a, In a ds -> ~ belongs e (conf a) q) -> k_fs d' q = k_fs d q) /\
    forall k j cur bs, In (k, j) ds -> chain (k_fs d) (p (k, j)) cur bs -> zlen bs <= Z.max 1 (rolls (conf (k, j))) ->
    exists us cur' bs' lost, picked (fun a => goes_to w k j (fst a)) l (map (line W) Ts) us /\
      chain (k_fs d') (p (k, j)) cur' bs' /\ whole cur bs ++ concat us = lost ++ whole cur' bs' /\
      zlen bs' <= Z.max 1 (rolls (conf (k, j))) /\ (lost = [] \/ zlen bs' = Z.max 1 (rolls (conf (k, j)))).
Proof.
  intros W o conf ds fi p RO. destruct (steps_return conf ds RO) as (F & ST). exists F. intros e l w d FU NA SH CM DS PA OP WR ZE FA.
  destruct (seq_disk W o e conf ds fi l w d SH CM DS) as (w' & d' & Ts & ws & RUN & _ & F2 & RD & FW & PK); [|exact FA|].
  { intros a s x A (V & _). apply ST; assumption. }
  assert (AP : apart e conf ds).
  { intros a b t u q A B N P1 P2. destruct (PA a A) as (_ & Pa & IJ). destruct (PA b B) as (_ & Pb & _). rewrite Pa in P1. rewrite Pb in P2. apply N, IJ; [exact B|congruence]. }
  assert (IO : in_order e conf ds d) by (intros a q A Q; destruct (ZE a A); congruence).
  assert (INs : Forall (fun x : did * (drec * FileDev.io) => In (fst x) ds) ws) by (eapply Forall_impl; [|exact FW]; cbn beta; tauto).
  destruct (disk_alone e conf ds ws d d' AP IO INs RD) as (_ & NB & AL).
  exists w', d', Ts. split; [exact RUN|]. split; [exact F2|]. split; [exact NB|]. intros k j cur bs A CH LB. destruct (PA (k, j) A) as (PL & PP & _). destruct (ZE (k, j) A) as (ZO & ZT).
  destruct (AL (k, j) (dev_at d (k, j)) A) as (s' & RS & L1 & L2 & L3); [repeat split; intros q _; reflexivity|].
  pose proof (part_forall (sound_rec W fi) ws (k, j)) as PF. specialize (PF ltac:(eapply Forall_impl; [|exact FW]; cbn beta; tauto)).
  assert (D : drun e (conf (k, j)) (dev_at d (k, j)) (part (k, j) ws) (map (fun x => r_text (fst x)) (part (k, j) ws)) s').
  { apply run_all; [exact ZT| |intros t q Q; rewrite PP in Q; congruence|exact RS]. eapply Forall_impl; [|exact PF]. intros x (X1 & X2 & X3 & _). split; [exact X1|]. split; [exact X2|]. congruence. }
  assert (E : eff_rolls (conf (k, j)) = Z.max 1 (rolls (conf (k, j)))).
  { specialize (RO _ A). unfold eff_rolls. destruct (0 <? rolls (conf (k, j))) eqn:X; rewrite int_of_small; unfold INT_MAX in *; lia. }
  destruct (run_chain e (conf (k, j)) _ _ _ s' D (p (k, j)) cur bs (eff_rolls (conf (k, j)))) as (cur' & bs' & lost & A1 & A2 & A3 & A4 & _); try assumption.
  - intros t q Q. rewrite PP in Q. congruence.
  - reflexivity.
  - rewrite E. lia.
  - intros q Q. cbn in Q. congruence.
  - intros X. cbn in X. congruence.
  - eapply Forall_impl; [|exact PF]. intros x (X & _). exact X.
  - eapply Forall_impl; [|exact PF]. intros x (_ & _ & X & Y). unfold full_write. rewrite X. lia.
  - lia.
  - rewrite E in *. exists (map (fun x => r_text (fst x)) (part (k, j) ws)), cur', bs', lost. split; [apply PK|]. split; [|tauto].
    destruct A1 as (B1 & B2). cbn [dev_at d_fs] in L3. split.
    + rewrite <- B1. apply L3. exists 0, (p (k, j)), 0. split; [apply PP|left; split; reflexivity].
    + intros x q X B. rewrite <- (B2 x q X B). apply L3. exists 0, (p (k, j)), x. split; [apply PP|exact B].
Qed.
