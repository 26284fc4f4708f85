(* Proofs about World.v. *)
From Coq Require Import String ZArith List Bool Lia ZifyBool ZifyNat ZifyN.
From Verif Require Import Base BaseFacts NumFmt LoggerState Filter FilterSpec FilterProofs DateFmt Stream StreamSpec StreamProofs
  RenderProofs PrefixProofs World WorldSpec.
Import ListNotations.
Open Scope Z_scope.

(* ---- lists ---- *)
Lemma wr_ok : forall A (l : list A) i v, 0 <= i < zlen l -> exists l', wr l i v = Ret l' /\ zlen l' = zlen l /\
  nth_error l' (Z.to_nat i) = Some v /\ (forall j, 0 <= j -> j <> i -> nth_error l' (Z.to_nat j) = nth_error l (Z.to_nat j)).
Proof.
  intros A l i v H. destruct (split_at _ l i ltac:(lia)) as (a & b & -> & La). destruct b as [|x b].
  { rewrite zlen_app, zlen_nil in H. lia. }
  exists (a ++ [v] ++ b). unfold wr. split.
  { change (x :: b) with ([x] ++ b). apply blit_splice; [exact La|reflexivity]. }
  split; [rewrite !zlen_app, !zlen_cons, zlen_nil; lia|]. assert (Z.to_nat i = length a) as -> by (unfold zlen in La; lia). split.
  - rewrite nth_error_app2 by lia. rewrite Nat.sub_diag. reflexivity.
  - intros j J N. destruct (Z_lt_le_dec j i).
    + rewrite !nth_error_app1 by (unfold zlen in La; lia). reflexivity.
    + rewrite (nth_error_app2 a ([v] ++ b)), (nth_error_app2 a (x :: b)) by (unfold zlen in La; lia). assert (exists m, (Z.to_nat j - length a = S m)%nat) as (m & ->).
      { exists (Z.to_nat j - length a - 1)%nat. unfold zlen in La. lia. } reflexivity.
Qed.

Lemma rd_nth : forall A (l : list A) i, 0 <= i < zlen l -> exists v, rd l i = Ret v /\ nth_error l (Z.to_nat i) = Some v.
Proof. intros A l i H. destruct (rd_in _ l i H) as (v & R). exists v. split; [exact R|]. apply rd_inv in R. tauto. Qed.
Lemma rd_of : forall A (l : list A) i v, 0 <= i -> nth_error l (Z.to_nat i) = Some v -> rd l i = Ret v.
Proof. intros. apply rd_ret; assumption. Qed.
Lemma nth_of_error : forall A (l : list A) i v d, nth_error l i = Some v -> nth i l d = v.
Proof. intros A l i v d H. apply nth_error_nth. exact H. Qed.
Lemma nth_same : forall A (l l' : list A) i d, nth_error l' i = nth_error l i -> nth i l' d = nth i l d.
Proof.
  intros A l l' i d H. destruct (nth_error l i) eqn:E.
  - rewrite (nth_of_error _ _ _ _ d H), (nth_of_error _ _ _ _ d E). reflexivity.
  - rewrite !nth_overflow; [reflexivity|apply nth_error_None; assumption|apply nth_error_None; assumption].
Qed.
Lemma nth_error_lt : forall A (l : list A) i v, nth_error l (Z.to_nat i) = Some v -> 0 <= i -> i < zlen l.
Proof. intros A l i v H I. assert (nth_error l (Z.to_nat i) <> None) as N by congruence. apply nth_error_Some in N. unfold zlen. lia. Qed.
Lemma forall_wr : forall A (P : A -> Prop) l l' i v, Forall P l -> P v -> zlen l' = zlen l ->
  nth_error l' (Z.to_nat i) = Some v -> (forall j, 0 <= j -> j <> i -> nth_error l' (Z.to_nat j) = nth_error l (Z.to_nat j)) -> Forall P l'.
Proof.
  intros A P l l' i v F V L S Oth. apply Forall_forall. intros x X. apply In_nth_error in X as (m & M).
  destruct (Z.eq_dec (Z.of_nat m) i) as [<- |N].
  - rewrite Nat2Z.id, M in S. injection S as ->. exact V.
  - specialize (Oth (Z.of_nat m) ltac:(lia) N). rewrite Nat2Z.id, M in Oth. symmetry in Oth. apply nth_error_In in Oth.
    rewrite Forall_forall in F. apply F, Oth.
Qed.

(* ---- counters ---- *)
Lemma bump_ok : forall l i v, 0 <= i < zlen l -> exists l', bump l i v = Ret l' /\ zlen l' = zlen l /\
  forall x, 0 <= x -> cnt l' x = cnt l x + hit x i v.
Proof.
  intros l i v H. destruct (rd_nth _ l i H) as (a & R & N). unfold bump. rewrite R. cbn [bind].
  destruct (wr_ok _ l i (a + v) H) as (l' & -> & L & S & Oth). exists l'. split; [reflexivity|]. split; [exact L|].
  intros x X. unfold cnt, hit. destruct (x =? i) eqn:E.
  - assert (x = i) as -> by lia. rewrite (nth_of_error _ _ _ _ 0 S), (nth_of_error _ _ _ _ 0 N). reflexivity.
  - rewrite (nth_same _ l l' _ 0 (Oth x X ltac:(lia))). lia.
Qed.

(* the devices' counters grow, nothing else changes *)
Definition dgrow (ch ch' : channel) (g : Z -> Z -> Z) : Prop :=
  same_setup ch ch' /\ chan_ok ch' /\ c_log ch' = c_log ch /\
  forall j x, 0 <= j -> 0 <= x -> dcnt ch' j x = dcnt ch j x + g j x.
Lemma same_setup_refl : forall ch, same_setup ch ch.
Proof. intros. unfold same_setup. tauto. Qed.
Lemma same_setup_trans : forall a b c, same_setup a b -> same_setup b c -> same_setup a c.
Proof. intros a b c (A1 & A2 & A3 & A4 & A5 & A6) (B1 & B2 & B3 & B4 & B5 & B6). repeat split; congruence. Qed.
Lemma dgrow_refl : forall ch, chan_ok ch -> dgrow ch ch (fun _ _ => 0).
Proof. intros ch H. split; [apply same_setup_refl|]. split; [exact H|]. split; [reflexivity|]. intros. lia. Qed.
Lemma dgrow_trans : forall a b c f g h, dgrow a b f -> dgrow b c g -> (forall j x, 0 <= j -> 0 <= x -> h j x = f j x + g j x) -> dgrow a c h.
Proof.
  intros a b c f g h (A1 & A2 & A3 & A4) (B1 & B2 & B3 & B4) H. split; [eapply same_setup_trans; eassumption|].
  split; [exact B2|]. split; [congruence|]. intros j x J X. rewrite B4, A4, H by assumption. lia.
Qed.
Lemma dgrow_ext : forall a b f g, dgrow a b f -> (forall j x, 0 <= j -> 0 <= x -> g j x = f j x) -> dgrow a b g.
Proof. intros a b f g (A1 & A2 & A3 & A4) H. split; [exact A1|]. split; [exact A2|]. split; [exact A3|]. intros. rewrite A4, H by assumption. reflexivity. Qed.

Definition at_dev (d : Z) (f : Z -> Z) : Z -> Z -> Z := fun j x => if j =? d then f x else 0.
Lemma inc_dev_ok : forall ch d i v, chan_ok ch -> 0 <= d < zlen (c_devs ch) -> 0 <= i < 18 ->
  exists ch', inc_dev ch d i v = Ret ch' /\ dgrow ch ch' (at_dev d (fun x => hit x i v)).
Proof.
  intros ch d i v (K1 & K2 & K3 & K4) D I. unfold inc_dev. destruct (rd_nth _ (c_dlog ch) d ltac:(lia)) as (row & R & N). rewrite R. cbn [bind].
  assert (zlen row = 18) as LR. { rewrite Forall_forall in K4. apply K4. eapply nth_error_In, N. }
  destruct (bump_ok row i v ltac:(lia)) as (row' & -> & LR' & C). cbn [bind].
  destruct (wr_ok _ (c_dlog ch) d row' ltac:(lia)) as (rows & -> & LL & S & Oth). cbn [bind]. eexists. split; [reflexivity|].
  split; [unfold same_setup, set_dlog; cbn; tauto|]. split.
  - unfold chan_ok, set_dlog. cbn [c_log c_size c_devs c_dlog]. split; [exact K1|]. split; [exact K2|]. split; [lia|].
    eapply forall_wr; [exact K4| |exact LL|exact S|exact Oth]. lia.
  - split; [reflexivity|]. intros j x J X. unfold dcnt, at_dev, set_dlog. cbn [c_dlog]. destruct (j =? d) eqn:E.
    + assert (j = d) as -> by lia. rewrite (nth_of_error _ _ _ _ [] S), (nth_of_error _ _ _ _ [] N). apply C, X.
    + rewrite (nth_same _ _ _ _ [] (Oth j J ltac:(lia))). lia.
Qed.
Lemma dgrow_ok : forall a b f, dgrow a b f -> chan_ok b /\ c_devs b = c_devs a.
Proof. intros a b f (S & K & _). unfold same_setup in S. tauto. Qed.

Ltac inc_step ch d i v :=
  let c' := fresh "ch" in let G := fresh "G" in
  destruct (inc_dev_ok ch d i v) as (c' & -> & G); [eauto|lia|lia|]; cbn [bind].

Lemma count_written_ok : forall ch d log, chan_ok ch -> 0 <= d < zlen (c_devs ch) -> -7 <= ld_prio log <= 10 ->
  exists ch', count_written ch d log = Ret ch' /\ dgrow ch ch' (at_dev d (written (ld_prio log) (ld_len log))).
Proof.
  intros ch d log K D P. unfold count_written, DEVICE_LOG_TOTAL_WRITE_LINE, DEVICE_LOG_TOTAL_WRITE_BYTE, DEVICE_LOG_PRIORITY.
  destruct (inc_dev_ok ch d 15 1 K D ltac:(lia)) as (c1 & -> & G1). cbn [bind]. destruct (dgrow_ok _ _ _ G1) as (K1 & E1). rewrite <- E1 in D.
  destruct (inc_dev_ok c1 d 16 (ld_len log) K1 D ltac:(lia)) as (c2 & -> & G2). cbn [bind]. destruct (dgrow_ok _ _ _ G2) as (K2 & E2). rewrite <- E2 in D.
  destruct (inc_dev_ok c2 d (7 + ld_prio log) (ld_len log) K2 D ltac:(lia)) as (c3 & -> & G3). exists c3. split; [reflexivity|].
  eapply dgrow_trans; [eapply dgrow_trans; [exact G1|exact G2|intros; reflexivity]|exact G3|]. intros j x J X. unfold at_dev, written. destruct (j =? d); lia.
Qed.

(* ---- devices ---- *)
Lemma c_string_line : forall t rest, c_string (t ++ 0 :: rest) = Ret (before_nul t).
Proof. induction t as [|c t IH]; intros rest; cbn [app c_string before_nul]; [reflexivity|]. destruct (c =? 0); [reflexivity|]. rewrite IH. reflexivity. Qed.

(* the record holds the line t, followed by a NUL *)
Definition has_line (log : ldata) (t : text) : Prop := ld_len log = zlen t /\ exists rest, ld_buf log = t ++ 0 :: rest.
Lemma content_line : forall log t, has_line log t -> content log = Ret t.
Proof.
  intros log t (L & rest & B). unfold content, slice. rewrite L, B. pose proof (zlen_nonneg _ t). pose proof (zlen_nonneg _ rest).
  rewrite zlen_app, zlen_cons. destruct (_ || _) eqn:E; [lia|]. cbn [skipn Z.to_nat]. f_equal. rewrite firstn_app.
  replace (Z.to_nat (zlen t)) with (length t) by (unfold zlen; lia). rewrite firstn_all, Nat.sub_diag. cbn. apply app_nil_r.
Qed.

Lemma color_ok : forall p, 2 <= p -> exists c, rd colors (if PRIORITY_MAX <=? p then PRIORITY_ALARM else p) = Ret c /\
  forall s, c ++ s ++ esc "[0m" = painted p s.
Proof.
  intros p P. unfold PRIORITY_MAX, PRIORITY_ALARM, painted. destruct (7 <=? p) eqn:E.
  - eexists. split; [reflexivity|]. intros s. destruct (p <? 2) eqn:A; [lia|]. destruct (p =? 2) eqn:B; [lia|].
    destruct (p =? 3) eqn:C; [lia|]. destruct (p =? 4) eqn:D; [lia|]. destruct (p =? 6) eqn:F; [lia|]. reflexivity.
  - assert (p = 2 \/ p = 3 \/ p = 4 \/ p = 5 \/ p = 6) as C by lia. destruct C as [-> | [-> | [-> | [-> | ->]]]]; eexists; (split; [reflexivity|reflexivity]).
Qed.

Lemma out_device_gen : forall i evs k ch d log t s dev, chan_ok ch -> 0 <= d -> nth_error (c_devs ch) (Z.to_nat d) = Some dev ->
  content log = Ret t -> ld_len log = zlen t -> (d_out dev = 1 -> c_string (ld_buf log) = Ret s) -> -7 <= ld_prio log <= 10 ->
  exists ch', out_device i evs k ch d log = Ret (ch', if d_out dev =? 1 then [EScreen (painted (ld_prio log) s)] else outputs i evs k d dev (ld_prio log) t) /\
    dgrow ch ch' (at_dev d (device_delta i evs k d dev (ld_prio log) (zlen t))).
Proof.
  intros i evs k ch d log t s dev K D0 N CL LL SHOWN P. unfold out_device. rewrite (rd_of _ _ _ _ D0 N). cbn [bind].
  pose proof (nth_error_lt _ _ _ _ N D0) as D1. assert (D: 0 <= d < zlen (c_devs ch)) by lia.
  assert (CW: exists ch', count_written ch d log = Ret ch' /\ dgrow ch ch' (at_dev d (written (ld_prio log) (zlen t)))).
  { rewrite <- LL. apply count_written_ok; assumption. }
  unfold enter_proc_device, DEVICE_OUT_SCREEN, DEVICE_OUT_FILE, DEVICE_OUT_UDP, DEVICE_OUT_VIRTUAL, DEVICE_OUT_EMPTY.
  unfold outputs, device_delta.
  destruct (d_out dev =? 1) eqn:T1.
  { assert (d_out dev = 1) as T1' by lia. rewrite T1'. unfold out_screen. destruct CW as (ch' & -> & G). cbn [bind]. rewrite (SHOWN T1'). cbn [bind].
    exists ch'. split; [|exact G]. unfold PRIORITY_INFO. destruct (ld_prio log <? 2) eqn:Q.
    - unfold painted. rewrite Q. reflexivity.
    - destruct (color_ok (ld_prio log) ltac:(lia)) as (c & -> & C). cbn [bind]. rewrite C. reflexivity. }
  destruct (d_out dev =? 2) eqn:T2.
  { assert (d_out dev = 2) as -> by lia. unfold out_file. destruct (io_file i evs k d); cbn [negb]; [|exists ch; split; [reflexivity|]; eapply dgrow_ext; [apply dgrow_refl, K|]; intros j x J X; unfold at_dev; destruct (j =? d); reflexivity].
    rewrite CL. cbn [bind]. rewrite LL. unfold DEVICE_LOG_TOTAL_WRITE_LINE, DEVICE_LOG_TOTAL_WRITE_BYTE, DEVICE_LOG_PRIORITY, DEVICE_LOG_CUR_FILE_SIZE.
    destruct (inc_dev_ok ch d 15 1 K D ltac:(lia)) as (c1 & -> & G1). cbn [bind]. destruct (dgrow_ok _ _ _ G1) as (K1 & E1).
    destruct (inc_dev_ok c1 d 16 (zlen t) K1 ltac:(rewrite E1; lia) ltac:(lia)) as (c2 & -> & G2). cbn [bind]. destruct (dgrow_ok _ _ _ G2) as (K2 & E2).
    destruct (inc_dev_ok c2 d 0 (zlen t) K2 ltac:(rewrite E2, E1; lia) ltac:(lia)) as (c3 & -> & G3). cbn [bind]. destruct (dgrow_ok _ _ _ G3) as (K3 & E3).
    destruct (inc_dev_ok c3 d (7 + ld_prio log) (zlen t) K3 ltac:(rewrite E3, E2, E1; lia) ltac:(lia)) as (c4 & -> & G4). cbn [bind].
    exists c4. split; [reflexivity|]. eapply dgrow_trans; [eapply dgrow_trans; [eapply dgrow_trans; [exact G1|exact G2|intros; reflexivity]|exact G3|intros; reflexivity]|exact G4|].
    intros j x J X. unfold at_dev, written. destruct (j =? d); lia. }
  destruct (d_out dev =? 3) eqn:T3.
  { assert (d_out dev = 3) as -> by lia. unfold out_udp, DEVICE_LOG_TOTAL_LOSE_LINE. destruct (io_sock i evs k d); cbn [negb andb].
    - rewrite (rd_of _ _ _ _ D0 N). cbn [bind]. rewrite CL. cbn [bind]. destruct (io_sent i evs k d <=? 0) eqn:SE.
      + destruct (inc_dev_ok ch d 17 1 K D ltac:(lia)) as (c1 & -> & G1). cbn [bind]. destruct (dgrow_ok _ _ _ G1) as (K1 & E1).
        destruct (count_written_ok c1 d log K1 ltac:(rewrite E1; lia) P) as (c2 & -> & G2). cbn [bind]. exists c2.
        destruct (0 <? io_sent i evs k d) eqn:SE2; [lia|]. split; [reflexivity|]. eapply dgrow_trans; [exact G1|exact G2|].
        intros j x J X. unfold at_dev. rewrite LL. destruct (j =? d); lia.
      + cbn [bind]. destruct CW as (ch' & -> & G). cbn [bind]. exists ch'. destruct (0 <? io_sent i evs k d) eqn:SE2; [|lia]. split; [reflexivity|].
        eapply dgrow_ext; [exact G|]. intros j x J X. unfold at_dev. destruct (j =? d); lia.
    - destruct (inc_dev_ok ch d 17 1 K D ltac:(lia)) as (c1 & -> & G1). cbn [bind]. exists c1. split; [reflexivity|exact G1]. }
  assert (Z0: dgrow ch ch (at_dev d (fun _ => 0))).
  { eapply dgrow_ext; [apply dgrow_refl, K|]. intros j x J X. unfold at_dev. destruct (j =? d); reflexivity. }
  destruct (d_out dev =? 4) eqn:T4.
  { assert (d_out dev = 4) as -> by lia. exists ch. split; [reflexivity|exact Z0]. }
  destruct (d_out dev =? 5) eqn:T5.
  { assert (d_out dev = 5) as -> by lia. unfold out_empty. destruct CW as (ch' & -> & G). cbn [bind]. exists ch'. split; [reflexivity|exact G]. }
  exists ch. destruct (d_out dev) as [|q|q]; [split; [reflexivity|exact Z0]| |split; [reflexivity|exact Z0]].
  do 3 (destruct q; try lia; try (split; [reflexivity|exact Z0])).
Qed.

Lemma out_device_ok : forall i evs k ch d log t dev, chan_ok ch -> 0 <= d -> nth_error (c_devs ch) (Z.to_nat d) = Some dev ->
  has_line log t -> -7 <= ld_prio log <= 10 ->
  exists ch', out_device i evs k ch d log = Ret (ch', outputs i evs k d dev (ld_prio log) t) /\
    dgrow ch ch' (at_dev d (device_delta i evs k d dev (ld_prio log) (zlen t))).
Proof.
  intros i evs k ch d log t dev K D0 N H P. pose proof H as (LL & rest & B).
  destruct (out_device_gen i evs k ch d log t (before_nul t) dev K D0 N (content_line _ _ H) LL) as (ch' & E & G); [intros _; rewrite B; apply c_string_line|exact P|].
  exists ch'. split; [|exact G]. rewrite E. unfold outputs. destruct (d_out dev =? 1) eqn:F; [|reflexivity]. assert (d_out dev = 1) as -> by lia. reflexivity.
Qed.

(* ---- DispatchLog ---- *)
Lemma dispatch_one : forall j d ds r, device_scope d (r_category r) (r_identify r) ->
  (device_on d /\ device_accepts d (r_priority r) (r_category r) (r_identify r) /\
     dispatch_from j (d :: ds) r = bind (dispatch_from (j + 1) ds r) (fun ids => Ret (j :: ids))) \/
  (~ (device_on d /\ device_accepts d (r_priority r) (r_category r) (r_identify r)) /\
     dispatch_from j (d :: ds) r = dispatch_from (j + 1) ds r).
Proof.
  intros j d ds r Hd. unfold device_scope, in_scope in Hd. cbv zeta in Hd. destruct Hd as (S1 & S2 & S3 & S4).
  cbn [dispatch_from]. cbv zeta. unfold fld.
  change (Z.to_nat DEVICE_CFG_ABLE) with 0%nat. change (Z.to_nat DEVICE_CFG_PRIORITY) with 1%nat.
  change (Z.to_nat DEVICE_CFG_CATEGORY) with 2%nat. change (Z.to_nat DEVICE_CFG_CATEGORY_EXTEND) with 3%nat.
  change (Z.to_nat DEVICE_CFG_CATEGORY_MASK) with 4%nat. change (Z.to_nat DEVICE_CFG_IDENTIFY) with 5%nat.
  change (Z.to_nat DEVICE_CFG_IDENTIFY_EXTEND) with 6%nat. change (Z.to_nat DEVICE_CFG_IDENTIFY_MASK) with 7%nat.
  change DEVICE_IN_NULL with 0. unfold device_on, device_accepts, accepts. cbv zeta.
  destruct (nth 0 (d_cfg d) 0 =? 0) eqn:E0; [right; split; [lia|reflexivity]|].
  destruct (negb (d_in d =? 0)) eqn:E1; [right; split; [lia|reflexivity]|].
  destruct (r_priority r <? nth 1 (d_cfg d) 0) eqn:E2; [right; split; [lia|reflexivity]|].
  destruct (window_ok (nth 2 (d_cfg d) 0) (nth 3 (d_cfg d) 0) (r_category r)) as (b1 & -> & B1); [assumption|]. cbn [bind].
  destruct b1; [right; split; [intuition congruence|reflexivity]|].
  destruct (window_ok (nth 5 (d_cfg d) 0) (nth 6 (d_cfg d) 0) (r_identify r)) as (b2 & -> & B2); [assumption|]. cbn [bind].
  destruct b2; [right; split; [intuition congruence|reflexivity]|].
  destruct (mask_ok (nth 4 (d_cfg d) 0) (r_category r)) as (b3 & -> & B3); [assumption|]. cbn [bind].
  destruct b3; [right; split; [intuition congruence|reflexivity]|].
  destruct (mask_ok (nth 7 (d_cfg d) 0) (r_identify r)) as (b4 & -> & B4); [assumption|]. cbn [bind].
  destruct b4; [right; split; [intuition congruence|reflexivity]|].
  left. split; [lia|]. split; [|reflexivity]. split; [lia|]. tauto.
Qed.

Lemma deliver_from : forall i k log t ds j, -7 <= ld_prio log <= 10 -> has_line log t -> 0 <= j ->
  (forall d, In d ds -> device_scope d (ld_cat log) (ld_ident log)) ->
  exists ids, dispatch_from j ds (filter_rec log) = Ret ids /\
    forall ch evs, chan_ok ch -> (forall m d, nth_error ds m = Some d -> nth_error (c_devs ch) (Z.to_nat j + m) = Some d) ->
      exists ch' evs' f, out_devices i evs k ch ids log = Ret (ch', evs') /\ dgrow ch ch' f /\
        delivered i k (ld_prio log) (ld_cat log) (ld_ident log) t j ds evs evs' f.
Proof.
  intros i k log t ds. induction ds as [|d ds IH]; intros j P H J SC.
  - exists []. split; [reflexivity|]. intros ch evs K _. exists ch, evs, (fun _ _ => 0). split; [reflexivity|]. split; [apply dgrow_refl, K|constructor].
  - destruct (IH (j + 1) P H ltac:(lia) ltac:(intros; apply SC; right; assumption)) as (ids & DI & OUT).
    destruct (dispatch_one j d ds (filter_rec log) ltac:(apply SC; left; reflexivity)) as [(On & Acc & E)|(Not & E)]; rewrite E, DI; cbn [bind].
    + exists (j :: ids). split; [reflexivity|]. intros ch evs K AT. cbn [out_devices].
      pose proof (AT 0%nat d eq_refl) as A0. rewrite Nat.add_0_r in A0.
      destruct (out_device_ok i evs k ch j log t d K J A0 H P) as (c1 & -> & G1). cbn [bind].
      destruct (dgrow_ok _ _ _ G1) as (K1 & E1).
      destruct (OUT c1 (evs ++ outputs i evs k j d (ld_prio log) t) K1) as (c2 & evs' & f & R & G2 & DL).
      { intros m x M. rewrite E1. replace (Z.to_nat (j + 1) + m)%nat with (Z.to_nat j + S m)%nat by lia. apply AT. exact M. }
      rewrite R. do 3 eexists. split; [reflexivity|]. split; [|eapply dl_out; eassumption].
      eapply dgrow_trans; [exact G1|exact G2|]. intros a x A X. unfold at_dev. destruct (a =? j); lia.
    + exists ids. split; [reflexivity|]. intros ch evs K AT. destruct (OUT ch evs K) as (c2 & evs' & f & R & G2 & DL).
      { intros m x M. replace (Z.to_nat (j + 1) + m)%nat with (Z.to_nat j + S m)%nat by lia. apply AT. exact M. }
      exists c2, evs', f. split; [exact R|]. split; [exact G2|]. apply dl_skip; assumption.
Qed.

Lemma dispatch_log_ok : forall i evs k ch log t, chan_ok ch -> -7 <= ld_prio log <= 10 -> has_line log t ->
  devices_scope ch (ld_cat log) (ld_ident log) ->
  exists ch' evs' f, dispatch_log i evs k ch log = Ret (ch', evs') /\ dgrow ch ch' f /\
    delivered i k (ld_prio log) (ld_cat log) (ld_ident log) t 0 (firstn (Z.to_nat (c_size ch)) (c_devs ch)) evs evs' f.
Proof.
  intros i evs k ch log t K P H SC. unfold dispatch_log, dispatch. cbn [filter_rec].
  assert (sound_channel ch) as SO by (destruct K as (_ & ? & _); assumption).
  destruct (deliver_from i k log t (firstn (Z.to_nat (c_size ch)) (c_devs ch)) 0 P H ltac:(lia)) as (ids & DI & OUT).
  { intros d I. apply (in_firstn_has ch d SO) in I as (x & I). eapply SC, I. }
  rewrite DI. cbn [bind]. apply OUT; [exact K|]. intros m d M. change (Z.to_nat 0 + m)%nat with m.
  rewrite <- (firstn_skipn (Z.to_nat (c_size ch)) (c_devs ch)). rewrite nth_error_app1; [exact M|]. apply nth_error_Some. congruence.
Qed.

(* ---- the channel's own counters ---- *)
Definition cgrow (ch ch' : channel) (g : Z -> Z) : Prop :=
  same_setup ch ch' /\ chan_ok ch' /\ c_dlog ch' = c_dlog ch /\
  forall x, 0 <= x -> x <> 21 -> x <> 22 -> cnt (c_log ch') x = cnt (c_log ch) x + g x.
Lemma cgrow_refl : forall ch, chan_ok ch -> cgrow ch ch (fun _ => 0).
Proof. intros ch K. split; [apply same_setup_refl|]. split; [exact K|]. split; [reflexivity|]. intros. lia. Qed.
Lemma cgrow_trans : forall a b c f g h, cgrow a b f -> cgrow b c g -> (forall x, 0 <= x -> h x = f x + g x) -> cgrow a c h.
Proof.
  intros a b c f g h (A1 & A2 & A3 & A4) (B1 & B2 & B3 & B4) H. split; [eapply same_setup_trans; eassumption|].
  split; [exact B2|]. split; [congruence|]. intros x X N1 N2. rewrite B4, A4, H by assumption. lia.
Qed.
Lemma inc_ch_ok : forall ch i v, chan_ok ch -> 0 <= i < 25 -> exists ch', inc_ch ch i v = Ret ch' /\ cgrow ch ch' (fun x => hit x i v).
Proof.
  intros ch i v (K1 & K2 & K3 & K4) I. unfold inc_ch. destruct (bump_ok (c_log ch) i v ltac:(lia)) as (l & -> & L & C). cbn [bind].
  eexists. split; [reflexivity|]. split; [unfold same_setup, set_log; cbn; tauto|]. split.
  - unfold chan_ok, set_log. cbn. rewrite L. tauto.
  - split; [reflexivity|]. intros x X _ _. cbn [set_log c_log]. apply C, X.
Qed.
Lemma max_ch_ok : forall ch i v, chan_ok ch -> i = 21 \/ i = 22 -> exists ch', max_ch ch i v = Ret ch' /\ cgrow ch ch' (fun _ => 0).
Proof.
  intros ch i v K I. pose proof K as (K1 & K2 & K3 & K4). unfold max_ch. destruct (rd_nth _ (c_log ch) i ltac:(lia)) as (x & -> & N). cbn [bind].
  destruct (x <? v); [|exists ch; split; [reflexivity|apply cgrow_refl, K]].
  destruct (wr_ok _ (c_log ch) i v ltac:(lia)) as (l & -> & L & S & Oth). cbn [bind]. eexists. split; [reflexivity|].
  split; [unfold same_setup, set_log; cbn; tauto|]. split.
  - unfold chan_ok, set_log. cbn. rewrite L. tauto.
  - split; [reflexivity|]. intros y Y N1 N2. cbn [set_log c_log]. unfold cnt. rewrite (nth_same _ _ _ _ 0 (Oth y Y ltac:(lia))). lia.
Qed.
Lemma cgrow_ok : forall a b f, cgrow a b f -> chan_ok b.
Proof. intros a b f (_ & K & _). exact K. Qed.

(* both kinds together *)
Definition grow (ch ch' : channel) (f : Z -> Z -> Z) (g : Z -> Z) : Prop :=
  same_setup ch ch' /\ chan_ok ch' /\
  (forall j x, 0 <= j -> 0 <= x -> dcnt ch' j x = dcnt ch j x + f j x) /\
  (forall x, 0 <= x -> x <> 21 -> x <> 22 -> cnt (c_log ch') x = cnt (c_log ch) x + g x).
Lemma grow_d : forall a b f, dgrow a b f -> grow a b f (fun _ => 0).
Proof. intros a b f (A1 & A2 & A3 & A4). split; [exact A1|]. split; [exact A2|]. split; [exact A4|]. intros. rewrite A3. lia. Qed.
Lemma grow_c : forall a b g, cgrow a b g -> grow a b (fun _ _ => 0) g.
Proof. intros a b f (A1 & A2 & A3 & A4). split; [exact A1|]. split; [exact A2|]. split; [|exact A4]. intros. unfold dcnt. rewrite A3. lia. Qed.
Lemma grow_refl : forall ch, chan_ok ch -> grow ch ch (fun _ _ => 0) (fun _ => 0).
Proof. intros ch K. apply grow_d, dgrow_refl, K. Qed.
Lemma grow_trans : forall a b c f1 f2 f g1 g2 g, grow a b f1 g1 -> grow b c f2 g2 ->
  (forall j x, 0 <= j -> 0 <= x -> f j x = f1 j x + f2 j x) -> (forall x, 0 <= x -> g x = g1 x + g2 x) -> grow a c f g.
Proof.
  intros a b c f1 f2 f g1 g2 g (A1 & A2 & A3 & A4) (B1 & B2 & B3 & B4) F G. split; [eapply same_setup_trans; eassumption|].
  split; [exact B2|]. split; intros.
  - rewrite B3, A3, F by assumption. lia.
  - rewrite B4, A4, G by assumption. lia.
Qed.

(* ---- the queue ---- *)
Lemma nxt_mod : forall W a m, 10 < W_ring W -> nxt W ((a + m) mod W_ring W) = (a + (m + 1)) mod W_ring W.
Proof. intros W a m N. unfold nxt. rewrite Zplus_mod_idemp_l. f_equal. lia. Qed.
Lemma shift_ne : forall N a m, 0 <= a < N -> 0 < m < N -> (a + m) mod N <> a.
Proof. intros N a m A M H. destruct (Z_lt_le_dec (a + m) N); [rewrite Z.mod_small in H by lia; lia|].
  replace (a + m) with ((a + m - N) + 1 * N) in H by lia. rewrite Z_mod_plus_full, Z.mod_small in H by lia. lia.
Qed.
Lemma shift_inj : forall N a m m', 0 <= a < N -> 0 <= m < N -> 0 <= m' < N -> m <> m' -> (a + m) mod N <> (a + m') mod N.
Proof.
  intros N a m m' A M M' Ne H.
  assert (forall z, 0 <= z < N -> (a + z) mod N = if a + z <? N then a + z else a + z - N) as F.
  { intros z Z. destruct (a + z <? N) eqn:E; [apply Z.mod_small; lia|]. replace (a + z) with ((a + z - N) + 1 * N) at 1 by lia. rewrite Z_mod_plus_full, Z.mod_small by lia. reflexivity. }
  rewrite !F in H by assumption. destruct (a + m <? N) eqn:E1, (a + m' <? N) eqn:E2; lia.
Qed.

Lemma read_up_one : forall W r c, 10 < W_ring W -> 0 <= rg_read r < W_ring W -> rg_proc r = nxt W (rg_read r) ->
  nth_error (rg_cells r) (Z.to_nat (rg_read r)) = Some c -> ce_mark c = 0 ->
  read_up (Z.to_nat (W_ring W)) W r = Ret (mkRing (rg_write r) (rg_hold r) (rg_proc r) (rg_proc r) (rg_cells r) (rg_udp r)).
Proof.
  intros W r c N R P C M. assert (exists n, Z.to_nat (W_ring W) = S (S n)) as (n & ->) by (exists (Z.to_nat (W_ring W) - 2)%nat; lia).
  cbn [read_up]. assert (rg_read r <> rg_proc r) as Ne.
  { rewrite P. unfold nxt. intros X. symmetry in X. revert X. apply shift_ne; lia. }
  destruct (rg_read r =? rg_proc r) eqn:E; [lia|]. rewrite (rd_of _ _ (rg_read r) _ (proj1 R) C). cbn [bind]. unfold MARK_INVALID. rewrite M. cbn [Z.eqb].
  cbn [rg_read rg_proc]. rewrite <- P, Z.eqb_refl. reflexivity.
Qed.

Definition proc_delta (q : list item) (x : Z) : Z := hit x 19 (zlen q) + hit x 20 (fold_right (fun l n => zlen (i_line l) + n) 0 q).
Definition prio_in (p : Z) : Prop := -7 <= p <= 10.
Definition no_marks (a b : ring) : Prop := rg_write b = rg_write a /\ rg_hold b = rg_hold a /\ rg_udp b = rg_udp a.

Lemma proc_records_ok : forall W i k q fuel r ch evs, 10 < W_ring W -> ring_ok W r -> waiting W r q -> chan_ok ch ->
  Forall (fun l => prio_in (i_prio l) /\ devices_scope ch (i_cat l) (i_ident l)) q -> (length q < fuel)%nat ->
  exists r' ch' evs' f, proc_records fuel W i k r ch evs = Ret (r', ch', evs') /\
    delivered_all i k (firstn (Z.to_nat (c_size ch)) (c_devs ch)) q evs evs' f /\ grow ch ch' f (proc_delta q) /\
    ring_ok W r' /\ no_marks r r' /\ rg_proc r' = rg_write r /\ rg_read r' = rg_write r.
Proof.
  intros W i k q. induction q as [|l q IH]; intros fuel r ch evs N RO WT K FA FU; (destruct fuel as [|fuel]; [cbn in FU; lia|]).
  - destruct WT as (WL & WP & WW & _). rewrite zlen_nil, Z.add_0_r in WW. destruct RO as (R1 & R2 & R3 & R4 & R5 & R6 & R7).
    rewrite Z.mod_small in WW by assumption. cbn [proc_records]. rewrite WP, WW, Z.eqb_refl.
    exists r, ch, evs, (fun _ _ => 0). split; [reflexivity|]. split; [constructor|]. split; [apply (grow_trans _ _ _ _ _ _ _ _ _ (grow_refl ch K) (grow_refl ch K)); intros; [lia|]; unfold proc_delta, hit, zlen; cbn; destruct (x =? 19), (x =? 20); reflexivity|].
    split; [unfold ring_ok; tauto|]. split; [unfold no_marks; tauto|]. split; congruence.
  - destruct WT as (WL & WP & WW & WC). rewrite zlen_cons in WL, WW. pose proof (zlen_nonneg _ q) as LQ.
    destruct RO as (R1 & R2 & R3 & R4 & R5 & R6 & R7). cbn [proc_records].
    assert (Ne: rg_proc r <> rg_write r). { rewrite WP, WW. intros X. symmetry in X. revert X. apply shift_ne; lia. }
    destruct (rg_proc r =? rg_write r) eqn:E; [lia|].
    destruct (WC 0%nat l eq_refl) as (c & C & CM & IT). rewrite Z.add_0_r, Z.mod_small in C by assumption. rewrite <- WP in C.
    rewrite (rd_of _ _ (rg_proc r) _ (proj1 R7) C). cbn [bind]. destruct IT as (I1 & I2 & I3 & I4 & I5).
    pose proof (Forall_inv FA) as (PL & SC). rewrite <- I2, <- I3 in SC. unfold prio_in in PL. rewrite <- I1 in PL.
    destruct (dispatch_log_ok i evs k ch (ce_log c) (i_line l) K PL (conj I4 I5) SC) as (c1 & evs1 & f1 & -> & G1 & DL). cbn [bind].
    destruct (wr_ok _ (rg_cells r) (rg_proc r) (mkCell MARK_INVALID (ce_log c)) ltac:(lia)) as (cells & -> & CL & CS & CO). cbn [bind].
    pose proof (dgrow_ok _ _ _ G1) as (K1 & _).
    destruct (inc_ch_ok c1 CHANNEL_LOG_PROCESSED 1 K1 ltac:(unfold CHANNEL_LOG_PROCESSED; lia)) as (c2 & -> & G2). cbn [bind]. pose proof (cgrow_ok _ _ _ G2) as K2.
    destruct (inc_ch_ok c2 CHANNEL_LOG_PROCESSED_BYTES (ld_len (ce_log c)) K2 ltac:(unfold CHANNEL_LOG_PROCESSED_BYTES; lia)) as (c3 & -> & G3). cbn [bind]. pose proof (cgrow_ok _ _ _ G3) as K3.
    cbv zeta. cbn [rg_write].
    destruct (max_ch_ok c3 CHANNEL_LOG_MAX_PROC_QUE_SIZE (if rg_proc r <=? rg_write r then rg_write r - rg_proc r else rg_write r + W_ring W - rg_proc r) K3 ltac:(left; reflexivity)) as (c4 & -> & G4). cbn [bind]. pose proof (cgrow_ok _ _ _ G4) as K4.
    assert (exists c5, (if 0 <? ld_ts (ce_log c) then max_ch c4 CHANNEL_LOG_MAX_DELAY_TIME_S (io_ts i - 1 - ld_ts (ce_log c)) else Ret c4) = Ret c5 /\ cgrow c4 c5 (fun _ => 0)) as (c5 & -> & G5).
    { destruct (0 <? ld_ts (ce_log c)); [apply max_ch_ok; [exact K4|right; reflexivity]|exists c4; split; [reflexivity|apply cgrow_refl, K4]]. }
    cbn [bind]. pose proof (cgrow_ok _ _ _ G5) as K5.
    set (r1 := mkRing (rg_write r) (rg_hold r) (rg_read r) (nxt W (rg_proc r)) cells (rg_udp r)).
    rewrite (read_up_one W r1 (mkCell MARK_INVALID (ce_log c)) N); [|exact R6|cbn [r1 rg_proc rg_read]; congruence|cbn [r1 rg_cells rg_read]; rewrite <- WP; exact CS|reflexivity].
    cbn [bind r1 rg_write rg_hold rg_read rg_proc rg_cells rg_udp].
    assert (GT: grow ch c5 f1 (fun x => hit x 19 1 + hit x 20 (ld_len (ce_log c)))).
    { eapply grow_trans; [apply grow_d, G1|eapply grow_trans; [apply grow_c, G2|eapply grow_trans; [apply grow_c, G3|eapply grow_trans; [apply grow_c, G4|apply grow_c, G5|..]|..]|..]|..].
      all: intros; cbv beta; try reflexivity. all: unfold CHANNEL_LOG_PROCESSED, CHANNEL_LOG_PROCESSED_BYTES; lia. }
    assert (SS: same_setup ch c5) by (destruct GT as (? & _); assumption).
    assert (SS2: c_size c5 = c_size ch /\ c_devs c5 = c_devs ch) by (unfold same_setup in SS; tauto). destruct SS2 as (Z1 & Z2).
    assert (NX: nxt W (rg_proc r) = (rg_read r + 1) mod W_ring W) by (unfold nxt; rewrite WP; reflexivity).
    set (r2 := mkRing (rg_write r) (rg_hold r) (nxt W (rg_proc r)) (nxt W (rg_proc r)) cells (rg_udp r)).
    destruct (IH fuel r2 c5 evs1 N) as (r3 & c6 & evs3 & f3 & RUN & DA & G6 & RO3 & NM & P3 & Q3).
    + assert (0 <= nxt W (rg_proc r) < W_ring W) by (unfold nxt; apply Z.mod_pos_bound; lia).
      unfold ring_ok. cbn [r2 rg_cells rg_udp rg_write rg_hold rg_read rg_proc]. rewrite CL. split; [lia|]. split; [|tauto].
      eapply forall_wr; [exact R2| |exact CL|exact CS|exact CO].
      rewrite Forall_forall in R2. cbn [ce_log]. apply (R2 c). eapply nth_error_In, C.
    + unfold waiting. cbn [r2 rg_cells rg_udp rg_write rg_hold rg_read rg_proc]. split; [lia|]. split; [reflexivity|]. split.
      { rewrite NX, Zplus_mod_idemp_l. rewrite WW. f_equal. lia. }
      intros m x M. destruct (WC (S m) x M) as (c' & C' & CM' & IT'). exists c'. split; [|split; assumption].
      rewrite NX, Zplus_mod_idemp_l. replace (rg_read r + 1 + Z.of_nat m) with (rg_read r + Z.of_nat (S m)) by lia.
      assert (Z.of_nat (S m) < 1 + zlen q) by (assert (m < length q)%nat by (apply nth_error_Some; congruence); unfold zlen; lia).
      rewrite CO; [exact C'|apply Z.mod_pos_bound; lia|]. rewrite WP. replace (rg_read r) with ((rg_read r + 0) mod W_ring W) at 2 by (rewrite Z.add_0_r; apply Z.mod_small; assumption).
      apply shift_inj; lia.
    + exact K5.
    + apply Forall_inv_tail in FA. eapply Forall_impl; [|exact FA]. intros a (A1 & A2). split; [exact A1|]. intros j d (J1 & J2). apply (A2 j d). unfold has_device. rewrite <- Z1, <- Z2. tauto.
    + cbn in FU. lia.
    + rewrite Z1, Z2 in DA. cbn [r2 rg_write] in P3, Q3. fold r2. rewrite RUN. do 4 eexists. split; [reflexivity|]. split.
      { econstructor; [|exact DA]. rewrite I1, I2, I3 in DL. exact DL. }
      split; [eapply grow_trans; [exact GT|exact G6|intros; reflexivity|]|].
      { intros x X. unfold proc_delta. cbn [fold_right]. rewrite I4, zlen_cons. unfold hit. destruct (x =? 19), (x =? 20); lia. }
      split; [exact RO3|]. split; [unfold no_marks in *; cbn [r2 rg_write rg_hold rg_udp] in NM; exact NM|]. split; assumption.
Qed.

(* ---- EnterProcChannel ---- *)
Lemma init_log_ok : forall W i u k p c n, log_ok W u -> 2 <= e_cap (W_env W) -> exists u', init_log i u k p c n = Ret u' /\ log_ok W u' /\ ld_len u' = 0 /\
  ld_prio u' = p /\ ld_cat u' = c /\ ld_ident u' = ll_of n /\ ld_chan u' = k /\ nth_error (ld_buf u') 0 = Some 0 /\
  (forall j, 0 < j -> nth_error (ld_buf u') (Z.to_nat j) = nth_error (ld_buf u) (Z.to_nat j)).
Proof.
  intros W i u k p c n L C. unfold log_ok in *. unfold init_log, init_text.
  destruct (wr_ok _ (ld_buf u) 0 0 ltac:(lia)) as (b1 & -> & L1 & S1 & O1). cbn [bind].
  destruct (wr_ok _ b1 0 0 ltac:(lia)) as (b2 & -> & L2 & S2 & O2). cbn [bind]. eexists. split; [reflexivity|]. cbn [ld_buf ld_len ld_prio ld_cat ld_ident ld_chan s_len s_buf].
  split; [lia|]. repeat (split; [reflexivity|]). split; [exact S2|]. intros j J. rewrite O2, O1 by lia. reflexivity.
Qed.
Lemma udp_loop_none : forall n W i k d u ch evs, 2 <= e_cap (W_env W) -> udp_ok W u ->
  exists u', udp_loop (S n) W i k d u [] ch evs = Ret (u', [], ch, evs) /\ udp_ok W u'.
Proof.
  intros n W i k d u ch evs C (L & LN). cbn [udp_loop].
  destruct (init_log_ok W i u k PRIORITY_INFO 0 0 L C) as (u1 & -> & L1 & _ & _ & _ & _ & _ & _ & OTH). cbn [bind udp_read ld_len set_text].
  unfold LOG_SIZE. destruct (0 =? e_cap (W_env W)) eqn:E; [lia|]. cbn [bind ld_len set_text Z.eqb]. eexists. split; [reflexivity|]. split; [exact L1|]. cbn [ld_buf set_text]. rewrite OTH by lia. exact LN.
Qed.
Lemma read_max : exists n, READ_MAX = S n.
Proof. eexists. reflexivity. Qed.
Lemma udp_none : forall W i k ch evs ds d u qs, 2 <= e_cap (W_env W) -> udp_ok W u -> (forall j, qs j = []) ->
  exists u' qs', udp_devices ds d W i k u qs ch evs = Ret (u', qs', ch, evs) /\ udp_ok W u' /\ (forall j, qs' j = []).
Proof.
  intros W i k ch evs ds. induction ds as [|dev ds IH]; intros d u qs C L Q; cbn [udp_devices]; [eauto|].
  destruct ((d_in dev =? DEVICE_IN_UDP) && negb (fld (d_cfg dev) DEVICE_CFG_ABLE =? 0) && io_sock i evs k d); [|apply IH; assumption].
  rewrite Q. destruct read_max as (n & ->). destruct (udp_loop_none n W i k d u ch evs C L) as (u1 & -> & L1). cbn [bind].
  apply IH; [exact C|exact L1|]. intros j. destruct (j =? d); [reflexivity|apply Q].
Qed.

Lemma put_ch_ok : forall w k ch, 0 <= k < zlen (g_chs (w_lg w)) -> exists w', put_ch w k ch = Ret w' /\
  w_rings w' = w_rings w /\ w_in w' = w_in w /\ w_ev w' = w_ev w /\
  g_shm (w_lg w') = g_shm (w_lg w) /\ g_state (w_lg w') = g_state (w_lg w) /\ g_size (w_lg w') = g_size (w_lg w) /\
  zlen (g_chs (w_lg w')) = zlen (g_chs (w_lg w)) /\ nth_error (g_chs (w_lg w')) (Z.to_nat k) = Some ch /\
  (forall a, 0 <= a -> a <> k -> nth_error (g_chs (w_lg w')) (Z.to_nat a) = nth_error (g_chs (w_lg w)) (Z.to_nat a)).
Proof.
  intros w k ch H. unfold put_ch. destruct (wr_ok _ (g_chs (w_lg w)) k ch H) as (l & -> & L & S & Oth). cbn [bind]. eexists. split; [reflexivity|].
  unfold put_lg. cbn. repeat (split; [reflexivity|]). tauto.
Qed.
Lemma put_ring_ok : forall w k r, 0 <= k < zlen (w_rings w) -> exists w', put_ring w k r = Ret w' /\
  w_lg w' = w_lg w /\ w_in w' = w_in w /\ w_ev w' = w_ev w /\
  zlen (w_rings w') = zlen (w_rings w) /\ nth_error (w_rings w') (Z.to_nat k) = Some r /\
  (forall a, 0 <= a -> a <> k -> nth_error (w_rings w') (Z.to_nat a) = nth_error (w_rings w) (Z.to_nat a)).
Proof.
  intros w k r H. unfold put_ring. destruct (wr_ok _ (w_rings w) k r H) as (l & -> & L & S & Oth). cbn [bind]. eexists. split; [reflexivity|].
  cbn. repeat (split; [reflexivity|]). tauto.
Qed.

(* a world that differs from w only at channel k, where it has ch and r *)
Definition becomes (k : Z) (ch : channel) (r : ring) (w w' : world) : Prop :=
  only_at k w w' /\ zlen (g_chs (w_lg w')) = zlen (g_chs (w_lg w)) /\ zlen (w_rings w') = zlen (w_rings w) /\
  nth_error (g_chs (w_lg w')) (Z.to_nat k) = Some ch /\ nth_error (w_rings w') (Z.to_nat k) = Some r.
Lemma only_at_refl : forall k w, only_at k w w.
Proof. intros. unfold only_at. repeat split; reflexivity. Qed.
Lemma only_at_trans : forall k a b c, only_at k a b -> only_at k b c -> only_at k a c.
Proof.
  intros k a b c (A1 & A2 & A3 & A4 & A5) (B1 & B2 & B3 & B4 & B5). unfold only_at. repeat (split; [congruence|]). split.
  - intros x X X0. destruct (A4 x X X0), (B4 x X X0). split; congruence.
  - intros x y. rewrite B5. apply A5.
Qed.
Lemma becomes_trans : forall k ch1 r1 ch2 r2 a b c, becomes k ch1 r1 a b -> becomes k ch2 r2 b c -> becomes k ch2 r2 a c.
Proof.
  intros k ch1 r1 ch2 r2 a b c (A1 & A2 & A3 & A4 & A5) (B1 & B2 & B3 & B4 & B5). split; [eapply only_at_trans; eassumption|].
  split; [congruence|]. split; [congruence|]. split; assumption.
Qed.
Lemma becomes_put : forall k w ch0 r0 ch r, 0 <= k -> nth_error (g_chs (w_lg w)) (Z.to_nat k) = Some ch0 -> nth_error (w_rings w) (Z.to_nat k) = Some r0 ->
  exists w', bind (put_ch w k ch) (fun w => put_ring w k r) = Ret w' /\ becomes k ch r w w' /\ w_ev w' = w_ev w.
Proof.
  intros k w ch0 r0 ch r K C R. pose proof (nth_error_lt _ _ _ _ C K). pose proof (nth_error_lt _ _ _ _ R K).
  destruct (put_ch_ok w k ch ltac:(lia)) as (w1 & -> & A1 & A2 & A3 & A4 & A5 & A6 & A7 & A8 & A9). cbn [bind].
  destruct (put_ring_ok w1 k r ltac:(rewrite A1; lia)) as (w2 & -> & B1 & B2 & B3 & B4 & B5 & B6). exists w2. split; [reflexivity|]. split; [|congruence].
  unfold becomes, only_at. rewrite B1. split.
  - split; [exact A4|]. split; [exact A5|]. split; [exact A6|]. split.
    + intros a A A0. split; [apply A9; assumption|]. rewrite B6, A1 by assumption. reflexivity.
    + intros. rewrite B2, A2. reflexivity.
  - split; [exact A7|]. split; [congruence|]. split; [exact A8|exact B5].
Qed.
Lemma becomes_shape : forall W k ch r w w', shape W w -> 0 <= k -> becomes k ch r w w' -> chan_ok ch -> ring_ok W r -> shape W w'.
Proof.
  intros W k ch r w w' (S1 & S2 & S3 & S4 & S5 & S6) K0 ((A1 & A2 & A3 & A4 & A5) & B1 & B2 & B3 & B4) CO RO. unfold shape.
  rewrite A3, B1, B2. repeat (split; [assumption|]). split.
  - eapply forall_wr with (i := k); [exact S5|exact CO|exact B1|exact B3|]. intros j J N. apply A4; assumption.
  - eapply forall_wr with (i := k); [exact S6|exact RO|exact B2|exact B4|]. intros j J N. apply A4; assumption.
Qed.
Lemma shape_at : forall W w k ch r, shape W w -> chan_at w k ch -> ring_at w k r -> chan_ok ch /\ ring_ok W r.
Proof.
  intros W w k ch r (S1 & S2 & S3 & S4 & S5 & S6) (K & C) (_ & R). rewrite Forall_forall in S5, S6. split; [apply S5|apply S6]; eapply nth_error_In; eassumption.
Qed.

(* one round with some records waiting and no datagrams *)
Lemma enter_proc_ok : forall W i w k ch r q, shape W w -> chan_at w k ch -> ring_at w k r -> c_state ch <> 0 -> waiting W r q ->
  Forall (fun l => prio_in (i_prio l) /\ devices_scope ch (i_cat l) (i_ident l)) q -> no_datagrams w k ->
  exists w' ch' r' f, enter_proc W i w k = Ret w' /\ becomes k ch' r' w w' /\ shape W w' /\ grow ch ch' f (proc_delta q) /\
    delivered_all i k (firstn (Z.to_nat (c_size ch)) (c_devs ch)) q (w_ev w) (w_ev w') f /\
    rg_write r' = rg_write r /\ rg_hold r' = rg_hold r /\ rg_proc r' = rg_write r /\ rg_read r' = rg_write r.
Proof.
  intros W i w k ch r q SH CA RA CS WT FA ND. pose proof SH as (S1 & S2 & S3 & S4 & S5 & S6). destruct (shape_at _ _ _ _ _ SH CA RA) as (CO & RO).
  pose proof CA as (K & C). pose proof RA as (_ & R). unfold enter_proc. rewrite (rd_of _ _ k _ (proj1 K) C). cbn [bind]. rewrite (rd_of _ _ k _ (proj1 K) R). cbn [bind].
  destruct (proc_records_ok W i k q (S (Z.to_nat (W_ring W))) r ch (w_ev w) S2 RO WT CO FA) as (r1 & c1 & evs & f & -> & DA & G & RO1 & NM & P1 & Q1).
  { destruct WT as (WL & _). unfold zlen in WL. lia. }
  cbn [bind]. pose proof G as (SS & CO1 & _). assert (c_state c1 = c_state ch /\ c_size c1 = c_size ch /\ c_devs c1 = c_devs ch) as (E1 & E2 & E3) by (unfold same_setup in SS; tauto).
  unfold CHANNEL_STATE_NULL. destruct (c_state c1 =? 0) eqn:E; [lia|].
  destruct (udp_none W i k c1 evs (firstn (Z.to_nat (c_size c1)) (c_devs c1)) 0 (rg_udp r1) (w_in w k) S1 ltac:(unfold ring_ok in RO1; tauto) ND) as (u & qs & -> & LU & Q). cbn [bind].
  destruct (becomes_put k w ch r c1 (mkRing (rg_write r1) (rg_hold r1) (rg_read r1) (rg_proc r1) (rg_cells r1) u) (proj1 K) C R) as (w1 & P & B & EV).
  apply bind_ret_inv in P as (w0 & -> & P). cbn [bind]. rewrite P. cbn [bind].
  assert (B': becomes k c1 (mkRing (rg_write r1) (rg_hold r1) (rg_read r1) (rg_proc r1) (rg_cells r1) u) w (mkWorld (w_lg w1) (w_rings w1) (fun a => if a =? k then qs else w_in w1 a) evs)).
  { destruct B as ((A1 & A2 & A3 & A4 & A5) & B1 & B2 & B3 & B4). unfold becomes, only_at. cbn [w_lg w_rings w_in]. repeat (split; [assumption|]). split; [|tauto].
    repeat (split; [assumption|]). intros a b. destruct (a =? k) eqn:EK; [|apply A5]. assert (a = k) as -> by lia. rewrite Q, ND. reflexivity. }
  assert (RO2: ring_ok W (mkRing (rg_write r1) (rg_hold r1) (rg_read r1) (rg_proc r1) (rg_cells r1) u)).
  { unfold ring_ok in RO1 |- *. cbn [rg_write rg_hold rg_read rg_proc rg_cells rg_udp]. tauto. }
  unfold no_marks in NM. do 4 eexists. split; [reflexivity|]. split; [exact B'|]. split; [eapply becomes_shape; [exact SH|apply K|exact B'|exact CO1|exact RO2]|].
  split; [exact G|]. split; [exact DA|]. cbn [rg_write rg_hold rg_read rg_proc]. tauto.
Qed.

(* ---- HoldChannel ---- *)
Definition in_sense (w : world) (k c n : Z) : Prop := forall ch, nth_error (g_chs (w_lg w)) (Z.to_nat k) = Some ch -> meant ch c n.
Lemma hold_blocked : forall W w k p c n, shape W w -> in_sense w k c n -> ~ admitted (w_lg w) k p c n -> hold W w k p c n = Ret (w, -1).
Proof.
  intros W w k p c n (S1 & S2 & S3 & S4 & S5 & S6) M NA. unfold hold.
  destruct (block_input_correct (w_lg w) k p c n) as (b & -> & B); [|exact S3|].
  { intros ch H. rewrite Forall_forall in S5. destruct (M ch H). split; [|tauto]. specialize (S5 ch (nth_error_In _ _ H)). unfold chan_ok in S5. unfold sound_channel. tauto. }
  cbn [bind]. destruct b; [reflexivity|]. exfalso. apply NA, B. reflexivity.
Qed.

Lemma nth_error_wr_cells : forall W (l l' : list cell) i c, Forall (fun c => log_ok W (ce_log c)) l -> log_ok W (ce_log c) -> zlen l' = zlen l ->
  nth_error l' (Z.to_nat i) = Some c -> (forall j, 0 <= j -> j <> i -> nth_error l' (Z.to_nat j) = nth_error l (Z.to_nat j)) -> Forall (fun c => log_ok W (ce_log c)) l'.
Proof. intros. eapply forall_wr; eassumption. Qed.

Lemma hold_ok : forall W w k p c n ch r q, shape W w -> in_sense w k c n -> chan_at w k ch -> ring_at w k r -> admitted (w_lg w) k p c n ->
  settled_ring r -> waiting W r q -> zlen q + 1 < W_ring W ->
  exists w' ch' r' cl, hold W w k p c n = Ret (w', rg_write r) /\ becomes k ch' r' w w' /\ shape W w' /\ w_ev w' = w_ev w /\
    cgrow ch ch' (fun x => hit x 1 1) /\ rg_hold r' = nxt W (rg_write r') /\ rg_write r' = rg_write r /\ rg_read r' = rg_read r /\ waiting W r' q /\
    nth_error (rg_cells r') (Z.to_nat (rg_write r)) = Some cl /\ ce_mark cl = 1.
Proof.
  intros W w k p c n ch r q SH M CA RA AD ST WT RM. pose proof SH as (S1 & S2 & S3 & S4 & S5 & S6). destruct (shape_at _ _ _ _ _ SH CA RA) as (CO & RO).
  pose proof CA as (K & C). pose proof RA as (_ & R). unfold hold.
  destruct (block_input_correct (w_lg w) k p c n) as (b & -> & B); [|exact S3|].
  { intros x H. rewrite Forall_forall in S5. destruct (M x H). split; [|tauto]. specialize (S5 x (nth_error_In _ _ H)). unfold chan_ok in S5. unfold sound_channel. tauto. }
  cbn [bind]. assert (b = false) as -> by (apply B, AD). rewrite (rd_of _ _ k _ (proj1 K) C). cbn [bind]. rewrite (rd_of _ _ k _ (proj1 K) R). cbn [bind]. cbv zeta.
  rewrite ST. destruct WT as (WL & WP & WW & WC). destruct RO as (R1 & R2 & R3 & R4 & R5 & R6 & R7). pose proof (zlen_nonneg _ q) as LQ.
  assert (NXW: nxt W (rg_write r) = (rg_read r + (zlen q + 1)) mod W_ring W) by (rewrite WW; apply nxt_mod; exact S2).
  destruct (nxt W (rg_write r) =? rg_read r) eqn:E. { exfalso. assert ((rg_read r + (zlen q + 1)) mod W_ring W = rg_read r) as X by lia. revert X. apply shift_ne; lia. }
  unfold CHANNEL_LOG_HOLD. destruct (inc_ch_ok ch 1 1 CO ltac:(lia)) as (c1 & -> & G). cbn [bind].
  destruct (rd_nth _ (rg_cells r) (rg_write r) ltac:(lia)) as (cl & -> & CL). cbn [bind].
  destruct (wr_ok _ (rg_cells r) (rg_write r) (mkCell MARK_HOLD (ce_log cl)) ltac:(lia)) as (cells & -> & L & S & Oth). cbn [bind].
  set (r1 := mkRing (rg_write r) (nxt W (rg_write r)) (rg_read r) (rg_proc r) cells (rg_udp r)).
  destruct (becomes_put k w ch r c1 r1 (proj1 K) C R) as (w1 & P & BE & EV).
  apply bind_ret_inv in P as (w0 & -> & P). cbn [bind]. rewrite P. cbn [bind].
  assert (RO1: ring_ok W r1).
  { unfold ring_ok. cbn [r1 rg_write rg_hold rg_read rg_proc rg_cells rg_udp]. split; [lia|]. split.
    - eapply forall_wr; [exact R2| |exact L|exact S|exact Oth]. cbn [ce_log]. rewrite Forall_forall in R2. apply (R2 cl). eapply nth_error_In, CL.
    - split; [assumption|]. split; [assumption|]. split; [unfold nxt; apply Z.mod_pos_bound; lia|]. split; assumption. }
  do 4 eexists. split; [reflexivity|]. split; [exact BE|]. split; [eapply becomes_shape; [exact SH|apply K|exact BE|exact (cgrow_ok _ _ _ G)|exact RO1]|].
  split; [exact EV|]. split; [exact G|]. split; [reflexivity|]. split; [reflexivity|]. split; [reflexivity|]. split; [|split; [exact S|reflexivity]].
  unfold waiting. cbn [r1 rg_write rg_hold rg_read rg_proc rg_cells]. split; [exact WL|]. split; [exact WP|]. split; [exact WW|].
  intros m l H. destruct (WC m l H) as (cm & CM & X). exists cm. split; [|exact X]. assert (m < length q)%nat by (apply nth_error_Some; congruence).
  rewrite Oth; [exact CM|apply Z.mod_pos_bound; lia|]. rewrite WW. apply shift_inj; unfold zlen in *; lia.
Qed.

(* ---- PushChannel ---- *)
Lemma write_up_one : forall W r ch c, 10 < W_ring W -> chan_ok ch -> 0 <= rg_write r < W_ring W -> rg_hold r = nxt W (rg_write r) ->
  nth_error (rg_cells r) (Z.to_nat (rg_write r)) = Some c -> ce_mark c = 2 ->
  exists ch', write_up (S (Z.to_nat (W_ring W))) W r ch =
      Ret (mkRing (rg_hold r) (rg_hold r) (rg_read r) (rg_proc r) (rg_cells r) (rg_udp r), ch') /\ cgrow ch ch' (fun x => hit x 2 1).
Proof.
  intros W r ch c N CO R P C M. assert (exists n, Z.to_nat (W_ring W) = S n) as (n & ->) by (exists (Z.to_nat (W_ring W) - 1)%nat; lia).
  cbn [write_up]. assert (rg_write r <> rg_hold r) as Ne.
  { rewrite P. unfold nxt. intros X. symmetry in X. revert X. apply shift_ne; lia. }
  destruct (rg_write r =? rg_hold r) eqn:E; [lia|]. rewrite (rd_of _ _ (rg_write r) _ (proj1 R) C). cbn [bind]. unfold MARK_READY. rewrite M. cbn [Z.eqb Pos.eqb].
  unfold CHANNEL_LOG_PUSH. destruct (inc_ch_ok ch 2 1 CO ltac:(lia)) as (ch' & -> & G). cbn [bind rg_write rg_hold].
  rewrite <- P, Z.eqb_refl. exists ch'. split; [reflexivity|exact G].
Qed.

(* a record with the text T in it *)
Definition has_text (W : wcfg) (log : ldata) (T : text) : Prop := holds (e_cap (W_env W)) T (mkStrm (ld_buf log) (ld_len log) cache_init).
Lemma nth_error_app_l : forall A (a b : list A) m, (m < length a)%nat -> nth_error (a ++ b) m = nth_error a m.
Proof. intros. apply nth_error_app1. assumption. Qed.

Lemma push_ok : forall W i w k ch r q cl T, shape W w -> chan_at w k ch -> ring_at w k r -> c_state ch = 1 ->
  rg_hold r = nxt W (rg_write r) -> waiting W r q -> zlen q + 1 < W_ring W ->
  nth_error (rg_cells r) (Z.to_nat (rg_write r)) = Some cl -> has_text W (ce_log cl) T -> -3 <= ld_prio (ce_log cl) < 22 ->
  exists w1 ch1 r1 log1, 
    push W i w k (rg_write r) = (if c_type ch =? 1 then bind (enter_proc W i w1 k) (fun w => Ret (w, 0)) else Ret (w1, 0)) /\
    becomes k ch1 r1 w w1 /\ shape W w1 /\ w_ev w1 = w_ev w /\
    cgrow ch ch1 (fun x => hit x (3 + ld_prio (ce_log cl)) (zlen (line W T)) + hit x 2 1) /\
    settled_ring r1 /\ rg_read r1 = rg_read r /\ rg_write r1 = nxt W (rg_write r) /\
    waiting W r1 (q ++ [mkItem (ld_prio (ce_log cl)) (ld_cat (ce_log cl)) (ld_ident (ce_log cl)) (line W T)]) /\
    nth_error (rg_cells r1) (Z.to_nat (rg_write r)) = Some (mkCell 2 log1) /\
    (exists buf, log1 = set_text (ce_log cl) (ld_plen (ce_log cl)) (zlen (line W T)) buf /\ exists rest, buf = line W T ++ 0 :: rest).
Proof.
  intros W i w k ch r q cl T SH CA RA CS HD WT RM CL HT PR. pose proof SH as (S1 & S2 & S3 & S4 & S5 & S6). destruct (shape_at _ _ _ _ _ SH CA RA) as (CO & RO).
  pose proof CA as (K & C). pose proof RA as (_ & R). destruct WT as (WL & WP & WW & WC). destruct RO as (R1 & R2 & R3 & R4 & R5 & R6 & R7). pose proof (zlen_nonneg _ q) as LQ.
  unfold push. destruct (_ || _) eqn:E1; [lia|]. destruct (_ || _) eqn:E2 at 1; [lia|].
  rewrite (rd_of _ _ k _ (proj1 K) C). cbn [bind]. unfold CHANNEL_STATE_RUNNING at 1. rewrite CS. cbn [Z.eqb Pos.eqb negb].
  unfold get_log at 1. rewrite (rd_of _ _ k _ (proj1 K) R). cbn [bind]. rewrite (rd_of _ _ (rg_write r) _ (proj1 R4) CL). cbn [bind].
  destruct (push_text_ok (W_env W) T _ HT S1) as (st & post & PT & SB & SL & SC). rewrite PT. cbn [bind]. cbv zeta.
  set (log1 := set_text (ce_log cl) (ld_plen (ce_log cl)) (s_len st) (s_buf st)).
  unfold put_cell. rewrite (rd_of _ _ k _ (proj1 K) R). cbn [bind]. rewrite (rd_of _ _ (rg_write r) _ (proj1 R4) CL). cbn [bind].
  destruct (wr_ok _ (rg_cells r) (rg_write r) (mkCell MARK_READY log1) ltac:(lia)) as (cells & -> & L & S & Oth). cbn [bind].
  set (ra := mkRing (rg_write r) (rg_hold r) (rg_read r) (rg_proc r) cells (rg_udp r)).
  destruct (put_ring_ok w k ra ltac:(lia)) as (wa & -> & A1 & A2 & A3 & A4 & A5 & A6). cbn [bind].
  unfold CHANNEL_LOG_PRIORITY. change (ld_prio log1) with (ld_prio (ce_log cl)). change (ld_len log1) with (s_len st).
  destruct (inc_ch_ok ch (3 + ld_prio (ce_log cl)) (s_len st) CO ltac:(lia)) as (c1 & -> & G1). cbn [bind].
  rewrite (rd_of _ _ k _ (proj1 K) A5). cbn [bind].
  destruct (write_up_one W ra c1 (mkCell MARK_READY log1) S2 (cgrow_ok _ _ _ G1)) as (c2 & -> & G2); [exact R4|exact HD|exact S|reflexivity|]. cbn [bind].
  cbn [ra rg_hold rg_read rg_proc rg_cells rg_udp].
  set (r1 := mkRing (rg_hold r) (rg_hold r) (rg_read r) (rg_proc r) cells (rg_udp r)).
  destruct (becomes_put k wa ch ra c2 r1 (proj1 K) ltac:(rewrite A1; exact C) A5) as (w1 & P & BE & EV).
  apply bind_ret_inv in P as (w0 & -> & P). cbn [bind]. rewrite P. cbn [bind].
  assert (BA: becomes k ch ra w wa). { unfold becomes, only_at. rewrite A1, A2. repeat (split; [reflexivity|]). split; [|split; [reflexivity|split; [exact A4|split; [exact C|exact A5]]]]. repeat (split; [reflexivity|]). split; [|reflexivity]. intros a Ha Ha0. split; [reflexivity|apply A6; assumption]. }
  pose proof (becomes_trans _ _ _ _ _ _ _ _ BA BE) as BW.
  assert (LL: s_len st = zlen (line W T)) by (rewrite SL; reflexivity).
  assert (SBL: s_buf st = line W T ++ 0 :: post) by (rewrite SB; unfold line; rewrite <- app_assoc; reflexivity).
  assert (LO: log_ok W (ce_log (mkCell MARK_READY log1))) by (unfold log_ok; exact SC).
  assert (NXW: rg_hold r = (rg_read r + (zlen q + 1)) mod W_ring W) by (rewrite HD, WW; apply nxt_mod; exact S2).
  assert (RO1: ring_ok W r1).
  { unfold ring_ok. cbn [r1 rg_write rg_hold rg_read rg_proc rg_cells rg_udp]. split; [lia|]. split; [|tauto].
    eapply forall_wr; [exact R2|exact LO|exact L|exact S|exact Oth]. }
  clear LO.
  assert (G: cgrow ch c2 (fun x => hit x (3 + ld_prio (ce_log cl)) (zlen (line W T)) + hit x 2 1)).
  { rewrite <- LL. eapply cgrow_trans; [exact G1|exact G2|]. intros; reflexivity. }
  exists w1, c2, r1, log1. split.
  { assert (c_type c2 = c_type ch /\ c_state c2 = c_state ch) as (-> & ->) by (destruct G as (GS & _); unfold same_setup in GS; tauto).
    rewrite CS. unfold CHANNEL_SYNC, CHANNEL_STATE_RUNNING. cbn [Z.eqb Pos.eqb]. rewrite andb_true_r. reflexivity. }
  split; [exact BW|]. split; [eapply becomes_shape; [exact SH|apply K|exact BW|exact (cgrow_ok _ _ _ G)|exact RO1]|].
  split; [congruence|]. split; [exact G|]. split; [reflexivity|]. split; [reflexivity|]. split; [exact HD|]. split; [|split; [exact S|]].
  - unfold waiting. cbn [r1 rg_write rg_hold rg_read rg_proc rg_cells]. rewrite zlen_app, zlen_cons, zlen_nil. split; [lia|]. split; [exact WP|].
    split; [rewrite NXW; f_equal; lia|]. intros m l H. destruct (Nat.eq_dec m (length q)) as [-> |Nm].
    + rewrite nth_error_app2, Nat.sub_diag in H by lia. injection H as <-. exists (mkCell 2 log1). split; [|split; [reflexivity|]].
      * change (Z.of_nat (length q)) with (zlen q). rewrite <- WW. exact S.
      * unfold item_of. cbn [i_prio i_cat i_ident i_line ce_log]. repeat (split; [reflexivity|]). split; [exact LL|]. exists post. exact SBL.
    + assert (m < length (q ++ [mkItem (ld_prio (ce_log cl)) (ld_cat (ce_log cl)) (ld_ident (ce_log cl)) (line W T)]))%nat as ML by (apply nth_error_Some; congruence).
      rewrite app_length in ML. cbn [length] in ML. rewrite nth_error_app1 in H by lia. destruct (WC m l H) as (cm & CM & X). exists cm. split; [|exact X].
      rewrite Oth; [exact CM|apply Z.mod_pos_bound; lia|]. rewrite WW. apply shift_inj; unfold zlen in *; lia.
  - exists (s_buf st). split; [unfold log1; rewrite LL; reflexivity|]. exists post. exact SBL.
Qed.

(* ---- holding a slot and filling it ---- *)
(* a record being made: the text and the fields that are filtered on *)
Definition made (W : wcfg) (log : ldata) (k p c n : Z) (T : text) : Prop :=
  has_text W log T /\ ld_chan log = k /\ ld_prio log = p /\ ld_cat log = c /\ ld_ident log = n.
Lemma has_text_ok : forall W log T, has_text W log T -> log_ok W log.
Proof. intros W log T (rest & A & B & C). exact C. Qed.

(* channel k holds a slot whose record is log, behind the waiting records q *)
Definition holding (W : wcfg) (w : world) (k : Z) (ch : channel) (r : ring) (q : list item) (cl : cell) : Prop :=
  shape W w /\ chan_at w k ch /\ ring_at w k r /\ c_state ch = 1 /\ rg_hold r = nxt W (rg_write r) /\ waiting W r q /\ zlen q + 1 < W_ring W /\
  nth_error (rg_cells r) (Z.to_nat (rg_write r)) = Some cl.

Lemma admitted_chan : forall w k p c n, admitted (w_lg w) k p c n -> exists ch, chan_at w k ch /\ c_state ch = 1.
Proof. intros w k p c n (A1 & A2 & A3 & ch & A4 & A5 & _). exists ch. split; [split; assumption|exact A5]. Qed.
Lemma chan_at_fun : forall w k a b, chan_at w k a -> chan_at w k b -> a = b.
Proof. intros w k a b (_ & A) (_ & B). congruence. Qed.

Lemma hold_holding : forall W w k p c n ch r q, shape W w -> in_sense w k c n -> chan_at w k ch -> ring_at w k r -> admitted (w_lg w) k p c n ->
  settled_ring r -> waiting W r q -> zlen q + 1 < W_ring W ->
  exists w' ch' r' cl, hold W w k p c n = Ret (w', rg_write r) /\ 0 <= rg_write r /\ becomes k ch' r' w w' /\ w_ev w' = w_ev w /\
    cgrow ch ch' (fun x => hit x 1 1) /\ rg_write r' = rg_write r /\ rg_read r' = rg_read r /\ holding W w' k ch' r' q cl /\ ce_mark cl = 1.
Proof.
  intros W w k p c n ch r q SH M CA RA AD ST WT RM.
  destruct (hold_ok W w k p c n ch r q SH M CA RA AD ST WT RM) as (w' & ch' & r' & cl & A1 & A2 & A3 & A4 & A5 & A6 & A7 & A8 & A9 & A10 & A11).
  destruct (shape_at _ _ _ _ _ SH CA RA) as (CO & RO). destruct (admitted_chan _ _ _ _ _ AD) as (ch0 & CA0 & CS). rewrite (chan_at_fun _ _ _ _ CA0 CA) in CS.
  exists w', ch', r', cl. split; [exact A1|]. split; [unfold ring_ok in RO; lia|]. split; [exact A2|]. split; [exact A4|]. split; [exact A5|]. split; [exact A7|]. split; [exact A8|]. split; [|exact A11].
  destruct CA as (K & C). destruct A2 as ((B0 & B1 & B2 & B3) & B4 & B5 & B6 & B7).
  split; [exact A3|]. split; [split; [|exact B6]|]. { rewrite B2. exact K. } split; [split; [|exact B7]|]. { rewrite B2. exact K. }
  split; [destruct A5 as (S & _); unfold same_setup in S; destruct S as (_ & _ & _ & S & _); congruence|]. rewrite A7. rewrite A7 in A6. tauto.
Qed.

(* changing the record in the held slot *)
Lemma holding_put : forall W w k ch r q cl log, holding W w k ch r q cl -> log_ok W log ->
  exists w' r' , put_log w k (rg_write r) log = Ret w' /\ becomes k ch r' w w' /\ w_ev w' = w_ev w /\ rg_write r' = rg_write r /\ rg_read r' = rg_read r /\
    holding W w' k ch r' q (mkCell (ce_mark cl) log).
Proof.
  intros W w k ch r q cl log (SH & CA & RA & CS & HD & WT & RM & CL) LO. pose proof SH as (S1 & S2 & S3 & S4 & S5 & S6). destruct (shape_at _ _ _ _ _ SH CA RA) as (CO & RO).
  pose proof CA as (K & C). pose proof RA as (_ & R). destruct WT as (WL & WP & WW & WC). destruct RO as (R1 & R2 & R3 & R4 & R5 & R6 & R7). pose proof (zlen_nonneg _ q) as LQ.
  unfold put_log, put_cell. rewrite (rd_of _ _ k _ (proj1 K) R). cbn [bind]. rewrite (rd_of _ _ (rg_write r) _ (proj1 R4) CL). cbn [bind].
  destruct (wr_ok _ (rg_cells r) (rg_write r) (mkCell (ce_mark cl) log) ltac:(lia)) as (cells & -> & L & S & Oth). cbn [bind].
  set (r1 := mkRing (rg_write r) (rg_hold r) (rg_read r) (rg_proc r) cells (rg_udp r)).
  destruct (put_ring_ok w k r1 ltac:(lia)) as (w1 & -> & A1 & A2 & A3 & A4 & A5 & A6).
  assert (BE: becomes k ch r1 w w1). { unfold becomes, only_at. rewrite A1, A2. repeat (split; [reflexivity|]). split; [|split; [reflexivity|split; [exact A4|split; [exact C|exact A5]]]]. repeat (split; [reflexivity|]). split; [|reflexivity]. intros a Ha Ha0. split; [reflexivity|apply A6; assumption]. }
  assert (RO1: ring_ok W r1).
  { assert (LO': log_ok W (ce_log (mkCell (ce_mark cl) log))) by exact LO. unfold ring_ok. cbn [r1 rg_write rg_hold rg_read rg_proc rg_cells rg_udp]. split; [lia|]. split; [|tauto].
    eapply forall_wr; [exact R2|exact LO'|exact L|exact S|exact Oth]. }
  exists w1, r1. split; [reflexivity|]. split; [exact BE|]. split; [exact A3|]. split; [reflexivity|]. split; [reflexivity|].
  split; [eapply becomes_shape; [exact SH|apply K|exact BE|exact CO|exact RO1]|]. split; [unfold chan_at; rewrite A1; exact CA|]. split; [unfold ring_at; rewrite A1; split; [exact K|exact A5]|].
  split; [exact CS|]. split; [exact HD|]. split; [|split; [exact RM|exact S]]. unfold waiting. cbn [r1 rg_write rg_hold rg_read rg_proc rg_cells]. split; [exact WL|]. split; [exact WP|]. split; [exact WW|].
  intros m l H. destruct (WC m l H) as (cm & CM & X). exists cm. split; [|exact X]. assert (m < length q)%nat by (apply nth_error_Some; congruence).
  rewrite Oth; [exact CM|apply Z.mod_pos_bound; lia|]. rewrite WW. apply shift_inj; unfold zlen in *; lia.
Qed.
Lemma holding_get : forall W w k ch r q cl, holding W w k ch r q cl -> get_log w k (rg_write r) = Ret (ce_log cl).
Proof.
  intros W w k ch r q cl (SH & CA & RA & CS & HD & WT & RM & CL). destruct (shape_at _ _ _ _ _ SH CA RA) as (CO & RO).
  pose proof CA as (K & C). pose proof RA as (_ & R). unfold get_log. rewrite (rd_of _ _ k _ (proj1 K) R). cbn [bind]. rewrite (rd_of _ _ (rg_write r) _ ltac:(unfold ring_ok in RO; lia) CL). reflexivity.
Qed.
Lemma holding_log : forall W w k ch r q cl, holding W w k ch r q cl -> log_ok W (ce_log cl).
Proof.
  intros W w k ch r q cl (SH & CA & RA & CS & HD & WT & RM & CL). destruct (shape_at _ _ _ _ _ SH CA RA) as (CO & RO). destruct RO as (_ & R2 & _). rewrite Forall_forall in R2. apply R2. eapply nth_error_In, CL.
Qed.

(* ---- PushChannel from a held slot ---- *)
Lemma push_async : forall W i w k ch r q cl p c n T, holding W w k ch r q cl -> made W (ce_log cl) k p c n T -> -3 <= p < 22 -> c_type ch <> 1 ->
  exists w' ch' r', push W i w k (rg_write r) = Ret (w', 0) /\ becomes k ch' r' w w' /\ shape W w' /\ w_ev w' = w_ev w /\
    cgrow ch ch' (fun x => hit x (3 + p) (zlen (line W T)) + hit x 2 1) /\ settled_ring r' /\ rg_read r' = rg_read r /\ waiting W r' (q ++ [mkItem p c n (line W T)]) /\
    exists rest, nth_error (rg_cells r') (Z.to_nat (rg_write r)) = Some (mkCell 2 (set_text (ce_log cl) (ld_plen (ce_log cl)) (zlen (line W T)) (line W T ++ 0 :: rest))).
Proof.
  intros W i w k ch r q cl p c n T (SH & CA & RA & CS & HD & WT & RM & CL) (M1 & M2 & <- & <- & <-) P TY.
  destruct (push_ok W i w k ch r q cl T SH CA RA CS HD WT RM CL M1 P) as (w1 & ch1 & r1 & log1 & A1 & A2 & A3 & A4 & A5 & A6 & A7 & A8 & A9 & A10 & buf & -> & rest & ->).
  destruct (c_type ch =? 1) eqn:E; [lia|]. exists w1, ch1, r1. repeat (split; [assumption|]). exists rest. exact A10.
Qed.
Lemma no_datagrams_becomes : forall k ch r w w' a, becomes k ch r w w' -> no_datagrams w a -> no_datagrams w' a.
Proof. intros k ch r w w' a ((_ & _ & _ & _ & B) & _) N d. rewrite B. apply N. Qed.
Lemma becomes_at : forall W k ch0 ch r w w', shape W w -> chan_at w k ch0 -> becomes k ch r w w' -> chan_at w' k ch /\ ring_at w' k r.
Proof.
  intros W k ch0 ch r w w' SH (K & C) ((B0 & B1 & B2 & B3) & B4 & B5 & B6 & B7). unfold chan_at, ring_at. rewrite B2. tauto.
Qed.
Lemma push_sync : forall W i w k ch r q cl p c n T, holding W w k ch r q cl -> made W (ce_log cl) k p c n T -> -3 <= p <= 10 -> c_type ch = 1 ->
  Forall (fun l => prio_in (i_prio l) /\ devices_scope ch (i_cat l) (i_ident l)) q -> devices_scope ch c n -> no_datagrams w k ->
  exists w' ch' r' f, push W i w k (rg_write r) = Ret (w', 0) /\ becomes k ch' r' w w' /\ shape W w' /\
    grow ch ch' f (fun x => hit x (3 + p) (zlen (line W T)) + hit x 2 1 + proc_delta (q ++ [mkItem p c n (line W T)]) x) /\
    delivered_all i k (firstn (Z.to_nat (c_size ch)) (c_devs ch)) (q ++ [mkItem p c n (line W T)]) (w_ev w) (w_ev w') f /\
    empty r' /\ rg_write r' = nxt W (rg_write r).
Proof.
  intros W i w k ch r q cl p c n T (SH & CA & RA & CS & HD & WT & RM & CL) (M1 & M2 & <- & <- & <-) P TY FA DS ND.
  destruct (push_ok W i w k ch r q cl T SH CA RA CS HD WT RM CL M1 ltac:(lia)) as (w1 & ch1 & r1 & log1 & A1 & A2 & A3 & A4 & A5 & A6 & A7 & A8 & A9 & _).
  rewrite TY in A1. cbn [Z.eqb Pos.eqb] in A1. destruct (becomes_at _ _ _ _ _ _ _ SH CA A2) as (CA1 & RA1).
  pose proof A5 as (SS & _). assert (c_state ch1 = c_state ch /\ c_size ch1 = c_size ch /\ c_devs ch1 = c_devs ch) as (E1 & E2 & E3) by (unfold same_setup in SS; tauto).
  destruct (enter_proc_ok W i w1 k ch1 r1 _ A3 CA1 RA1 ltac:(lia) A9) as (w2 & ch2 & r2 & f & X1 & X2 & X3 & X4 & X5 & X6 & X7 & X8 & X9).
  { apply Forall_app. split; [|constructor; [|constructor]].
    - eapply Forall_impl; [|exact FA]. intros l (Y1 & Y2). split; [exact Y1|]. unfold devices_scope, has_device in *. rewrite E2, E3. exact Y2.
    - cbn [i_prio i_cat i_ident]. split; [unfold prio_in; lia|]. unfold devices_scope, has_device in *. rewrite E2, E3. exact DS. }
  { eapply no_datagrams_becomes; eassumption. }
  exists w2, ch2, r2, f. split; [rewrite A1, X1; reflexivity|]. split; [eapply becomes_trans; eassumption|]. split; [exact X3|].
  split; [eapply grow_trans; [apply grow_c, A5|exact X4|intros; cbn beta; lia|intros; reflexivity]|]. split; [rewrite E2, E3, A4 in X5; exact X5|].
  split; [unfold empty; rewrite X6, X7, X8, X9; unfold settled_ring in A6; rewrite A6; tauto|congruence].
Qed.

(* ---- the constructor and the << operators ---- *)
Lemma fill_ok : forall W o i s old, settled (W_env W) o -> (t_prefix s <> 0 -> head_ok (W_env W) o (head_of W i s)) -> Forall (val_ok o) (t_vals s) ->
  cache_fine o (t_cache s) -> 2 <= e_cap (W_env W) -> log_ok W old ->
  exists t pss log, (t_prefix s = 0 -> t = []) /\ (t_prefix s <> 0 -> prefix_text o (head_of W i s) t) /\ Forall2 (shows o (e_libc (W_env W))) (t_vals s) pss /\
    fill W i s old = Ret log /\ made W log (t_chan s) (t_prio s) (t_cat s) (ll_of (t_ident s)) (feed_all (e_cap (W_env W)) t (concat pss)) /\
    ld_plen log = zlen t /\ ld_line log = t_line s /\ ld_func_len log = t_func_len s /\ ld_file_len log = t_file_len s /\ ld_func log = t_func s /\ ld_file log = t_file s /\
    ld_ts log = io_ts i /\ ld_prec log = io_prec i /\ ld_thread log = io_thread i.
Proof.
  intros W o i s old ST HO V CF CAP LO. unfold fill, init_text. unfold log_ok in LO.
  destruct (wr_ok _ (ld_buf old) 0 0 ltac:(lia)) as (b1 & -> & L1 & S1 & O1). cbn [bind].
  destruct (wr_ok _ b1 0 0 ltac:(lia)) as (b2 & -> & L2 & S2 & O2). cbn [bind].
  assert (R0: ready (W_env W) o [] (mkStrm b2 0 (t_cache s))).
  { split; [|exact CF]. exists b2. cbn [s_buf s_len app]. rewrite zlen_nil. repeat split; lia. }
  assert (exists t st, (t_prefix s = 0 -> t = []) /\ (t_prefix s <> 0 -> prefix_text o (head_of W i s) t) /\ write_prefix (W_env W) (head_of W i s) (mkStrm b2 0 (t_cache s)) = Ret (st, zlen t) /\ ready (W_env W) o t st) as (t & st & P1 & P2 & -> & R1).
  { destruct (Z.eq_dec (t_prefix s) 0) as [E|E].
    - exists [], (mkStrm b2 0 (t_cache s)). split; [reflexivity|]. split; [intros; lia|]. split; [|exact R0]. unfold write_prefix. cbn [head_of h_prefix]. rewrite E. reflexivity.
    - pose proof ST as (EZ & Ho & _). destruct (write_prefix_ok (W_env W) o (head_of W i s) _ EZ Ho (HO E) E R0) as (t & st & A & B & C & _). exists t, st. split; [intros; lia|]. tauto. }
  cbn [bind]. destruct (stream_done (W_env W) o (t_vals s) t st ST V R1) as (pss & st' & F & -> & R2 & _). cbn [bind].
  exists t, pss. eexists. split; [exact P1|]. split; [exact P2|]. split; [exact F|]. split; [reflexivity|]. split; [|repeat (split; [reflexivity|]); reflexivity].
  split; [|repeat (split; [reflexivity|]); reflexivity]. destruct R2 as ((rest & A & B & C) & _). exists rest. exact (conj A (conj B C)).
Qed.

(* ---- hold, fill, push ---- *)
Lemma delivered_one : forall i k ds p c n t e e' f, delivered_all i k ds [mkItem p c n t] e e' f ->
  exists g, delivered i k p c n t 0 ds e e' g /\ forall j x, f j x = g j x.
Proof.
  intros i k ds p c n t e e' f H. inversion H; subst. match goal with H : delivered_all _ _ _ [] _ _ _ |- _ => inversion H; subst end.
  eexists. split; [eassumption|]. intros. cbn beta. lia.
Qed.
Lemma rest_empty : forall W r, ring_ok W r -> settled_ring r -> waiting W r [] -> empty r.
Proof.
  intros W r RO ST (_ & A & B & _). unfold empty, settled_ring, ring_ok in *. rewrite zlen_nil, Z.add_0_r in B.
  rewrite Z.mod_small in B by tauto. repeat split; congruence.
Qed.
Lemma empty_rest : forall W w k ch r, shape W w -> chan_at w k ch -> ring_at w k r -> empty r -> at_rest W w k ch r [].
Proof.
  intros W w k ch r SH CA RA (E1 & E2 & E3). destruct (shape_at _ _ _ _ _ SH CA RA) as (CO & RO). pose proof SH as (_ & N & _). unfold at_rest, waiting, settled_ring, ring_ok in *.
  rewrite zlen_nil, Z.add_0_r. rewrite E3, Z.mod_small by lia.
  split; [exact CA|]. split; [exact RA|]. split; [exact E1|]. split; [|lia]. split; [lia|]. split; [congruence|]. split; [reflexivity|]. intros m l H. destruct m; discriminate.
Qed.

Lemma written_of : forall W i k p c n t w w' ch r ch' r' f, chan_at w k ch -> ring_at w k r -> shape W w -> becomes k ch' r' w w' -> shape W w' ->
  grow ch ch' f (channel_delta p (zlen t)) -> delivered_all i k (firstn (Z.to_nat (c_size ch)) (c_devs ch)) [mkItem p c n t] (w_ev w) (w_ev w') f ->
  empty r' -> rg_write r' = nxt W (rg_write r) -> written_through W i k p c n t w w'.
Proof.
  intros W i k p c n t w w' ch r ch' r' f CA RA SH BE SH' (G1 & G2 & G3 & G4) DA EM WR. destruct (becomes_at _ _ _ _ _ _ _ SH CA BE) as (CA' & RA').
  destruct (delivered_one _ _ _ _ _ _ _ _ _ _ DA) as (g & DG & GE). split; [apply BE|]. split; [exact SH'|]. exists ch, ch', r, r', g.
  repeat (split; [assumption|]). split; [intros j x Hj Hx; rewrite <- GE; apply G3; assumption|]. repeat (split; [assumption|]). exact WR.
Qed.
Lemma queued_of : forall W k p c n t q w w' ch r ch' r', chan_at w k ch -> ring_at w k r -> shape W w -> becomes k ch' r' w w' -> shape W w' -> w_ev w' = w_ev w ->
  cgrow ch ch' (fun x => hit x 1 1 + hit x 2 1 + hit x (3 + p) (zlen t)) -> settled_ring r' -> rg_read r' = rg_read r -> waiting W r' (q ++ [mkItem p c n t]) -> queued W k p c n t q w w'.
Proof.
  intros W k p c n t q w w' ch r ch' r' CA RA SH BE SH' EV (G1 & G2 & G3 & G4) ST RD WT. destruct (becomes_at _ _ _ _ _ _ _ SH CA BE) as (CA' & RA').
  split; [apply BE|]. split; [exact SH'|]. split; [exact EV|]. exists ch, ch', r, r'. repeat (split; [assumption|]). split; [intros; unfold dcnt; rewrite G3; reflexivity|].
  split; [intros x X Y Z0; rewrite (G4 x X Y Z0); lia|]. repeat (split; [assumption|]). exact WT.
Qed.

(* what a caller does between HoldChannel and PushChannel: fills the record *)
Definition fills (W : wcfg) (mk : ldata -> outcome ldata) (k p c n : Z) (Q : text -> ldata -> Prop) : Prop :=
  forall old, log_ok W old -> exists T log, Q T log /\ mk old = Ret log /\ made W log k p c n T.
Definition post (W : wcfg) (i : io) (w : world) (k p c n : Z) (mk : ldata -> outcome ldata) : outcome (world * Z) :=
  let! (w, idx) := hold W w k p c n in
  if idx <? 0 then Ret (w, idx)
  else let! old := get_log w k idx in let! log := mk old in let! w := put_log w k idx log in push W i w k idx.

Lemma post_held : forall W i w k p c n mk ch r q m (Q : text -> ldata -> Prop), shape W w -> in_sense w k c n -> at_rest W w k ch r q -> admitted (w_lg w) k p c n -> fills W mk k p c m Q ->
  exists T log w2 ch2 r2 cl, Q T log /\ made W log k p c m T /\ post W i w k p c n mk = push W i w2 k (rg_write r2) /\ holding W w2 k ch2 r2 q cl /\ ce_log cl = log /\
    becomes k ch2 r2 w w2 /\ w_ev w2 = w_ev w /\ cgrow ch ch2 (fun x => hit x 1 1) /\ rg_write r2 = rg_write r /\ rg_read r2 = rg_read r.
Proof.
  intros W i w k p c n mk ch r q m Q SH M (CA & RA & ST & WT & RM) AD FI.
  destruct (hold_holding W w k p c n ch r q SH M CA RA AD ST WT RM) as (w1 & ch1 & r1 & cl & HH & NN & B1 & V1 & G1 & W1 & D1 & HO & MK).
  destruct (FI (ce_log cl) (holding_log _ _ _ _ _ _ _ HO)) as (T & log & QT & ML & MD).
  destruct (holding_put W w1 k ch1 r1 q cl log HO (has_text_ok _ _ _ (proj1 MD))) as (w2 & r2 & P2 & B2 & V2 & W2 & D2 & HO2).
  exists T, log, w2, ch1, r2, (mkCell (ce_mark cl) log). split; [exact QT|]. split; [exact MD|]. split.
  { unfold post. rewrite HH. cbn [bind]. destruct (rg_write r <? 0) eqn:E; [lia|]. rewrite <- W1. rewrite (holding_get _ _ _ _ _ _ _ HO). cbn [bind]. rewrite ML. cbn [bind]. rewrite P2. cbn [bind]. rewrite W2. reflexivity. }
  split; [exact HO2|]. split; [reflexivity|]. split; [eapply becomes_trans; eassumption|]. split; [congruence|]. split; [exact G1|]. split; congruence.
Qed.
Lemma scope_same : forall a b c n, same_setup a b -> devices_scope a c n -> devices_scope b c n.
Proof. intros a b c n (_ & _ & E2 & _ & _ & E3) H. unfold devices_scope, has_device in *. rewrite E2, E3. exact H. Qed.

Lemma post_sync : forall W i w k p c n mk ch r m (Q : text -> ldata -> Prop), shape W w -> in_sense w k c n -> chan_at w k ch -> ring_at w k r -> empty r -> admitted (w_lg w) k p c n -> fills W mk k p c m Q ->
  -3 <= p <= 10 -> c_type ch = 1 -> devices_scope ch c m -> no_datagrams w k ->
  exists w' T log, post W i w k p c n mk = Ret (w', 0) /\ Q T log /\ written_through W i k p c m (line W T) w w'.
Proof.
  intros W i w k p c n mk ch r m Q SH M CA RA EM AD FI P TY DS ND. pose proof (empty_rest _ _ _ _ _ SH CA RA EM) as AR.
  destruct (post_held W i w k p c n mk ch r [] m Q SH M AR AD FI) as (T & log & w2 & ch2 & r2 & cl & QT & MD & -> & HO & <- & B & V & G & W2 & D2).
  pose proof G as (SS & _). assert (c_type ch2 = c_type ch /\ c_size ch2 = c_size ch /\ c_devs ch2 = c_devs ch) as (E1 & E2 & E3) by (unfold same_setup in SS; tauto).
  destruct (push_sync W i w2 k ch2 r2 [] cl p c m T HO MD P ltac:(lia) (Forall_nil _) (scope_same _ _ _ _ SS DS) (no_datagrams_becomes _ _ _ _ _ _ B ND)) as (w3 & ch3 & r3 & f & -> & B3 & SH3 & G3 & DA & EM3 & WR).
  exists w3, T, (ce_log cl). split; [reflexivity|]. split; [exact QT|]. eapply written_of; [exact CA|exact RA|exact SH|eapply becomes_trans; eassumption|exact SH3| | |exact EM3|congruence].
  - eapply grow_trans; [apply grow_c, G|exact G3|intros; cbn beta; reflexivity|]. intros x X. unfold channel_delta, proc_delta. cbn [app fold_right i_line zlen length]. change (zlen [mkItem p c m (line W T)]) with 1. rewrite Z.add_0_r. lia.
  - rewrite E2, E3, V in DA. exact DA.
Qed.
Lemma post_async : forall W i w k p c n mk ch r q m (Q : text -> ldata -> Prop), shape W w -> in_sense w k c n -> at_rest W w k ch r q -> admitted (w_lg w) k p c n -> fills W mk k p c m Q ->
  -3 <= p < 22 -> c_type ch <> 1 ->
  exists w' T log, post W i w k p c n mk = Ret (w', 0) /\ Q T log /\ queued W k p c m (line W T) q w w' /\
    exists r' rest, ring_at w' k r' /\ nth_error (rg_cells r') (Z.to_nat (rg_write r)) = Some (mkCell 2 (set_text log (ld_plen log) (zlen (line W T)) (line W T ++ 0 :: rest))).
Proof.
  intros W i w k p c n mk ch r q m Q SH M AR AD FI P TY. pose proof AR as (CA & RA & _).
  destruct (post_held W i w k p c n mk ch r q m Q SH M AR AD FI) as (T & log & w2 & ch2 & r2 & cl & QT & MD & -> & HO & <- & B & V & G & W2 & D2).
  pose proof G as (SS & _). assert (c_type ch2 = c_type ch) as E1 by (unfold same_setup in SS; tauto).
  destruct (push_async W i w2 k ch2 r2 q cl p c m T HO MD P ltac:(lia)) as (w3 & ch3 & r3 & -> & B3 & SH3 & V3 & G3 & ST & RD & WT & rest & CE).
  exists w3, T, (ce_log cl). split; [reflexivity|]. split; [exact QT|]. split.
  - eapply queued_of; [exact CA|exact RA|exact SH|eapply becomes_trans; eassumption|exact SH3|congruence| |exact ST|congruence|exact WT].
    eapply cgrow_trans; [exact G|exact G3|]. intros x X. cbn beta. lia.
  - exists r3, rest. rewrite W2 in CE. split; [|exact CE]. pose proof (becomes_trans _ _ _ _ _ _ _ _ B B3) as BB. apply (becomes_at _ _ _ _ _ _ _ SH CA BB).
Qed.

(* ---- log statements without a hook ---- *)
Definition unhooked (W : wcfg) (ch : channel) : Prop := W_hook W = None \/ c_virtual ch < 0.
(* the arguments of the statement are ones the text is specified for *)
Definition well_formed (W : wcfg) (o : Z) (i : io) (s : stmt) : Prop :=
  settled (W_env W) o /\ (t_prefix s <> 0 -> head_ok (W_env W) o (stated_head W i s)) /\ Forall (val_ok o) (t_vals s) /\ cache_fine o (t_cache s) /\
  - 2 ^ 63 <= t_ident s < 2 ^ 63.
Lemma ll_of_id : forall n, - 2 ^ 63 <= n < 2 ^ 63 -> ll_of n = n.
Proof. intros n H. unfold ll_of. rewrite Z.mod_small by lia. lia. Qed.
Lemma well_formed_fills : forall W o i s, 2 <= e_cap (W_env W) -> well_formed W o i s -> fills W (fill W i s) (t_chan s) (t_prio s) (t_cat s) (t_ident s) (fun T _ => statement_text W o i s T).
Proof.
  intros W o i s CAP (ST & HO & V & CF & ID) old LO. destruct (fill_ok W o i s old ST HO V CF CAP LO) as (t & pss & log & P1 & P2 & F & FI & MD & _).
  rewrite (ll_of_id _ ID) in MD. eexists. exists log. split; [|split; [exact FI|exact MD]]. exists t, pss. split; [exact P1|]. split; [exact P2|]. split; [exact F|reflexivity].
Qed.
Lemma run_hook_unhooked : forall W i w k idx ch r cl q, holding W w k ch r q cl -> idx = rg_write r -> unhooked W ch -> run_hook W i w k idx = Ret w.
Proof.
  intros W i w k idx ch r cl q HO -> U. unfold run_hook. destruct (W_hook W) eqn:E; [|reflexivity]. destruct U as [U|U]; [congruence|].
  pose proof HO as (SH & CA & _). rewrite (rd_of _ _ k _ (proj1 (proj1 CA)) (proj2 CA)). cbn [bind]. rewrite (holding_get _ _ _ _ _ _ _ HO). cbn [bind].
  unfold stream_hook. destruct (0 <=? c_virtual ch) eqn:F; [lia|]. reflexivity.
Qed.
Lemma log_stmt_post : forall W o i w s ch r q, shape W w -> in_sense w (t_chan s) (t_cat s) (t_ident s) -> at_rest W w (t_chan s) ch r q -> unhooked W ch ->
  admitted (w_lg w) (t_chan s) (t_prio s) (t_cat s) (t_ident s) -> well_formed W o i s ->
  log_stmt W i w s = post W i w (t_chan s) (t_prio s) (t_cat s) (t_ident s) (fill W i s).
Proof.
  intros W o i w s ch r q SH M (CA & RA & ST & WT & RM) U AD WF. unfold log_stmt, post.
  destruct (hold_holding W w _ _ _ _ ch r q SH M CA RA AD ST WT RM) as (w1 & ch1 & r1 & cl & -> & NN & B1 & V1 & G1 & W1 & D1 & HO & MK). cbn [bind].
  destruct (rg_write r <? 0) eqn:E; [lia|]. rewrite <- W1. rewrite (holding_get _ _ _ _ _ _ _ HO). cbn [bind].
  pose proof SH as (CAP & _). destruct (well_formed_fills W o i s CAP WF (ce_log cl) (holding_log _ _ _ _ _ _ _ HO)) as (T & log & QT & -> & MD). cbn [bind].
  destruct (holding_put W w1 _ ch1 r1 q cl log HO (has_text_ok _ _ _ (proj1 MD))) as (w2 & r2 & -> & B2 & V2 & W2 & D2 & HO2). cbn [bind].
  rewrite (run_hook_unhooked W i w2 _ (rg_write r1) ch1 r2 _ q HO2 ltac:(congruence)); [reflexivity|].
  destruct U as [U|U]; [left; exact U|right]. destruct G1 as (S & _). unfold same_setup in S. destruct S as (_ & -> & _). exact U.
Qed.
Lemma log_sync : forall W o i w s ch r, shape W w -> in_sense w (t_chan s) (t_cat s) (t_ident s) -> chan_at w (t_chan s) ch -> ring_at w (t_chan s) r -> empty r -> unhooked W ch ->
  admitted (w_lg w) (t_chan s) (t_prio s) (t_cat s) (t_ident s) -> well_formed W o i s -> -3 <= t_prio s <= 10 -> c_type ch = 1 -> no_datagrams w (t_chan s) ->
  exists w' T, log_stmt W i w s = Ret (w', 0) /\ statement_text W o i s T /\ written_through W i (t_chan s) (t_prio s) (t_cat s) (t_ident s) (line W T) w w'.
Proof.
  intros W o i w s ch r SH M CA RA EM U AD WF P TY ND. rewrite (log_stmt_post W o i w s ch r [] SH M (empty_rest _ _ _ _ _ SH CA RA EM) U AD WF). pose proof SH as (CAP & _).
  destruct (post_sync W i w _ _ _ _ _ ch r (t_ident s) _ SH M CA RA EM AD (well_formed_fills W o i s CAP WF) P TY (proj2 (M ch (proj2 CA))) ND) as (w' & T & log & A & B & C).
  exists w', T. tauto.
Qed.
Lemma log_async : forall W o i w s ch r q, shape W w -> in_sense w (t_chan s) (t_cat s) (t_ident s) -> at_rest W w (t_chan s) ch r q -> unhooked W ch ->
  admitted (w_lg w) (t_chan s) (t_prio s) (t_cat s) (t_ident s) -> well_formed W o i s -> -3 <= t_prio s < 22 -> c_type ch <> 1 ->
  exists w' T, log_stmt W i w s = Ret (w', 0) /\ statement_text W o i s T /\ queued W (t_chan s) (t_prio s) (t_cat s) (t_ident s) (line W T) q w w'.
Proof.
  intros W o i w s ch r q SH M AR U AD WF P TY. rewrite (log_stmt_post W o i w s ch r q SH M AR U AD WF). pose proof SH as (CAP & _).
  destruct (post_async W i w _ _ _ _ _ ch r q (t_ident s) _ SH M AR AD (well_formed_fills W o i s CAP WF) P TY) as (w' & T & log & A & B & C & _).
  exists w', T. tauto.
Qed.
Lemma log_blocked : forall W i w s, shape W w -> in_sense w (t_chan s) (t_cat s) (t_ident s) -> ~ admitted (w_lg w) (t_chan s) (t_prio s) (t_cat s) (t_ident s) ->
  log_stmt W i w s = Ret (w, -1).
Proof. intros W i w s SH M NA. unfold log_stmt. rewrite (hold_blocked W w _ _ _ _ SH M NA). reflexivity. Qed.

(* ---- TransmitChannel ---- *)
Lemma content_of : forall W log T, has_text W log T -> content log = Ret T.
Proof.
  intros W log T (rest & A & B & C). cbn [s_buf s_len] in *. unfold content. rewrite A, B. 
  unfold slice. rewrite zlen_app. pose proof (zlen_nonneg _ T). pose proof (zlen_nonneg _ rest).
  destruct ((0 <? 0) || (zlen T <? 0) || (zlen T + zlen rest <? 0 + zlen T)) eqn:E; [lia|]. f_equal. cbn [Z.to_nat skipn]. rewrite firstn_app. unfold zlen. rewrite Nat2Z.id, firstn_all, Nat.sub_diag. cbn [firstn]. apply app_nil_r.
Qed.
Definition copy_to (k c n : Z) (log old : ldata) : outcome ldata :=
  let! t := content log in
  let! buf := blit (ld_buf old) 0 t in
  Ret (mkLd k (ld_prio log) c n (ld_line log) (ld_func_len log) (ld_file_len log) (ld_func log) (ld_file log) (ld_ts log) (ld_prec log) (ld_thread log) (ld_plen log) (ld_len log) buf).
Definition is_copy (log : ldata) (k c n : Z) (T0 T : text) (log' : ldata) : Prop :=
  T = T0 /\ copied log (set_text log' (ld_plen log') (zlen T) (T ++ [0])) k c n T.
Lemma copy_fills : forall W log T k c n, has_text W log T -> fills W (copy_to k c n log) k (ld_prio log) c n (is_copy log k c n T).
Proof.
  intros W log T k c n HT old LO. unfold copy_to. rewrite (content_of _ _ _ HT). cbn [bind]. pose proof HT as (rest & A & B & C). cbn [s_buf s_len] in *. unfold log_ok in LO.
  assert (zlen T <= zlen (ld_buf old)). { rewrite LO, <- C, A, zlen_app. pose proof (zlen_nonneg _ rest). lia. }
  destruct (split_at _ (ld_buf old) (zlen T)) as (a & b & E & L); [pose proof (zlen_nonneg _ T); lia|].
  rewrite E. rewrite <- (app_nil_l (a ++ b)). rewrite (blit_splice _ [] a b T 0) by (rewrite ?zlen_nil; lia). cbn [bind app].
  exists T. eexists. split; [|split; [reflexivity|]].
  - split; [reflexivity|]. unfold copied. cbn. repeat (split; [reflexivity|]). exists []. reflexivity.
  - split; [|repeat (split; [reflexivity|]); reflexivity]. exists b. cbn [s_buf s_len ld_buf ld_len]. split; [reflexivity|]. split; [exact B|].
    rewrite <- LO, E, !zlen_app. lia.
Qed.
Lemma transmit_post : forall W i w k c n log, transmit W i w k c n log =
  if ld_chan log =? k then Ret (w, 0) else
  let! (w, idx) := hold W w k (ld_prio log) c n in if idx <? 0 then Ret (w, 0)
  else let! old := get_log w k idx in let! l := copy_to k c n log old in let! w := put_log w k idx l in push W i w k idx.
Proof.
  intros. unfold transmit. destruct (ld_chan log =? k); [reflexivity|]. destruct (hold W w k (ld_prio log) c n) as [(w1 & idx)| |]; [|reflexivity|reflexivity]. cbn [bind]. destruct (idx <? 0); [reflexivity|].
  destruct (get_log w1 k idx) as [old| |]; [|reflexivity|reflexivity]. cbn [bind]. unfold copy_to. destruct (content log) as [t| |]; [|reflexivity|reflexivity]. cbn [bind]. destruct (blit (ld_buf old) 0 t); reflexivity.
Qed.
Lemma transmit_admitted : forall W i w k c n log ch r q, shape W w -> in_sense w k c n -> at_rest W w k ch r q -> ld_chan log <> k -> admitted (w_lg w) k (ld_prio log) c n ->
  transmit W i w k c n log = post W i w k (ld_prio log) c n (copy_to k c n log).
Proof.
  intros W i w k c n log ch r q SH M (CA & RA & ST & WT & RM) NE AD. rewrite transmit_post. destruct (ld_chan log =? k) eqn:E; [lia|]. unfold post.
  destruct (hold_holding W w k _ c n ch r q SH M CA RA AD ST WT RM) as (w1 & ch1 & r1 & cl & -> & NN & _). cbn [bind]. destruct (rg_write r <? 0) eqn:F; [lia|]. reflexivity.
Qed.
Lemma transmit_own : forall W i w c n log, transmit W i w (ld_chan log) c n log = Ret (w, 0).
Proof. intros. unfold transmit. rewrite Z.eqb_refl. reflexivity. Qed.
Lemma transmit_blocked : forall W i w k c n log, shape W w -> in_sense w k c n -> ~ admitted (w_lg w) k (ld_prio log) c n -> transmit W i w k c n log = Ret (w, 0).
Proof. intros W i w k c n log SH M NA. unfold transmit. destruct (_ =? _); [reflexivity|]. rewrite (hold_blocked W w _ _ _ _ SH M NA). reflexivity. Qed.
Lemma transmit_sync : forall W i w k c n log T ch r, shape W w -> in_sense w k c n -> chan_at w k ch -> ring_at w k r -> empty r -> ld_chan log <> k -> admitted (w_lg w) k (ld_prio log) c n ->
  has_text W log T -> -3 <= ld_prio log <= 10 -> c_type ch = 1 -> no_datagrams w k ->
  exists w', transmit W i w k c n log = Ret (w', 0) /\ written_through W i k (ld_prio log) c n (line W T) w w'.
Proof.
  intros W i w k c n log T ch r SH M CA RA EM NE AD HT P TY ND. rewrite (transmit_admitted W i w k c n log ch r [] SH M (empty_rest _ _ _ _ _ SH CA RA EM) NE AD).
  destruct (post_sync W i w k _ c n _ ch r n _ SH M CA RA EM AD (copy_fills W log T k c n HT) P TY (proj2 (M ch (proj2 CA))) ND) as (w' & T' & l & A & (-> & _) & C). exists w'. tauto.
Qed.
Lemma transmit_async : forall W i w k c n log T ch r q, shape W w -> in_sense w k c n -> at_rest W w k ch r q -> ld_chan log <> k -> admitted (w_lg w) k (ld_prio log) c n ->
  has_text W log T -> -3 <= ld_prio log < 22 -> c_type ch <> 1 ->
  exists w' r' log', transmit W i w k c n log = Ret (w', 0) /\ queued W k (ld_prio log) c n (line W T) q w w' /\
    ring_at w' k r' /\ nth_error (rg_cells r') (Z.to_nat (rg_write r)) = Some (mkCell 2 log') /\ copied log log' k c n (line W T).
Proof.
  intros W i w k c n log T ch r q SH M AR NE AD HT P TY. rewrite (transmit_admitted W i w k c n log ch r q SH M AR NE AD).
  destruct (post_async W i w k _ c n _ ch r q n _ SH M AR AD (copy_fills W log T k c n HT) P TY) as (w' & T' & l & A & (-> & CP) & C & r' & rest & RA & CE).
  exists w', r'. eexists. split; [exact A|]. split; [exact C|]. split; [exact RA|]. split; [exact CE|]. unfold copied in *. cbn [ld_chan ld_prio ld_cat ld_ident ld_line ld_func ld_func_len ld_file ld_file_len ld_ts ld_prec ld_thread ld_plen ld_len ld_buf set_text] in *.
  repeat (split; [apply CP|]). split; [reflexivity|]. exists rest. reflexivity.
Qed.
