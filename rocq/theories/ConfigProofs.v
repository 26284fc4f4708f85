(* ConfigApi.v refines the table of ConfigSpec.v. *)
From Coq Require Import ZArith List Bool Lia ZifyBool ZifyNat ZifyN.
From Verif Require Import Base BaseFacts LoggerState ConfigApi ConfigSpec.
Import ListNotations.
Open Scope Z_scope.
Ltac Zify.zify_post_hook ::= Z.div_mod_to_equations.

Definition set_at {A} (l : list A) (i : Z) (v : A) : list A :=
  firstn (Z.to_nat i) l ++ v :: skipn (Z.to_nat (i + 1)) l.

Lemma wr_set_at : forall A (l : list A) i v, 0 <= i < zlen l -> wr l i v = Ret (set_at l i v).
Proof. intros. unfold wr. rewrite blit_ret by (rewrite ?zlen_cons, ?zlen_nil; lia). reflexivity. Qed.

Lemma set_at_len : forall A (l : list A) i v, 0 <= i < zlen l -> zlen (set_at l i v) = zlen l.
Proof. intros. eapply blit_len. apply (wr_set_at A l i v H). Qed.

Lemma nth_set_at : forall A (l : list A) i v j dflt, 0 <= i < zlen l -> 0 <= j ->
  nth (Z.to_nat j) (set_at l i v) dflt = if j =? i then v else nth (Z.to_nat j) l dflt.
Proof.
  intros A l i v j dflt Hi Hj. unfold set_at.
  destruct (j =? i) eqn:E.
  - rewrite app_nth2; rewrite firstn_length; unfold zlen in Hi; [|lia].
    replace (Z.to_nat j - Nat.min (Z.to_nat i) (length l))%nat with 0%nat by lia. reflexivity.
  - destruct (Z_lt_le_dec j i).
    + rewrite app_nth1 by (rewrite firstn_length; unfold zlen in Hi; lia).
      rewrite <- (firstn_skipn (Z.to_nat i) l) at 2.
      rewrite app_nth1 by (rewrite firstn_length; unfold zlen in Hi; lia). reflexivity.
    + rewrite app_nth2 by (rewrite firstn_length; unfold zlen in Hi; lia).
      rewrite firstn_length. unfold zlen in Hi.
      replace (Z.to_nat j - Nat.min (Z.to_nat i) (length l))%nat with (S (Z.to_nat (j - i - 1))) by lia.
      cbn [nth].
      rewrite <- (firstn_skipn (Z.to_nat (i + 1)) l) at 2.
      rewrite app_nth2 by (rewrite firstn_length; lia). rewrite firstn_length.
      f_equal. lia.
Qed.

Lemma skipn_cons_nth : forall A (l : list A) n dflt, (n < length l)%nat ->
  skipn n l = nth n l dflt :: skipn (S n) l.
Proof.
  induction l as [|x l IH]; intros n dflt Hn; simpl in Hn; [lia|].
  destruct n as [|n]; [reflexivity|]. cbn [skipn nth]. apply IH. lia.
Qed.

Lemma map_set_at : forall A B (f : A -> B) l i v dflt, 0 <= i < zlen l ->
  f v = f (nth (Z.to_nat i) l dflt) -> map f (set_at l i v) = map f l.
Proof.
  intros A B f l i v dflt Hi Hf. unfold set_at.
  transitivity (map f (firstn (Z.to_nat i) l ++ skipn (Z.to_nat i) l)); [|rewrite firstn_skipn; reflexivity].
  rewrite !map_app. f_equal.
  rewrite (skipn_cons_nth _ l (Z.to_nat i) dflt) by (unfold zlen in Hi; lia).
  replace (Z.to_nat (i + 1)) with (S (Z.to_nat i)) by lia.
  cbn [map]. rewrite Hf. reflexivity.
Qed.

Lemma Forall_set_at : forall A (P : A -> Prop) l i v, Forall P l -> P v -> Forall P (set_at l i v).
Proof.
  intros A P l i v Hl Hv. unfold set_at. apply Forall_app. split.
  - rewrite <- (firstn_skipn (Z.to_nat i) l) in Hl. apply Forall_app in Hl. tauto.
  - constructor; [assumption|]. rewrite <- (firstn_skipn (Z.to_nat (i + 1)) l) in Hl. apply Forall_app in Hl. tauto.
Qed.

Lemma rd_nth : forall A (l : list A) i dflt, 0 <= i < zlen l -> rd l i = Ret (nth (Z.to_nat i) l dflt).
Proof.
  intros A l i dflt H. apply rd_ret; [lia|]. apply nth_error_nth'. unfold zlen in H; lia.
Qed.

Lemma Forall_nthZ : forall A (P : A -> Prop) l i dflt, Forall P l -> 0 <= i < zlen l -> P (nth (Z.to_nat i) l dflt).
Proof. intros A P l i dflt H Hi. rewrite Forall_forall in H. apply H. apply nth_In. unfold zlen in Hi; lia. Qed.

Definition dch : channel := mkChannel 0 0 0 0 [] [] [] [].
Definition ddv : device := mkDevice 0 0 [].

Definition chan_ok (ch : channel) : Prop :=
  zlen (c_cfg ch) = 7 /\ zlen (c_log ch) = 25 /\
  0 <= c_size ch <= zlen (c_devs ch) /\ zlen (c_dlog ch) = zlen (c_devs ch) /\
  Forall (fun l => zlen l = 18) (c_dlog ch) /\
  Forall (fun d => zlen (d_cfg d) = 15) (c_devs ch).

Definition chan_shape (ch : channel) :=
  (c_type ch, c_virtual ch, c_size ch, c_state ch, c_log ch, c_dlog ch,
                   length (c_cfg ch),
                   map (fun d => (d_in d, d_out d, length (d_cfg d))) (c_devs ch)).

(* channel after setting field f of its own settings *)
Definition ch_setc (ch : channel) (f v : Z) : channel :=
  mkChannel (c_type ch) (c_virtual ch) (c_size ch) (c_state ch) (set_at (c_cfg ch) f v) (c_devs ch) (c_log ch) (c_dlog ch).
Definition dv_set (d : device) (f v : Z) : device := mkDevice (d_in d) (d_out d) (set_at (d_cfg d) f v).
Definition ch_setd (ch : channel) (k f v : Z) : channel :=
  mkChannel (c_type ch) (c_virtual ch) (c_size ch) (c_state ch) (c_cfg ch)
    (set_at (c_devs ch) k (dv_set (nth (Z.to_nat k) (c_devs ch) ddv) f v)) (c_log ch) (c_dlog ch).
Definition lg_set (lg : logger) (c : Z) (ch : channel) : logger :=
  mkLogger (g_shm lg) (g_state lg) (g_size lg) (set_at (g_chs lg) c ch).

Lemma ch_setc_ok : forall ch f v, chan_ok ch -> 0 <= f < 7 ->
  set_cfg ch f v = Ret (ch_setc ch f v) /\ chan_ok (ch_setc ch f v) /\ chan_shape (ch_setc ch f v) = chan_shape ch.
Proof.
  intros ch f v (H1 & H2 & H3 & H4 & H5 & H6) Hf. unfold set_cfg, ch_setc.
  rewrite wr_set_at by lia. split; [reflexivity|]. split.
  - unfold chan_ok; cbn. rewrite set_at_len by lia. repeat split; assumption || lia.
  - unfold chan_shape; cbn. pose proof (set_at_len _ (c_cfg ch) f v ltac:(lia)) as HL. unfold zlen in HL.
    replace (length (set_at (c_cfg ch) f v)) with (length (c_cfg ch)) by lia. reflexivity.
Qed.

Lemma ch_setd_ok : forall ch k f v, chan_ok ch -> 0 <= k < zlen (c_devs ch) -> 0 <= f < 15 ->
  (let! d := rd (c_devs ch) k in let! d := set_dcfg d f v in set_dev ch k d) = Ret (ch_setd ch k f v) /\
  chan_ok (ch_setd ch k f v) /\ chan_shape (ch_setd ch k f v) = chan_shape ch.
Proof.
  intros ch k f v (H1 & H2 & H3 & H4 & H5 & H6) Hk Hf.
  rewrite (rd_nth _ _ _ ddv) by lia. cbn [bind].
  pose proof (Forall_nthZ _ _ _ k ddv H6 Hk) as HD. cbn in HD.
  unfold set_dcfg. rewrite wr_set_at by lia. cbn [bind].
  unfold set_dev. rewrite wr_set_at by lia. cbn [bind].
  split; [reflexivity|]. split.
  - unfold chan_ok, ch_setd; cbn. rewrite set_at_len by lia. repeat split; try assumption; try lia.
    apply Forall_set_at; [assumption|]. cbn. rewrite set_at_len; lia.
  - unfold chan_shape, ch_setd; cbn. f_equal.
    apply map_set_at with (dflt := ddv); [lia|]. cbn.
    pose proof (set_at_len _ (d_cfg (nth (Z.to_nat k) (c_devs ch) ddv)) f v ltac:(lia)) as HL. unfold zlen in HL.
    f_equal. lia.
Qed.

Lemma started_ok : forall lg, started lg <-> g_shm lg = true /\ 0 <= g_size lg <= zlen (g_chs lg) /\ Forall chan_ok (g_chs lg).
Proof. intros; reflexivity. Qed.

Lemma shape_eq : forall lg, shape lg = (g_shm lg, g_state lg, g_size lg, map chan_shape (g_chs lg)).
Proof. intros; reflexivity. Qed.

Lemma lg_set_ok : forall lg c ch, started lg -> 0 <= c < zlen (g_chs lg) -> chan_ok ch ->
  chan_shape ch = chan_shape (nth (Z.to_nat c) (g_chs lg) dch) ->
  set_ch lg c ch = Ret (lg_set lg c ch) /\ started (lg_set lg c ch) /\ shape (lg_set lg c ch) = shape lg.
Proof.
  intros lg c ch (H1 & H2 & H3) Hc Hok Hsh. unfold set_ch. rewrite wr_set_at by lia. cbn [bind].
  split; [reflexivity|]. split.
  - apply started_ok. unfold lg_set; cbn. split; [assumption|]. split; [rewrite set_at_len; lia|].
    apply Forall_set_at; assumption.
  - rewrite !shape_eq. unfold lg_set; cbn. f_equal. apply map_set_at with (dflt := dch); [lia|]. assumption.
Qed.

(* what one call achieves *)
Definition refines (lg lg' : logger) (o : cfg_op) : Prop :=
  started lg' /\ shape lg' = shape lg /\
  (forall c f, 0 <= c -> 0 <= f ->
     t_chan (view lg') c f = if (c <? nchan lg) && (f <? 7) then chan_after lg o c f (t_chan (view lg) c f)
                             else t_chan (view lg) c f) /\
  (forall c d f, 0 <= c -> 0 <= d -> 0 <= f ->
     t_dev (view lg') c d f = if (c <? nchan lg) && (d <? ndev lg c) && (f <? 15) then dev_after lg o c d f (t_dev (view lg) c d f)
                              else t_dev (view lg) c d f).

Lemma chan_after_noop : forall lg o c f x,
  match o with SetChannel c' f' _ => c' <> c \/ f' <> f | BatchChannel _ _ => False | _ => True end ->
  chan_after lg o c f x = x.
Proof. intros lg [c' f' v|c' d' f' v|f' v|t f' v] c f x H; cbn in *; try reflexivity; [|contradiction].
  destruct ((c' =? c) && (f' =? f)) eqn:E; [lia|reflexivity]. Qed.

Lemma nth_chan : forall lg, forall c, nth (Z.to_nat c) (g_chs lg) dch = chan lg c.
Proof. reflexivity. Qed.

Lemma set_channel_refines : forall lg c0 f0 v, started lg -> 0 <= f0 ->
  exists lg', set_channel_config lg c0 f0 v = Ret lg' /\ refines lg lg' (SetChannel c0 f0 v).
Proof.
  intros lg c0 f0 v Hst Hf0. pose proof Hst as (H1 & H2 & H3).
  unfold set_channel_config, deref_shm. rewrite H1.
  assert (NOOP: ~ (0 <= c0 < g_size lg /\ f0 < 7) -> refines lg lg (SetChannel c0 f0 v)).
  { intros Hn. split; [assumption|]. split; [reflexivity|]. split.
    - intros c f Hc Hf. unfold chan_after, nchan.
      destruct ((c <? g_size lg) && (f <? 7)) eqn:E; [|reflexivity].
      destruct ((c0 =? c) && (f0 =? f)) eqn:E2; [lia|reflexivity].
    - intros. unfold dev_after. destruct ((c <? nchan lg) && (d <? ndev lg c) && (f <? 15)); reflexivity. }
  destruct ((g_size lg <=? c0) || (c0 <? 0)) eqn:E0. { exists lg. split; [reflexivity|]. apply NOOP. lia. }
  rewrite (rd_nth _ _ _ dch) by lia. cbn [bind].
  destruct (CHANNEL_CFG_MAX_ID <=? f0) eqn:E1. { exists lg. split; [reflexivity|]. apply NOOP. unfold CHANNEL_CFG_MAX_ID in E1. lia. }
  unfold CHANNEL_CFG_MAX_ID in E1.
  pose proof (Forall_nthZ _ _ _ c0 dch H3 ltac:(lia)) as Hok. fold chan_ok in Hok.
  destruct (ch_setc_ok _ f0 v Hok ltac:(lia)) as (R & Ok' & Sh). rewrite R. cbn [bind].
  destruct (lg_set_ok lg c0 _ Hst ltac:(lia) Ok' Sh) as (R2 & St' & Sh'). rewrite R2.
  eexists; split; [reflexivity|]. split; [assumption|]. split; [assumption|]. split.
  - intros c f Hc Hf. unfold view, lg_set; cbn. rewrite nth_set_at by lia.
    unfold nchan. destruct (c =? c0) eqn:Ec.
    + assert (c = c0) by lia. subst c. unfold ch_setc; cbn.
      destruct Hok as (K1 & _). rewrite nth_set_at by lia. rewrite Z.eqb_refl.
      rewrite (Z.eqb_sym f f0). fold dch.
      destruct (f0 =? f) eqn:Ef; destruct ((c0 <? g_size lg) && (f <? 7)) eqn:G; cbn; reflexivity || lia.
    + rewrite (Z.eqb_sym c0 c), Ec. cbn. destruct ((c <? g_size lg) && (f <? 7)); reflexivity.
  - intros c d f Hc Hd Hf. unfold view, lg_set; cbn. rewrite nth_set_at by lia.
    replace (nth (Z.to_nat f) (d_cfg (nth (Z.to_nat d) (c_devs (if c =? c0 then ch_setc (nth (Z.to_nat c0) (g_chs lg) dch) f0 v
          else nth (Z.to_nat c) (g_chs lg) {| c_type := 0; c_virtual := 0; c_size := 0; c_state := 0; c_cfg := []; c_devs := []; c_log := []; c_dlog := [] |})) {| d_in := 0; d_out := 0; d_cfg := [] |})) 0)
      with (nth (Z.to_nat f) (d_cfg (nth (Z.to_nat d) (c_devs (nth (Z.to_nat c) (g_chs lg) dch)) ddv)) 0).
    + destruct ((c <? nchan lg) && (d <? ndev lg c) && (f <? 15)); reflexivity.
    + destruct (c =? c0) eqn:Ec; [|reflexivity]. assert (c = c0) by lia. subst c. reflexivity.
Qed.

Lemma set_device_refines : forall lg c0 d0 f0 v, started lg -> 0 <= f0 ->
  exists lg', set_device_config lg c0 d0 f0 v = Ret lg' /\ refines lg lg' (SetDevice c0 d0 f0 v).
Proof.
  intros lg c0 d0 f0 v Hst Hf0. pose proof Hst as (H1 & H2 & H3).
  unfold set_device_config, deref_shm. rewrite H1.
  assert (NOOP: ~ (0 <= c0 < g_size lg /\ f0 < 15 /\ 0 <= d0 < ndev lg c0) -> refines lg lg (SetDevice c0 d0 f0 v)).
  { intros Hn. split; [assumption|]. split; [reflexivity|]. split.
    - intros. unfold chan_after. destruct ((c <? nchan lg) && (f <? 7)); reflexivity.
    - intros c d f Hc Hd Hf. unfold dev_after, nchan.
      destruct ((c <? g_size lg) && (d <? ndev lg c) && (f <? 15)) eqn:E; [|reflexivity].
      destruct ((c0 =? c) && (d0 =? d) && (f0 =? f)) eqn:E2; [|reflexivity].
      exfalso. apply Hn. assert (c0 = c) by lia. subst c. lia. }
  destruct ((g_size lg <=? c0) || (c0 <? 0)) eqn:E0. { exists lg. split; [reflexivity|]. apply NOOP. lia. }
  destruct (DEVICE_CFG_MAX_ID <=? f0) eqn:E1. { exists lg. split; [reflexivity|]. apply NOOP. unfold DEVICE_CFG_MAX_ID in E1. lia. }
  unfold DEVICE_CFG_MAX_ID in E1.
  rewrite (rd_nth _ _ _ dch) by lia. cbn [bind].
  destruct ((c_size (nth (Z.to_nat c0) (g_chs lg) dch) <=? d0) || (d0 <? 0)) eqn:E2.
  { exists lg. split; [reflexivity|]. apply NOOP. unfold ndev, chan. fold dch. lia. }
  pose proof (Forall_nthZ _ _ _ c0 dch H3 ltac:(lia)) as Hok. fold chan_ok in Hok.
  assert (Hd0: 0 <= d0 < zlen (c_devs (nth (Z.to_nat c0) (g_chs lg) dch))).
  { destruct Hok as (_ & _ & K & _). lia. }
  destruct (ch_setd_ok _ d0 f0 v Hok ltac:(lia) ltac:(lia)) as (R & Ok' & Sh).
  destruct (lg_set_ok lg c0 _ Hst ltac:(lia) Ok' Sh) as (R2 & St' & Sh').
  exists (lg_set lg c0 (ch_setd (nth (Z.to_nat c0) (g_chs lg) dch) d0 f0 v)).
  split.
  { apply bind_ret_inv in R. destruct R as (d & Rd & R). rewrite Rd. cbn [bind].
    apply bind_ret_inv in R. destruct R as (d' & Rd' & R). rewrite Rd'. cbn [bind]. rewrite R. cbn [bind]. exact R2. }
  split; [assumption|]. split; [assumption|]. split.
  - intros c f Hc Hf. unfold view, lg_set; cbn. rewrite nth_set_at by lia.
    destruct (c =? c0) eqn:Ec.
    + assert (c = c0) by lia. subst c. cbn. destruct ((c0 <? nchan lg) && (f <? 7)); reflexivity.
    + destruct ((c <? nchan lg) && (f <? 7)); reflexivity.
  - intros c d f Hc Hd Hf. unfold view, lg_set; cbn. rewrite nth_set_at by lia.
    unfold nchan, ndev, chan. fold dch. fold ddv. destruct (c =? c0) eqn:Ec.
    + assert (c = c0) by lia. subst c. cbn. rewrite nth_set_at by lia.
      rewrite Z.eqb_refl. destruct (d =? d0) eqn:Ed.
      * assert (d = d0) by lia. subst d. cbn.
        destruct Hok as (_ & _ & _ & _ & _ & K). pose proof (Forall_nthZ _ _ _ d0 ddv K Hd0) as KD. cbn in KD.
        rewrite nth_set_at by lia. rewrite Z.eqb_refl. rewrite (Z.eqb_sym f f0).
        destruct (f0 =? f) eqn:Ef; destruct ((c0 <? g_size lg) && (d0 <? c_size (nth (Z.to_nat c0) (g_chs lg) dch)) && (f <? 15)) eqn:G; cbn; reflexivity || lia.
      * rewrite (Z.eqb_sym d0 d), Ed. cbn. fold ddv. destruct ((c0 <? g_size lg) && (d <? c_size (nth (Z.to_nat c0) (g_chs lg) dch)) && (f <? 15)); reflexivity.
    + rewrite (Z.eqb_sym c0 c), Ec. cbn. destruct ((c <? g_size lg) && (d <? c_size (nth (Z.to_nat c) (g_chs lg) dch)) && (f <? 15)); reflexivity.
Qed.

(* batch over channels *)
Lemma batch_channels_ok : forall n i lg f0 v, started lg -> 0 <= i -> i + Z.of_nat n <= zlen (g_chs lg) -> 0 <= f0 < 7 ->
  exists lg', batch_channels n i lg f0 v = Ret lg' /\ started lg' /\ shape lg' = shape lg /\
   (forall c f, 0 <= c -> 0 <= f -> t_chan (view lg') c f =
      if (i <=? c) && (c <? i + Z.of_nat n) && (f0 =? f) then v else t_chan (view lg) c f) /\
   (forall c d f, 0 <= c -> 0 <= d -> 0 <= f -> t_dev (view lg') c d f = t_dev (view lg) c d f).
Proof.
  induction n as [|n IH]; intros i lg f0 v Hst Hi Hn Hf.
  - exists lg. split; [reflexivity|]. split; [assumption|]. split; [reflexivity|]. split; [|reflexivity].
    intros c f Hc Hff. destruct ((i <=? c) && (c <? i + Z.of_nat 0) && (f0 =? f)) eqn:E; [lia|reflexivity].
  - cbn [batch_channels]. pose proof Hst as (H1 & H2 & H3).
    rewrite (rd_nth _ _ _ dch) by lia. cbn [bind].
    pose proof (Forall_nthZ _ _ _ i dch H3 ltac:(lia)) as Hok. fold chan_ok in Hok.
    destruct (ch_setc_ok _ f0 v Hok ltac:(lia)) as (R & Ok' & Sh). rewrite R. cbn [bind].
    destruct (lg_set_ok lg i _ Hst ltac:(lia) Ok' Sh) as (R2 & St' & Sh'). rewrite R2. cbn [bind].
    set (lg1 := lg_set lg i (ch_setc (nth (Z.to_nat i) (g_chs lg) dch) f0 v)) in *.
    assert (ZL: zlen (g_chs lg1) = zlen (g_chs lg)) by (unfold lg1, lg_set; cbn; apply set_at_len; lia).
    destruct (IH (i + 1) lg1 f0 v St' ltac:(lia) ltac:(lia) Hf) as (lg' & R3 & St3 & Sh3 & V1 & V2).
    exists lg'. split; [exact R3|]. split; [assumption|]. split; [congruence|].
    assert (HV: forall c f, 0 <= c -> 0 <= f -> t_chan (view lg1) c f = if (c =? i) && (f0 =? f) then v else t_chan (view lg) c f).
    { intros c f Hc Hff. unfold lg1, view, lg_set; cbn. rewrite nth_set_at by lia.
      destruct (c =? i) eqn:E; [|reflexivity]. assert (c = i) by lia. subst c. cbn.
      destruct Hok as (K & _). rewrite nth_set_at by lia. rewrite (Z.eqb_sym f f0). destruct (f0 =? f); reflexivity. }
    split.
    + intros c f Hc Hff. rewrite V1, HV by assumption.
      destruct ((i + 1 <=? c) && (c <? i + 1 + Z.of_nat n) && (f0 =? f)) eqn:EA;
      destruct ((c =? i) && (f0 =? f)) eqn:EB;
      destruct ((i <=? c) && (c <? i + Z.of_nat (S n)) && (f0 =? f)) eqn:EC; try reflexivity; lia.
    + intros c d f Hc Hd Hff. rewrite V2 by assumption. unfold lg1, view, lg_set; cbn. rewrite nth_set_at by lia.
      destruct (c =? i) eqn:E; [|reflexivity]. assert (c = i) by lia. subst c. reflexivity.
Qed.

Lemma batch_devices_ok : forall n j ch t f0 v, chan_ok ch -> 0 <= j -> j + Z.of_nat n <= zlen (c_devs ch) -> 0 <= f0 < 15 ->
  exists ch', batch_devices n j ch t f0 v = Ret ch' /\ chan_ok ch' /\ chan_shape ch' = chan_shape ch /\ c_cfg ch' = c_cfg ch /\
   (forall d f, 0 <= d -> 0 <= f -> nth (Z.to_nat f) (d_cfg (nth (Z.to_nat d) (c_devs ch') ddv)) 0 =
      if (j <=? d) && (d <? j + Z.of_nat n) && ((f0 =? f) && ((t =? 0) || (d_out (nth (Z.to_nat d) (c_devs ch) ddv) =? t)))
      then v else nth (Z.to_nat f) (d_cfg (nth (Z.to_nat d) (c_devs ch) ddv)) 0).
Proof.
  induction n as [|n IH]; intros j ch t f0 v Hok Hj Hn Hf.
  - exists ch. split; [reflexivity|]. split; [assumption|]. split; [reflexivity|]. split; [reflexivity|].
    intros d f Hd Hff. match goal with |- _ = if ?b then _ else _ => destruct b eqn:E end; [lia|reflexivity].
  - cbn [batch_devices].
    destruct (ch_setd_ok ch j f0 v Hok ltac:(lia) ltac:(lia)) as (R & Ok' & Sh).
    pose proof R as R0. apply bind_ret_inv in R0. destruct R0 as (d1 & Rd & R1). rewrite Rd. cbn [bind].
    rewrite (rd_nth _ _ _ ddv) in Rd by lia. inversion Rd; subst d1; clear Rd.
    destruct ((d_out (nth (Z.to_nat j) (c_devs ch) ddv) =? t) || (t =? DEVICE_OUT_NULL)) eqn:ET; unfold DEVICE_OUT_NULL in ET.
    + apply bind_ret_inv in R1. destruct R1 as (d' & Rd' & R1). rewrite Rd'. cbn [bind]. rewrite R1. cbn [bind].
      assert (ZL: zlen (c_devs (ch_setd ch j f0 v)) = zlen (c_devs ch)) by (unfold ch_setd; cbn; apply set_at_len; lia).
      destruct (IH (j + 1) _ t f0 v Ok' ltac:(lia) ltac:(lia) Hf) as (ch' & R3 & Ok3 & Sh3 & C3 & V).
      exists ch'. split; [exact R3|]. split; [assumption|]. split; [congruence|]. split; [rewrite C3; reflexivity|].
      intros d f Hd Hff. rewrite V by assumption. unfold ch_setd; cbn [c_devs]. rewrite nth_set_at by lia.
      destruct Hok as (_ & _ & _ & _ & _ & K). pose proof (Forall_nthZ _ _ _ j ddv K ltac:(lia)) as KD. cbn in KD.
      destruct (d =? j) eqn:E.
      * assert (d = j) by lia. subst d. cbn [d_out dv_set d_cfg]. rewrite nth_set_at by lia.
        rewrite (Z.eqb_sym f f0).
        destruct (f0 =? f) eqn:Ef.
        -- replace ((j <=? j) && (j <? j + Z.of_nat (S n)) && (true && ((t =? 0) || (d_out (nth (Z.to_nat j) (c_devs ch) ddv) =? t)))) with true by lia.
           match goal with |- (if ?b then _ else _) = _ => destruct b; reflexivity end.
        -- rewrite !andb_false_l, !andb_false_r. reflexivity.
      * replace ((j + 1 <=? d) && (d <? j + 1 + Z.of_nat n)) with ((j <=? d) && (d <? j + Z.of_nat (S n))) by lia. reflexivity.
    + destruct (IH (j + 1) ch t f0 v Hok ltac:(lia) ltac:(lia) Hf) as (ch' & R3 & Ok3 & Sh3 & C3 & V).
      exists ch'. split; [exact R3|]. split; [assumption|]. split; [assumption|]. split; [assumption|].
      intros d f Hd Hff. rewrite V by assumption.
      destruct (d =? j) eqn:E.
      * assert (d = j) by lia. subst d.
        replace ((t =? 0) || (d_out (nth (Z.to_nat j) (c_devs ch) ddv) =? t)) with false by lia.
        rewrite !andb_false_r. reflexivity.
      * replace ((j + 1 <=? d) && (d <? j + 1 + Z.of_nat n)) with ((j <=? d) && (d <? j + Z.of_nat (S n))) by lia. reflexivity.
Qed.

Lemma dev_out_shape : forall lg lg' c d, shape lg' = shape lg -> dev_out lg' c d = dev_out lg c d.
Proof.
  intros lg lg' c d H. rewrite !shape_eq in H. inversion H as [[Ha Hb Hc HM]].
  unfold dev_out, chan. fold dch ddv.
  assert (chan_shape (nth (Z.to_nat c) (g_chs lg') dch) = chan_shape (nth (Z.to_nat c) (g_chs lg) dch)) as E.
  { rewrite <- !(map_nth chan_shape). rewrite HM. reflexivity. }
  unfold chan_shape in E. inversion E as [[E1 E2 E3 E4 E5 E6 E7 E8]].
  assert (EE: (fun d => (d_in d, d_out d, length (d_cfg d))) (nth (Z.to_nat d) (c_devs (nth (Z.to_nat c) (g_chs lg') dch)) ddv) =
          (fun d => (d_in d, d_out d, length (d_cfg d))) (nth (Z.to_nat d) (c_devs (nth (Z.to_nat c) (g_chs lg) dch)) ddv)).
  { rewrite <- !(map_nth (fun d => (d_in d, d_out d, length (d_cfg d)))). rewrite E8. reflexivity. }
  cbv beta in EE. congruence.
Qed.

Lemma ndev_shape : forall lg lg' c, shape lg' = shape lg -> ndev lg' c = ndev lg c.
Proof.
  intros lg lg' c H. rewrite !shape_eq in H. inversion H as [[Ha Hb Hc HM]].
  unfold ndev, chan. fold dch.
  assert (chan_shape (nth (Z.to_nat c) (g_chs lg') dch) = chan_shape (nth (Z.to_nat c) (g_chs lg) dch)) as E.
  { rewrite <- !(map_nth chan_shape). rewrite HM. reflexivity. }
  unfold chan_shape in E. congruence.
Qed.

Lemma batch_channels_dev_ok : forall n i lg t f0 v, started lg -> 0 <= i -> i + Z.of_nat n <= zlen (g_chs lg) -> 0 <= f0 < 15 ->
  exists lg', batch_channels_dev n i lg t f0 v = Ret lg' /\ started lg' /\ shape lg' = shape lg /\
   (forall c f, 0 <= c -> 0 <= f -> t_chan (view lg') c f = t_chan (view lg) c f) /\
   (forall c d f, 0 <= c -> 0 <= d -> 0 <= f -> t_dev (view lg') c d f =
      if (i <=? c) && (c <? i + Z.of_nat n) && (d <? ndev lg c) && ((f0 =? f) && ((t =? 0) || (dev_out lg c d =? t)))
      then v else t_dev (view lg) c d f).
Proof.
  induction n as [|n IH]; intros i lg t f0 v Hst Hi Hn Hf.
  - exists lg. split; [reflexivity|]. split; [assumption|]. split; [reflexivity|]. split; [reflexivity|].
    intros c d f Hc Hd Hff. match goal with |- _ = if ?b then _ else _ => destruct b eqn:E end; [lia|reflexivity].
  - cbn [batch_channels_dev]. pose proof Hst as (H1 & H2 & H3).
    rewrite (rd_nth _ _ _ dch) by lia. cbn [bind].
    pose proof (Forall_nthZ _ _ _ i dch H3 ltac:(lia)) as Hok. fold chan_ok in Hok.
    set (ch := nth (Z.to_nat i) (g_chs lg) dch) in *.
    destruct (batch_devices_ok (Z.to_nat (c_size ch)) 0 ch t f0 v Hok ltac:(lia)) as (ch' & R & Ok' & Sh & C' & VD).
    { destruct Hok as (_ & _ & K & _). lia. } { lia. }
    rewrite R. cbn [bind].
    destruct (lg_set_ok lg i ch' Hst ltac:(lia) Ok' Sh) as (R2 & St' & Sh'). rewrite R2. cbn [bind].
    set (lg1 := lg_set lg i ch') in *.
    assert (ZL: zlen (g_chs lg1) = zlen (g_chs lg)) by (unfold lg1, lg_set; cbn; apply set_at_len; lia).
    destruct (IH (i + 1) lg1 t f0 v St' ltac:(lia) ltac:(lia) Hf) as (lg' & R3 & St3 & Sh3 & V1 & V2).
    exists lg'. split; [exact R3|]. split; [assumption|]. split; [congruence|]. split.
    + intros c f Hc Hff. rewrite V1 by assumption. unfold lg1, view, lg_set; cbn. rewrite nth_set_at by lia.
      destruct (c =? i) eqn:E; [|reflexivity]. assert (c = i) by lia. subst c. rewrite C'. reflexivity.
    + intros c d f Hc Hd Hff. rewrite V2 by assumption.
      rewrite (ndev_shape lg lg1 c Sh'), (dev_out_shape lg lg1 c d Sh').
      unfold lg1, view, lg_set; cbn [t_dev g_chs]. rewrite nth_set_at by lia. fold dch ddv.
      destruct (c =? i) eqn:E.
      * assert (c = i) by lia. subst c. rewrite VD by lia.
        unfold ndev, dev_out, chan. fold dch ddv. fold ch.
        destruct Hok as (_ & _ & K & _).
        replace ((i + 1 <=? i) && (i <? i + 1 + Z.of_nat n)) with false by lia. rewrite !andb_false_l.
        replace ((i <=? i) && (i <? i + Z.of_nat (S n))) with true by lia. rewrite andb_true_l.
        replace ((0 <=? d) && (d <? 0 + Z.of_nat (Z.to_nat (c_size ch)))) with (d <? c_size ch) by lia.
        reflexivity.
      * replace ((i + 1 <=? c) && (c <? i + 1 + Z.of_nat n)) with ((i <=? c) && (c <? i + Z.of_nat (S n))) by lia. reflexivity.
Qed.

Lemma cfg_step_refines : forall lg o, started lg -> args_ok o ->
  exists lg', cfg_step lg o = Ret lg' /\ refines lg lg' o.
Proof.
  intros lg [c f v|c d f v|f v|t f v] Hst Ha; cbn in Ha; cbn [cfg_step].
  - apply set_channel_refines; assumption.
  - apply set_device_refines; assumption.
  - unfold batch_set_channel_config, deref_shm. pose proof Hst as (H1 & H2 & H3). rewrite H1.
    destruct (batch_channels_ok (Z.to_nat (g_size lg)) 0 lg f v Hst ltac:(lia) ltac:(lia) Ha) as (lg' & R & St & Sh & V1 & V2).
    exists lg'. split; [exact R|]. split; [assumption|]. split; [assumption|]. split.
    + intros c f' Hc Hf. rewrite V1 by assumption. unfold nchan, chan_after.
      destruct (f =? f') eqn:E; destruct ((c <? g_size lg) && (f' <? 7)) eqn:G;
        destruct ((0 <=? c) && (c <? 0 + Z.of_nat (Z.to_nat (g_size lg)))) eqn:F; cbn; try reflexivity; lia.
    + intros. rewrite V2 by assumption. unfold dev_after. destruct ((c <? nchan lg) && (d <? ndev lg c) && (f0 <? 15)); reflexivity.
  - unfold batch_set_device_config, deref_shm. pose proof Hst as (H1 & H2 & H3). rewrite H1.
    destruct (batch_channels_dev_ok (Z.to_nat (g_size lg)) 0 lg t f v Hst ltac:(lia) ltac:(lia) Ha) as (lg' & R & St & Sh & V1 & V2).
    exists lg'. split; [exact R|]. split; [assumption|]. split; [assumption|]. split.
    + intros. rewrite V1 by assumption. unfold chan_after. destruct ((c <? nchan lg) && (f0 <? 7)); reflexivity.
    + intros c d f' Hc Hd Hf. rewrite V2 by assumption. unfold nchan, dev_after.
      replace ((0 <=? c) && (c <? 0 + Z.of_nat (Z.to_nat (g_size lg)))) with (c <? g_size lg) by lia.
      destruct ((c <? g_size lg) && (d <? ndev lg c)); [|reflexivity]. cbn [andb].
      destruct (f' <? 15) eqn:F; [reflexivity|].
      destruct (f =? f') eqn:E; [lia|reflexivity].
Qed.

Lemma dev_after_shape : forall lg lg' o c d f x, shape lg' = shape lg -> dev_after lg' o c d f x = dev_after lg o c d f x.
Proof. intros lg lg' [| | |] c d f x H; try reflexivity. cbn. rewrite (dev_out_shape lg lg' c d H). reflexivity. Qed.

Lemma cfg_run_refines : forall ops lg, started lg -> Forall args_ok ops ->
  exists lg', cfg_run lg ops = Ret lg' /\ started lg' /\ shape lg' = shape lg /\
  (forall c f, 0 <= c -> 0 <= f ->
     t_chan (view lg') c f =
       if (c <? nchan lg) && (f <? 7)
       then fold_left (fun x o => chan_after lg o c f x) ops (t_chan (view lg) c f)
       else t_chan (view lg) c f) /\
  (forall c d f, 0 <= c -> 0 <= d -> 0 <= f ->
     t_dev (view lg') c d f =
       if (c <? nchan lg) && (d <? ndev lg c) && (f <? 15)
       then fold_left (fun x o => dev_after lg o c d f x) ops (t_dev (view lg) c d f)
       else t_dev (view lg) c d f).
Proof.
  induction ops as [|o ops IH]; intros lg Hst Ha.
  - exists lg. split; [reflexivity|]. split; [assumption|]. split; [reflexivity|]. split; intros; cbn.
    + destruct ((c <? nchan lg) && (f <? 7)); reflexivity.
    + destruct ((c <? nchan lg) && (d <? ndev lg c) && (f <? 15)); reflexivity.
  - inversion Ha as [|? ? Ho Hops]; subst. cbn [cfg_run].
    destruct (cfg_step_refines lg o Hst Ho) as (lg1 & R & St1 & Sh1 & V1 & V2). rewrite R. cbn [bind].
    destruct (IH lg1 St1 Hops) as (lg' & R' & St' & Sh' & V1' & V2').
    exists lg'. split; [assumption|]. split; [assumption|]. split; [congruence|].
    assert (NC: nchan lg1 = nchan lg) by (rewrite !shape_eq in Sh1; unfold nchan; congruence).
    split.
    + intros c f Hc Hf. rewrite V1', NC, V1 by assumption.
      destruct ((c <? nchan lg) && (f <? 7)); [|reflexivity]. cbn [fold_left].
      reflexivity.
    + intros c d f Hc Hd Hf. rewrite V2', NC, (ndev_shape lg lg1 c Sh1), V2 by assumption.
      destruct ((c <? nchan lg) && (d <? ndev lg c) && (f <? 15)); [|reflexivity]. cbn [fold_left].
      clear - Sh1. generalize (dev_after lg o c d f (t_dev (view lg) c d f)).
      induction ops as [|o' ops IHo]; intros x; [reflexivity|]. cbn [fold_left].
      rewrite (dev_after_shape lg lg1 o' c d f x Sh1). apply IHo.
Qed.

(* getters *)
Lemma get_device_config_view : forall lg c d f, started lg -> 0 <= f ->
  get_device_config lg c d f =
    Ret (if (0 <=? c) && (c <? nchan lg) && (0 <=? d) && (d <? ndev lg c) && (f <? 15)
         then t_dev (view lg) c d f else 0).
Proof.
  intros lg c d f (H1 & H2 & H3) Hf. unfold get_device_config, deref_shm, nchan. rewrite H1.
  destruct ((g_size lg <=? c) || (c <? 0)) eqn:E0.
  { replace ((0 <=? c) && (c <? g_size lg)) with false by lia. reflexivity. }
  replace ((0 <=? c) && (c <? g_size lg)) with true by lia. cbn [andb].
  unfold DEVICE_CFG_MAX_ID. destruct (15 <=? f) eqn:E1.
  { replace (f <? 15) with false by lia. rewrite andb_false_r. reflexivity. }
  replace (f <? 15) with true by lia. rewrite andb_true_r.
  rewrite (rd_nth _ _ _ dch) by lia. cbn [bind]. unfold ndev, chan. fold dch.
  destruct ((c_size (nth (Z.to_nat c) (g_chs lg) dch) <=? d) || (d <? 0)) eqn:E2.
  { replace ((0 <=? d) && (d <? c_size (nth (Z.to_nat c) (g_chs lg) dch))) with false by lia. reflexivity. }
  replace ((0 <=? d) && (d <? c_size (nth (Z.to_nat c) (g_chs lg) dch))) with true by lia.
  pose proof (Forall_nthZ _ _ _ c dch H3 ltac:(lia)) as (K1 & K2 & K3 & K4 & K5 & K6).
  rewrite (rd_nth _ _ _ ddv) by lia. cbn [bind].
  pose proof (Forall_nthZ _ _ _ d ddv K6 ltac:(lia)) as KD. cbn in KD.
  rewrite (rd_nth _ _ _ 0) by lia. reflexivity.
Qed.

Lemma get_channel_log_view : forall lg c f, started lg -> 0 <= f ->
  get_channel_log lg c f = Ret (if (0 <=? c) && (c <? nchan lg) && (f <? 25) then nth (Z.to_nat f) (c_log (chan lg c)) 0 else 0).
Proof.
  intros lg c f (H1 & H2 & H3) Hf. unfold get_channel_log, deref_shm, nchan. rewrite H1.
  destruct ((g_size lg <=? c) || (c <? 0)) eqn:E0.
  { replace ((0 <=? c) && (c <? g_size lg)) with false by lia. reflexivity. }
  replace ((0 <=? c) && (c <? g_size lg)) with true by lia. cbn [andb].
  rewrite (rd_nth _ _ _ dch) by lia. cbn [bind]. unfold CHANNEL_LOG_MAX_ID, chan. fold dch.
  destruct (25 <=? f) eqn:E1. { replace (f <? 25) with false by lia. reflexivity. }
  replace (f <? 25) with true by lia.
  pose proof (Forall_nthZ _ _ _ c dch H3 ltac:(lia)) as (K1 & K2 & K3 & K4 & K5 & K6).
  apply rd_nth. lia.
Qed.

Lemma get_device_log_view : forall lg c d f, started lg -> 0 <= f ->
  get_device_log lg c d f =
    Ret (if (0 <=? c) && (c <? nchan lg) && (0 <=? d) && (d <? ndev lg c) && (f <? 18)
         then nth (Z.to_nat f) (nth (Z.to_nat d) (c_dlog (chan lg c)) []) 0 else 0).
Proof.
  intros lg c d f (H1 & H2 & H3) Hf. unfold get_device_log, deref_shm, nchan. rewrite H1.
  destruct ((g_size lg <=? c) || (c <? 0)) eqn:E0.
  { replace ((0 <=? c) && (c <? g_size lg)) with false by lia. reflexivity. }
  replace ((0 <=? c) && (c <? g_size lg)) with true by lia. cbn [andb].
  rewrite (rd_nth _ _ _ dch) by lia. cbn [bind]. unfold DEVICE_LOG_MAX_ID, ndev, chan. fold dch.
  destruct (18 <=? f) eqn:E1. { replace (f <? 18) with false by lia. rewrite andb_false_r. reflexivity. }
  replace (f <? 18) with true by lia. rewrite andb_true_r.
  destruct ((c_size (nth (Z.to_nat c) (g_chs lg) dch) <=? d) || (d <? 0)) eqn:E2.
  { replace ((0 <=? d) && (d <? c_size (nth (Z.to_nat c) (g_chs lg) dch))) with false by lia. reflexivity. }
  replace ((0 <=? d) && (d <? c_size (nth (Z.to_nat c) (g_chs lg) dch))) with true by lia.
  pose proof (Forall_nthZ _ _ _ c dch H3 ltac:(lia)) as (K1 & K2 & K3 & K4 & K5 & K6).
  rewrite (rd_nth _ _ _ []) by lia. cbn [bind].
  pose proof (Forall_nthZ _ _ _ d [] K5 ltac:(lia)) as KD. cbn in KD.
  apply rd_nth. lia.
Qed.
