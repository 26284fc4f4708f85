(* Proofs about Bulk.v. *)
From Coq Require Import ZArith List Bool Lia ZifyBool ZifyNat Sorted.
From Verif Require Import Base BaseFacts LoggerState ConfigApi ConfigSpec ConfigProofs Filter FilterSpec FilterProofs Bulk BulkSpec.
Import ListNotations.
Open Scope Z_scope.

Lemma with_entry_len : forall l n v, length (with_entry n v l) = length l.
Proof. induction l as [|x l IH]; intros [|n] v; cbn; congruence. Qed.
Lemma with_entry_nth : forall l n v m, (n < length l)%nat ->
  nth m (with_entry n v l) 0 = if (m =? n)%nat then v else nth m l 0.
Proof.
  induction l as [|x l IH]; intros [|n] v m L; cbn in L; try lia.
  - destruct m; reflexivity.
  - destruct m; [reflexivity|]. cbn [with_entry nth]. rewrite IH by lia.
    replace ((S m =? S n)%nat) with ((m =? n)%nat) by lia. reflexivity.
Qed.

(* two channels are the same if their shapes and settings are *)
Lemma channel_ext : forall a b,
  (c_type a, c_virtual a, c_size a, c_state a, c_log a, c_dlog a, length (c_cfg a),
   map (fun d => (d_in d, d_out d, length (d_cfg d))) (c_devs a)) =
  (c_type b, c_virtual b, c_size b, c_state b, c_log b, c_dlog b, length (c_cfg b),
   map (fun d => (d_in d, d_out d, length (d_cfg d))) (c_devs b)) ->
  (forall f, nth f (c_cfg a) 0 = nth f (c_cfg b) 0) ->
  (forall d f, (d < length (c_devs a))%nat -> nth f (d_cfg (nth d (c_devs a) (mkDevice 0 0 []))) 0 = nth f (d_cfg (nth d (c_devs b) (mkDevice 0 0 []))) 0) ->
  a = b.
Proof.
  intros [t v s st cf dv lo dl] [t' v' s' st' cf' dv' lo' dl'] E C D. cbn in *. inversion E; subst.
  assert (cf = cf') by (apply nth_ext with (d := 0) (d' := 0); [congruence|intros; apply C]).
  assert (dv = dv').
  { assert (L : length dv = length dv') by (rewrite <- (map_length (fun d => (d_in d, d_out d, length (d_cfg d))) dv), H7, map_length; reflexivity).
    apply nth_ext with (d := mkDevice 0 0 []) (d' := mkDevice 0 0 []); [exact L|]. intros n Ln.
    set (g := fun d => (d_in d, d_out d, length (d_cfg d))) in *.
    assert (X : g (nth n dv (mkDevice 0 0 [])) = g (nth n dv' (mkDevice 0 0 []))) by (rewrite <- !(map_nth g), H7; reflexivity).
    subst g. cbv beta in X. specialize (fun f => D n f Ln).
    destruct (nth n dv (mkDevice 0 0 [])) as [i o c], (nth n dv' (mkDevice 0 0 [])) as [i' o' c']. cbn in *.
    inversion X; subst. f_equal. apply nth_ext with (d := 0) (d' := 0); [congruence|intros; apply D]. }
  congruence.
Qed.

Lemma nth_split_map : forall A (f : A -> A) (l : list A) m n d, (n < length l)%nat ->
  nth n (map f (firstn m l) ++ skipn m l) d = if (n <? m)%nat then f (nth n l d) else nth n l d.
Proof.
  induction l as [|x l IH]; intros m n d L; cbn in L; [lia|].
  destruct m as [|m]; [reflexivity|]. cbn [firstn map skipn app].
  destruct n as [|n]; [reflexivity|]. cbn [nth].
  rewrite IH by lia. replace (S n <? S m)%nat with (n <? m)%nat by lia. reflexivity.
Qed.
Lemma split_map_len : forall A (f : A -> A) (l : list A) m, length (map f (firstn m l) ++ skipn m l) = length l.
Proof. intros. rewrite app_length, map_length, <- app_length, firstn_skipn. reflexivity. Qed.

Lemma bulk_args : forall b, Forall args_ok (bulk_ops b).
Proof. intros []; cbn [bulk_ops]; repeat first [apply Forall_nil|apply Forall_cons]; cbn; unfold DEVICE_CFG_ABLE, DEVICE_CFG_PRIORITY, DEVICE_CFG_CATEGORY, DEVICE_CFG_CATEGORY_EXTEND, DEVICE_CFG_FILE_LIMIT_SIZE, DEVICE_CFG_FILE_ROLLBACK, CHANNEL_CFG_PRIORITY, CHANNEL_CFG_CATEGORY, CHANNEL_CFG_CATEGORY_EXTEND; lia. Qed.


Lemma chan_then_nth : forall b l lg c f, length l = 7%nat -> 0 <= f < 7 ->
  fold_left (fun x o => chan_after lg o c f x) (bulk_ops b) (nth (Z.to_nat f) l 0) = nth (Z.to_nat f) (chan_then b l) 0.
Proof.
  intros b l lg c f L F. destruct b; cbn -[Z.to_nat Z.eqb nth with_entry]; try reflexivity;
    unfold CHANNEL_CFG_PRIORITY, CHANNEL_CFG_CATEGORY, CHANNEL_CFG_CATEGORY_EXTEND;
    repeat rewrite with_entry_nth by (rewrite ?with_entry_len; lia);
    repeat match goal with |- context [if ?x then _ else _] => destruct x eqn:? end; try reflexivity; lia.
Qed.
Lemma dev_then_nth : forall b d lg c k f, dev_out lg c k = d_out d -> length (d_cfg d) = 15%nat -> 0 <= f < 15 ->
  fold_left (fun x o => dev_after lg o c k f x) (bulk_ops b) (nth (Z.to_nat f) (d_cfg d) 0) = nth (Z.to_nat f) (d_cfg (dev_then b d)) 0.
Proof.
  intros b d lg c k f E L F. destruct b; cbn -[Z.to_nat Z.eqb nth with_entry dev_out]; rewrite ?E; unfold of_kind, out_of in *; try reflexivity;
    try (match goal with x : kind |- _ => destruct x end);
    unfold DEVICE_OUT_SCREEN, DEVICE_OUT_FILE, DEVICE_OUT_UDP, DEVICE_CFG_ABLE, DEVICE_CFG_PRIORITY, DEVICE_CFG_CATEGORY, DEVICE_CFG_CATEGORY_EXTEND, DEVICE_CFG_FILE_LIMIT_SIZE, DEVICE_CFG_FILE_ROLLBACK;
    match goal with |- context [d_out d =? ?x] => destruct (d_out d =? x) eqn:? end; change (1 =? 0) with false; change (2 =? 0) with false; change (3 =? 0) with false; cbn [orb andb retune d_cfg];
    rewrite ?andb_true_r, ?andb_false_r;
    repeat rewrite with_entry_nth by (rewrite ?with_entry_len; lia);
    repeat match goal with |- context [if ?x then _ else _] => destruct x eqn:? end; try reflexivity; lia.
Qed.
Lemma dev_then_shape : forall b d, d_in (dev_then b d) = d_in d /\ d_out (dev_then b d) = d_out d /\ length (d_cfg (dev_then b d)) = length (d_cfg d).
Proof. intros b d. unfold dev_then. destruct b; try (match goal with |- context [if ?x then _ else _] => destruct x end); cbn [retune d_in d_out d_cfg]; rewrite ?with_entry_len; repeat split; reflexivity. Qed.
Lemma chan_then_len : forall b l, length (chan_then b l) = length l.
Proof. intros [] l; cbn [chan_then]; rewrite ?with_entry_len; reflexivity. Qed.

Lemma chan_then_shape : forall b ch, chan_shape (channel_then b ch) = chan_shape ch.
Proof.
  intros b ch. unfold chan_shape, channel_then. cbn. rewrite chan_then_len. f_equal.
  rewrite map_app, map_map, (map_ext _ _ (fun d => f_equal2 pair (f_equal2 pair (proj1 (dev_then_shape b d)) (proj1 (proj2 (dev_then_shape b d)))) (proj2 (proj2 (dev_then_shape b d))))).
  rewrite <- map_app, firstn_skipn. reflexivity.
Qed.

Lemma bulk_exact : forall lg b, started lg ->
  bulk_set lg b = Ret (mkLogger (g_shm lg) (g_state lg) (g_size lg)
     (map (channel_then b) (firstn (Z.to_nat (g_size lg)) (g_chs lg)) ++ skipn (Z.to_nat (g_size lg)) (g_chs lg))).
Proof.
  intros lg b St. destruct (cfg_run_refines (bulk_ops b) lg St (bulk_args b)) as (lg' & R & St' & Sh & VC & VD).
  unfold bulk_set. rewrite R. f_equal.
  assert (St0 := St). apply started_ok in St0. destruct St0 as (_ & Hn & Hch).
  rewrite !shape_eq in Sh.
  destruct lg' as [s' t' n' cs']. cbn in Sh. inversion Sh; subst. cbn [g_shm g_state g_size]. f_equal.
  match goal with h : map chan_shape cs' = _ |- _ => rename h into Hm end.
  assert (L : length cs' = length (g_chs lg)) by (rewrite <- (map_length chan_shape), Hm, map_length; reflexivity).
  apply nth_ext with (d := dch) (d' := dch); [rewrite split_map_len; exact L|]. intros n Ln.
  rewrite nth_split_map by lia. set (ch := nth n (g_chs lg) dch).
  assert (X : chan_shape (nth n cs' dch) = chan_shape ch).
  { unfold ch. rewrite <- !(map_nth chan_shape), Hm. reflexivity. }
  assert (OK : chan_ok ch) by (eapply Forall_forall; [exact Hch|]; apply nth_In; lia).
  specialize (fun f (F : 0 <= f) => VC (Z.of_nat n) f ltac:(lia) F).
  specialize (fun k f (K : 0 <= k) (F : 0 <= f) => VD (Z.of_nat n) k f ltac:(lia) K F).
  unfold view, nchan, ndev, chan in VC, VD. cbn [t_chan t_dev g_chs] in VC, VD. rewrite !Nat2Z.id in VC, VD.
  fold dch in VC, VD. fold ch in VC, VD.
  assert (Y : chan_shape (nth n cs' dch) = chan_shape (if (n <? Z.to_nat (g_size lg))%nat then channel_then b ch else ch))
    by (rewrite X; destruct (n <? _)%nat; [rewrite chan_then_shape|]; reflexivity).
  destruct OK as (O1 & O2 & O3 & O4 & O5 & O6).
  assert (L7 : length (c_cfg ch) = 7%nat) by (unfold zlen in O1; lia).
  assert (Ld : forall k, (k < length (c_devs ch))%nat -> length (d_cfg (nth k (c_devs ch) (mkDevice 0 0 []))) = 15%nat).
  { intros k K. assert (Z : zlen (d_cfg (nth k (c_devs ch) (mkDevice 0 0 []))) = 15) by (eapply Forall_forall in O6; [exact O6|]; apply nth_In; exact K).
    unfold zlen in Z. lia. }
  assert (Lc' : length (c_cfg (nth n cs' dch)) = 7%nat) by (unfold chan_shape in X; inversion X; congruence).
  unfold chan_shape in X. inversion X as [[X1 X2 X3 X4 X5 X6 X7 X8]]. clear X.
  assert (Ldv : length (c_devs (nth n cs' dch)) = length (c_devs ch)) by (pose proof (f_equal (@length _) X8) as Z; rewrite !map_length in Z; exact Z).
  apply channel_ext; [exact Y| |].
  - intros f. destruct (Nat.ltb_spec f 7) as [F|F].
    + specialize (VC (Z.of_nat f) ltac:(lia)). rewrite Nat2Z.id in VC. rewrite VC.
      replace (Z.of_nat f <? 7) with true by lia. rewrite andb_true_r.
      replace (Z.of_nat n <? g_size lg) with ((n <? Z.to_nat (g_size lg))%nat) by lia.
      destruct (n <? _)%nat; [|reflexivity]. cbn [channel_then c_cfg].
      pose proof (chan_then_nth b (c_cfg ch) lg (Z.of_nat n) (Z.of_nat f) L7 ltac:(lia)) as Z. rewrite Nat2Z.id in Z. exact Z.
    + rewrite !nth_overflow; [reflexivity| |lia]. destruct (n <? _)%nat; cbn [channel_then c_cfg]; rewrite ?chan_then_len; lia.
  - intros k f K. specialize (VD (Z.of_nat k) (Z.of_nat f) ltac:(lia) ltac:(lia)). rewrite !Nat2Z.id in VD. rewrite VD. clear VD.
    replace (Z.of_nat n <? g_size lg) with ((n <? Z.to_nat (g_size lg))%nat) by lia.
    destruct (n <? _)%nat; [|reflexivity]. cbn [channel_then c_devs andb].
    rewrite nth_split_map by lia. replace (Z.of_nat k <? c_size ch) with ((k <? Z.to_nat (c_size ch))%nat) by lia.
    destruct (k <? _)%nat; [|reflexivity]. cbn [andb].
    destruct (Nat.ltb_spec f 15) as [F|F].
    + replace (Z.of_nat f <? 15) with true by lia.
      pose proof (dev_then_nth b (nth k (c_devs ch) (mkDevice 0 0 [])) lg (Z.of_nat n) (Z.of_nat k) (Z.of_nat f)) as Z.
      rewrite Nat2Z.id in Z. apply Z; [|apply Ld; lia|lia].
      unfold dev_out, chan. rewrite !Nat2Z.id. reflexivity.
    + replace (Z.of_nat f <? 15) with false by lia.
      rewrite !nth_overflow; [reflexivity| |]; rewrite ?(proj2 (proj2 (dev_then_shape _ _))), Ld; lia.
Qed.

(* the devices of a channel after a call *)
Lemma has_then : forall b ch j d', sound_channel ch ->
  has_device (channel_then b ch) j d' <-> exists d, has_device ch j d /\ d' = dev_then b d.
Proof.
  intros b ch j d' Sd. unfold sound_channel, zlen in Sd. unfold has_device. cbn [channel_then c_size c_devs]. split.
  - intros (J & N). apply nth_error_split in N as N'. 
    assert (Lj : (Z.to_nat j < length (c_devs ch))%nat) by lia.
    destruct (nth_error (c_devs ch) (Z.to_nat j)) as [d|] eqn:E; [|apply nth_error_None in E; lia].
    exists d. split; [split; [exact J|reflexivity]|].
    apply (nth_error_nth _ _ (mkDevice 0 0 [])) in N. apply (nth_error_nth _ _ (mkDevice 0 0 [])) in E.
    rewrite nth_split_map in N by lia. replace (Z.to_nat j <? Z.to_nat (c_size ch))%nat with true in N by lia. congruence.
  - intros (d & (J & N) & ->). split; [exact J|].
    assert (Lj : (Z.to_nat j < length (c_devs ch))%nat) by lia.
    rewrite nth_error_nth' with (d := mkDevice 0 0 []) by (rewrite split_map_len; lia).
    rewrite nth_split_map by lia. replace (Z.to_nat j <? Z.to_nat (c_size ch))%nat with true by lia.
    apply (nth_error_nth _ _ (mkDevice 0 0 [])) in N. congruence.
Qed.

Lemma with_entry_nth' : forall l n v m, length l = 15%nat \/ length l = 7%nat -> (n < 7)%nat ->
  nth m (with_entry n v l) 0 = if (m =? n)%nat then v else nth m l 0.
Proof. intros. apply with_entry_nth. lia. Qed.

Lemma scope_then : forall b d c i, length (d_cfg d) = 15%nat -> int_args b ->
  device_scope d c i -> device_scope (dev_then b d) c i.
Proof.
  intros b d c i L A X. unfold device_scope, in_scope in *.
  destruct b; cbn [dev_then int_args] in *; try exact X;
    try (match goal with |- context [of_kind ?x d] => destruct (of_kind x d) end; [|exact X]); cbn [retune d_cfg];
    repeat rewrite with_entry_nth by (rewrite ?with_entry_len, L; lia); cbn [Nat.eqb]; try exact X.
  destruct X as (X1 & X2 & X3 & X4). split; [exact X1|]. split; [exact X2|]. split; [|exact X4].
  intros _. unfold is_ll, LLONG_MIN, LLONG_MAX. lia.
Qed.
Lemma cscope_then : forall b ch c i, length (c_cfg ch) = 7%nat -> int_args b ->
  channel_scope ch c i -> channel_scope (channel_then b ch) c i.
Proof.
  intros b ch c i L A X. unfold channel_scope, in_scope in *. cbn [channel_then c_cfg].
  destruct b; cbn [chan_then int_args] in *; try exact X;
    repeat rewrite with_entry_nth by (rewrite ?with_entry_len, L; lia); cbn [Nat.eqb]; try exact X.
  destruct X as (X1 & X2 & X3 & X4). split; [exact X1|]. split; [exact X2|]. split; [|exact X4].
  intros _. unfold is_ll, LLONG_MIN, LLONG_MAX. lia.
Qed.
Lemma accept_then : forall b d p c i, length (d_cfg d) = 15%nat ->
  device_on (dev_then b d) /\ device_accepts (dev_then b d) p c i <->
  match b with
  | EnableAll k on =>
      if of_kind k d then on = true /\ d_in d = 0 /\ device_accepts d p c i else device_on d /\ device_accepts d p c i
  | AllPriority k q =>
      if of_kind k d then device_on d /\ q <= p /\ accepts_but_priority d c i else device_on d /\ device_accepts d p c i
  | AllCategory k s n =>
      if of_kind k d then device_on d /\ in_window s n c /\ accepts_but_window d p c i else device_on d /\ device_accepts d p c i
  | _ => device_on d /\ device_accepts d p c i
  end.
Proof.
  intros b d p c i L. unfold device_on, device_accepts, accepts, accepts_but_priority, accepts_but_window.
  destruct b; cbn [dev_then]; try tauto;
    match goal with |- context [of_kind ?x d] => destruct (of_kind x d) end; try tauto; cbn [retune d_cfg d_in];
    repeat rewrite with_entry_nth by (rewrite ?with_entry_len, L; lia); cbn [Nat.eqb]; try tauto.
  destruct on; [intuition lia|]. split; [intros ((X & _) & _); congruence|intros (X & _); discriminate].
Qed.
Lemma lets_then : forall b ch p c i, length (c_cfg ch) = 7%nat ->
  channel_accepts (channel_then b ch) p c i <-> lets_in b ch p c i.
Proof.
  intros b ch p c i L. unfold channel_accepts, lets_in, accepts. cbn [channel_then c_cfg].
  destruct b; cbn [chan_then]; try (unfold channel_accepts, accepts; tauto);
    repeat rewrite with_entry_nth by (rewrite ?with_entry_len, L; lia); cbn [Nat.eqb]; tauto.
Qed.
Lemma sound_then : forall b ch, sound_channel ch -> sound_channel (channel_then b ch).
Proof. intros b ch. unfold sound_channel, zlen. cbn [channel_then c_size c_devs]. rewrite split_map_len. auto. Qed.

Lemma started_chan : forall lg n ch, started lg -> nth_error (g_chs lg) n = Some ch ->
  sound_channel ch /\ length (c_cfg ch) = 7%nat /\ forall j d, has_device ch j d -> length (d_cfg d) = 15%nat.
Proof.
  intros lg n ch (_ & _ & F) N. apply nth_error_In in N.
  rewrite Forall_forall in F. specialize (F _ N). destruct F as (F1 & _ & F3 & _ & _ & F6).
  split; [exact F3|]. split; [unfold zlen in F1; lia|]. intros j d (_ & Hd). apply nth_error_In in Hd.
  rewrite Forall_forall in F6. specialize (F6 _ Hd). unfold zlen in F6. lia.
Qed.
Lemma bulk_chan : forall lg b n ch, nth_error (g_chs lg) n = Some ch -> Z.of_nat n < g_size lg ->
  nth_error (map (channel_then b) (firstn (Z.to_nat (g_size lg)) (g_chs lg)) ++ skipn (Z.to_nat (g_size lg)) (g_chs lg)) n = Some (channel_then b ch).
Proof.
  intros lg b n ch N L. assert (Ln : (n < length (g_chs lg))%nat) by (apply nth_error_Some; congruence).
  rewrite nth_error_nth' with (d := dch) by (rewrite split_map_len; lia).
  rewrite nth_split_map by lia. replace (n <? Z.to_nat (g_size lg))%nat with true by lia.
  apply (nth_error_nth _ _ dch) in N. congruence.
Qed.

Lemma then_scope : forall b ch c i, sound_channel ch -> int_args b -> (forall j d, has_device ch j d -> length (d_cfg d) = 15%nat) ->
  devices_scope ch c i -> devices_scope (channel_then b ch) c i.
Proof.
  intros b ch c i Sd A L D k d' Hd. apply has_then in Hd; [|exact Sd]. destruct Hd as (d & Hd & ->).
  apply scope_then; [eapply L; exact Hd|exact A|eapply D; exact Hd].
Qed.

Lemma then_routes : forall b ch p c i, sound_channel ch -> int_args b -> (forall j d, has_device ch j d -> length (d_cfg d) = 15%nat) ->
  devices_scope ch c i ->
  exists ids ids', dispatch ch (mkRec p c i) = Ret ids /\ dispatch (channel_then b ch) (mkRec p c i) = Ret ids' /\
    StronglySorted Z.lt ids' /\ forall j, In j ids' <-> goes_to b ch ids p c i j.
Proof.
  intros b ch p c i Sd A L D.
  destruct (dispatch_correct ch (mkRec p c i) Sd D) as (ids & R & _ & I0).
  destruct (dispatch_correct (channel_then b ch) (mkRec p c i) (sound_then b ch Sd) (then_scope b ch c i Sd A L D)) as (ids' & R' & St & J0).
  exists ids, ids'. split; [exact R|]. split; [exact R'|]. split; [exact St|]. intros j. rewrite J0. cbn [r_priority r_category r_identify].
  unfold goes_to. split.
  - intros (d' & Hd & On & Ac). apply has_then in Hd; [|exact Sd]. destruct Hd as (d & Hd & ->). exists d. split; [exact Hd|].
    assert (X : In j ids <-> device_on d /\ device_accepts d p c i).
    { rewrite I0. cbn [r_priority r_category r_identify]. split; [|intros []; exists d; tauto].
      intros (d0 & (H & E) & Y). destruct Hd as (_ & E'). assert (d0 = d) by congruence. subst d0. exact Y. }
    pose proof (proj1 (accept_then b d p c i (L _ _ Hd)) (conj On Ac)) as Y.
    destruct b; try (apply X; exact Y); match goal with |- context [of_kind ?x d] => destruct (of_kind x d) end; try (apply X; exact Y); exact Y.
  - intros (d & Hd & Y).
    assert (X : In j ids <-> device_on d /\ device_accepts d p c i).
    { rewrite I0. cbn [r_priority r_category r_identify]. split; [|intros []; exists d; tauto].
      intros (d0 & (H & E) & Z). destruct Hd as (_ & E'). assert (d0 = d) by congruence. subst d0. exact Z. }
    exists (dev_then b d). split; [apply has_then; [exact Sd|]; exists d; auto|].
    apply (accept_then b d p c i (L _ _ Hd)).
    destruct b; try (apply X; exact Y); match goal with |- context [of_kind ?x d] => destruct (of_kind x d) end; try (apply X; exact Y); exact Y.
Qed.

Lemma bulk_routes : forall lg b n ch p c i, started lg -> int_args b ->
  nth_error (g_chs lg) n = Some ch -> Z.of_nat n < g_size lg -> devices_scope ch c i ->
  exists lg' ch' ids ids', bulk_set lg b = Ret lg' /\ nth_error (g_chs lg') n = Some ch' /\
    dispatch ch (mkRec p c i) = Ret ids /\ dispatch ch' (mkRec p c i) = Ret ids' /\
    StronglySorted Z.lt ids' /\ forall j, In j ids' <-> goes_to b ch ids p c i j.
Proof.
  intros lg b n ch p c i St A N Ln D. destruct (started_chan lg n ch St N) as (Sd & _ & L).
  destruct (then_routes b ch p c i Sd A L D) as (ids & ids' & X).
  eexists _, (channel_then b ch), ids, ids'. split; [apply bulk_exact; exact St|]. cbn [g_chs].
  split; [apply bulk_chan; assumption|exact X].
Qed.

Lemma bulk_admits : forall lg b n ch p c i, started lg -> int_args b ->
  nth_error (g_chs lg) n = Some ch -> Z.of_nat n < g_size lg -> channel_scope ch c i -> devices_scope ch c i -> p <= 6 ->
  exists lg' ids x, bulk_set lg b = Ret lg' /\ dispatch ch (mkRec p c i) = Ret ids /\ block_input lg' (Z.of_nat n) p c i = Ret x /\
    (x = false <-> g_state lg = 2 /\ c_state ch = 1 /\ lets_in b ch p c i /\ exists j, goes_to b ch ids p c i j).
Proof.
  intros lg b n ch p c i St A N Ln Cs D P. destruct (started_chan lg n ch St N) as (Sd & L7 & L).
  destruct (then_routes b ch p c i Sd A L D) as (ids & ids' & R & R' & _ & G).
  pose proof (bulk_exact lg b St) as B. set (lg' := mkLogger _ _ _ _) in B.
  assert (N' : nth_error (g_chs lg') n = Some (channel_then b ch)) by (apply bulk_chan; assumption).
  destruct (block_input_correct lg' (Z.of_nat n) p c i) as (x & Rx & Ex).
  - rewrite Nat2Z.id. intros ch' E. assert (ch' = channel_then b ch) by congruence. subst ch'.
    split; [apply sound_then; exact Sd|]. split; [apply cscope_then; assumption|apply then_scope; assumption].
  - unfold lg', zlen. cbn [g_size g_chs]. rewrite split_map_len. destruct St as (_ & H & _). exact H.
  - exists lg', ids, x. split; [exact B|]. split; [exact R|]. split; [exact Rx|]. rewrite Ex.
    unfold admitted. rewrite Nat2Z.id, N'.
    destruct (dispatch_correct (channel_then b ch) (mkRec p c i) (sound_then b ch Sd) (then_scope b ch c i Sd A L D)) as (ids2 & R2 & _ & J0).
    assert (ids2 = ids') by congruence. subst ids2. cbn [r_priority r_category r_identify] in J0.
    replace (Z.min p 6) with p by lia.
    split.
    + intros (_ & E2 & _ & ch0 & E & S1 & Ac & j & d & Hd). inversion E; subst ch0. split; [exact E2|]. split; [exact S1|].
      split; [apply lets_then; assumption|]. exists j. apply G. apply J0. exists d. exact Hd.
    + intros (E2 & S1 & Ac & j & Hj). apply G in Hj. apply J0 in Hj. destruct Hj as (d & Hd).
      split; [apply (proj1 St)|]. split; [exact E2|]. split; [cbn; lia|]. exists (channel_then b ch). split; [reflexivity|].
      split; [exact S1|]. split; [apply lets_then; assumption|]. exists j, d. exact Hd.
Qed.
