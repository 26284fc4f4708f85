(* Proofs about statements during an update (C126). *)
From Coq Require Import ZArith List Bool Arith Lia ZifyBool ZifyNat ZifyN.
From Verif Require Import Base BaseFacts LoggerState Filter Torn TornSpec.
Import ListNotations.
Open Scope Z_scope.
Ltac Zify.zify_post_hook ::= idtac.

Fixpoint eval {A} (g : prog A) (m : nat -> Z) : outcome A :=
  match g with Done r => r | Load a k => eval (k (m a)) m end.
(* the words are loaded in increasing order *)
Fixpoint ordered {A} (lo hi : nat) (g : prog A) : Prop :=
  match g with Done _ => True | Load a k => (lo <= a < hi)%nat /\ forall v, ordered (S a) hi (k v) end.

Lemma ordered_weaken : forall T (g : prog T) lo lo' hi, (lo' <= lo)%nat -> ordered lo hi g -> ordered lo' hi g.
Proof. intros T [r|a k] lo lo' hi H O; [exact Logic.I|]. destruct O as [A B]. split; [lia|exact B]. Qed.
Lemma eval_ext : forall T (g : prog T) lo hi m m', ordered lo hi g -> (forall a, (lo <= a)%nat -> m a = m' a) -> eval g m = eval g m'.
Proof.
  intros T. induction g as [r|a k IH]; intros lo hi m m' O E; [reflexivity|]. destruct O as [A B]. cbn [eval]. rewrite (E a) by lia.
  apply (IH _ (S a) hi); [apply B|]. intros b H. apply E. lia.
Qed.

Lemma meet_sound : forall T old new hi sched (g : prog T) lo pos r, ordered lo hi g -> meet sched g hi pos old new = Some r ->
  exists m, (forall a, m a = old a \/ m a = new a) /\ eval g m = r.
Proof.
  intros T old new hi sched. induction sched as [|b sched IH]; intros g lo pos r O H.
  - destruct g as [r0|a k]; cbn [meet] in H; [|discriminate]. injection H as <-. exists old. auto.
  - destruct g as [r0|a k]; cbn [meet] in H. { injection H as <-. exists old. auto. }
    destruct b.
    + destruct O as [A B]. set (v := if Nat.ltb a pos then new a else old a) in *.
      destruct (IH (k v) (S a) pos r (B v) H) as (m & M & E). exists (fun x => if Nat.eqb x a then v else m x). split.
      * intros x. destruct (Nat.eqb x a) eqn:X; [|apply M]. apply Nat.eqb_eq in X. subst x. unfold v. destruct (Nat.ltb a pos); auto.
      * cbn [eval]. rewrite Nat.eqb_refl. rewrite <- E. apply (eval_ext _ _ (S a) hi); [apply B|]. intros x X.
        destruct (Nat.eqb x a) eqn:Y; [lia|reflexivity].
    + apply (IH _ lo _ r O H).
Qed.

(* the update goes on by n words *)
Lemma meet_writes : forall T n sched a (k : Z -> prog T) total pos old new, (pos + n <= total)%nat ->
  meet (repeat false n ++ sched) (Load a k) total pos old new = meet sched (Load a k) total (pos + n) old new.
Proof.
  intros T. induction n as [|n IH]; intros sched a k total pos old new H; [rewrite Nat.add_0_r; reflexivity|].
  cbn [repeat app meet]. replace (Nat.ltb pos total) with true by lia. rewrite IH by lia. f_equal. lia.
Qed.
Lemma meet_complete : forall T old new hi (g : prog T) lo pos m, ordered lo hi g -> (pos <= lo)%nat ->
  (forall a, m a = old a \/ m a = new a) -> exists sched, meet sched g hi pos old new = Some (eval g m).
Proof.
  intros T old new hi. induction g as [r|a k IH]; intros lo pos m O P M; [exists []; reflexivity|].
  destruct O as [A B]. destruct (M a) as [E|E].
  - destruct (IH (old a) (S a) pos m (B _) ltac:(lia) M) as (s & H). exists (true :: s). cbn [meet eval].
    replace (Nat.ltb a pos) with false by lia. rewrite E. exact H.
  - destruct (IH (new a) (S a) (S a) m (B _) ltac:(lia) M) as (s & H). exists (repeat false (S a - pos) ++ true :: s).
    rewrite meet_writes by lia. replace (pos + (S a - pos))%nat with (S a) by lia. cbn [meet eval].
    replace (Nat.ltb a (S a)) with true by lia. rewrite E. exact H.
Qed.

Lemma dev_loop_ordered : forall ins j p c i, ordered (words j) (words (j + length ins)) (dev_loop ins j p c i).
Proof.
  induction ins as [|x ins IH]; intros j p c i; [exact Logic.I|].
  assert (NX : forall lo, (lo <= words (S j))%nat -> ordered lo (words (j + length (x :: ins))) (dev_loop ins (S j) p c i)).
  { intros lo H. apply (ordered_weaken _ _ (words (S j))); [exact H|]. replace (j + length (x :: ins))%nat with (S j + length ins)%nat by (cbn; lia).
    apply IH. }
  cbn [dev_loop ordered]. split; [unfold dev_word, words; cbn [length]; lia|]. intros able. split; [unfold dev_word, words; cbn [length]; lia|]. intros prio.
  destruct (_ || _). { apply NX. unfold dev_word, words. lia. }
  destruct (negb _). { apply NX. unfold dev_word, words. lia. }
  unfold load_settings. cbn [ordered].
  repeat (split; [unfold dev_word, words; cbn [length]; lia|]; intros ?).
  destruct (settings_reject _ _ _ _ _ _ c i) as [[|]| |]; try exact Logic.I. apply NX. unfold dev_word, words. lia.
Qed.
Lemma block_prog_ordered : forall ins p c i, ordered 0 (words (length ins)) (block_prog ins p c i).
Proof.
  intros ins p c i. unfold block_prog. cbn [ordered]. split; [unfold ch_word, words; lia|]. intros prio.
  destruct (_ <? _); [exact Logic.I|]. unfold load_settings. cbn [ordered].
  repeat (split; [unfold ch_word, words; lia|]; intros ?).
  destruct (settings_reject _ _ _ _ _ _ c i) as [[|]| |]; try exact Logic.I.
  apply (ordered_weaken _ _ (words 0)); [unfold words, ch_word; lia|]. apply (dev_loop_ordered ins 0).
Qed.

(* one after the other it is block_input *)
Lemma dev_loop_eval : forall devs j p c i m,
  (forall n i, (n < length devs)%nat -> (i < 8)%nat -> m (dev_word (j + n) i) = nth i (d_cfg (nth n devs (mkDevice 0 0 []))) 0) ->
  eval (dev_loop (map d_in devs) j p c i) m = (let! need_write := block_devices devs p c i in Ret (negb need_write)).
Proof.
  induction devs as [|d devs IH]; intros j p c i m H; [reflexivity|].
  assert (W : forall k, (k < 8)%nat -> m (dev_word j k) = nth k (d_cfg d) 0).
  { intros k K. rewrite <- (Nat.add_0_r j). apply (H 0%nat k); [cbn; lia|exact K]. }
  assert (N : eval (dev_loop (map d_in devs) (S j) p c i) m = (let! need_write := block_devices devs p c i in Ret (negb need_write))).
  { apply IH. intros n k L K. replace (S j + n)%nat with (j + S n)%nat by lia. apply (H (S n) k); [cbn; lia|exact K]. }
  cbn [map dev_loop eval block_devices]. rewrite !W by lia.
  change (fld (d_cfg d) DEVICE_CFG_ABLE) with (nth 0 (d_cfg d) 0).
  change (fld (d_cfg d) DEVICE_CFG_PRIORITY) with (nth 1 (d_cfg d) 0).
  destruct (_ || _); [exact N|]. destruct (negb _); [exact N|]. unfold load_settings. cbn [eval].
  change (2 + 0)%nat with 2%nat. change (2 + 1)%nat with 3%nat. change (2 + 2)%nat with 4%nat.
  change (2 + 3)%nat with 5%nat. change (2 + 4)%nat with 6%nat. change (2 + 5)%nat with 7%nat.
  rewrite !W by lia.
  change (fld (d_cfg d) DEVICE_CFG_CATEGORY) with (nth 2 (d_cfg d) 0).
  change (fld (d_cfg d) DEVICE_CFG_CATEGORY_EXTEND) with (nth 3 (d_cfg d) 0).
  change (fld (d_cfg d) DEVICE_CFG_CATEGORY_MASK) with (nth 4 (d_cfg d) 0).
  change (fld (d_cfg d) DEVICE_CFG_IDENTIFY) with (nth 5 (d_cfg d) 0).
  change (fld (d_cfg d) DEVICE_CFG_IDENTIFY_EXTEND) with (nth 6 (d_cfg d) 0).
  change (fld (d_cfg d) DEVICE_CFG_IDENTIFY_MASK) with (nth 7 (d_cfg d) 0).
  unfold settings_reject.
  destruct (window_reject _ _ c) as [[|]| |]; cbn [bind]; try reflexivity; [exact N|].
  destruct (window_reject _ _ i) as [[|]| |]; cbn [bind]; try reflexivity; [exact N|].
  destruct (mask_reject _ c) as [[|]| |]; cbn [bind]; try reflexivity; [exact N|].
  destruct (mask_reject _ i) as [[|]| |]; cbn [bind]; try reflexivity. exact N.
Qed.

Definition count (ch : channel) : nat := Z.to_nat (c_size ch).
Lemma nth_firstn : forall (A : Type) (d : A) l n k, (n < k)%nat -> nth n (firstn k l) d = nth n l d.
Proof.
  intros A d. induction l as [|x l IH]; intros n k H; [rewrite firstn_nil; destruct n; reflexivity|].
  destruct k as [|k]; [lia|]. destruct n as [|n]; [reflexivity|]. cbn. apply IH. lia.
Qed.
Lemma block_eval : forall lg k ch p c i m, running lg k ch -> (count ch <= length (c_devs ch))%nat ->
  (forall a, (a < 7)%nat -> m (ch_word a) = nth a (c_cfg ch) 0) ->
  (forall j a, (j < count ch)%nat -> (a < 8)%nat -> m (dev_word j a) = nth a (d_cfg (nth j (c_devs ch) (mkDevice 0 0 []))) 0) ->
  eval (block_prog (map d_in (firstn (count ch) (c_devs ch))) p c i) m = block_input lg k p c i.
Proof.
  intros lg k ch p c i m (R1 & R2 & R3 & R4 & R5 & _) CN MC MD. unfold block_input. rewrite R1, R2.
  replace (g_size lg <=? k) with false by lia. replace (k <? 0) with false by lia. cbn [negb orb].
  change (2 =? LOGGER_STATE_RUNNING) with true. cbn [negb].
  unfold rd. replace (k <? 0) with false by lia. rewrite R4. cbn [bind]. rewrite R5. change (1 =? CHANNEL_STATE_RUNNING) with true. cbn [negb].
  unfold block_prog. cbn [eval]. rewrite MC by lia.
  change (fld (c_cfg ch) CHANNEL_CFG_PRIORITY) with (nth 0 (c_cfg ch) 0).
  destruct (p <? _); [reflexivity|]. unfold load_settings. cbn [eval].
  change (1 + 0)%nat with 1%nat. change (1 + 1)%nat with 2%nat. change (1 + 2)%nat with 3%nat.
  change (1 + 3)%nat with 4%nat. change (1 + 4)%nat with 5%nat. change (1 + 5)%nat with 6%nat.
  rewrite !MC by lia.
  change (fld (c_cfg ch) CHANNEL_CFG_CATEGORY) with (nth 1 (c_cfg ch) 0).
  change (fld (c_cfg ch) CHANNEL_CFG_CATEGORY_EXTEND) with (nth 2 (c_cfg ch) 0).
  change (fld (c_cfg ch) CHANNEL_CFG_CATEGORY_MASK) with (nth 3 (c_cfg ch) 0).
  change (fld (c_cfg ch) CHANNEL_CFG_IDENTIFY) with (nth 4 (c_cfg ch) 0).
  change (fld (c_cfg ch) CHANNEL_CFG_IDENTIFY_EXTEND) with (nth 5 (c_cfg ch) 0).
  change (fld (c_cfg ch) CHANNEL_CFG_IDENTIFY_MASK) with (nth 6 (c_cfg ch) 0).
  unfold settings_reject.
  destruct (window_reject _ _ c) as [[|]| |]; cbn [bind]; try reflexivity.
  destruct (window_reject _ _ i) as [[|]| |]; cbn [bind]; try reflexivity.
  destruct (mask_reject _ c) as [[|]| |]; cbn [bind]; try reflexivity.
  destruct (mask_reject _ i) as [[|]| |]; cbn [bind]; try reflexivity.
  fold (count ch). apply dev_loop_eval. intros n a L A. rewrite firstn_length in L. rewrite nth_firstn by lia.
  apply MD; lia.
Qed.

(* ---- mixtures ---- *)
Lemma words_ch : forall ch a, (a < 7)%nat -> words_of ch (ch_word a) = nth a (c_cfg ch) 0.
Proof. intros ch a H. unfold words_of, ch_word. replace (Nat.ltb a 7) with true by lia. reflexivity. Qed.
Lemma words_dev : forall ch j a, (a < 15)%nat ->
  words_of ch (dev_word j a) = nth a (d_cfg (nth j (c_devs ch) (mkDevice 0 0 []))) 0.
Proof.
  intros ch j a H. unfold words_of, dev_word. replace (Nat.ltb _ 7) with false by lia.
  replace (7 + 15 * j + a - 7)%nat with (j * 15 + a)%nat by lia.
  rewrite Nat.div_add_l by lia. rewrite (Nat.div_small a 15) by lia.
  rewrite (Nat.add_comm (j * 15) a), Nat.mod_add by lia. rewrite Nat.mod_small by lia. rewrite Nat.add_0_r. reflexivity.
Qed.
(* the channel that has the words of [m] *)
Fixpoint devs_of (j : nat) (m : nat -> Z) (devs : list device) : list device :=
  match devs with
  | [] => []
  | d :: r => mkDevice (d_in d) (d_out d) (map (fun a => m (dev_word j a)) (seq 0 15)) :: devs_of (S j) m r
  end.
Definition chan_of (m : nat -> Z) (ch : channel) : channel :=
  mkChannel (c_type ch) (c_virtual ch) (c_size ch) (c_state ch) (map m (seq 0 7)) (devs_of 0 m (c_devs ch)) (c_log ch) (c_dlog ch).
Lemma devs_of_length : forall m devs j, length (devs_of j m devs) = length devs.
Proof. intros m. induction devs as [|d r IH]; intros j; [reflexivity|]. cbn. rewrite IH. reflexivity. Qed.
Lemma devs_of_in : forall m devs j, map d_in (devs_of j m devs) = map d_in devs.
Proof. intros m. induction devs as [|d r IH]; intros j; [reflexivity|]. cbn. rewrite IH. reflexivity. Qed.
Lemma nth_map_seq : forall (f : nat -> Z) n a, (a < n)%nat -> nth a (map f (seq 0 n)) 0 = f a.
Proof.
  intros f n a H. rewrite (nth_indep _ 0 (f 0%nat)) by (rewrite map_length, seq_length; lia).
  rewrite map_nth, seq_nth by lia. reflexivity.
Qed.
Lemma devs_of_nth : forall m devs j n a, (n < length devs)%nat -> (a < 15)%nat ->
  nth a (d_cfg (nth n (devs_of j m devs) (mkDevice 0 0 []))) 0 = m (dev_word (j + n) a).
Proof.
  intros m. induction devs as [|d r IH]; intros j n a H A; cbn [length] in H; [lia|].
  destruct n as [|n].
  - cbn [devs_of nth d_cfg]. rewrite nth_map_seq by lia. rewrite Nat.add_0_r. reflexivity.
  - cbn [devs_of nth]. rewrite IH by lia. f_equal. f_equal. lia.
Qed.

(* what a statement can get during the update is what it would get from a mixture *)
Lemma during_iff : forall ch ch' k p c i r, c_state ch = 1 -> (count ch <= length (c_devs ch))%nat -> 0 <= k ->
  (exists sched, block_during sched ch ch' p c i = Some r) <->
  (exists x lg, mixture ch ch' x /\ running lg k x /\ block_input lg k p c i = r).
Proof.
  intros ch ch' k p c i r ST CN K0. unfold block_during. fold (count ch).
  assert (LEN : length (map d_in (firstn (count ch) (c_devs ch))) = count ch) by (rewrite map_length, firstn_length; lia).
  pose proof (block_prog_ordered (map d_in (firstn (count ch) (c_devs ch))) p c i) as ORD. rewrite LEN in ORD.
  split.
  - intros (sched & H). destruct (meet_sound _ _ _ _ _ _ _ _ _ ORD H) as (m & M & E).
    set (x := chan_of m ch). set (lg := mkLogger true 2 (k + 1) (repeat x (Z.to_nat (k + 1)))).
    assert (RN : running lg k x).
    { unfold running, lg. cbn [g_shm g_state g_size g_chs]. repeat split; try lia; [|exact ST|unfold zlen; rewrite repeat_length; lia].
      rewrite (nth_error_nth' _ x) by (rewrite repeat_length; lia). rewrite nth_repeat. reflexivity. }
    exists x, lg. split; [|split; [exact RN|]].
    + unfold mixture, x, chan_of. cbn [c_state c_size c_devs c_cfg]. repeat split; try reflexivity.
      * apply devs_of_length.
      * apply devs_of_in.
      * intros a A. rewrite nth_map_seq by lia. destruct (M (ch_word a)) as [Q|Q]; rewrite words_ch in Q by lia; auto.
      * intros j a J A. cbv zeta. rewrite devs_of_nth by (fold (count ch) in J; lia). rewrite Nat.add_0_l.
        destruct (M (dev_word j a)) as [Q|Q]; rewrite words_dev in Q by lia; auto.
    + rewrite <- E. rewrite <- (block_eval lg k x p c i m RN).
      * replace (map d_in (firstn (count x) (c_devs x))) with (map d_in (firstn (count ch) (c_devs ch))); [reflexivity|].
        rewrite <- !firstn_map. unfold x, chan_of, count. cbn [c_size c_devs]. rewrite devs_of_in. reflexivity.
      * unfold x, chan_of, count. cbn [c_size c_devs]. rewrite devs_of_length. exact CN.
      * intros a A. unfold x, chan_of. cbn [c_cfg]. rewrite nth_map_seq by lia. reflexivity.
      * intros j a J A. unfold x, chan_of. cbn [c_devs]. rewrite devs_of_nth; [reflexivity| |lia].
        unfold x, chan_of, count in J. cbn [c_size] in J. fold (count ch) in J. lia.
  - intros (x & lg & (M1 & M2 & M3 & M4 & M5 & M6) & RN & E).
    assert (XC : count x = count ch) by (unfold count; rewrite M2; reflexivity).
    (* words beyond those of the devices are the old ones *)
    set (m := fun a => if Nat.ltb a (words (count ch)) then words_of x a else words_of ch a).
    destruct (meet_complete _ (words_of ch) (words_of ch') (words (count ch)) _ 0 0 m ORD (le_n 0)) as (sched & H).
    { intros a. unfold m. destruct (Nat.ltb a (words (count ch))) eqn:L; [|auto]. unfold words in L.
      destruct (Nat.ltb a 7) eqn:A7.
      - change a with (ch_word a). rewrite !words_ch by lia. apply M5. lia.
      - assert (DV : a = dev_word ((a - 7) / 15) ((a - 7) mod 15)).
        { unfold dev_word. pose proof (Nat.div_mod (a - 7) 15 ltac:(lia)). lia. }
        pose proof (Nat.mod_upper_bound (a - 7) 15 ltac:(lia)).
        rewrite DV, !words_dev by lia. apply M6; [|lia]. fold (count ch). apply Nat.div_lt_upper_bound; lia. }
    exists sched. rewrite H. f_equal. rewrite <- E.
    rewrite <- (block_eval lg k x p c i m RN).
    + rewrite XC. rewrite <- !firstn_map, M4. reflexivity.
    + rewrite XC, M3. exact CN.
    + intros a A. unfold m. replace (Nat.ltb (ch_word a) (words (count ch))) with true by (unfold ch_word, words; lia).
      apply words_ch. lia.
    + intros j a J A. unfold m. replace (Nat.ltb (dev_word j a) (words (count ch))) with true by (unfold dev_word, words; lia).
      apply words_dev. lia.
Qed.

(* ---- one setting ---- *)
Definition same_but (ch ch' : channel) (w : nat) : Prop := forall a, a <> w -> words_of ch a = words_of ch' a.
Lemma during_sound : forall ch ch' sched p c i r, (count ch <= length (c_devs ch))%nat -> block_during sched ch ch' p c i = Some r ->
  exists m, (forall a, m a = words_of ch a \/ m a = words_of ch' a) /\
    eval (block_prog (map d_in (firstn (count ch) (c_devs ch))) p c i) m = r.
Proof.
  intros ch ch' sched p c i r CN H. unfold block_during in H. fold (count ch) in H.
  assert (LEN : length (map d_in (firstn (count ch) (c_devs ch))) = count ch) by (rewrite map_length, firstn_length; lia).
  pose proof (block_prog_ordered (map d_in (firstn (count ch) (c_devs ch))) p c i) as ORD. rewrite LEN in ORD.
  exact (meet_sound _ _ _ _ _ _ _ _ _ ORD H).
Qed.
Lemma alone_eval : forall lg k ch p c i, running lg k ch -> (count ch <= length (c_devs ch))%nat ->
  eval (block_prog (map d_in (firstn (count ch) (c_devs ch))) p c i) (words_of ch) = block_input lg k p c i.
Proof.
  intros lg k ch p c i R CN. apply block_eval; [exact R|exact CN| |].
  - intros a A. apply words_ch. exact A.
  - intros j a J A. apply words_dev. lia.
Qed.
Lemma one_setting : forall lg lg' k ch ch' w sched p c i r, running lg k ch -> running lg' k ch' ->
  (count ch <= length (c_devs ch))%nat -> c_size ch' = c_size ch -> map d_in (c_devs ch') = map d_in (c_devs ch) ->
  same_but ch ch' w -> block_during sched ch ch' p c i = Some r ->
  r = block_input lg k p c i \/ r = block_input lg' k p c i.
Proof.
  intros lg lg' k ch ch' w sched p c i r R R' CN SZ IN SB H. destruct (during_sound _ _ _ _ _ _ _ CN H) as (m & M & E).
  assert (LEN : length (c_devs ch') = length (c_devs ch)) by (rewrite <- (map_length d_in), IN, map_length; reflexivity).
  pose proof (block_prog_ordered (map d_in (firstn (count ch) (c_devs ch))) p c i) as ORD.
  destruct (M w) as [W|W].
  - left. rewrite <- E, <- (alone_eval lg k ch p c i R CN). apply (eval_ext _ _ 0 _ _ _ ORD). intros a _.
    destruct (Nat.eq_dec a w) as [->|N]; [exact W|]. destruct (M a) as [Q|Q]; [exact Q|]. rewrite Q. symmetry. apply SB. exact N.
  - right. assert (CC : count ch' = count ch) by (unfold count; rewrite SZ; reflexivity).
    rewrite <- E, <- (alone_eval lg' k ch' p c i R') by (rewrite CC, LEN; exact CN).
    rewrite CC. rewrite <- !firstn_map, IN, firstn_map. apply (eval_ext _ _ 0 _ _ _ ORD). intros a _.
    destruct (Nat.eq_dec a w) as [->|N]; [exact W|]. destruct (M a) as [Q|Q]; [|exact Q]. rewrite Q. apply SB. exact N.
Qed.
Lemma once_channel : forall ch ch' a0, c_devs ch' = c_devs ch ->
  (forall a, a <> a0 -> nth a (c_cfg ch') 0 = nth a (c_cfg ch) 0) -> (a0 < 7)%nat -> same_but ch ch' a0.
Proof.
  intros ch ch' a0 D C A a N. unfold words_of. destruct (Nat.ltb a 7); [symmetry; apply C; exact N|]. rewrite D. reflexivity.
Qed.
Lemma once_device : forall ch ch' j0 a0, c_cfg ch' = c_cfg ch -> (a0 < 15)%nat ->
  (forall j a, (j, a) <> (j0, a0) -> nth a (d_cfg (nth j (c_devs ch') (mkDevice 0 0 []))) 0 = nth a (d_cfg (nth j (c_devs ch) (mkDevice 0 0 []))) 0) ->
  same_but ch ch' (dev_word j0 a0).
Proof.
  intros ch ch' j0 a0 C A D a N. unfold words_of. destruct (Nat.ltb a 7) eqn:L; [rewrite C; reflexivity|]. symmetry. apply D.
  intros E. assert (E1 : ((a - 7) / 15)%nat = j0) by congruence. assert (E2 : ((a - 7) mod 15)%nat = a0) by congruence.
  apply N. unfold dev_word. pose proof (Nat.div_mod (a - 7) 15 ltac:(lia)) as Q. rewrite E1, E2 in Q. lia.
Qed.
