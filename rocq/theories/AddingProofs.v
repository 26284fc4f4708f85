(* Proofs about a device that is being added (C130). *)
From Coq Require Import ZArith List Bool Arith Lia ZifyBool ZifyNat ZifyN.
From Verif Require Import Base BaseFacts LoggerState Filter FilterSpec Torn TornProofs Adding AddingSpec.
Import ListNotations.
Open Scope Z_scope.
Ltac Zify.zify_post_hook ::= idtac.

Lemma meet_load : forall T sched a (k : Z -> prog T) total pos old new r, meet sched (Load a k) total pos old new = Some r ->
  exists sched' pos', (pos <= pos')%nat /\ meet sched' (k (if Nat.ltb a pos' then new a else old a)) total pos' old new = Some r.
Proof.
  intros T. induction sched as [|b sched IH]; intros a k total pos old new r H; cbn [meet] in H; [discriminate|]. destruct b.
  - exists sched, pos. split; [lia|exact H].
  - destruct (IH _ _ _ _ _ _ _ H) as (s & p & P & R). exists s, p. split; [|exact R]. destruct (Nat.ltb pos total); lia.
Qed.
(* from the priority on *)
Definition tail (n : Z) (r : rec) (ids : list Z) : prog (list Z) :=
  Load 4%nat (fun prio =>
    if r_priority r <? prio then Done (Ret ids)
    else load_settings (fun k => (5 + k)%nat) (r_category r) (r_identify r) (fun o =>
      match o with
      | Ret true => Done (Ret ids)
      | Ret false => Done (Ret (ids ++ [n]))
      | Ub => Done Ub
      | Fuel => Done Fuel
      end)).
Lemma tail_ordered : forall n r ids, ordered 4 18 (tail n r ids).
Proof.
  intros n r ids. unfold tail, load_settings. cbn [ordered]. split; [lia|]. intros prio. destruct (_ <? _); [exact Logic.I|]. cbn [ordered].
  repeat (split; [lia|]; intros ?). destruct (settings_reject _ _ _ _ _ _ _ _) as [[|]| |]; exact Logic.I.
Qed.
Definition fully (n : Z) (r : rec) (ids : list Z) (x : device) : outcome (list Z) := let! l := dispatch_from n [x] r in Ret (ids ++ l).
Lemma fully_off : forall n r ids x, nth 0 (d_cfg x) 0 = 0 -> fully n r ids x = Ret ids.
Proof.
  intros n r ids x H. unfold fully. cbn [dispatch_from]. change (fld (d_cfg x) DEVICE_CFG_ABLE) with (nth 0 (d_cfg x) 0). rewrite H. cbn. rewrite app_nil_r. reflexivity.
Qed.
Lemma fully_in : forall n r ids x, d_in x <> 0 -> fully n r ids x = Ret ids.
Proof.
  intros n r ids x H. unfold fully. cbn [dispatch_from]. destruct (_ =? 0); [cbn; rewrite app_nil_r; reflexivity|]. replace (d_in x =? DEVICE_IN_NULL) with false by (unfold DEVICE_IN_NULL; lia).
  cbn. rewrite app_nil_r. reflexivity.
Qed.
Lemma tail_eval : forall n r ids m x, nth 0 (d_cfg x) 0 <> 0 -> d_in x = 0 -> (forall a, (1 <= a < 8)%nat -> m (3 + a)%nat = nth a (d_cfg x) 0) ->
  eval (tail n r ids) m = fully n r ids x.
Proof.
  intros n r ids m x AB IN M. unfold fully. cbn [dispatch_from]. change (fld (d_cfg x) DEVICE_CFG_ABLE) with (nth 0 (d_cfg x) 0).
  replace (nth 0 (d_cfg x) 0 =? 0) with false by lia. rewrite IN. change (0 =? DEVICE_IN_NULL) with true. cbn [negb].
  assert (M1 : m 4%nat = nth 1 (d_cfg x) 0) by (apply (M 1%nat); lia).
  assert (M2 : m (5 + 0)%nat = nth 2 (d_cfg x) 0) by (apply (M 2%nat); lia).
  assert (M3 : m (5 + 1)%nat = nth 3 (d_cfg x) 0) by (apply (M 3%nat); lia).
  assert (M4 : m (5 + 2)%nat = nth 4 (d_cfg x) 0) by (apply (M 4%nat); lia).
  assert (M5 : m (5 + 3)%nat = nth 5 (d_cfg x) 0) by (apply (M 5%nat); lia).
  assert (M6 : m (5 + 4)%nat = nth 6 (d_cfg x) 0) by (apply (M 6%nat); lia).
  assert (M7 : m (5 + 5)%nat = nth 7 (d_cfg x) 0) by (apply (M 7%nat); lia).
  unfold tail, load_settings. cbn [eval]. rewrite M1.
  change (fld (d_cfg x) DEVICE_CFG_PRIORITY) with (nth 1 (d_cfg x) 0).
  change (fld (d_cfg x) DEVICE_CFG_CATEGORY) with (nth 2 (d_cfg x) 0).
  change (fld (d_cfg x) DEVICE_CFG_CATEGORY_EXTEND) with (nth 3 (d_cfg x) 0).
  change (fld (d_cfg x) DEVICE_CFG_CATEGORY_MASK) with (nth 4 (d_cfg x) 0).
  change (fld (d_cfg x) DEVICE_CFG_IDENTIFY) with (nth 5 (d_cfg x) 0).
  change (fld (d_cfg x) DEVICE_CFG_IDENTIFY_EXTEND) with (nth 6 (d_cfg x) 0).
  change (fld (d_cfg x) DEVICE_CFG_IDENTIFY_MASK) with (nth 7 (d_cfg x) 0).
  destruct (_ <? _); [cbn; rewrite app_nil_r; reflexivity|]. cbn [eval]. rewrite M2, M3, M4, M5, M6, M7. unfold settings_reject.
  destruct (window_reject _ _ (r_category r)) as [[|]| |]; cbn [bind eval]; try reflexivity; [rewrite app_nil_r; reflexivity|].
  destruct (window_reject _ _ (r_identify r)) as [[|]| |]; cbn [bind eval]; try reflexivity; [rewrite app_nil_r; reflexivity|].
  destruct (mask_reject _ (r_category r)) as [[|]| |]; cbn [bind eval]; try reflexivity; [rewrite app_nil_r; reflexivity|].
  destruct (mask_reject _ (r_identify r)) as [[|]| |]; cbn [bind eval]; try reflexivity. rewrite app_nil_r. reflexivity.
Qed.

Lemma round_sound : forall n d r ids sched o, meet sched (last_round n r ids) 18 0 (slot_old n) (slot_new n d) = Some o ->
  exists x, part_of d x /\ fully n r ids x = o.
Proof.
  intros n d r ids sched o H.
  assert (OFF : forall o, Ret ids = o -> exists x, part_of d x /\ fully n r ids x = o).
  { intros o' <-. exists (mkDevice (d_in d) 0 []). split; [|apply fully_off; reflexivity]. split; [reflexivity|]. intros a. left. destruct a; reflexivity. }
  assert (DN : forall s p r', meet s (Done (Ret ids) : prog (list Z)) 18 p (slot_old n) (slot_new n d) = Some r' -> Ret ids = r') by (intros s p r' X; destruct s; injection X as <-; reflexivity).
  unfold last_round in H. apply meet_load in H. destruct H as (s1 & p1 & P1 & H). destruct (_ <=? n); [apply OFF, (DN _ _ _ H)|].
  apply meet_load in H. destruct H as (s2 & p2 & P2 & H). destruct (Nat.ltb 3 p2) eqn:E2; [|apply OFF, (DN _ _ _ H)].
  cbn [slot_new] in H. destruct (nth 0 (d_cfg d) 0 =? 0) eqn:AB; [apply OFF, (DN _ _ _ H)|].
  apply meet_load in H. destruct H as (s3 & p3 & P3 & H). replace (Nat.ltb 2 p3) with true in H by lia. cbn [slot_new] in H.
  destruct (negb (d_in d =? DEVICE_IN_NULL)) eqn:IN; [apply OFF, (DN _ _ _ H)|].
  change (meet s3 (tail n r ids) 18 p3 (slot_old n) (slot_new n d) = Some o) in H.
  destruct (meet_sound _ _ _ _ _ _ _ _ _ (tail_ordered n r ids) H) as (m & M & E).
  set (x := mkDevice (d_in d) 0 (nth 0 (d_cfg d) 0 :: map (fun a => m (3 + a)%nat) (seq 1 7))).
  assert (F : forall a, (1 <= a < 8)%nat -> nth a (d_cfg x) 0 = m (3 + a)%nat).
  { intros a A. unfold x. cbn [d_cfg]. destruct a as [|[|[|[|[|[|[|[|a]]]]]]]]; try lia; reflexivity. }
  exists x. split.
  - split; [reflexivity|]. intros a. destruct (le_lt_dec a 0) as [A|A]; [replace a with 0%nat by lia; right; reflexivity|].
    destruct (le_lt_dec 8 a) as [B|B]; [left; apply nth_overflow; cbn; lia|]. rewrite F by lia. destruct (M (3 + a)%nat) as [Q|Q]; rewrite Q; [left|right]; reflexivity.
  - rewrite <- E. symmetry. apply tail_eval; [cbn; lia|cbn; unfold DEVICE_IN_NULL in IN; lia|]. intros a A. symmetry. apply F. exact A.
Qed.
Lemma round_complete : forall n d r ids x, part_of d x -> exists sched, meet sched (last_round n r ids) 18 0 (slot_old n) (slot_new n d) = Some (fully n r ids x).
Proof.
  intros n d r ids x (IN & F). destruct (Z.eq_dec (nth 0 (d_cfg x) 0) 0) as [Z0|NZ].
  - exists [true]. rewrite fully_off by exact Z0. cbn [meet last_round]. cbn [Nat.ltb Nat.leb slot_old]. replace (n <=? n) with true by lia. reflexivity.
  - assert (AB : nth 0 (d_cfg d) 0 <> 0) by (destruct (F 0%nat); congruence).
    assert (H : forall s, meet (repeat false 4 ++ true :: true :: true :: s) (last_round n r ids) 18 0 (slot_old n) (slot_new n d) =
      meet s (if negb (d_in d =? DEVICE_IN_NULL) then Done (Ret ids) else tail n r ids) 18 4 (slot_old n) (slot_new n d)).
    { intros s. unfold last_round. rewrite meet_writes by lia. cbn [meet plus Nat.ltb Nat.leb slot_new]. replace (n + 1 <=? n) with false by lia. cbn [meet].
      cbn [Nat.ltb Nat.leb slot_new]. replace (nth 0 (d_cfg d) 0 =? 0) with false by lia. cbn [meet]. cbn [Nat.ltb Nat.leb slot_new]. reflexivity. }
    destruct (negb (d_in d =? DEVICE_IN_NULL)) eqn:I.
    + exists (repeat false 4 ++ [true; true; true]). rewrite H. cbn [meet]. rewrite fully_in; [reflexivity|]. rewrite IN. unfold DEVICE_IN_NULL in I. lia.
    + destruct (meet_complete _ (slot_old n) (slot_new n d) 18 (tail n r ids) 4 4 (fun w => match w with S (S (S a)) => nth a (d_cfg x) 0 | _ => slot_old n w end) (tail_ordered n r ids) (le_n 4)) as (s & R).
      { intros [|[|[|a]]]; try (left; reflexivity). cbn [slot_old slot_new]. apply F. }
      exists (repeat false 4 ++ true :: true :: true :: s). rewrite H, R. f_equal. apply tail_eval; [exact NZ|rewrite IN; unfold DEVICE_IN_NULL in I; lia|]. intros a A. reflexivity.
Qed.

Lemma dispatch_app : forall devs n r x, dispatch_from n (devs ++ [x]) r = (let! ids := dispatch_from n devs r in let! l := dispatch_from (n + zlen devs) [x] r in Ret (ids ++ l)).
Proof.
  induction devs as [|d devs IH]; intros n r x.
  - cbn [app]. rewrite zlen_nil, Z.add_0_r. change (dispatch_from n [] r) with (Ret (@nil Z)). cbn [bind]. cbn [app]. destruct (dispatch_from n [x] r); reflexivity.
  - cbn [app]. rewrite zlen_cons. pose proof (IH (n + 1) r x) as I. replace (n + 1 + zlen devs) with (n + (1 + zlen devs)) in I by lia.
    remember (dispatch_from (n + (1 + zlen devs)) [x] r) as L eqn:EL. clear EL. cbn [dispatch_from]. rewrite I. clear I.
    destruct (_ =? 0); [reflexivity|]. destruct (negb _); [reflexivity|]. destruct (_ <? _); [reflexivity|].
    destruct (window_reject _ _ (r_category r)) as [[|]| |]; cbn [bind]; try reflexivity.
    destruct (window_reject _ _ (r_identify r)) as [[|]| |]; cbn [bind]; try reflexivity.
    destruct (mask_reject _ (r_category r)) as [[|]| |]; cbn [bind]; try reflexivity.
    destruct (mask_reject _ (r_identify r)) as [[|]| |]; cbn [bind]; try reflexivity.
    destruct (dispatch_from (n + 1) devs r); cbn [bind]; try reflexivity. destruct L; reflexivity.
Qed.
Lemma grown_dispatch : forall ch x r, sound_channel ch -> dispatch (grown ch x) r = (let! ids := dispatch ch r in fully (c_size ch) r ids x).
Proof.
  intros ch x r [S0 S1]. unfold dispatch, grown. cbn [c_size c_devs].
  assert (L : zlen (firstn (Z.to_nat (c_size ch)) (c_devs ch)) = c_size ch) by (unfold zlen in *; rewrite firstn_length; lia).
  rewrite (firstn_all2 (firstn _ _ ++ [x])) by (unfold zlen in *; rewrite app_length; cbn [length]; lia).
  rewrite dispatch_app, L. reflexivity.
Qed.
Lemma adding_iff : forall ch d r o, sound_channel ch -> (exists sched, adding sched ch d r = Some o) <-> (exists x, part_of d x /\ dispatch (grown ch x) r = o).
Proof.
  intros ch d r o S. unfold adding. split.
  - intros (sched & H). destruct (dispatch ch r) as [ids| |] eqn:E.
    + destruct (round_sound _ _ _ _ _ _ H) as (x & P & R). exists x. split; [exact P|]. rewrite grown_dispatch by exact S. rewrite E. exact R.
    + exists d. split; [split; auto|]. rewrite grown_dispatch by exact S. rewrite E. cbn. congruence.
    + exists d. split; [split; auto|]. rewrite grown_dispatch by exact S. rewrite E. cbn. congruence.
  - intros (x & P & R). rewrite grown_dispatch in R by exact S. destruct (dispatch ch r) as [ids| |] eqn:E; cbn [bind] in R.
    + destruct (round_complete (c_size ch) d r ids x P) as (sched & M). exists sched. congruence.
    + exists []. congruence.
    + exists []. congruence.
Qed.
(* one setting that is not zero *)
Lemma one_nonzero : forall ch d r sched o a0, sound_channel ch -> (forall a, a <> a0 -> nth a (d_cfg d) 0 = 0) -> adding sched ch d r = Some o ->
  o = dispatch ch r \/ o = dispatch (grown ch d) r.
Proof.
  intros ch d r sched o a0 S F H. destruct (proj1 (adding_iff ch d r o S)) as (x & (IN & P) & R); [eauto|].
  rewrite <- R, !grown_dispatch by exact S.
  assert (SAME : forall y, d_in y = d_in x -> (forall a, nth a (d_cfg y) 0 = nth a (d_cfg x) 0) -> forall ids, fully (c_size ch) r ids y = fully (c_size ch) r ids x).
  { intros y I Y ids. unfold fully. cbn [dispatch_from]. unfold fld. rewrite !Y, I. reflexivity. }
  destruct (P a0) as [Q|Q].
  - left. destruct (dispatch ch r) as [ids| |]; cbn [bind]; [|reflexivity|reflexivity]. apply fully_off.
    destruct (Nat.eq_dec 0 a0) as [<-|N]; [exact Q|]. destruct (P 0%nat) as [W|W]; [exact W|]. rewrite W. apply F. exact N.
  - right. destruct (dispatch ch r) as [ids| |]; cbn [bind]; [|reflexivity|reflexivity]. symmetry. apply SAME; [congruence|].
    intros a. destruct (Nat.eq_dec a a0) as [->|N]; [congruence|]. rewrite (F a N). destruct (P a) as [W|W]; [congruence|]. rewrite W, (F a N). reflexivity.
Qed.
Lemma old_undisturbed : forall ch d r sched o, sound_channel ch -> adding sched ch d r = Some (Ret o) -> exists ids, dispatch ch r = Ret ids /\ (o = ids \/ o = ids ++ [c_size ch]).
Proof.
  intros ch d r sched o S H. destruct (proj1 (adding_iff ch d r (Ret o) S)) as (x & _ & R); [eauto|]. rewrite grown_dispatch in R by exact S.
  destruct (dispatch ch r) as [ids| |] eqn:E; cbn [bind] in R; try discriminate. exists ids. split; [reflexivity|].
  unfold fully in R. cbn [dispatch_from] in R. revert R.
  destruct (_ =? 0); [cbn; rewrite app_nil_r; left; congruence|]. destruct (negb _); [cbn; rewrite app_nil_r; left; congruence|]. destruct (_ <? _); [cbn; rewrite app_nil_r; left; congruence|].
  destruct (window_reject _ _ (r_category r)) as [[|]| |]; cbn [bind]; try discriminate; [rewrite app_nil_r; left; congruence|].
  destruct (window_reject _ _ (r_identify r)) as [[|]| |]; cbn [bind]; try discriminate; [rewrite app_nil_r; left; congruence|].
  destruct (mask_reject _ (r_category r)) as [[|]| |]; cbn [bind]; try discriminate; [rewrite app_nil_r; left; congruence|].
  destruct (mask_reject _ (r_identify r)) as [[|]| |]; cbn [bind]; try discriminate; [rewrite app_nil_r; left; congruence|]. right. congruence.
Qed.
