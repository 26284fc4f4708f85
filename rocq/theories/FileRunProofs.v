(* Runs of the file device: bounds, limits, days, contents. *)
From Coq Require Import String ZArith List Bool Lia ZifyBool ZifyNat ZifyN.
From Verif Require Import Base BaseFacts NumSpec NumFacts LoggerState DateFmt DateSpec CalendarFacts DateProofs
  FileName FileNameSpec FileNameProofs FileDev FileDevSpec RollProofs FileDevProofs.
Import ListNotations.
Open Scope Z_scope.

(* ---- rolling as a whole ---- *)
Lemma bk_dec : forall p q a n, (exists k, a <= k < a + Z.of_nat n /\ q = bk p k) \/ (forall k, a <= k < a + Z.of_nat n -> q <> bk p k).
Proof.
  intros p q a. induction n as [|n IH]; [right; intros k K; lia|].
  destruct IH as [(k & K & E)|IH]; [left; exists k; split; [lia|assumption]|].
  destruct (list_eq_dec Z.eq_dec q (bk p (a + Z.of_nat n))) as [E|E].
  - left. exists (a + Z.of_nat n). split; [lia|assumption].
  - right. intros k K. destruct (Z.eq_dec k (a + Z.of_nat n)) as [->|]; [assumption|]. apply IH. lia.
Qed.

Lemma rolled_from : forall f p n m f' q, rolled f p 1 n m f' ->
  f' q = f q \/ f' q = None \/ exists k, 1 <= k <= n /\ q = bk p k /\ f' q = f (bk p (k - 1)).
Proof.
  intros f p n m f' q (M & EX & MM & NO & SH & OT).
  set (N := Z.max 0 (Z.min m n)).
  destruct (bk_dec p q 0 (Z.to_nat (N + 1))) as [(k & K & ->)|H].
  - right. destruct (Z.eq_dec k 0) as [->|]; [left; exact NO|]. right. exists k. split; [lia|]. split; [reflexivity|].
    apply SH. lia.
  - left. apply OT. intros k K. apply H. lia.
Qed.

Definition eff_rolls (c : dconf) : Z := int_of (if 0 <? rolls c then rolls c else 1).

Lemma int_of_le : forall x, 0 <= x -> int_of x <= x.
Proof. intros x X. unfold int_of. pose proof (Z.mod_le (x + 2 ^ 31) (2 ^ 32) ltac:(lia) ltac:(lia)). lia. Qed.
Lemma int_of_small : forall x, 0 <= x <= INT_MAX -> int_of x = x.
Proof. intros x X. unfold int_of, INT_MAX in *. rewrite Z.mod_small by lia. lia. Qed.

Lemma roll_files_cases : forall e c lim f p f', log_path p -> roll_files e c lim f p = Ret f' ->
  (f' = f /\ ((rolls c <= 0 /\ limit c <= 0) \/ (stuff_up c = true /\ lim = false))) \/ exists m, rolled f p 1 (eff_rolls c) m f'.
Proof.
  intros e c lim f p f' P H. unfold roll_files in H. cbv zeta in H. fold (rolls c) in H. fold (limit c) in H.
  destruct (((0 <? rolls c) || (0 <? limit c)) && ((fld (dc_cfg c) DEVICE_CFG_FILE_STUFF_UP =? 0) || lim)) eqn:E.
  - right. fold (eff_rolls c) in H. apply (rollback_partial p P (e_fuel e) f 1 (eff_rolls c) f'); [lia|exact H].
  - left. injection H as <-. split; [reflexivity|]. unfold stuff_up. destruct lim; lia.
Qed.

Lemma rolled_none : forall f p n m f', rolled f p 1 n m f' -> f' p = None.
Proof. intros f p n m f' (_ & _ & _ & NO & _). exact NO. Qed.

(* ---- C36: no backup above the limit appears ---- *)
Lemma first_split : forall (x y u v : text), ~ In 46 x -> ~ In 46 y -> x ++ 46 :: u = y ++ 46 :: v -> x = y /\ u = v.
Proof.
  induction x as [|c x IH]; intros [|d y] u v X Y E; cbn [app] in E.
  - injection E as E. split; [reflexivity|exact E].
  - injection E as E1 E2. exfalso. apply Y. left. symmetry. exact E1.
  - injection E as E1 E2. exfalso. apply X. left. exact E1.
  - injection E as E1 E2. subst d. destruct (IH y u v) as [-> ->]; [intros I; apply X; right; exact I|intros I; apply Y; right; exact I|exact E2|].
    split; reflexivity.
Qed.
Lemma last_split : forall (a b d1 d2 : text), ~ In 46 d1 -> ~ In 46 d2 -> a ++ [46] ++ d1 = b ++ [46] ++ d2 -> a = b /\ d1 = d2.
Proof.
  intros a b d1 d2 N1 N2 E. apply (f_equal (@rev Z)) in E. rewrite !rev_app_distr in E. cbn [rev app] in E. rewrite <- !app_assoc in E. cbn [app] in E.
  apply first_split in E; [|rewrite <- in_rev; assumption|rewrite <- in_rev; assumption]. destruct E as [E1 E2].
  split; [rewrite <- (rev_involutive a), <- (rev_involutive b), E2; reflexivity|rewrite <- (rev_involutive d1), <- (rev_involutive d2), E1; reflexivity].
Qed.
Lemma to_string_dot : forall n, ~ In 46 (to_string n).
Proof. intros. apply to_string_no; lia. Qed.

Lemma bk_split : forall p q j k, 1 <= j -> 1 <= k -> bk p j = bk q k -> p = q /\ j = k.
Proof.
  intros p q j k J K E. pose proof E as E0. unfold bk in E. destruct (j =? 0) eqn:X; [lia|]. destruct (k =? 0) eqn:Y; [lia|].
  apply last_split in E; try apply to_string_dot. destruct E as [-> _]. split; [reflexivity|]. eapply bk_inj; [| |exact E0]; lia.
Qed.
Lemma bk_not_log : forall p k, 1 <= k -> ~ log_path (bk p k).
Proof.
  intros p k K (b & E). unfold bk in E. destruct (k =? 0) eqn:X; [lia|].
  apply (f_equal (@rev Z)) in E. rewrite !rev_app_distr in E.
  destruct (to_string_ok k ltac:(lia)) as [(_ & L & _) D]. unfold digits in D. apply Forall_rev in D.
  destruct (rev (to_string k)) as [|c r] eqn:R.
  - apply (f_equal (@length Z)) in R. rewrite rev_length in R. unfold zlen in L. cbn in R. lia.
  - inversion D; subst. cbn in E. injection E as E1 E2. lia.
Qed.

Definition cap (c : dconf) : Z := Z.max 1 (rolls c).
Lemma eff_cap : forall c, eff_rolls c <= cap c.
Proof.
  intros c. unfold eff_rolls, cap. destruct (0 <? rolls c) eqn:E.
  - pose proof (int_of_le (rolls c) ltac:(lia)). lia.
  - rewrite int_of_small by (cbv; split; discriminate). lia.
Qed.

Lemma opening_fs : forall e c s r i s1, opening e c s r i s1 -> forall q k x, cap c < k ->
  d_fs s1 (bk q k) = Some x -> d_fs s (bk q k) = Some x.
Proof.
  intros e c s r i s1 O q k x K H. assert (K1 : 1 <= k) by (unfold cap in K; lia).
  assert (RF : forall path f, dev_path e c (r_ts r) = Ret path -> roll_files e c (limit_out c (d_log s) r) (d_fs s) path = Ret f ->
     f (bk q k) = Some x -> d_fs s (bk q k) = Some x).
  { intros path f P R F. apply roll_files_cases in R; [|eapply dev_path_log; exact P].
    destruct R as [[-> _]|(m & R)]; [assumption|].
    destruct (rolled_from _ _ _ _ _ (bk q k) R) as [E|[E|(j & J & E & _)]]; [congruence|congruence|].
    exfalso. apply bk_split in E; try lia. pose proof (eff_cap c). lia. }
  destruct O as [p C O|path C P L|path f C P L R I|path f C P L R I]; cbn [d_fs] in H.
  - assumption.
  - assumption.
  - eapply RF; eauto.
  - eapply RF; eauto. rewrite fset_other in H; [exact H|]. intros E. apply (bk_not_log q k K1). rewrite E. eapply dev_path_log; exact P.
Qed.

Definition open_log_path (s : dstate) : Prop := forall p, d_open s = Some p -> log_path p.
Lemma opening_log : forall e c s r i s1, opening e c s r i s1 -> open_log_path s -> open_log_path s1.
Proof.
  intros e c s r i s1 O H p E. destruct O; cbn [d_open] in E; [apply H; exact E|discriminate|discriminate|].
  injection E as <-. eapply dev_path_log; eassumption.
Qed.
Lemma step_open_log : forall e c s r i s', stepping e c s r i s' -> open_log_path s -> open_log_path s'.
Proof.
  intros e c s r i s' S H. destruct S as [W|s1 W O N|s1 p W O P K]; [assumption|eapply opening_log; eassumption|].
  intros q E. cbn [d_open] in E. destruct (file_write_some s1 p (r_text r) i P) as (n & _ & _ & _ & _ & E2).
  rewrite E2 in E. destruct (n =? _); [|discriminate]. injection E as <-. eapply opening_log; eassumption.
Qed.

Theorem backups_bounded : forall e c l s s', open_log_path s -> dev_run e c s l = Ret s' ->
  forall p k q x, cap c < k -> backup p k q -> d_fs s' q = Some x -> d_fs s q = Some x.
Proof.
  induction l as [|[r i] l IH]; intros s s' OL H p k q x K B F; cbn [dev_run] in H; [injection H as <-; assumption|].
  destruct (dev_step e c s r i) as [s1| |] eqn:S; try discriminate. cbn [bind] in H. apply step_cases in S.
  pose proof (step_open_log _ _ _ _ _ _ S OL) as OL1.
  specialize (IH s1 s' OL1 H p k q x K B F). clear F H. apply backup_bk in B. subst q.
  assert (K1 : 1 <= k) by (unfold cap in K; lia).
  destruct S as [W|s2 W O N|s2 P W O E V]; [assumption|eapply opening_fs; eassumption|].
  cbn [d_fs] in IH. destruct (file_write_some s2 P (r_text r) i E) as (n & _ & _ & _ & OT & _).
  rewrite OT in IH; [eapply opening_fs; eassumption|].
  intros X. apply (bk_not_log p k K1). rewrite X. eapply opening_log; eassumption.
Qed.

(* ---- C37: sizes ---- *)
Lemma rolled_contents : forall f p n m f' q x, rolled f p 1 n m f' -> f' q = Some x -> exists q0, f q0 = Some x.
Proof.
  intros f p n m f' q x R H. destruct (rolled_from _ _ _ _ _ q R) as [E|[E|(k & _ & _ & E)]]; rewrite H in E; eauto. discriminate.
Qed.

Definition sized (f0 : fs) (lim : Z) (l0 : list (drec * io)) (s : dstate) : Prop :=
  (forall q x, d_fs s q = Some x -> (exists q0, f0 q0 = Some x) \/ fits lim l0 x) /\
  (forall p, d_open s = Some p -> exists x, d_fs s p = Some x /\ fits lim l0 x /\ zlen x <= cur_size s).

Lemma sized_step : forall f0 e c l0 s r i s', 0 < limit c -> 0 < rolls c -> stuff_up c = false -> In (r, i) l0 -> valid_prio r ->
  sized f0 (limit c) l0 s -> stepping e c s r i s' -> sized f0 (limit c) l0 s'.
Proof.
  intros f0 e c l0 s r i s' L R U IN VP [A B] S.
  assert (RF : forall path f, dev_path e c (r_ts r) = Ret path -> roll_files e c (limit_out c (d_log s) r) (d_fs s) path = Ret f ->
     f path = None /\ forall q x, f q = Some x -> (exists q0, f0 q0 = Some x) \/ fits (limit c) l0 x).
  { intros path f P RR. apply roll_files_cases in RR; [|eapply dev_path_log; exact P].
    destruct RR as [[-> [X|[X _]]]|(m & RR)]; [lia|congruence|].
    split; [eapply rolled_none; exact RR|]. intros q x X. destruct (rolled_contents _ _ _ _ _ _ _ RR X) as (q0 & Q). eapply A; exact Q. }
  destruct S as [W|s1 W O N|s1 p W O P V].
  - split; assumption.
  - destruct O as [p C O|path C P L1|path f C P L1 RR I|path f C P L1 RR I]; cbn [d_open d_fs] in *.
    + congruence.
    + split; [exact A|discriminate].
    + split; [apply (RF path f P RR)|discriminate].
    + discriminate.
  - assert (NF : forall x n, 0 <= n <= zlen (r_text r) -> x = firstn (Z.to_nat n) (r_text r) -> fits (limit c) l0 x).
    { intros x n _ ->. right. exists r, i, (skipn (Z.to_nat n) (r_text r)). split; [assumption|]. symmetry. apply firstn_skipn. }
    destruct (count_log_at (d_log s1) r VP) as (_ & _ & CS & _).
    destruct (file_write_some s1 p (r_text r) i P) as (n & N & NF2 & WP & WO & OP).
    assert (X : exists x, d_fs s1 p = Some x /\ zlen x <= d_log s1 DEVICE_LOG_CUR_FILE_SIZE /\
              fits (limit c) l0 (x ++ firstn (Z.to_nat n) (r_text r)) /\
              (forall q y, q <> p -> d_fs s1 q = Some y -> (exists q0, f0 q0 = Some y) \/ fits (limit c) l0 y)).
    { destruct O as [p1 C O|path C PP L1|path f C PP L1 RR I|path f C PP L1 RR I]; cbn [d_open d_fs d_log] in *; try discriminate.
      - rewrite O in P. injection P as ->. destruct (B p O) as (x & X & F & ZX). exists x.
        split; [assumption|]. split; [exact ZX|]. split; [|intros q y Q Y; eapply A; exact Y].
        unfold close_file in C. destruct (limit_out c (d_log s) r) eqn:LO; [discriminate|].
        unfold limit_out in LO. fold (limit c) in LO. fold (rolls c) in LO. left. rewrite zlen_app, zlen_firstn by assumption.
        unfold cur_size in ZX. lia.
      - injection P as ->. destruct (RF p f PP RR) as [FN FA]. unfold old_text. rewrite FN. exists []. split; [apply fset_same|].
        split; [rewrite open_log_size; lia|]. split; [apply (NF _ n N); reflexivity|].
        intros q y Q Y. rewrite fset_other in Y by assumption. eapply FA; exact Y. }
    destruct X as (x & X & ZX & FX & OX). split; cbn [d_fs d_open].
    + intros q y Y. destruct (list_eq_dec Z.eq_dec q p) as [->|Q].
      * rewrite (WP x X) in Y. injection Y as <-. right. exact FX.
      * rewrite WO in Y by assumption. eapply OX; eassumption.
    + intros q Q. rewrite OP in Q. destruct (n =? zlen (r_text r)); [|discriminate]. injection Q as <-.
      eexists. split; [apply WP; exact X|]. split; [exact FX|]. unfold cur_size. cbn [d_log]. rewrite CS.
      rewrite zlen_app, zlen_firstn by assumption. lia.
Qed.

Theorem sizes_limited : forall e c l s s', 0 < limit c -> 0 < rolls c -> stuff_up c = false ->
  Forall (fun ri => valid_prio (fst ri)) l -> d_open s = None -> dev_run e c s l = Ret s' ->
  forall q x, d_fs s' q = Some x -> (exists q0, d_fs s q0 = Some x) \/ fits (limit c) l x.
Proof.
  intros e c l s s' L R U V O H.
  assert (G : forall l1 s1, sized (d_fs s) (limit c) l s1 -> (forall ri, In ri l1 -> In ri l) -> dev_run e c s1 l1 = Ret s' ->
     sized (d_fs s) (limit c) l s').
  { induction l1 as [|[r i] l1 IH]; intros s1 S SUB D; cbn [dev_run] in D; [injection D as <-; assumption|].
    destruct (dev_step e c s1 r i) as [s2| |] eqn:E; try discriminate. cbn [bind] in D. apply step_cases in E.
    eapply (IH s2); [|intros ri I; apply SUB; right; exact I|exact D].
    eapply sized_step; try eassumption; [apply SUB; left; reflexivity|].
    rewrite Forall_forall in V. apply (V (r, i)). apply SUB. left. reflexivity. }
  assert (S0 : sized (d_fs s) (limit c) l s).
  { split; [intros q x X; left; eauto|]. intros p P. congruence. }
  apply (G l s S0); [tauto|exact H].
Qed.

(* ---- C38: days and hours ---- *)
Lemma create_day_fixed : forall o ts, - 86400 <= o <= 86400 -> create_day (fixed_zone o) ts = (ts + o) / 86400 * 86400 - o.
Proof. intros o ts O. unfold create_day. destruct (date_cache_fresh o ts O) as (y & m & d & b & _ & _ & _ & E). exact E. Qed.
Lemma create_hour_fixed : forall o ts, - 86400 <= o <= 86400 -> create_hour (fixed_zone o) ts = (ts + o) / 3600 * 3600 - o.
Proof.
  intros o ts O. unfold create_hour. rewrite create_day_fixed by assumption. unfold clock_of. cbv zeta. cbn [k_hour].
  rewrite z_off_fixed. set (l := ts + o). clearbody l. lia.
Qed.

(* any zone *)
Definition off_at (z : zone) (t : Z) : Z := z_off z (z_isdst z t).
Lemma create_day_zone : forall z ts, create_day z ts = (ts + off_at z ts) / 86400 * 86400 - off_at z ts.
Proof.
  intros z ts. unfold create_day, mktime_midnight, time_to_tm. fold (off_at z ts).
  destruct (civil_correct ((ts + off_at z ts) / 86400)) as (y & m & d & E & _ & _ & D). rewrite E. cbn [tm_year tm_mon tm_mday tm_isdst].
  replace (y - 1900 + 1900) with y by lia. replace (m - 1 + 1) with m by lia. rewrite D. reflexivity.
Qed.
Lemma clock_isdst : forall z ts, tm_isdst (time_to_tm z ts) = z_isdst z ts.
Proof. intros z ts. unfold time_to_tm. destruct (civil _) as [[y m] d]. reflexivity. Qed.
Lemma create_hour_zone : forall z ts, create_hour z ts = (ts + off_at z ts) / 3600 * 3600 - off_at z ts.
Proof.
  intros z ts. unfold create_hour. rewrite create_day_zone. unfold clock_of. cbv zeta. cbn [k_hour].
  rewrite clock_isdst. fold (off_at z ts). generalize (off_at z ts). intros o. set (l := ts + o). clearbody l. lia.
Qed.

(* the open file is that of one of the records of [h] *)
Definition dated (e : denv) (c : dconf) (h : list Z) (s : dstate) : Prop :=
  forall p, d_open s = Some p -> exists ts0, In ts0 h /\ dev_path e c ts0 = Ret p /\
    d_log s DEVICE_LOG_CUR_FILE_CREATE_DAY = create_day (e_zone e) ts0 /\
    d_log s DEVICE_LOG_CUR_FILE_CREATE_HOUR = create_hour (e_zone e) ts0.
(* by the offset of ts0 the instant t is of the same day, or hour *)
Definition with_day (z : zone) (c : dconf) (ts0 t : Z) : Prop :=
  (daily c = true -> (ts0 + off_at z ts0) / 86400 = (t + off_at z ts0) / 86400) /\
  (daily c = false -> hourly c = true -> (ts0 + off_at z ts0) / 3600 = (t + off_at z ts0) / 3600).

Lemma step_dated : forall e c h s r i s', valid_prio r ->
  dated e c h s -> stepping e c s r i s' ->
  dated e c (h ++ [r_ts r]) s' /\ forall p, d_open s' = Some p ->
    exists ts0, In ts0 (h ++ [r_ts r]) /\ dev_path e c ts0 = Ret p /\ with_day (e_zone e) c ts0 (r_ts r).
Proof.
  intros e c h s r i s' VP D S.
  assert (G : forall s1, opening e c s r i s1 -> forall p, d_open s1 = Some p -> exists ts0, In ts0 (h ++ [r_ts r]) /\ dev_path e c ts0 = Ret p /\
      d_log s1 DEVICE_LOG_CUR_FILE_CREATE_DAY = create_day (e_zone e) ts0 /\
      d_log s1 DEVICE_LOG_CUR_FILE_CREATE_HOUR = create_hour (e_zone e) ts0 /\
      with_day (e_zone e) c ts0 (r_ts r)).
  { intros s1 OP p P. destruct OP as [p1 C O1|path C PP L1|path f C PP L1 RR I|path f C PP L1 RR I]; cbn [d_open d_log] in *; try discriminate.
    - destruct (D p P) as (ts0 & IN & P0 & DD & DH). exists ts0. split; [apply in_or_app; left; assumption|]. split; [assumption|]. split; [assumption|]. split; [assumption|].
      unfold close_file in C. destruct (limit_out c (d_log s) r); [discriminate|]. fold (daily c) in C. fold (hourly c) in C.
      rewrite DD, DH, create_day_zone, create_hour_zone in C. unfold with_day. generalize dependent (off_at (e_zone e) ts0). intros o C.
      split; [intros E; rewrite E in C; lia|]. intros E1 E2. rewrite E1, E2 in C. lia.
    - injection P as ->. exists (r_ts r). split; [apply in_or_app; right; left; reflexivity|]. split; [assumption|]. split; [apply open_log_day|]. split; [apply open_log_hour|].
      split; reflexivity. }
  destruct S as [W|s1 W OP N|s1 p W OP P V].
  - split.
    + intros p P. destruct (D p P) as (ts0 & IN & R). exists ts0. split; [apply in_or_app; left; assumption|assumption].
    + intros p P. unfold waiting in W. rewrite P in W. discriminate.
  - split; intros p P; congruence.
  - destruct (file_write_some s1 p (r_text r) i P) as (n & N & NF2 & WP & WO & E).
    destruct (count_log_at (d_log s1) r VP) as (_ & _ & _ & _ & CO).
    destruct (G s1 OP p P) as (ts0 & IN & P0 & DD & DH & WD).
    split.
    + intros q Q. cbn [d_open] in Q. rewrite E in Q. destruct (n =? _); [|discriminate]. injection Q as <-. exists ts0.
      cbn [d_log]. rewrite !CO by (unfold DEVICE_LOG_CUR_FILE_CREATE_DAY, DEVICE_LOG_CUR_FILE_CREATE_HOUR; lia).
      split; [assumption|]. split; [assumption|]. split; assumption.
    + intros q Q. cbn [d_open] in Q. rewrite E in Q. destruct (n =? _); [|discriminate]. injection Q as <-. exists ts0.
      split; [assumption|]. split; assumption.
Qed.

Lemma run_dated : forall e c l h s s',
  Forall (fun ri => valid_prio (fst ri)) l -> dated e c h s -> dev_run e c s l = Ret s' -> dated e c (h ++ map (fun ri => r_ts (fst ri)) l) s'.
Proof.
  intros e c l. induction l as [|[r i] l IH]; intros h s s' V D H; cbn [dev_run] in H.
  - injection H as <-. cbn [map]. rewrite app_nil_r. assumption.
  - inversion V as [|? ? V1 V2]; subst. destruct (dev_step e c s r i) as [s1| |] eqn:E; try discriminate. cbn [bind] in H. apply step_cases in E.
    cbn [map]. change (r_ts (fst (r, i)) :: ?x) with ([r_ts r] ++ x). rewrite app_assoc.
    apply (IH (h ++ [r_ts r]) s1); [assumption| |assumption]. exact (proj1 (step_dated e c h s r i s1 V1 D E)).
Qed.

(* the file of a record is that of a record [ts0] written before, or its own *)
Theorem run_day : forall e c l s s1 r i s' p,
  Forall (fun ri => valid_prio (fst ri)) l -> valid_prio r ->
  d_open s = None -> dev_run e c s l = Ret s1 -> dev_step e c s1 r i = Ret s' -> d_open s' = Some p ->
  exists ts0, In ts0 (map (fun ri => r_ts (fst ri)) l ++ [r_ts r]) /\ dev_path e c ts0 = Ret p /\ with_day (e_zone e) c ts0 (r_ts r).
Proof.
  intros e c l s s1 r i s' p V VP N R S P. apply step_cases in S.
  assert (D : dated e c (map (fun ri => r_ts (fst ri)) l) s1).
  { apply (run_dated e c l [] s s1 V); [intros q Q; congruence|assumption]. }
  destruct (step_dated e c _ s1 r i s' VP D S) as [_ G]. apply G. assumption.
Qed.

Theorem same_day : forall e c o l s s1 r i s' p,
  e_zone e = fixed_zone o -> - 86400 <= o <= 86400 -> Forall (fun ri => valid_prio (fst ri)) l -> valid_prio r ->
  d_open s = None -> dev_run e c s l = Ret s1 -> dev_step e c s1 r i = Ret s' -> d_open s' = Some p ->
  exists ts0, dev_path e c ts0 = Ret p /\
    (daily c = true -> (ts0 + o) / 86400 = (r_ts r + o) / 86400) /\
    (daily c = false -> hourly c = true -> (ts0 + o) / 3600 = (r_ts r + o) / 3600).
Proof.
  intros e c o l s s1 r i s' p Z O V VP N R S P.
  destruct (run_day e c l s s1 r i s' p V VP N R S P) as (ts0 & _ & P0 & W). exists ts0. split; [assumption|].
  unfold with_day, off_at in W. rewrite Z, z_off_fixed in W. exact W.
Qed.

(* names that only use the date *)
Definition time_of_day (k : tok) : Prop := k = Esc EHour \/ k = Esc EMin \/ k = Esc ESec.

Lemma day_texts : forall v t1 t2 l, k_year t1 = k_year t2 -> k_mon t1 = k_mon t2 -> k_mday t1 = k_mday t2 ->
  Forall (fun k => ~ time_of_day k) l ->
  map (tok_text v t1) (pre_toks l) = map (tok_text v t2) (pre_toks l).
Proof.
  intros v t1 t2 l Y M D F. induction l as [|k l IH]; [reflexivity|]. inversion F as [|? ? F1 F2]; subst.
  change (pre_toks (k :: l)) with (pre_tok k ++ pre_toks l). rewrite !map_app, IH by assumption. f_equal.
  destruct k as [x|[]]; cbn [pre_tok map tok_text esc_text]; rewrite ?Y, ?M, ?D; try reflexivity;
    exfalso; apply F1; unfold time_of_day; auto.
Qed.

Lemma clock_same_day : forall z t1 t2, (t1 + off_at z t1) / 86400 = (t2 + off_at z t2) / 86400 ->
  k_year (clock_of z t1) = k_year (clock_of z t2) /\
  k_mon (clock_of z t1) = k_mon (clock_of z t2) /\
  k_mday (clock_of z t1) = k_mday (clock_of z t2).
Proof.
  intros z t1 t2 E. unfold clock_of, time_to_tm. fold (off_at z t1). fold (off_at z t2). rewrite E.
  destruct (civil ((t2 + off_at z t2) / 86400)) as [[y m] d]. cbn. auto.
Qed.

Lemma dev_path_day : forall e c lf lp t1 t2, ~ In 36 (v_name (e_env e)) ->
  dc_file c = source lf -> dc_path c = source lp -> Forall plain_tok lf -> Forall plain_tok lp -> source lf <> [] ->
  Forall (fun k => ~ time_of_day k) lf -> Forall (fun k => ~ time_of_day k) lp ->
  (8 * (length (source lf) + length (source lp) + 4) < e_fuel e)%nat ->
  (t1 + off_at (e_zone e) t1) / 86400 = (t2 + off_at (e_zone e) t2) / 86400 -> dev_path e c t1 = dev_path e c t2.
Proof.
  intros e c lf lp t1 t2 NV EF EP PF PP NE TF TP F E. unfold dev_path. cbv zeta.
  destruct (clock_same_day (e_zone e) t1 t2 E) as (Y & M & D).
  set (c1 := clock_of (e_zone e) t1) in *. set (c2 := clock_of (e_zone e) t2) in *.
  assert (N : make_file_name (e_fuel e) (e_env e) c1 (dc_file c) (dc_chan c) (dc_dev c) =
              make_file_name (e_fuel e) (e_env e) c2 (dc_file c) (dc_chan c) (dc_dev c)).
  { unfold make_file_name. rewrite EF. cbv zeta.
    replace (match source lf with [] => s2z "$PNAME_$YEAR$MON$DAY_$PID." ++ to_string (dc_chan c) ++ to_string (dc_dev c) | _ => source lf end)
      with (source lf) by (destruct (source lf); [contradiction|reflexivity]).
    replace (source lf ++ s2z ".log") with (source (lf ++ [Lit (s2z ".log")])) by (rewrite source_app; reflexivity).
    assert (PL : Forall plain_tok (lf ++ [Lit (s2z ".log")])).
    { apply Forall_app. split; [assumption|]. constructor; [|constructor]. split; intros I; cbn in I; decompose sum I; discriminate || contradiction. }
    destruct (plain_free _ PL) as [DF PF2].
    rewrite !fmt_name_toks; try assumption.
    - f_equal. f_equal. apply day_texts; try assumption. apply Forall_app. split; [assumption|].
      constructor; [|constructor]. intros [X|[X|X]]; discriminate X.
    - rewrite source_app, app_length. change (length (source [Lit (s2z ".log")])) with 4%nat. lia.
    - rewrite source_app, app_length. change (length (source [Lit (s2z ".log")])) with 4%nat. lia. }
  assert (P : make_path_name (e_fuel e) (e_env e) c1 (dc_path c) = make_path_name (e_fuel e) (e_env e) c2 (dc_path c)).
  { unfold make_path_name. rewrite EP. destruct (plain_free _ PP) as [DF PF2]. rewrite !fmt_name_toks; try assumption; try lia.
    f_equal. f_equal. apply day_texts; assumption. }
  rewrite N, P. reflexivity.
Qed.

(* ---- C39: steps ---- *)
Definition consistent (s : dstate) : Prop :=
  forall p, d_open s = Some p -> exists x, d_fs s p = Some x /\ cur_size s = zlen x.

Lemma opening_consistent : forall e c s r i s1, consistent s -> opening e c s r i s1 -> consistent s1 /\
  forall p, d_open s1 = Some p -> exists old, d_fs s1 p = Some old /\ (old = [] \/ d_fs s p = Some old).
Proof.
  intros e c s r i s1 C O. destruct O as [p1 C1 O1|path C1 PP L1|path f C1 PP L1 RR I|path f C1 PP L1 RR I]; cbn [d_open d_fs].
  - split; [assumption|]. intros p P. destruct (C p P) as (x & X & _). exists x. auto.
  - split; intros p P; discriminate.
  - split; intros p P; discriminate.
  - split; intros p P; cbn [d_open] in P; injection P as <-.
    + exists (old_text f path). split; [apply fset_same|]. unfold cur_size. cbn [d_log]. apply open_log_size.
    + exists (old_text f path). split; [apply fset_same|]. apply roll_files_cases in RR; [|eapply dev_path_log; exact PP].
      unfold old_text. destruct RR as [[-> _]|(m & RR)].
      * destruct (d_fs s path); auto.
      * rewrite (rolled_none _ _ _ _ _ RR). auto.
Qed.

Theorem step_spec : forall e c s r i s', consistent s -> valid_prio r -> full_write (r, i) -> dev_step e c s r i = Ret s' ->
  consistent s' /\
  (if took s s'
   then lines s' = lines s + 1 /\ bytes s' = bytes s + zlen (r_text r) /\
        (forall k, 0 <= k < 7 -> d_log s' (DEVICE_LOG_PRIORITY + k) =
           d_log s (DEVICE_LOG_PRIORITY + k) + if k =? r_prio r then zlen (r_text r) else 0) /\
        exists p old, d_open s' = Some p /\ d_fs s' p = Some (old ++ r_text r) /\ (old = [] \/ d_fs s p = Some old)
   else bytes s' = bytes s /\ (forall k, 0 <= k < 7 -> d_log s' (DEVICE_LOG_PRIORITY + k) = d_log s (DEVICE_LOG_PRIORITY + k)) /\
        d_open s' = None).
Proof.
  intros e c s r i s' C VP FW H. apply step_cases in H. unfold full_write in FW. cbn [fst snd] in FW.
  destruct H as [W|s1 W O N|s1 p W O P V].
  - split; [assumption|]. unfold took. rewrite Z.eqb_refl. cbn [negb]. split; [reflexivity|]. split; [reflexivity|].
    unfold waiting in W. destruct (d_open s); [discriminate|reflexivity].
  - destruct (opening_consistent _ _ _ _ _ _ C O) as [C1 _]. split; [assumption|].
    unfold took, lines, bytes. rewrite (opening_counts _ _ _ _ _ _ DEVICE_LOG_TOTAL_WRITE_LINE O) by (cbv; lia || discriminate).
    rewrite Z.eqb_refl. cbn [negb]. split; [apply (opening_counts _ _ _ _ _ _ _ O); cbv; discriminate|].
    split; [|assumption]. intros k K. apply (opening_counts _ _ _ _ _ _ _ O). unfold DEVICE_LOG_PRIORITY. lia.
  - destruct (opening_consistent _ _ _ _ _ _ C O) as [C1 OLD].
    destruct (file_write_some s1 p (r_text r) i P) as (n & N & NF2 & WP & WO & E). rewrite (NF2 FW) in *.
    rewrite Z.eqb_refl in E. rewrite firstn_all_z in WP.
    destruct (count_log_at (d_log s1) r VP) as (CL & CB & CS & CP & _).
    assert (OC : forall j, 7 <= j -> d_log s1 j = d_log s j) by (intros j J; apply (opening_counts _ _ _ _ _ _ j O J)).
    destruct (C1 p P) as (x & X & ZX). split.
    + intros q Q. cbn [d_open d_fs] in *. rewrite E in Q. injection Q as <-. exists (x ++ r_text r). split; [apply WP; assumption|].
      unfold cur_size in *. cbn [d_log]. rewrite CS, zlen_app. lia.
    + unfold took, lines, bytes. cbn [d_log d_open d_fs]. rewrite CL, CB, !OC by (cbv; discriminate).
      destruct (_ =? _) eqn:Q; [lia|]. cbn [negb]. split; [reflexivity|]. split; [reflexivity|].
      split; [intros k K; rewrite CP by assumption; rewrite OC by (unfold DEVICE_LOG_PRIORITY; lia); reflexivity|].
      destruct (OLD p P) as (old & OE & OO). exists p, old. split; [assumption|]. split; [apply WP; assumption|assumption].
Qed.

Theorem step_takes : forall e c s r i s', valid_prio r -> dev_step e c s r i = Ret s' ->
  (d_open s <> None \/ last_try s + 5 <= r_ts r) -> io_open i = true ->
  (forall p, dev_path e c (r_ts r) = Ret p -> zlen p < 250) -> took s s' = true.
Proof.
  intros e c s r i s' VP H NW IO PL. apply step_cases in H. destruct H as [W|s1 W O N|s1 p W O P V].
  - exfalso. unfold waiting, last_try in *. destruct (d_open s); [discriminate|]. destruct NW; [contradiction|lia].
  - destruct O; cbn [d_open] in N; try congruence. specialize (PL path ltac:(assumption)). lia.
  - unfold took, lines. cbn [d_log]. destruct (count_log_at (d_log s1) r VP) as (CL & _). rewrite CL.
    rewrite (opening_counts _ _ _ _ _ _ _ O) by (cbv; discriminate). destruct (_ =? _) eqn:Q; [lia|reflexivity].
Qed.

Theorem step_backoff : forall e c s r i, d_open s = None -> r_ts r < last_try s + 5 -> dev_step e c s r i = Ret s.
Proof. intros e c s r i O T. unfold dev_step, last_try in *. rewrite O. replace (_ <? _) with true by lia. reflexivity. Qed.

Theorem step_failed : forall e c s r i s', d_open s = None -> last_try s + 5 <= r_ts r -> io_open i = false ->
  dev_step e c s r i = Ret s' -> d_open s' = None /\ last_try s' = r_ts r /\ took s s' = false.
Proof.
  intros e c s r i s' OP T IO H. apply step_cases in H. destruct H as [W|s1 W O N|s1 p W O P V].
  - exfalso. unfold waiting, last_try in *. rewrite OP in W. lia.
  - assert (TK : took s s1 = false).
    { unfold took, lines. rewrite (opening_counts _ _ _ _ _ _ _ O) by (cbv; discriminate). rewrite Z.eqb_refl. reflexivity. }
    destruct O; cbn [d_open] in *; try congruence; (split; [reflexivity|]; split; [|assumption]); apply lset_same.
  - destruct O; cbn [d_open] in *; congruence.
Qed.

(* ---- writes that fwrite cuts short ---- *)
Lemma write_exact : forall s p t i x, d_open s = Some p -> d_fs s p = Some x ->
  exists a b, t = a ++ b /\ zlen a = Z.min (Z.max 0 (io_wr i)) (zlen t) /\
   d_fs (file_write s t i) p = Some (x ++ a) /\ (forall q, q <> p -> d_fs (file_write s t i) q = d_fs s q) /\
   d_open (file_write s t i) = match b with [] => Some p | _ => None end.
Proof.
  intros s p t i x O X. unfold file_write. rewrite O. pose proof (zlen_nonneg _ t) as Z0. destruct (zlen t <=? 0) eqn:E.
  - exists [], []. destruct t as [|c t]; [|rewrite zlen_cons in E; pose proof (zlen_nonneg _ t); lia].
    split; [reflexivity|]. split; [cbn; lia|]. rewrite ?app_nil_r. split; [exact X|]. split; [reflexivity|exact O].
  - set (n := Z.max 0 (Z.min (io_wr i) (zlen t))). assert (N : 0 <= n <= zlen t) by lia.
    assert (ZA : zlen (firstn (Z.to_nat n) t) = n) by (apply zlen_firstn; lia).
    pose proof (firstn_skipn (Z.to_nat n) t) as FS. exists (firstn (Z.to_nat n) t), (skipn (Z.to_nat n) t). cbn [d_fs d_open].
    split; [congruence|]. split; [rewrite ZA; lia|].
    split; [rewrite X; apply fset_same|]. split; [intros q Q; apply fset_other; assumption|].
    apply (f_equal zlen) in FS. rewrite zlen_app, ZA in FS. destruct (skipn (Z.to_nat n) t) as [|c r].
    + rewrite zlen_nil in FS. replace (n =? zlen t) with true by lia. reflexivity.
    + rewrite zlen_cons in FS. pose proof (zlen_nonneg _ r). replace (n =? zlen t) with false by lia. reflexivity.
Qed.

Theorem short_spec : forall e c s r i s', consistent s -> valid_prio r -> dev_step e c s r i = Ret s' ->
  consistent s' /\
  (if took s s'
   then lines s' = lines s + 1 /\ bytes s' = bytes s + zlen (r_text r) /\
        exists p old a b, r_text r = a ++ b /\ zlen a = Z.min (Z.max 0 (io_wr i)) (zlen (r_text r)) /\
          (old = [] \/ d_fs s p = Some old) /\ d_fs s' p = Some (old ++ a) /\
          d_open s' = match b with [] => Some p | _ => None end
   else bytes s' = bytes s /\ d_open s' = None).
Proof.
  intros e c s r i s' C VP H. apply step_cases in H.
  destruct H as [W|s1 W O N|s1 p W O P V].
  - split; [assumption|]. unfold took. rewrite Z.eqb_refl. cbn [negb]. split; [reflexivity|].
    unfold waiting in W. destruct (d_open s); [discriminate|reflexivity].
  - destruct (opening_consistent _ _ _ _ _ _ C O) as [C1 _]. split; [assumption|].
    unfold took, lines, bytes. rewrite (opening_counts _ _ _ _ _ _ DEVICE_LOG_TOTAL_WRITE_LINE O) by (cbv; lia || discriminate).
    rewrite Z.eqb_refl. cbn [negb]. split; [apply (opening_counts _ _ _ _ _ _ _ O); cbv; discriminate|assumption].
  - destruct (opening_consistent _ _ _ _ _ _ C O) as [C1 OLD]. destruct (C1 p P) as (x & X & ZX).
    destruct (write_exact s1 p (r_text r) i x P X) as (a & b & E & N & WP & WO & WD).
    destruct (count_log_at (d_log s1) r VP) as (CL & CB & CS & CP & _).
    assert (OC : forall j, 7 <= j -> d_log s1 j = d_log s j) by (intros j J; apply (opening_counts _ _ _ _ _ _ j O J)).
    split.
    + intros q Q. cbn [d_open d_fs] in *. rewrite WD in Q. destruct b; [|discriminate Q]. injection Q as <-. exists (x ++ a).
      split; [exact WP|]. unfold cur_size in *. cbn [d_log]. rewrite app_nil_r in E. rewrite CS, zlen_app, ZX, E. reflexivity.
    + unfold took, lines, bytes. cbn [d_log d_open d_fs]. rewrite CL, CB, !OC by (cbv; discriminate).
      destruct (_ =? _) eqn:Q; [lia|]. cbn [negb]. split; [reflexivity|]. split; [reflexivity|].
      destruct (OLD p P) as (old & OE & OO). assert (old = x) by congruence. subst old. exists p, x, a, b. auto 10.
Qed.

Theorem run_short : forall e c s l ts s', drun e c s l ts s' ->
  Forall (fun ri => valid_prio (fst ri)) l -> consistent s ->
  consistent s' /\ lines s' = lines s + zlen ts /\ bytes s' = bytes s + zlen (concat ts).
Proof.
  intros e c s l ts s' D. induction D as [s|s r i s1 l t s2 S D IH]; intros V C.
  - split; [assumption|]. rewrite !zlen_nil. split; lia.
  - inversion V as [|? ? V1 V2]; subst. cbn [fst] in V1.
    destruct (short_spec e c s r i s1 C V1 S) as [C1 T]. destruct (IH V2 C1) as (C2 & L & B). split; [assumption|].
    destruct (took s s1) eqn:TK.
    + destruct T as (T1 & T2 & _). cbn [concat]. rewrite zlen_cons, zlen_app. split; lia.
    + destruct T as (T1 & _). unfold took in TK. split; [|lia]. destruct (lines s1 =? lines s) eqn:Q; [lia|discriminate TK].
Qed.

Theorem run_counts : forall e c s l ts s', drun e c s l ts s' ->
  Forall (fun ri => valid_prio (fst ri)) l -> Forall full_write l -> consistent s ->
  consistent s' /\ lines s' = lines s + zlen ts /\ bytes s' = bytes s + zlen (concat ts).
Proof.
  intros e c s l ts s' D. induction D as [s|s r i s1 l t s2 S D IH]; intros V F C.
  - split; [assumption|]. rewrite !zlen_nil. split; lia.
  - inversion V as [|? ? V1 V2]; subst. inversion F as [|? ? F1 F2]; subst. cbn [fst] in V1.
    destruct (step_spec e c s r i s1 C V1 F1 S) as [C1 T]. destruct (IH V2 F2 C1) as (C2 & L & B). split; [assumption|].
    destruct (took s s1) eqn:TK.
    + destruct T as (TL & TB & _). cbn [concat]. rewrite zlen_cons, zlen_app. split; lia.
    + destruct T as (TB & _). unfold took in TK. split; lia.
Qed.

(* ---- contents of a chain of files ---- *)
Lemma chain_bk : forall f p cur bs, chain f p cur bs -> forall k, 1 <= k -> f (bk p k) = nth_error bs (Z.to_nat (k - 1)).
Proof. intros f p cur bs [_ H] k K. apply (H k); [assumption|]. apply bk_backup. lia. Qed.

Lemma chain_intro : forall f p cur bs, f p = cur -> (forall k, 1 <= k -> f (bk p k) = nth_error bs (Z.to_nat (k - 1))) -> chain f p cur bs.
Proof. intros f p cur bs H1 H2. split; [assumption|]. intros k q K B. apply backup_bk in B. subst q. apply H2. assumption. Qed.

Lemma chain_set : forall f p cur bs c, chain f p cur bs -> chain (fset f p c) p c bs.
Proof.
  intros f p cur bs c C. apply chain_intro; [apply fset_same|]. intros k K.
  rewrite fset_other; [eapply chain_bk; eassumption|]. intros E. change p with (bk p 0) in E at 2. apply bk_inj in E; lia.
Qed.

Lemma nth_error_firstn_lt : forall (l : list text) n k, (k < n)%nat -> nth_error (firstn n l) k = nth_error l k.
Proof. induction l as [|x l IH]; intros [|n] [|k] K; try reflexivity; try lia. cbn. apply IH. lia. Qed.
Lemma nth_error_firstn_ge : forall (l : list text) n k, (n <= k)%nat -> nth_error (firstn n l) k = None.
Proof. intros. apply nth_error_None. rewrite firstn_length. lia. Qed.

Lemma chain_roll : forall f p cur bs n m f', 1 <= n -> chain f p cur bs -> zlen bs <= n -> rolled f p 1 n m f' ->
  chain f' p None (match cur with Some c => firstn (Z.to_nat n) (c :: bs) | None => bs end).
Proof.
  intros f p cur bs n m f' N C L (M & EX & MM & NO & SH & OT). change (bk p (1 - 1)) with p in *.
  assert (BK : forall k, 1 <= k -> f (bk p k) = nth_error bs (Z.to_nat (k - 1))) by (apply (chain_bk f p cur bs C)).
  destruct C as [CP _]. apply chain_intro; [assumption|]. intros k K.
  destruct cur as [x|].
  - (* p exists: m = 1 + length bs *)
    assert (MB : m = Z.min (n + 1) (1 + zlen bs)).
    { destruct (Z_lt_le_dec m (Z.min (n + 1) (1 + zlen bs))) as [X|X].
      - exfalso. destruct MM as [MM|MM]; [lia|]. destruct (Z.eq_dec m 0) as [->|]; [unfold bk in MM; cbn in MM; congruence|].
        rewrite BK in MM by lia. apply nth_error_None in MM. unfold zlen in X. lia.
      - destruct (Z.eq_dec m (Z.min (n + 1) (1 + zlen bs))) as [E|NE]; [assumption|]. exfalso.
        apply (EX (1 + zlen bs) ltac:(pose proof (zlen_nonneg _ bs); lia)). rewrite BK by (pose proof (zlen_nonneg _ bs); lia).
        apply nth_error_None. unfold zlen. lia. }
    pose proof (zlen_nonneg _ bs) as ZB.
    destruct (Z_le_gt_dec k (Z.min m n)) as [KM|KM].
    + rewrite SH by lia. rewrite nth_error_firstn_lt by lia. destruct (Z.eq_dec k 1) as [->|].
      * change (bk p (1 - 1)) with p. rewrite CP. reflexivity.
      * rewrite BK by lia. replace (Z.to_nat (k - 1)) with (S (Z.to_nat (k - 1 - 1))) by lia. reflexivity.
    + rewrite OT; [|intros j J X; apply bk_inj in X; lia]. rewrite BK by assumption.
      assert (A : nth_error bs (Z.to_nat (k - 1)) = None) by (apply nth_error_None; unfold zlen in *; lia).
      rewrite A. symmetry. apply nth_error_None. rewrite firstn_length. cbn [length]. unfold zlen in *. lia.
  - assert (M0 : m = 0).
    { destruct (Z.eq_dec m 0); [assumption|]. exfalso. apply (EX 0 ltac:(lia)). exact CP. }
    rewrite OT; [apply BK; assumption|]. intros j J X. apply bk_inj in X; lia.
Qed.

Lemma concat_rev_firstn : forall n (l : list text), exists d, concat (rev l) = d ++ concat (rev (firstn n l)).
Proof.
  intros n l. exists (concat (rev (skipn n l))). rewrite <- concat_app, <- rev_app_distr, firstn_skipn. reflexivity.
Qed.

Definition on_path (s : dstate) (p : text) : Prop := forall q, d_open s = Some q -> q = p.

Lemma opening_chain : forall e c s r i s1 p cur bs n, (forall ts q, dev_path e c ts = Ret q -> q = p) ->
  n = eff_rolls c -> 1 <= n -> on_path s p -> (d_open s <> None -> cur <> None) ->
  chain (d_fs s) p cur bs -> zlen bs <= n -> opening e c s r i s1 ->
  on_path s1 p /\ exists cur1 bs1 d, chain (d_fs s1) p cur1 bs1 /\ zlen bs1 <= n /\ (d_open s1 <> None -> cur1 <> None) /\
    whole cur bs = d ++ whole cur1 bs1 /\ (d = [] \/ zlen bs1 = n) /\ zlen bs <= zlen bs1.
Proof.
  intros e c s r i s1 p cur bs n PATH EN N OP OC C L O.
  assert (RF : forall path f, dev_path e c (r_ts r) = Ret path -> roll_files e c (limit_out c (d_log s) r) (d_fs s) path = Ret f ->
    path = p /\ exists cur1 bs1 d, chain f p cur1 bs1 /\ zlen bs1 <= n /\ whole cur bs = d ++ whole cur1 bs1 /\ (d = [] \/ zlen bs1 = n) /\ zlen bs <= zlen bs1).
  { intros path f P R. pose proof (dev_path_log _ _ _ _ P) as LP. rewrite (PATH _ _ P) in *. split; [reflexivity|].
    apply roll_files_cases in R; [|assumption]. destruct R as [[-> _]|(m & R)].
    - exists cur, bs, []. split; [assumption|]. split; [assumption|]. split; [reflexivity|]. split; [left; reflexivity|lia].
    - rewrite <- EN in R. pose proof (chain_roll _ _ _ _ _ _ _ N C L R) as C1. destruct cur as [x|].
      + exists None, (firstn (Z.to_nat n) (x :: bs)). destruct (concat_rev_firstn (Z.to_nat n) (x :: bs)) as (d & D).
        exists (concat (rev (skipn (Z.to_nat n) (x :: bs)))). split; [assumption|]. split; [unfold zlen; rewrite firstn_length; lia|].
        split.
        * unfold whole. rewrite app_nil_r. rewrite <- concat_app, <- rev_app_distr, firstn_skipn. cbn [rev]. rewrite concat_app. cbn [concat].
          rewrite app_nil_r. reflexivity.
        * split; [|unfold zlen in *; rewrite firstn_length; cbn [length]; lia].
          destruct (Z_le_gt_dec (zlen (x :: bs)) n) as [X|X].
          { left. rewrite skipn_all2; [reflexivity|]. unfold zlen in X. lia. }
          right. unfold zlen in *. rewrite firstn_length. lia.
      + exists None, bs, []. split; [assumption|]. split; [assumption|]. split; [reflexivity|]. split; [left; reflexivity|lia]. }
  destruct O as [p1 C1 O1|path C1 PP L1|path f C1 PP L1 RR I|path f C1 PP L1 RR I].
  - split; [assumption|]. exists cur, bs, []. split; [assumption|]. split; [assumption|]. split; [assumption|]. split; [reflexivity|]. split; [left; reflexivity|lia].
  - split; [intros q Q; discriminate|]. exists cur, bs, []. split; [assumption|]. split; [assumption|].
    split; [intros X; exfalso; apply X; reflexivity|]. split; [reflexivity|]. split; [left; reflexivity|lia].
  - split; [intros q Q; discriminate|]. destruct (RF path f PP RR) as (-> & cur1 & bs1 & d & A1 & A2 & A3 & A4).
    exists cur1, bs1, d. split; [assumption|]. split; [assumption|]. split; [intros X; exfalso; apply X; reflexivity|]. split; assumption.
  - destruct (RF path f PP RR) as (-> & cur1 & bs1 & d & A1 & A2 & A3 & A4).
    split; [intros q Q; cbn [d_open] in Q; congruence|].
    exists (Some (old_text f p)), bs1, d. cbn [d_fs]. split; [eapply chain_set; exact A1|]. split; [assumption|].
    split; [discriminate|]. split; [|assumption]. rewrite A3. unfold whole, old_text. destruct A1 as [-> _]. reflexivity.
Qed.

Lemma step_chain : forall e c s r i s' p cur bs n, (forall ts q, dev_path e c ts = Ret q -> q = p) ->
  n = eff_rolls c -> 1 <= n -> on_path s p -> (d_open s <> None -> cur <> None) -> valid_prio r -> full_write (r, i) ->
  chain (d_fs s) p cur bs -> zlen bs <= n -> dev_step e c s r i = Ret s' ->
  on_path s' p /\ exists cur1 bs1 d, chain (d_fs s') p cur1 bs1 /\ zlen bs1 <= n /\ (d_open s' <> None -> cur1 <> None) /\
    whole cur bs ++ (if took s s' then r_text r else []) = d ++ whole cur1 bs1 /\ (d = [] \/ zlen bs1 = n) /\ zlen bs <= zlen bs1.
Proof.
  intros e c s r i s' p cur bs n PATH EN N OP OC VP FW C L H. apply step_cases in H.
  destruct H as [W|s1 W O X|s1 p1 W O P V].
  - unfold took. rewrite Z.eqb_refl. cbn [negb]. split; [assumption|]. exists cur, bs, []. rewrite app_nil_r.
    split; [assumption|]. split; [assumption|]. split; [assumption|]. split; [reflexivity|]. split; [left; reflexivity|lia].
  - unfold took, lines. rewrite (opening_counts _ _ _ _ _ _ _ O) by (cbv; discriminate). rewrite Z.eqb_refl. cbn [negb].
    rewrite app_nil_r. eapply opening_chain; eassumption.
  - destruct (opening_chain e c s r i s1 p cur bs n PATH EN N OP OC C L O) as (OP1 & cur1 & bs1 & d & A1 & A2 & A3 & A4 & A5).
    assert (p1 = p) as -> by (apply OP1; assumption).
    destruct (file_write_some s1 p (r_text r) i P) as (n1 & N1 & NF2 & WP & WO & E). unfold full_write in FW. cbn [fst snd] in FW.
    rewrite (NF2 FW) in *. rewrite Z.eqb_refl in E. rewrite firstn_all_z in WP.
    assert (TK : took s (mkDstate (d_fs (file_write s1 (r_text r) i)) (d_open (file_write s1 (r_text r) i)) (count_log (d_log s1) r)) = true).
    { unfold took, lines. cbn [d_log]. destruct (count_log_at (d_log s1) r VP) as (CL & _). rewrite CL.
      rewrite (opening_counts _ _ _ _ _ _ _ O) by (cbv; discriminate). destruct (_ =? _) eqn:Q; [lia|reflexivity]. }
    rewrite TK. cbn [d_open d_fs]. split; [intros q Q; cbn [d_open] in Q; rewrite E in Q; congruence|].
    destruct cur1 as [x|]; [|exfalso; apply A3; [congruence|reflexivity]].
    exists (Some (x ++ r_text r)), bs1, d. split.
    + apply chain_intro; [apply WP; apply A1|]. intros k K. rewrite WO; [eapply chain_bk; eassumption|].
      intros Q. change p with (bk p 0) in Q at 2. apply bk_inj in Q; lia.
    + split; [assumption|]. split; [discriminate|]. split; [|assumption]. rewrite A4. unfold whole. rewrite <- !app_assoc. reflexivity.
Qed.

Theorem run_chain : forall e c s l ts s', drun e c s l ts s' -> forall p cur bs n, (forall t q, dev_path e c t = Ret q -> q = p) ->
  n = eff_rolls c -> 1 <= n -> on_path s p -> (d_open s <> None -> cur <> None) ->
  Forall (fun ri => valid_prio (fst ri)) l -> Forall full_write l ->
  chain (d_fs s) p cur bs -> zlen bs <= n ->
  exists cur' bs' d, chain (d_fs s') p cur' bs' /\ zlen bs' <= n /\ whole cur bs ++ concat ts = d ++ whole cur' bs' /\
    (d = [] \/ zlen bs' = n) /\ zlen bs <= zlen bs'.
Proof.
  intros e c s l ts s' D. induction D as [s|s r i s1 l t s2 S D IH]; intros p cur bs n PATH EN N OP OC V F C L.
  - exists cur, bs, []. rewrite app_nil_r. split; [assumption|]. split; [assumption|]. split; [reflexivity|]. split; [left; reflexivity|lia].
  - inversion V as [|? ? V1 V2]; subst. inversion F as [|? ? F1 F2]; subst.
    destruct (step_chain e c s r i s1 p cur bs _ PATH eq_refl N OP OC V1 F1 C L S) as (OP1 & cur1 & bs1 & d & A1 & A2 & A3 & A4 & A5).
    destruct (IH p cur1 bs1 _ PATH eq_refl N OP1 A3 V2 F2 A1 A2) as (cur2 & bs2 & d2 & B1 & B2 & B3 & B4 & B5).
    exists cur2, bs2, (d ++ d2). split; [assumption|]. split; [assumption|]. split.
    + rewrite <- app_assoc, <- B3, app_assoc, <- A4.
      destruct (took s s1); cbn [concat]; rewrite ?app_nil_r, <- ?app_assoc; reflexivity.
    + split; [|lia]. destruct A5 as [[->|A5] A6]; [|right; lia]. exact B4.
Qed.

(* ---- every step returns ---- *)
Lemma dev_path_returns : forall c, exists F, forall e ts, ~ In 36 (v_name (e_env e)) -> (F <= e_fuel e)%nat ->
  exists p, dev_path e c ts = Ret p.
Proof.
  intros c.
  set (name := (match dc_file c with [] => s2z "$PNAME_$YEAR$MON$DAY_$PID." ++ to_string (dc_chan c) ++ to_string (dc_dev c) | _ => dc_file c end) ++ s2z ".log").
  exists (S (14 * (length name + length (dc_path c)))). intros e ts NV F. unfold dev_path. cbv zeta.
  unfold make_file_name. cbv zeta. fold name.
  destruct (fmt_name_ends (e_env e) (clock_of (e_zone e) ts) name (e_fuel e) NV) as (a & ->); [lia|]. cbn [bind]. unfold make_path_name.
  destruct (fmt_name_ends (e_env e) (clock_of (e_zone e) ts) (dc_path c) (e_fuel e) NV) as (b & ->); [lia|]. cbn [bind]. eauto.
Qed.

Theorem step_returns : forall c, rolls c < INT_MAX -> exists F, forall e s r i, ~ In 36 (v_name (e_env e)) -> (F <= e_fuel e)%nat ->
  valid_prio r -> exists s', dev_step e c s r i = Ret s'.
Proof.
  intros c R. destruct (dev_path_returns c) as (F & H). exists (F + Z.to_nat (Z.max 0 (eff_rolls c)) + 3)%nat.
  intros e s r i NV FF [P1 P2].
  assert (O : exists s1, open_device e c s r i = Ret s1).
  { unfold open_device. cbv zeta.
    set (s0 := if close_file c (d_log s) r then _ else s). destruct (d_open s0); [eauto|].
    destruct (H e (r_ts r) NV ltac:(lia)) as (p & E). rewrite E. cbn [bind]. destruct (250 <=? zlen p); [eauto|].
    assert (RF : exists f, roll_files e c (limit_out c (d_log s) r) (d_fs s0) p = Ret f).
    { unfold roll_files. cbv zeta. fold (rolls c). fold (eff_rolls c). destruct (_ && _); [|eauto].
      assert (EM : eff_rolls c < INT_MAX).
      { pose proof (eff_cap c). unfold cap in *. unfold INT_MAX in *. lia. }
      pose proof (rollback_total p (dev_path_log _ _ _ _ E) (eff_rolls c) EM (e_fuel e) (d_fs s0) 1 ltac:(lia) ltac:(lia)) as X.
      exact X. }
    destruct RF as (f & ->). cbn [bind]. destruct (negb (io_open i)); eauto. }
  unfold dev_step. cbv zeta. destruct (match d_open s with Some _ => false | None => _ end); [eauto|].
  destruct O as (s1 & ->). cbn [bind]. destruct (d_open s1); [|eauto]. unfold DEVICE_LOG_PRIORITY, DEVICE_LOG_MAX_ID.
  replace ((7 + r_prio r <? 0) || (18 <=? 7 + r_prio r)) with false by lia. eauto.
Qed.
