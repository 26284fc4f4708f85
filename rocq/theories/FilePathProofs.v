(* The full path of a log file, and records that stay in the open file. *)
From Coq Require Import String ZArith List Bool Lia ZifyBool ZifyNat ZifyN.
From Verif Require Import Base BaseFacts NumSpec NumFacts LoggerState DateFmt DateSpec CalendarFacts DateProofs
  FileName FileNameSpec FileNameProofs FileDev FileDevSpec RollProofs FileDevProofs FileRunProofs.
Import ListNotations.
Open Scope Z_scope.

Lemma clock_of_local : forall o ts, local_clock (ts + o) (clock_of (fixed_zone o) ts).
Proof.
  intros o ts. unfold local_clock, clock_of, time_to_tm. rewrite !z_off_fixed.
  destruct (civil_correct ((ts + o) / 86400)) as (y & m & d & E & V & D & _). rewrite E. cbn [tm_year tm_mon tm_mday tm_isdst k_year k_mon k_mday k_hour k_min k_sec].
  replace (y - 1900 + 1900) with y by lia. replace (m - 1 + 1) with m by lia. auto.
Qed.

Lemma local_clock_valid : forall l t, 0 <= l -> local_clock l t -> valid_clock t.
Proof.
  intros l t L (V & D & H & M & S). destruct (valid_small _ _ _ V) as [V1 V2].
  pose proof (day_number_range _ _ _ V) as R.
  assert (Y : 1970 <= k_year t + 1900).
  { destruct (Z.le_gt_cases 1970 (k_year t + 1900)) as [G|G]; [assumption|].
    pose proof (year_start_mono (k_year t + 1900 + 1) 1970 ltac:(lia)). assert (0 <= l / 86400) by lia. lia. }
  unfold valid_clock. lia.
Qed.

Lemma map_slash : forall p, Forall2 (fun a b => (a = 92 -> b = 47) /\ (a <> 92 -> b = a)) p
  (map (fun ch => if ch =? 92 then 47 else ch) p).
Proof. induction p as [|c p IH]; constructor; [|assumption]. destruct (c =? 92) eqn:E; lia. Qed.

Theorem dev_path_spec : forall e c o lf lp ts, e_zone e = fixed_zone o -> 0 <= ts + o ->
  0 <= v_pid (e_env e) -> ~ In 36 (v_name (e_env e)) ->
  dc_file c = source lf -> dc_path c = source lp -> Forall plain_tok lf -> Forall plain_tok lp -> source lf <> [] ->
  (8 * (length (source lf) + length (source lp) + 4) < e_fuel e)%nat ->
  exists t vf vp dir, local_clock (ts + o) t /\ Forall2 (tok_val (e_env e) t) lf vf /\ Forall2 (tok_val (e_env e) t) lp vp /\
    dir_of (concat vp) dir /\ dev_path e c ts = Ret (dir ++ concat vf ++ s2z ".log").
Proof.
  intros e c o lf lp ts Z L VP NV EF EP PF PP NE F.
  pose proof (clock_of_local o ts) as LC. pose proof (local_clock_valid _ _ L LC) as VC.
  unfold dev_path. cbv zeta. rewrite Z, EF, EP. set (t := clock_of (fixed_zone o) ts) in *. exists t.
  destruct (make_file_name_spec (e_env e) t lf (dc_chan c) (dc_dev c) (e_fuel e) VC VP NV PF NE ltac:(lia)) as (vf & F1 & E1).
  destruct (tok_vals (e_env e) t lp VC VP) as (vp & F2 & C2).
  exists vf, vp. rewrite E1. cbn [bind]. unfold make_path_name. destruct (plain_free _ PP) as [DF PF2].
  rewrite fmt_name_toks by (assumption || lia). cbn [bind]. rewrite <- C2.
  set (q := map _ (concat vp)). assert (Q : Forall2 (fun a b => (a = 92 -> b = 47) /\ (a <> 92 -> b = a)) (concat vp) q) by apply map_slash.
  clearbody q. exists (match q with [] => [] | _ => if last q 0 =? 47 then q else q ++ [47] end).
  split; [assumption|]. split; [assumption|]. split; [assumption|]. split; [|destruct q; reflexivity].
  exists q. split; [assumption|]. destruct q as [|x r] eqn:EQ.
  - left. inversion Q. auto.
  - right. rewrite <- EQ in *. assert (NQ : q <> []) by (rewrite EQ; discriminate).
    destruct (exists_last NQ) as (y & z & YZ). destruct (last q 0 =? 47) eqn:E.
    + left. rewrite YZ, last_last in E. split; [|reflexivity]. exists y. rewrite YZ. do 2 f_equal. lia.
    + right. split; [assumption|]. split; [|reflexivity]. intros (w & W). rewrite W, last_last in E. discriminate.
Qed.

Theorem step_stays : forall e c s r i s' p, valid_prio r -> d_open s = Some p -> stays c s r -> dev_step e c s r i = Ret s' ->
  took s s' = true /\ (forall q, q <> p -> d_fs s' q = d_fs s q) /\
  (full_write (r, i) -> d_open s' = Some p /\ forall x, d_fs s p = Some x -> d_fs s' p = Some (x ++ r_text r)).
Proof.
  intros e c s r i s' p VP O (S1 & S2 & S3) H.
  assert (CL : close_file c (d_log s) r = false).
  { unfold close_file. unfold daily in S2. unfold hourly in S3. rewrite S2, S3.
    unfold limit_out. unfold limit, rolls, cur_size in S1.
    destruct (_ && _ && _) eqn:E; [|reflexivity]. lia. }
  apply step_cases in H. destruct H as [W|s1 W OP N|s1 p1 W OP P1 V].
  - unfold waiting in W. rewrite O in W. discriminate.
  - destruct OP as [p2 C O2|path C D|path f C D|path f C D]; [rewrite O in N; discriminate|..]; destruct C as [C|C]; rewrite ?CL, ?O in C; discriminate.
  - assert (s1 = s) by (destruct OP as [p2 C O2|path C D|path f C D|path f C D]; [reflexivity|..]; destruct C as [C|C]; rewrite ?CL, ?O in C; discriminate). subst s1.
    assert (p1 = p) by congruence. subst p1.
    destruct (file_write_some s p (r_text r) i O) as (n & N & NF2 & WP & WO & E).
    destruct (count_log_at (d_log s) r VP) as (CC & _).
    split; [|split].
    + unfold took, lines. cbn [d_log]. rewrite CC. lia.
    + cbn [d_fs]. exact WO.
    + unfold full_write. cbn [fst snd d_fs d_open]. intros FW. rewrite (NF2 FW) in *. rewrite Z.eqb_refl in E. split; [assumption|].
      intros x X. rewrite (WP x X), firstn_all_z. reflexivity.
Qed.
