(* Properties of the file device: C35-C41 and C66-C68. *)
From Coq Require Import String ZArith List Bool Lia.
From Verif Require Import Base BaseFacts NumSpec LoggerState DateFmt DateProofs FileName FileNameSpec FileNameProofs
  FileDev FileDevSpec RollProofs FileDevProofs FileRunProofs FilePathProofs.
Import ListNotations.
Open Scope Z_scope.

(* ---- C35 ---- *)
Theorem C35_roll : forall p n f fuel, log_path p -> 1 <= n < INT_MAX -> n + 1 < Z.of_nat fuel ->
  exists f' m, rollback fuel f p 1 n = Ret f' /\ 0 <= m <= n + 1 /\
    (forall k, 0 <= k < m -> exists_at f p k) /\ (m = n + 1 \/ ~ exists_at f p m) /\ shifted f p n m f'.
Proof. exact rollback_shifts. Qed.
Print Assumptions C35_roll.

Definition ex_fs : fs := fun q =>
  if teq q (s2z "a.log") then Some (s2z "new") else if teq q (s2z "a.log.1") then Some (s2z "mid")
  else if teq q (s2z "a.log.2") then Some (s2z "old") else if teq q (s2z "b.log") then Some (s2z "b") else None.
Example C35_roll_example : log_path (s2z "a.log") /\
  match rollback 5 ex_fs (s2z "a.log") 1 2 with
  | Ret f => f (s2z "a.log") = None /\ f (s2z "a.log.1") = Some (s2z "new") /\ f (s2z "a.log.2") = Some (s2z "mid") /\
             f (s2z "a.log.3") = None /\ f (s2z "b.log") = Some (s2z "b")
  | _ => False
  end.
Proof. split; [exists (s2z "a"); reflexivity|]. vm_compute. repeat split. Qed.

(* ---- C36 ---- *)
Theorem C36_bounded : forall e c l s s', d_open s = None -> dev_run e c s l = Ret s' ->
  forall p k q x, Z.max 1 (rolls c) < k -> backup p k q -> d_fs s' q = Some x -> d_fs s q = Some x.
Proof.
  intros e c l s s' O R. apply (backups_bounded e c l s s'); [|exact R]. intros p P. congruence.
Qed.
Print Assumptions C36_bounded.

(* limit, rollback, daily, hourly, stuff_up *)
Definition ex_conf (lim roll dy hr st : Z) (file : text) : dconf :=
  mkDconf [1; 0; 0; 0; 0; 0; 0; 0; lim; roll; dy; hr; st; 0; 0] file [] 0 0.
Definition ex_env : denv := mkDenv (mkEnv (s2z "app") 42) (fixed_zone 28800) 300.
Definition ex_rec (ts : Z) (t : string) : drec * io := (mkRec ts 2 (s2z t), mkIo true 1000).
Definition ex_dev (f : fs) : dstate := mkDstate f None (fun _ => 0).
Definition files (s : outcome dstate) (l : list string) : list (option text) :=
  match s with Ret s => map (fun q => d_fs s (s2z q)) l | _ => [] end.

Definition ex_recs : list (drec * io) :=
  [ex_rec 1600000000 "aaaa"; ex_rec 1600000001 "bbb"; ex_rec 1600000002 "cc"; ex_rec 1600000003 "dddddddddddd"; ex_rec 1600000004 "e"].
Example C36_bounded_example :
  files (dev_run ex_env (ex_conf 8 2 0 0 0 (s2z "x")) (ex_dev (fun _ => None)) ex_recs)
    ["x.log"; "x.log.1"; "x.log.2"; "x.log.3"]%string
  = [Some (s2z "e"); Some (s2z "dddddddddddd"); Some (s2z "cc"); None].
Proof. vm_compute. reflexivity. Qed.

(* ---- C37 ---- *)
Theorem C37_sizes : forall e c l s s', 0 < limit c -> 0 < rolls c -> stuff_up c = false ->
  Forall (fun ri => valid_prio (fst ri)) l -> d_open s = None -> dev_run e c s l = Ret s' ->
  forall q x, d_fs s' q = Some x -> (exists q0, d_fs s q0 = Some x) \/ fits (limit c) l x.
Proof. exact sizes_limited. Qed.
Print Assumptions C37_sizes.

Example C37_sizes_example :
  0 < limit (ex_conf 8 2 0 0 0 (s2z "x")) /\ 0 < rolls (ex_conf 8 2 0 0 0 (s2z "x")) /\ stuff_up (ex_conf 8 2 0 0 0 (s2z "x")) = false /\
  Forall (fun ri => valid_prio (fst ri)) ex_recs /\
  exists s', dev_run ex_env (ex_conf 8 2 0 0 0 (s2z "x")) (ex_dev (fun _ => None)) ex_recs = Ret s' /\
    d_fs s' (s2z "x.log.1") = Some (s2z "dddddddddddd").
Proof.
  split; [reflexivity|]. split; [reflexivity|]. split; [reflexivity|].
  split; [repeat constructor; cbn; lia|]. eexists. split; [vm_compute; reflexivity|]. vm_compute. reflexivity.
Qed.

(* a record that fits stays in the open file; no other file changes *)
Theorem C37_stays : forall e c s r i s' p, valid_prio r -> d_open s = Some p -> stays c s r -> dev_step e c s r i = Ret s' ->
  took s s' = true /\ (forall q, q <> p -> d_fs s' q = d_fs s q) /\
  (full_write (r, i) -> d_open s' = Some p /\ forall x, d_fs s p = Some x -> d_fs s' p = Some (x ++ r_text r)).
Proof. exact step_stays. Qed.
Print Assumptions C37_stays.

(* 4 + 4 bytes in a file limited to 8 *)
Example C37_stays_example :
  files (dev_run ex_env (ex_conf 8 2 0 0 0 (s2z "x")) (ex_dev (fun _ => None)) [ex_rec 1600000000 "aaaa"; ex_rec 1600000001 "bbbb"])
    ["x.log"; "x.log.1"]%string = [Some (s2z "aaaabbbb"); None] /\
  match dev_run ex_env (ex_conf 8 2 0 0 0 (s2z "x")) (ex_dev (fun _ => None)) [ex_rec 1600000000 "aaaa"] with
  | Ret s => stays (ex_conf 8 2 0 0 0 (s2z "x")) s (fst (ex_rec 1600000001 "bbbb"))
  | _ => False
  end.
Proof. split; [vm_compute; reflexivity|]. cbv. split; [right; right; discriminate|]. split; reflexivity. Qed.

(* ---- C38 ---- *)
Theorem C38_day : forall e c o l s s1 r i s' p,
  e_zone e = fixed_zone o -> - 86400 <= o <= 86400 -> Forall (fun ri => valid_prio (fst ri)) l -> valid_prio r ->
  d_open s = None -> dev_run e c s l = Ret s1 -> dev_step e c s1 r i = Ret s' -> d_open s' = Some p ->
  exists ts0, dev_path e c ts0 = Ret p /\
    (daily c = true -> (ts0 + o) / 86400 = (r_ts r + o) / 86400) /\
    (daily c = false -> hourly c = true -> (ts0 + o) / 3600 = (r_ts r + o) / 3600).
Proof. exact same_day. Qed.
Print Assumptions C38_day.

(* a template that only uses the date: the record goes to the file named after its own day *)
Theorem C38_name : forall e c o l s s1 r i s' p lf lp,
  e_zone e = fixed_zone o -> - 86400 <= o <= 86400 -> Forall (fun ri => valid_prio (fst ri)) l -> valid_prio r ->
  d_open s = None -> dev_run e c s l = Ret s1 -> dev_step e c s1 r i = Ret s' -> d_open s' = Some p ->
  daily c = true -> dc_file c = source lf -> dc_path c = source lp -> Forall plain_tok lf -> Forall plain_tok lp -> source lf <> [] ->
  Forall (fun k => ~ In k [Esc EHour; Esc EMin; Esc ESec]) (lf ++ lp) -> ~ In 36 (v_name (e_env e)) ->
  (8 * (length (source lf) + length (source lp) + 4) < e_fuel e)%nat ->
  dev_path e c (r_ts r) = Ret p.
Proof.
  intros e c o l s s1 r i s' p lf lp Z O V VP N R S P DY EF EP PF PP NE TD NV F.
  destruct (same_day e c o l s s1 r i s' p Z O V VP N R S P) as (ts0 & P0 & D & _).
  rewrite <- P0. symmetry. apply Forall_app in TD. destruct TD as [T1 T2].
  assert (TT : forall l, Forall (fun k => ~ In k [Esc EHour; Esc EMin; Esc ESec]) l -> Forall (fun k => ~ time_of_day k) l).
  { intros l0 H. eapply Forall_impl; [|exact H]. intros k K [X|[X|X]]; apply K; subst k; cbn; auto. }
  apply (dev_path_day e c lf lp ts0 (r_ts r) NV EF EP PF PP NE (TT _ T1) (TT _ T2) F).
  unfold off_at. rewrite Z, !z_off_fixed. exact (D DY).
Qed.
Print Assumptions C38_name.

(* 2020-09-13 23:59:59 and 2020-09-14 00:00:00 at UTC+8, then back again *)
Example C38_name_example :
  files (dev_run ex_env (ex_conf 0 0 1 0 0 (s2z "x_%F")) (ex_dev (fun _ => None))
           [ex_rec 1600012799 "a"; ex_rec 1600012800 "b"; ex_rec 1600012799 "c"])
    ["x_2020-09-13.log"; "x_2020-09-14.log"]%string = [Some (s2z "ac"); Some (s2z "b")] /\
  s2z "x_%F" = source [Lit (s2z "x_"); Esc EDate].
Proof. split; [vm_compute; reflexivity|reflexivity]. Qed.

(* ---- C39 ---- *)
Theorem C39_step : forall e c s r i s', consistent s -> valid_prio r -> full_write (r, i) -> dev_step e c s r i = Ret s' ->
  consistent s' /\
  (if took s s'
   then lines s' = lines s + 1 /\ bytes s' = bytes s + zlen (r_text r) /\
        (forall k, 0 <= k < 7 -> d_log s' (DEVICE_LOG_PRIORITY + k) =
           d_log s (DEVICE_LOG_PRIORITY + k) + if k =? r_prio r then zlen (r_text r) else 0) /\
        exists p old, d_open s' = Some p /\ d_fs s' p = Some (old ++ r_text r) /\ (old = [] \/ d_fs s p = Some old)
   else bytes s' = bytes s /\ (forall k, 0 <= k < 7 -> d_log s' (DEVICE_LOG_PRIORITY + k) = d_log s (DEVICE_LOG_PRIORITY + k)) /\
        d_open s' = None).
Proof. exact step_spec. Qed.
Print Assumptions C39_step.

Theorem C39_takes : forall e c s r i s', valid_prio r -> dev_step e c s r i = Ret s' ->
  (d_open s <> None \/ last_try s + 5 <= r_ts r) -> io_open i = true ->
  (forall p, dev_path e c (r_ts r) = Ret p -> zlen p < 250) -> took s s' = true.
Proof. exact step_takes. Qed.
Print Assumptions C39_takes.

Theorem C39_backoff : forall e c s r i, d_open s = None -> r_ts r < last_try s + 5 -> dev_step e c s r i = Ret s.
Proof. exact step_backoff. Qed.
Print Assumptions C39_backoff.

Theorem C39_failed : forall e c s r i s', d_open s = None -> last_try s + 5 <= r_ts r -> io_open i = false ->
  dev_step e c s r i = Ret s' -> d_open s' = None /\ last_try s' = r_ts r /\ took s s' = false.
Proof. exact step_failed. Qed.
Print Assumptions C39_failed.

Theorem C39_counts : forall e c s l ts s', drun e c s l ts s' ->
  Forall (fun ri => valid_prio (fst ri)) l -> Forall full_write l -> consistent s ->
  consistent s' /\ lines s' = lines s + zlen ts /\ bytes s' = bytes s + zlen (concat ts).
Proof. exact run_counts. Qed.
Print Assumptions C39_counts.

Theorem C39_returns : forall c, rolls c < INT_MAX -> exists F, forall e s r i, ~ In 36 (v_name (e_env e)) -> (F <= e_fuel e)%nat ->
  valid_prio r -> exists s', dev_step e c s r i = Ret s'.
Proof. exact step_returns. Qed.
Print Assumptions C39_returns.

(* the second record comes while the open failure is recent *)
Example C39_example :
  match dev_run ex_env (ex_conf 0 0 0 0 0 (s2z "x")) (ex_dev (fun _ => None))
    [(mkRec 1600000000 2 (s2z "a"), mkIo false 9); ex_rec 1600000004 "b"; ex_rec 1600000005 "c"; ex_rec 1600000005 "dd"] with
  | Ret s => d_fs s (s2z "x.log") = Some (s2z "cdd") /\ lines s = 2 /\ bytes s = 3 /\ cur_size s = 3
  | _ => False
  end.
Proof. vm_compute. repeat split. Qed.

(* ---- C40 ---- *)
Theorem C40_names : forall v t l chan dev fuel,
  valid_clock t -> 0 <= v_pid v -> ~ In 36 (v_name v) -> Forall plain_tok l -> source l <> [] ->
  (8 * (length (source l) + 4) < fuel)%nat ->
  exists vals, Forall2 (tok_val v t) l vals /\
    make_file_name fuel v t (source l) chan dev = Ret (concat vals ++ s2z ".log").
Proof. exact make_file_name_spec. Qed.
Print Assumptions C40_names.

Theorem C40_default : forall v t chan dev fuel,
  valid_clock t -> 0 <= v_pid v -> ~ In 36 (v_name v) -> 0 <= chan -> 0 <= dev ->
  (8 * (27 + length (to_string chan ++ to_string dev) + 4) < fuel)%nat ->
  exists c d vals, is_numeral 10 1 chan c /\ is_numeral 10 1 dev d /\ Forall2 (tok_val v t) (default_toks c d) vals /\
    make_file_name fuel v t [] chan dev = Ret (concat vals ++ s2z ".log").
Proof. exact make_file_name_default. Qed.
Print Assumptions C40_default.

Example C40_example :
  make_file_name 300 (mkEnv (s2z "app") 42) (mkClock 120 1 3 4 5 6) (s2z "$PNAME-%F_$HOUR$MIN$SEC.$PID") 1 2 =
    Ret (s2z "app-2020-02-03_040506.000042.log") /\
  make_file_name 300 (mkEnv (s2z "app") 42) (mkClock 120 1 3 4 5 6) [] 1 12 = Ret (s2z "app_20200203_000042.112.log").
Proof. vm_compute. split; reflexivity. Qed.

(* the full path at a moment, in a zone of fixed offset *)
Theorem C40_path : forall e c o lf lp ts, e_zone e = fixed_zone o -> 0 <= ts + o ->
  0 <= v_pid (e_env e) -> ~ In 36 (v_name (e_env e)) ->
  dc_file c = source lf -> dc_path c = source lp -> Forall plain_tok lf -> Forall plain_tok lp -> source lf <> [] ->
  (8 * (length (source lf) + length (source lp) + 4) < e_fuel e)%nat ->
  exists t vf vp dir, local_clock (ts + o) t /\ Forall2 (tok_val (e_env e) t) lf vf /\ Forall2 (tok_val (e_env e) t) lp vp /\
    dir_of (concat vp) dir /\ dev_path e c ts = Ret (dir ++ concat vf ++ s2z ".log").
Proof. exact dev_path_spec. Qed.
Print Assumptions C40_path.

(* 2020-09-14 00:20:05 at UTC+8 *)
Example C40_path_example :
  dev_path ex_env (mkDconf [1; 0; 0; 0; 0; 0; 0; 0; 0; 0; 0; 0; 0; 0; 0] (s2z "x$HOUR$MIN$SEC") (s2z ".\log\%F") 0 0) 1600014005
    = Ret (s2z "./log/2020-09-14/x002005.log") /\
  s2z ".\log\%F" = source [Lit (s2z ".\log\"); Esc EDate] /\ s2z "x$HOUR$MIN$SEC" = source [Lit (s2z "x"); Esc EHour; Esc EMin; Esc ESec].
Proof. split; [vm_compute; reflexivity|]. split; reflexivity. Qed.

(* ---- C41 ---- *)
Theorem C41_terminates_partial : forall v t fmt chan dev, ~ In 36 (v_name v) ->
  exists fuel r, make_file_name fuel v t fmt chan dev = Ret r.
Proof.
  intros v t fmt chan dev NV. unfold make_file_name. cbv zeta.
  match goal with |- exists fuel r, fmt_name fuel v t ?x = _ => exists (S (14 * length x)); apply fmt_name_ends; [exact NV|lia] end.
Qed.
Print Assumptions C41_terminates_partial.

(* a process that was started as "$PNAME" *)
Theorem C41_refuted : exists v t fmt, forall fuel chan dev, make_file_name fuel v t fmt chan dev = Fuel.
Proof.
  exists (mkEnv (s2z "$PNAME") 1), (mkClock 120 0 1 0 0 0), (s2z "$PNAME"). intros fuel chan dev.
  destruct fuel as [|fuel]; [reflexivity|].
  exact (fmt_loop_stuck (mkClock 120 0 1 0 0 0) (S fuel) 1 [] (s2z ".log")).
Qed.
Print Assumptions C41_refuted.

(* ---- C66: what is kept ---- *)
Theorem C66_contents : forall e c s l ts s' p cur bs, drun e c s l ts s' -> (forall t q, dev_path e c t = Ret q -> q = p) ->
  d_open s = None -> Forall (fun ri => valid_prio (fst ri)) l -> Forall full_write l ->
  rolls c <= INT_MAX -> chain (d_fs s) p cur bs -> zlen bs <= Z.max 1 (rolls c) ->
  exists cur' bs' lost, chain (d_fs s') p cur' bs' /\ zlen bs' <= Z.max 1 (rolls c) /\
    whole cur bs ++ concat ts = lost ++ whole cur' bs' /\ (lost = [] \/ zlen bs' = Z.max 1 (rolls c)).
Proof.
  intros e c s l ts s' p cur bs D PATH O V F RI C L.
  assert (E : eff_rolls c = Z.max 1 (rolls c)).
  { unfold eff_rolls. destruct (0 <? rolls c) eqn:X; rewrite int_of_small; unfold INT_MAX in *; lia. }
  rewrite <- E in *.
  destruct (run_chain e c s l ts s' D p cur bs (eff_rolls c) PATH eq_refl) as (cur' & bs' & d & A1 & A2 & A3 & A4 & _); try assumption; try lia.
  - intros q Q. congruence.
  - intros X. congruence.
  - exists cur', bs', d. split; [assumption|]. split; [assumption|]. split; assumption.
Qed.
Print Assumptions C66_contents.

Example C66_example : (forall t q, dev_path ex_env (ex_conf 8 2 0 0 0 (s2z "x")) t = Ret q -> q = s2z "x.log") /\
  chain (fun _ => None) (s2z "x.log") None [] /\ Forall full_write ex_recs.
Proof.
  split.
  - intros t q H. unfold dev_path in H. cbv zeta in H.
    change (make_file_name (e_fuel ex_env) (e_env ex_env) (clock_of (e_zone ex_env) t) (dc_file (ex_conf 8 2 0 0 0 (s2z "x"))) 0 0)
      with (@Ret text (s2z "x.log")) in H.
    cbn in H. injection H as <-. reflexivity.
  - split; [split; [reflexivity|]; intros k q K _; destruct (Z.to_nat (k - 1)); reflexivity|].
    repeat constructor; cbv; discriminate.
Qed.

(* ---- C67: a day with a change of offset ---- *)
(* In a zone that changes between two offsets at any times: the file of a record
   is that of the record ts0 for which it was opened, and by the offset of ts0
   both are of the same day (the same hour, if only rolling by the hour). *)
Theorem C67_opened : forall e c l s s1 r i s' p,
  Forall (fun ri => valid_prio (fst ri)) l -> valid_prio r ->
  d_open s = None -> dev_run e c s l = Ret s1 -> dev_step e c s1 r i = Ret s' -> d_open s' = Some p ->
  let off t := if z_isdst (e_zone e) t then z_dst (e_zone e) else z_std (e_zone e) in
  exists ts0, In ts0 (map (fun ri => r_ts (fst ri)) l ++ [r_ts r]) /\ dev_path e c ts0 = Ret p /\
    (daily c = true -> (ts0 + off ts0) / 86400 = (r_ts r + off ts0) / 86400) /\
    (daily c = false -> hourly c = true -> (ts0 + off ts0) / 3600 = (r_ts r + off ts0) / 3600).
Proof. exact run_day. Qed.
Print Assumptions C67_opened.
(* So the file is that of the record's own day if every record less than a day
   away from it was written under the same offset.  Missing: a record less than
   a day after the clocks went forward. *)
Theorem C67_near_partial : forall e c l s s1 r i s' p lf lp,
  Forall (fun ri => valid_prio (fst ri)) l -> valid_prio r ->
  d_open s = None -> dev_run e c s l = Ret s1 -> dev_step e c s1 r i = Ret s' -> d_open s' = Some p ->
  let off t := if z_isdst (e_zone e) t then z_dst (e_zone e) else z_std (e_zone e) in
  (forall x, In x l -> Z.abs (r_ts (fst x) - r_ts r) < 86400 -> off (r_ts (fst x)) = off (r_ts r)) ->
  daily c = true -> dc_file c = source lf -> dc_path c = source lp -> Forall plain_tok lf -> Forall plain_tok lp -> source lf <> [] ->
  Forall (fun k => ~ In k [Esc EHour; Esc EMin; Esc ESec]) (lf ++ lp) -> ~ In 36 (v_name (e_env e)) ->
  (8 * (length (source lf) + length (source lp) + 4) < e_fuel e)%nat ->
  dev_path e c (r_ts r) = Ret p.
Proof.
  intros e c l s s1 r i s' p lf lp V VP N R S P off NR DY EF EP PF PP NE TD NV F.
  destruct (run_day e c l s s1 r i s' p V VP N R S P) as (ts0 & IN & P0 & W & _). specialize (W DY).
  rewrite <- P0. symmetry. apply Forall_app in TD. destruct TD as [T1 T2].
  assert (TT : forall l, Forall (fun k => ~ In k [Esc EHour; Esc EMin; Esc ESec]) l -> Forall (fun k => ~ time_of_day k) l).
  { intros l0 H. eapply Forall_impl; [|exact H]. intros k K [X|[X|X]]; apply K; subst k; cbn; auto. }
  apply (dev_path_day e c lf lp ts0 (r_ts r) NV EF EP PF PP NE (TT _ T1) (TT _ T2) F).
  assert (EO : off_at (e_zone e) ts0 = off_at (e_zone e) (r_ts r)).
  { apply in_app_or in IN. destruct IN as [IN|[<-|[]]]; [|reflexivity]. apply in_map_iff in IN. destruct IN as (x & <- & IN).
    apply (NR x IN). clear - W. generalize dependent (off_at (e_zone e) (r_ts (fst x))). intros o W. lia. }
  rewrite <- EO. exact W.
Qed.
Print Assumptions C67_near_partial.
(* The zone of the refutation with its return to winter time: records of the
   days before and after, and of the autumn *)
Definition ex_ny : zone := mkZones (fun t => (1615705200 <=? t) && (t <? 1636264800)) (-18000) (-14400).
Example C67_near_example :
  let e := mkDenv (mkEnv (s2z "app") 42) ex_ny 300 in let c := ex_conf 0 0 1 0 0 (s2z "x_%F") in
  let l := [ex_rec 1615610000 "a"; ex_rec 1615800000 "b"] in let r := mkRec 1615850000 2 (s2z "c") in
  (forall x, In x l -> Z.abs (r_ts (fst x) - r_ts r) < 86400 -> z_isdst ex_ny (r_ts (fst x)) = z_isdst ex_ny (r_ts r)) /\
  z_isdst ex_ny 1615610000 = false /\ z_isdst ex_ny 1615850000 = true /\
  files (dev_run e c (ex_dev (fun _ => None)) (l ++ [(r, mkIo true 10)])) ["x_2021-03-12.log"; "x_2021-03-15.log"]%string = [Some (s2z "a"); Some (s2z "bc")].
Proof.
  cbv zeta. split; [|split; [reflexivity|split; [reflexivity|vm_compute; reflexivity]]].
  intros x [<-|[<-|[]]] H; vm_compute in H; vm_compute; congruence || reflexivity.
Qed.
(* Offset -5h, -4h from 2021-03-14 02:00 local on; daily rolling.  The record of
   March 15, 00:30 goes to the file of March 14. *)
Theorem C67_dst_refuted : exists e c s1 r i s' p,
  daily c = true /\ dev_run e c (mkDstate (fun _ => None) None (fun _ => 0)) [(mkRec 1615701600 2 [97], i)] = Ret s1 /\
  dev_step e c s1 r i = Ret s' /\ d_open s' = Some p /\ p = s2z "x_2021-03-14.log" /\ dev_path e c (r_ts r) = Ret (s2z "x_2021-03-15.log").
Proof.
  exists (mkDenv (mkEnv (s2z "app") 42) (mkZone 1615705200 (-18000) (-14400)) 300), (ex_conf 0 0 1 0 0 (s2z "x_%F")).
  eexists. exists (mkRec 1615782600 2 [98]), (mkIo true 10). eexists. eexists.
  split; [reflexivity|]. split; [vm_compute; reflexivity|]. split; [vm_compute; reflexivity|]. split; [vm_compute; reflexivity|].
  split; vm_compute; reflexivity.
Qed.
Print Assumptions C67_dst_refuted.

(* ---- C68: counters when fwrite fails ---- *)
Theorem C68_short_write_refuted : exists e c s r i s', consistent s /\ valid_prio r /\ dev_step e c s r i = Ret s' /\
  bytes s' = bytes s + 4 /\ (forall q, d_fs s q = None) /\ (forall q x, d_fs s' q = Some x -> zlen x <= 1).
Proof.
  exists ex_env, (ex_conf 0 0 0 0 0 (s2z "x")), (ex_dev (fun _ => None)), (mkRec 1600000000 2 (s2z "abcd")), (mkIo true 1).
  eexists. split; [intros p P; discriminate P|]. split; [cbv; lia || (split; [discriminate|reflexivity])|].
  split; [vm_compute; reflexivity|]. split; [reflexivity|]. split; [reflexivity|].
  intros q x H. cbn in H.
  repeat match type of H with context [if ?b then _ else _] => destruct b; [injection H as <-; vm_compute; discriminate|] end.
  discriminate H.
Qed.
Print Assumptions C68_short_write_refuted.

(* whatever fwrite takes: the head of the record is in the file, the file is closed if
   something is missing, and the counters take the whole length *)
Theorem C68_step_partial : forall e c s r i s', consistent s -> valid_prio r -> dev_step e c s r i = Ret s' ->
  consistent s' /\
  (if took s s'
   then lines s' = lines s + 1 /\ bytes s' = bytes s + zlen (r_text r) /\
        exists p old a b, r_text r = a ++ b /\ zlen a = Z.min (Z.max 0 (io_wr i)) (zlen (r_text r)) /\
          (old = [] \/ d_fs s p = Some old) /\ d_fs s' p = Some (old ++ a) /\
          d_open s' = match b with [] => Some p | _ => None end
   else bytes s' = bytes s /\ d_open s' = None).
Proof. exact short_spec. Qed.
Print Assumptions C68_step_partial.

(* the size of the open file is right at all times; the totals count whole records *)
Theorem C68_counts_partial : forall e c s l ts s', drun e c s l ts s' ->
  Forall (fun ri => valid_prio (fst ri)) l -> consistent s ->
  consistent s' /\ lines s' = lines s + zlen ts /\ bytes s' = bytes s + zlen (concat ts).
Proof. exact run_short. Qed.
Print Assumptions C68_counts_partial.

(* three of the four bytes are lost; the next record is behind the one that was kept *)
Example C68_counts_example :
  match dev_run ex_env (ex_conf 0 0 0 0 0 (s2z "x")) (ex_dev (fun _ => None))
    [(mkRec 1600000000 2 (s2z "abcd"), mkIo true 1); ex_rec 1600000009 "ee"] with
  | Ret s => d_fs s (s2z "x.log") = Some (s2z "aee") /\ lines s = 2 /\ bytes s = 6 /\ cur_size s = 3
  | _ => False
  end.
Proof. vm_compute. repeat split. Qed.

