(* Property theorems C117: printed times in an arbitrary time zone. *)
From Coq Require Import String ZArith List Bool Lia ZifyBool.
From Verif Require Import Base BaseFacts NumFmt NumSpec DateFmt DateSpec CalendarFacts DateProofs DateZone DateZoneSpec DateZoneProofs.
Import ListNotations.
Open Scope Z_scope.

(* C117: in any time zone, with any number of changes of the offset, the text is
   the calendar text of the instant by the offset of the instant f for which
   the calendar was last asked on this thread, and only its 23 bytes change. *)
Theorem C117_shown : forall z hist ts p f,
  Forall (fun t => - 2 ^ 55 <= t <= 2 ^ 55) (hist ++ [ts]) ->
  Forall (fun t => - 86400 <= tz_off z t <= 86400) (hist ++ [ts]) ->
  Forall (steady z) (hist ++ [ts]) -> 0 <= p < 2 ^ 32 ->
  asked z None (hist ++ [ts]) = Some f ->
  (exists y m d, valid_date y m d /\ day_number y m d = (ts + tz_off z f) / 86400 /\ 0 <= y <= 9999) ->
  exists t, is_date_text (ts + tz_off z f) p t /\ zlen t = 23 /\
    exists c c', tz_history z cache_init hist = Ret c /\
      forall pre old post, zlen old = 23 ->
        tz_write_date z c (pre ++ old ++ post) (zlen pre) ts p = Ret (c', pre ++ t ++ post, 23).
Proof. exact tz_write_ok. Qed.
Print Assumptions C117_shown.

(* The text is right exactly when the offset has not changed since: what is
   written is the text of the local time of ts if and only if f and ts have the
   same offset. *)
Theorem C117_exact : forall z hist ts p f,
  Forall (fun t => - 2 ^ 55 <= t <= 2 ^ 55) (hist ++ [ts]) ->
  Forall (fun t => - 86400 <= tz_off z t <= 86400) (hist ++ [ts]) ->
  Forall (steady z) (hist ++ [ts]) -> 0 <= p < 2 ^ 32 ->
  asked z None (hist ++ [ts]) = Some f ->
  (exists y m d, valid_date y m d /\ day_number y m d = (ts + tz_off z f) / 86400 /\ 0 <= y <= 9999) ->
  exists t c c', tz_history z cache_init hist = Ret c /\
    (forall pre old post, zlen old = 23 ->
      tz_write_date z c (pre ++ old ++ post) (zlen pre) ts p = Ret (c', pre ++ t ++ post, 23)) /\
    (is_date_text (ts + tz_off z ts) p t <-> tz_off z f = tz_off z ts).
Proof.
  intros z hist ts p f H1 H2 H3 Hp E Hy.
  destruct (tz_write_ok z hist ts p f H1 H2 H3 Hp E Hy) as (t & T & L & c & c' & Hh & W).
  exists t, c, c'. split; [assumption|]. split; [assumption|]. split.
  - intros H. pose proof (date_text_inj _ _ _ _ H T L). lia.
  - intros <-. assumption.
Qed.
Print Assumptions C117_exact.

(* It is right whenever every time printed on the thread less than a day away
   from ts had the offset of ts. *)
Theorem C117_near : forall z hist ts p,
  Forall (fun t => - 2 ^ 55 <= t <= 2 ^ 55) (hist ++ [ts]) ->
  Forall (fun t => - 86400 <= tz_off z t <= 86400) (hist ++ [ts]) ->
  Forall (steady z) (hist ++ [ts]) -> 0 <= p < 2 ^ 32 ->
  (exists y m d, valid_date y m d /\ day_number y m d = (ts + tz_off z ts) / 86400 /\ 0 <= y <= 9999) ->
  Exists (fun t => ~ 0 <= t < 86400) (hist ++ [ts]) ->
  (forall h, In h hist -> Z.abs (h - ts) < 86400 -> tz_off z h = tz_off z ts) ->
  exists t, is_date_text (ts + tz_off z ts) p t /\ zlen t = 23 /\
    exists c c', tz_history z cache_init hist = Ret c /\
      forall pre old post, zlen old = 23 ->
        tz_write_date z c (pre ++ old ++ post) (zlen pre) ts p = Ret (c', pre ++ t ++ post, 23).
Proof.
  intros z hist ts p H1 H2 H3 Hp Hy Hex Hn.
  destruct (asked z None (hist ++ [ts])) as [f|] eqn:E.
  2: { exfalso. apply (asked_some z (hist ++ [ts]) None); auto. }
  assert (So: small_off z ts) by (apply Forall_app in H2; destruct H2 as (_ & H2); inversion H2; assumption).
  assert (Ef: tz_off z f = tz_off z ts).
  { pose proof (asked_last z None hist ts f So E) as W.
    destruct (asked_in z (hist ++ [ts]) None f E) as [H|H]; [discriminate|].
    apply in_app_or in H. destruct H as [H|[<-|[]]]; [|reflexivity].
    apply Hn; [assumption|]. unfold start_of, day_of in W. lia. }
  rewrite <- Ef in *. apply tz_write_ok; assumption.
Qed.
Print Assumptions C117_near.

(* With a mktime that keeps the contract of the C standard, and nothing more, it
   is right on a thread that prints times only of days on which the clocks do
   not change. *)
Theorem C117_calm : forall z hist ts p, mktime_contract z ->
  Forall (fun t => - 2 ^ 55 <= t <= 2 ^ 55) (hist ++ [ts]) ->
  Forall (fun t => - 86400 <= tz_off z t <= 86400) (hist ++ [ts]) ->
  Forall (calm z) (hist ++ [ts]) -> 0 <= p < 2 ^ 32 ->
  (exists y m d, valid_date y m d /\ day_number y m d = (ts + tz_off z ts) / 86400 /\ 0 <= y <= 9999) ->
  Exists (fun t => ~ 0 <= t < 86400) (hist ++ [ts]) ->
  exists t, is_date_text (ts + tz_off z ts) p t /\ zlen t = 23 /\
    exists c c', tz_history z cache_init hist = Ret c /\
      forall pre old post, zlen old = 23 ->
        tz_write_date z c (pre ++ old ++ post) (zlen pre) ts p = Ret (c', pre ++ t ++ post, 23).
Proof.
  intros z hist ts p HM H1 H2 H3 Hp Hy Hex.
  assert (St: Forall (steady z) (hist ++ [ts])).
  { eapply Forall_impl; [|exact H3]. intros t. apply calm_steady. assumption. }
  destruct (asked z None (hist ++ [ts])) as [f|] eqn:E.
  2: { exfalso. apply (asked_some z (hist ++ [ts]) None); auto. }
  assert (So: small_off z ts) by (apply Forall_app in H2; destruct H2 as (_ & H2); inversion H2; assumption).
  assert (Cf: calm z f).
  { destruct (asked_in z (hist ++ [ts]) None f E) as [H|H]; [discriminate|].
    rewrite Forall_forall in H3. apply H3. assumption. }
  rewrite (asked_calm z hist ts f So Cf E) in *. apply tz_write_ok; assumption.
Qed.
Print Assumptions C117_calm.

(* The zones of C11 are among these zones: nothing else is printed there. *)
Theorem C117_agrees : forall z hist ts p dst off c,
  tz_history (tz_of_zone z) c hist = date_history z c hist /\
  tz_write_date (tz_of_zone z) c dst off ts p = write_date z c dst off ts p.
Proof. intros. split; [apply tz_of_zone_history|apply tz_of_zone_write]. Qed.
Print Assumptions C117_agrees.

(* Central Europe in 2024: summer time from 31 March 01:00 UTC to 27 October
   01:00 UTC; mktime goes by the flag, as glibc does. *)
Definition summer2024 (t : Z) : bool := (1711846800 <=? t) && (t <? 1729990800).
Definition cet : tz :=
  mkTz (fun t => if summer2024 t then 7200 else 3600) summer2024 (fun day b => day * 86400 - if b then 7200 else 3600).

Lemma cet_steady : forall t, steady cet t.
Proof. intros t. unfold steady, start_of, cet, day_of. cbn [tz_mk tz_dst tz_off]. destruct (summer2024 t); reflexivity. Qed.
Lemma cet_small : forall t, - 86400 <= tz_off cet t <= 86400.
Proof. intros t. cbn. destruct (summer2024 t); lia. Qed.

(* on the morning of 31 March, 00:30 then 03:30 (shown as 02:30); a day later
   the summer time is shown again *)
Example C117_shown_hypotheses :
  let hist := [1711841400] in let ts := 1711848600 in
  Forall (steady cet) (hist ++ [ts]) /\ asked cet None (hist ++ [ts]) = Some 1711841400 /\
  tz_off cet 1711841400 <> tz_off cet ts /\
  (exists y m d, valid_date y m d /\ day_number y m d = (ts + 3600) / 86400 /\ 0 <= y <= 9999) /\
  exists c c', tz_history cet cache_init hist = Ret c /\
    tz_write_date cet c (repeat 0 23) 0 ts 7 = Ret (c', s2z "[20240331 02:30:00.007]", 23).
Proof.
  cbv zeta. split; [repeat constructor; apply cet_steady|]. split; [vm_compute; reflexivity|].
  split; [vm_compute; congruence|].
  split; [exists 2024, 3, 31; unfold valid_date; vm_compute; repeat split; congruence|].
  eexists. eexists. split; [vm_compute; reflexivity|]. vm_compute. reflexivity.
Qed.

Example C117_near_hypotheses :
  let hist := [1711841400; 1711848600; 1700000000; 1711935100] in let ts := 1711936000 in
  (forall h, In h hist -> Z.abs (h - ts) < 86400 -> tz_off cet h = tz_off cet ts) /\
  (exists h, In h hist /\ tz_off cet h <> tz_off cet ts) /\
  (exists y m d, valid_date y m d /\ day_number y m d = (ts + tz_off cet ts) / 86400 /\ 0 <= y <= 9999) /\
  exists c c', tz_history cet cache_init hist = Ret c /\
    tz_write_date cet c (repeat 0 23) 0 ts 7 = Ret (c', s2z "[20240401 03:46:40.007]", 23).
Proof.
  cbv zeta. split. { intros h [<-|[<-|[<-|[<-|[]]]]] H; vm_compute in H; vm_compute; congruence || (discriminate H) || auto. }
  split. { exists 1711841400. split; [left; reflexivity|vm_compute; congruence]. }
  split; [exists 2024, 4, 1; unfold valid_date; vm_compute; repeat split; congruence|].
  eexists. eexists. split; [vm_compute; reflexivity|]. vm_compute. reflexivity.
Qed.

Lemma cet_contract : mktime_contract cet.
Proof.
  unfold mktime_contract, cet. cbn [tz_mk tz_dst tz_off]. intros day b u H E.
  rewrite E in H. assert (U: day * 86400 - (if b then 7200 else 3600) = u) by lia.
  rewrite U, E. auto.
Qed.

Lemma cet_calm : forall day, 1704060000 / 86400 < day < 1711846800 / 86400 \/ 1711846800 / 86400 < day < 1729990800 / 86400 ->
  forall t, day_of cet t = day -> calm cet t.
Proof.
  intros day Hd t E. unfold calm, start_of. rewrite E. unfold day_of in E. cbn [cet tz_mk tz_dst tz_off] in *.
  change (1704060000 / 86400) with 19722 in Hd. change (1711846800 / 86400) with 19813 in Hd. change (1729990800 / 86400) with 20023 in Hd.
  destruct (summer2024 t) eqn:S; unfold summer2024 in *.
  - split.
    + intros u Hu. replace ((1711846800 <=? u) && (u <? 1729990800)) with true by lia. auto.
    + intros u Hu Hs. rewrite Hs in Hu. lia.
  - split.
    + intros u Hu. replace ((1711846800 <=? u) && (u <? 1729990800)) with false by lia. auto.
    + intros u Hu Hs. rewrite Hs in Hu. lia.
Qed.

(* times of 30 March, 1 April, 30 March and 2 April *)
Example C117_calm_hypotheses :
  let hist := [1711755000; 1711928000; 1711755001] in let ts := 1712020000 in
  mktime_contract cet /\ Forall (calm cet) (hist ++ [ts]) /\ tz_off cet 1711755001 <> tz_off cet ts /\
  exists c c', tz_history cet cache_init hist = Ret c /\
    tz_write_date cet c (repeat 0 23) 0 ts 7 = Ret (c', s2z "[20240402 03:06:40.007]", 23).
Proof.
  cbv zeta. split; [apply cet_contract|]. split.
  { cbn [app]. apply Forall_cons; [apply (cet_calm 19812); [lia|vm_compute; reflexivity]|].
    apply Forall_cons; [apply (cet_calm 19814); [lia|vm_compute; reflexivity]|].
    apply Forall_cons; [apply (cet_calm 19812); [lia|vm_compute; reflexivity]|].
    apply Forall_cons; [apply (cet_calm 19815); [lia|vm_compute; reflexivity]|]. constructor. }
  split; [vm_compute; congruence|].
  eexists. eexists. split; [vm_compute; reflexivity|]. vm_compute. reflexivity.
Qed.

(* Without [steady] even a first call is wrong: a zone that moves from +1 to +2
   at noon without the flag tm_isdst, and a mktime that keeps its contract. *)
Theorem C117_steady_refuted : exists z ts t c',
  mktime_contract z /\ (forall u, 3600 <= tz_off z u <= 7200) /\ ~ steady z ts /\
  tz_write_date z cache_init (repeat 0 23) 0 ts 0 = Ret (c', t, 23) /\ ~ is_date_text (ts + tz_off z ts) 0 t.
Proof.
  exists (mkTz (fun t => if t <? 1711846800 then 3600 else 7200) (fun _ => false)
    (fun day _ => if day * 86400 - 3600 <? 1711846800 then day * 86400 - 3600 else day * 86400 - 7200)).
  exists 1711848600, (s2z "[20240331 02:30:00.000]"), (mkCache (mkTm 124 2 31 false) 1711839600).
  split. { unfold mktime_contract. cbn [tz_mk tz_dst tz_off]. intros day b u H E.
    destruct (u <? 1711846800) eqn:A; destruct (day * 86400 - 3600 <? 1711846800) eqn:B; try lia.
    - rewrite B. split; [lia|assumption].
    - replace (day * 86400 - 7200 <? 1711846800) with false by lia. split; [lia|assumption]. }
  split. { intros u. cbn. destruct (u <? 1711846800); lia. }
  split. { vm_compute. congruence. }
  split; [vm_compute; reflexivity|].
  intros H.
  destruct (C117_shown cet [1711841400] 1711848600 0 1711841400) as (t & T & L & c & c' & Hh & W).
  { repeat constructor; lia. } { repeat constructor; apply cet_small. } { repeat constructor; apply cet_steady. } { lia. }
  { vm_compute. reflexivity. }
  { exists 2024, 3, 31. unfold valid_date. vm_compute. repeat split; congruence. }
  vm_compute in Hh. inversion Hh; subst c.
  specialize (W [] (repeat 0 23) [] eq_refl). cbn [app] in W. rewrite !app_nil_r in W. vm_compute in W. inversion W; subst t.
  pose proof (date_text_inj _ _ _ _ H T L) as Q. vm_compute in Q. discriminate.
Qed.
Print Assumptions C117_steady_refuted.
