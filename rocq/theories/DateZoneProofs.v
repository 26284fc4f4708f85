(* Printed times in an arbitrary time zone. *)
From Coq Require Import String ZArith List Bool Lia ZifyBool ZifyNat ZifyN.
From Verif Require Import Base BaseFacts NumFmt NumSpec NumFacts DateFmt DateSpec CalendarFacts DateProofs DateZone DateZoneSpec.
Import ListNotations.
Open Scope Z_scope.

Definition small_off (z : tz) (t : Z) : Prop := - 86400 <= tz_off z t <= 86400.

(* the cache holds the day of f *)
Definition holds_day (z : tz) (f : option Z) (c : cache) : Prop :=
  match f with
  | None => c = cache_init
  | Some f => sane f /\ small_off z f /\ cache_timestamp c = start_of z f /\
      exists y m d b, cache_date c = mkTm (y - 1900) (m - 1) d b /\ valid_date y m d /\ day_number y m d = day_of z f
  end.

Lemma tz_fresh : forall z t, exists y m d, tz_time_to_tm z t = mkTm (y - 1900) (m - 1) d (tz_dst z t) /\
  valid_date y m d /\ day_number y m d = day_of z t /\
  tz_midnight z (tz_time_to_tm z t) = tz_mk z (day_of z t) (tz_dst z t).
Proof.
  intros z t. unfold tz_midnight, tz_time_to_tm, day_of.
  destruct (civil_correct ((t + tz_off z t) / 86400)) as (y & m & d & E & V & N & D). rewrite E.
  exists y, m, d. cbn [tm_year tm_mon tm_mday tm_isdst]. split; [reflexivity|]. split; [assumption|]. split; [assumption|].
  replace (y - 1900 + 1900) with y by lia. replace (m - 1 + 1) with m by lia. rewrite D. reflexivity.
Qed.

Lemma start_near : forall z f, sane f -> small_off z f -> - 2 ^ 56 <= start_of z f <= 2 ^ 56.
Proof. intros z f. unfold sane, small_off, start_of, day_of. intros. lia. Qed.

Lemma holds_near : forall z f c, holds_day z f c -> - 2 ^ 56 <= cache_timestamp c <= 2 ^ 56.
Proof.
  intros z [f|] c H; cbn [holds_day] in H.
  - destruct H as (A & B & E & _). rewrite E. apply start_near; assumption.
  - subst c. cbn. lia.
Qed.

Lemma tz_step : forall z f c t, holds_day z f c -> sane t -> small_off z t -> steady z t ->
  exists c' ds, tz_date_cache z c t = Ret (c', ds) /\ holds_day z (asked z f [t]) c' /\ ds = t - cache_timestamp c'.
Proof.
  intros z f c t H Ht Ho Hst. pose proof (holds_near z f c H) as Nc.
  assert (K: keeps z f t = negb ((t - cache_timestamp c <? 0) || (24 * 60 * 60 <=? t - cache_timestamp c))).
  { destruct f as [f|]; cbn [keeps holds_day] in *.
    - destruct H as (_ & _ & -> & _). lia.
    - subst c. cbn [cache_timestamp cache_init]. lia. }
  unfold tz_date_cache, asked. cbn [fold_left]. rewrite K.
  unfold sane in Ht. rewrite ll_chk_ok by (unfold LLONG_MIN, LLONG_MAX; lia). cbn [bind].
  destruct ((t - cache_timestamp c <? 0) || (24 * 60 * 60 <=? t - cache_timestamp c)) eqn:E; cbn [negb].
  - destruct (tz_fresh z t) as (y & m & d & T & V & N & M). rewrite M.
    unfold steady in Hst. rewrite Hst. pose proof (start_near z t Ht Ho).
    rewrite ll_chk_ok by (unfold LLONG_MIN, LLONG_MAX; lia). cbn [bind].
    eexists. eexists. split; [reflexivity|]. cbn [cache_timestamp holds_day cache_date]. split; [|reflexivity].
    split; [assumption|]. split; [assumption|]. split; [reflexivity|]. exists y, m, d, (tz_dst z t). auto.
  - exists c. eexists. split; [reflexivity|]. split; [assumption|reflexivity].
Qed.

Lemma asked_cons : forall z f t ts, asked z f (t :: ts) = asked z (asked z f [t]) ts.
Proof. reflexivity. Qed.
Lemma asked_snoc : forall z f ts t, asked z f (ts ++ [t]) = asked z (asked z f ts) [t].
Proof. intros. unfold asked. rewrite fold_left_app. reflexivity. Qed.

Lemma tz_history_ok : forall z ts f c, holds_day z f c -> Forall sane ts -> Forall (small_off z) ts -> Forall (steady z) ts ->
  exists c', tz_history z c ts = Ret c' /\ holds_day z (asked z f ts) c'.
Proof.
  intros z ts. induction ts as [|t ts IH]; intros f c H H1 H2 H3.
  - exists c. split; [reflexivity|assumption].
  - inversion H1; inversion H2; inversion H3; subst. cbn [tz_history].
    destruct (tz_step z f c t) as (c1 & ds & R & G & _); try assumption. rewrite R. cbn [bind].
    rewrite asked_cons. apply IH; assumption.
Qed.

(* the day in use when t is printed contains t, by its own offset *)
Lemma asked_last : forall z f ts t g, small_off z t -> asked z f (ts ++ [t]) = Some g ->
  start_of z g <= t < start_of z g + 86400.
Proof.
  intros z f ts t g Ho. rewrite asked_snoc. unfold asked at 1. cbn [fold_left].
  destruct (keeps z (asked z f ts) t) eqn:K; intros E.
  - rewrite E in K. cbn [keeps] in K. lia.
  - inversion E; subst g. unfold start_of, day_of. lia.
Qed.

Lemma asked_in : forall z ts f g, asked z f ts = Some g -> f = Some g \/ In g ts.
Proof.
  intros z ts. induction ts as [|t ts IH]; intros f g E.
  - left. exact E.
  - rewrite asked_cons in E. destruct (IH _ _ E) as [H|H]; [|right; right; assumption].
    unfold asked in H. cbn [fold_left] in H. destruct (keeps z f t); [left; assumption|].
    right. left. congruence.
Qed.

Lemma asked_some : forall z ts f, (f <> None \/ Exists (fun t => ~ 0 <= t < 86400) ts) -> asked z f ts <> None.
Proof.
  intros z ts. induction ts as [|t ts IH]; intros f H.
  - destruct H as [H|H]; [exact H|inversion H].
  - rewrite asked_cons. apply IH. unfold asked. cbn [fold_left].
    destruct f as [f|].
    + left. destruct (keeps z (Some f) t); discriminate.
    + destruct H as [H|H]; [congruence|]. inversion H as [? ? H0|? ? H0]; subst.
      * left. cbn [keeps]. destruct ((0 <=? t) && (t <? 86400)) eqn:E; [lia|discriminate].
      * destruct (keeps z None t); [right; assumption|left; discriminate].
Qed.

(* the text shows the instant by the offset of the instant last looked up *)
Lemma tz_write_ok : forall z hist ts p f,
  Forall sane (hist ++ [ts]) -> Forall (small_off z) (hist ++ [ts]) -> Forall (steady z) (hist ++ [ts]) -> 0 <= p < 2 ^ 32 ->
  asked z None (hist ++ [ts]) = Some f ->
  (exists y m d, valid_date y m d /\ day_number y m d = (ts + tz_off z f) / 86400 /\ 0 <= y <= 9999) ->
  exists t, is_date_text (ts + tz_off z f) p t /\ zlen t = 23 /\
    exists c c', tz_history z cache_init hist = Ret c /\
      forall pre old post, zlen old = 23 ->
        tz_write_date z c (pre ++ old ++ post) (zlen pre) ts p = Ret (c', pre ++ t ++ post, 23).
Proof.
  intros z hist ts p f H1 H2 H3 Hp E (y0 & m0 & d0 & V0 & N0 & Y0).
  apply Forall_app in H1. destruct H1 as (A1 & B1). apply Forall_app in H2. destruct H2 as (A2 & B2).
  apply Forall_app in H3. destruct H3 as (A3 & B3).
  inversion B1 as [|? ? S1 _]; inversion B2 as [|? ? S2 _]; inversion B3 as [|? ? S3 _]; subst.
  destruct (tz_history_ok z hist None cache_init) as (c & R & G); try assumption; [reflexivity|].
  destruct (tz_step z (asked z None hist) c ts) as (c' & ds & R' & G' & Eds); try assumption.
  pose proof (asked_last z None hist ts f S2 E) as W.
  rewrite asked_snoc in E. rewrite E in G'. cbn [holds_day] in G'.
  destruct G' as (Sf & Of & Ct & y & m & d & b & D & V & N).
  unfold start_of in *.
  assert (Dy: day_of z f = (ts + tz_off z f) / 86400) by lia.
  destruct (date_unique y m d y0 m0 d0 V V0 ltac:(congruence)) as (-> & -> & ->).
  rewrite Dy in N.
  destruct (put_date_ok (ts + tz_off z f) p y0 m0 d0 b c' Hp D V N Y0) as (t & T & L & P).
  exists t. split; [assumption|]. split; [assumption|]. exists c, c'. split; [assumption|].
  intros pre old post Hold. unfold tz_write_date. rewrite R'. cbn [bind].
  replace ds with ((ts + tz_off z f) mod 86400) by lia.
  rewrite P; [|apply zlen_nonneg|rewrite !zlen_app; pose proof (zlen_nonneg _ post); lia].
  rewrite blit_splice by (congruence || lia). reflexivity.
Qed.

(* two local times with the same text are equal *)
Lemma app_len_inj : forall A (a b c d : list A), a ++ c = b ++ d -> zlen a = zlen b -> a = b /\ c = d.
Proof.
  intros A a. induction a as [|x a IH]; intros [|y b] c d E L; rewrite ?zlen_cons, ?zlen_nil in L.
  - auto.
  - pose proof (zlen_nonneg _ b). lia.
  - pose proof (zlen_nonneg _ a). lia.
  - cbn in E. inversion E; subst. destruct (IH b c d) as (-> & ->); auto. lia.
Qed.

Lemma numeral_val : forall w n n' t, is_numeral 10 w n t -> is_numeral 10 w n' t -> n = n'.
Proof. intros w n n' t (H & _) (H' & _). congruence. Qed.

Lemma numeral_wide : forall w n t, is_numeral 10 w n t -> w <= zlen t.
Proof. intros w n t (_ & _ & H & _). exact H. Qed.

Lemma date_text_inj : forall L L' p t, is_date_text L p t -> is_date_text L' p t -> zlen t = 23 -> L = L'.
Proof.
  intros L L' p t (y & m & d & Y & M & D & h & mi & s & x & V & N & H1 & H2 & H3 & H4 & H5 & H6 & H7 & E)
                  (y' & m' & d' & Y' & M' & D' & h' & mi' & s' & x' & V' & N' & K1 & K2 & K3 & K4 & K5 & K6 & K7 & E') Len.
  assert (Ls: zlen Y = 4 /\ zlen M = 2 /\ zlen D = 2 /\ zlen h = 2 /\ zlen mi = 2 /\ zlen s = 2 /\ zlen x = 3).
  { rewrite E in Len. rewrite !zlen_app, ?zlen_cons, ?zlen_nil in Len.
    apply numeral_wide in H1. apply numeral_wide in H2. apply numeral_wide in H3. apply numeral_wide in H4. apply numeral_wide in H5. apply numeral_wide in H6. apply numeral_wide in H7. clear - Len H1 H2 H3 H4 H5 H6 H7. lia. }
  assert (Ls': zlen Y' = 4 /\ zlen M' = 2 /\ zlen D' = 2 /\ zlen h' = 2 /\ zlen mi' = 2 /\ zlen s' = 2 /\ zlen x' = 3).
  { rewrite E' in Len. rewrite !zlen_app, ?zlen_cons, ?zlen_nil in Len.
    apply numeral_wide in K1. apply numeral_wide in K2. apply numeral_wide in K3. apply numeral_wide in K4. apply numeral_wide in K5. apply numeral_wide in K6. apply numeral_wide in K7. clear - Len K1 K2 K3 K4 K5 K6 K7. lia. }
  destruct Ls as (l1 & l2 & l3 & l4 & l5 & l6 & l7). destruct Ls' as (k1 & k2 & k3 & k4 & k5 & k6 & k7).
  rewrite E in E'. clear E Len.
  apply app_len_inj in E'; [|reflexivity]. destruct E' as (_ & E').
  apply app_len_inj in E'; [|congruence]. destruct E' as (<- & E').
  apply app_len_inj in E'; [|congruence]. destruct E' as (<- & E').
  apply app_len_inj in E'; [|congruence]. destruct E' as (<- & E').
  apply app_len_inj in E'; [|reflexivity]. destruct E' as (_ & E').
  apply app_len_inj in E'; [|congruence]. destruct E' as (<- & E').
  apply app_len_inj in E'; [|reflexivity]. destruct E' as (_ & E').
  apply app_len_inj in E'; [|congruence]. destruct E' as (<- & E').
  apply app_len_inj in E'; [|reflexivity]. destruct E' as (_ & E').
  apply app_len_inj in E'; [|congruence]. destruct E' as (<- & E').
  pose proof (numeral_val _ _ _ _ H1 K1) as ->. pose proof (numeral_val _ _ _ _ H2 K2) as ->.
  pose proof (numeral_val _ _ _ _ H3 K3) as ->.
  pose proof (numeral_val _ _ _ _ H4 K4) as q1. pose proof (numeral_val _ _ _ _ H5 K5) as q2.
  pose proof (numeral_val _ _ _ _ H6 K6) as q3.
  assert (q0: L / 86400 = L' / 86400) by congruence.
  clear - q0 q1 q2 q3. lia.
Qed.

(* a day without a change *)
Lemma calm_steady : forall z t, mktime_contract z -> calm z t -> steady z t.
Proof.
  intros z t HM (A & B). unfold steady.
  destruct (A (start_of z t)) as (o & d); [lia|].
  destruct (HM (day_of z t) (tz_dst z t) (start_of z t)) as (E1 & E2).
  - rewrite o. unfold start_of. lia.
  - exact d.
  - apply B; assumption.
Qed.

Lemma asked_calm : forall z ts t f, small_off z t -> calm z f ->
  asked z None (ts ++ [t]) = Some f -> tz_off z t = tz_off z f.
Proof.
  intros z ts t f Ho C E. pose proof (asked_last z None ts t f Ho E) as W. destruct C as (A & _). apply A. assumption.
Qed.

(* the one-change zones *)
Lemma tz_of_zone_cache : forall z c t, tz_date_cache (tz_of_zone z) c t = date_cache z c t.
Proof.
  intros z c t. unfold tz_date_cache, date_cache, tz_midnight, mktime_midnight, tz_time_to_tm, time_to_tm, tz_of_zone.
  cbn [tz_off tz_dst tz_mk]. reflexivity.
Qed.
Lemma tz_of_zone_write : forall z c dst off t p, tz_write_date (tz_of_zone z) c dst off t p = write_date z c dst off t p.
Proof. intros. unfold tz_write_date, write_date. rewrite tz_of_zone_cache. reflexivity. Qed.
Lemma tz_of_zone_history : forall z ts c, tz_history (tz_of_zone z) c ts = date_history z c ts.
Proof.
  intros z ts. induction ts as [|t ts IH]; intros c; [reflexivity|].
  cbn [tz_history date_history]. rewrite tz_of_zone_cache.
  destruct (date_cache z c t) as [[c1 ds]| |]; cbn [bind]; auto.
Qed.
