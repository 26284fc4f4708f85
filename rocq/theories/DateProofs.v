(* write_date prints the calendar time of its timestamp. *)
From Coq Require Import String ZArith List Bool Lia ZifyBool ZifyNat ZifyN.
From Verif Require Import Base BaseFacts NumFmt NumSpec NumFacts NumFmtProofs DateFmt DateSpec CalendarFacts.
Import ListNotations.
Open Scope Z_scope.
Ltac Zify.zify_post_hook ::= Z.div_mod_to_equations.

(* ---- consecutive writes ---- *)
Lemma blit_blit : forall B A (l : list A) off off2 x y (K : list A -> outcome B),
  0 <= off -> off2 = off + zlen x -> off + zlen x + zlen y <= zlen l ->
  bind (blit l off x) (fun l' => bind (blit l' off2 y) K) = bind (blit l off (x ++ y)) K.
Proof.
  intros B A l off off2 x y K H0 -> H. pose proof (blit_compose A l off x y H0 H) as C.
  rewrite <- C. destruct (blit l off x); reflexivity.
Qed.

(* the numeral the formatter uses *)
Lemma write_dec_numeral : forall wide n t, is_u64 n -> wide <= 30 -> is_numeral 10 wide n t ->
  forall dst off, write_dec_u wide dst off n = bind (blit dst off t) (fun d => Ret (d, zlen t)).
Proof.
  intros wide n t Hn Hw Ht dst off. destruct (write_dec_u_blit wide n Hn Hw) as (t' & Ht' & E).
  rewrite (is_numeral_unique 10 wide n t t') by (assumption || lia). apply E.
Qed.

Lemma numeral_len_fix : forall w n t, n < 10 ^ w -> 1 <= w -> is_numeral 10 w n t -> zlen t = w.
Proof.
  intros w n t Hn Hw H. pose proof (is_numeral_len 10 w n t w ltac:(lia) Hw H Hn).
  destruct H as (_ & _ & H2 & _). lia.
Qed.

Lemma numeral_exists : forall wide n, is_u64 n -> wide <= 30 -> exists t, is_numeral 10 wide n t.
Proof. intros wide n H Hw. destruct (write_dec_u_blit wide n H Hw) as (t & Ht & _). eauto. Qed.

(* ---- the cache ---- *)
Definition fixed_zone (o : Z) : zone := mkZone 0 o o.
Definition sane (ts : Z) : Prop := - 2 ^ 55 <= ts <= 2 ^ 55.

Lemma z_off_fixed : forall o b, z_off (fixed_zone o) b = o.
Proof. intros o []; reflexivity. Qed.

(* consistent cache: the date whose local midnight is cache_timestamp *)
Definition cache_ok (o : Z) (c : cache) : Prop :=
  sane (cache_timestamp c - 86400 * 3) /\
  exists y m d, valid_date y m d /\ day_number y m d * 86400 - o = cache_timestamp c /\
    cache_date c = mkTm (y - 1900) (m - 1) d (tm_isdst (cache_date c)).

Definition cache_inv (o : Z) (c : cache) : Prop := c = cache_init \/ cache_ok o c.

Lemma date_cache_fresh : forall o ts, - 86400 <= o <= 86400 ->
  exists y m d b, time_to_tm (fixed_zone o) ts = mkTm (y - 1900) (m - 1) d b /\ valid_date y m d /\
    day_number y m d = (ts + o) / 86400 /\
    mktime_midnight (fixed_zone o) (time_to_tm (fixed_zone o) ts) = (ts + o) / 86400 * 86400 - o.
Proof.
  intros o ts Ho. unfold mktime_midnight, time_to_tm. rewrite z_off_fixed.
  destruct (civil_correct ((ts + o) / 86400)) as (y & m & d & E & V & N & D). rewrite E.
  exists y, m, d, (z_isdst (fixed_zone o) ts). cbn [tm_year tm_mon tm_mday tm_isdst].
  split; [reflexivity|]. split; [assumption|]. split; [assumption|].
  replace (y - 1900 + 1900) with y by lia. replace (m - 1 + 1) with m by lia. rewrite D, z_off_fixed. reflexivity.
Qed.

Lemma ll_chk_ok : forall z, LLONG_MIN <= z <= LLONG_MAX -> ll_chk z = Ret z.
Proof. intros z H. unfold ll_chk. destruct ((LLONG_MIN <=? z) && (z <=? LLONG_MAX)) eqn:E; [reflexivity|lia]. Qed.

Definition near (c : cache) : Prop := - 2 ^ 56 <= cache_timestamp c <= 2 ^ 56.

(* the cache after any call is consistent or untouched *)
Lemma date_cache_step : forall o c ts, - 86400 <= o <= 86400 -> sane ts -> near c ->
  exists c' ds, date_cache (fixed_zone o) c ts = Ret (c', ds) /\ near c' /\ ds = ts - cache_timestamp c' /\
    ((c' = c /\ cache_timestamp c <= ts < cache_timestamp c + 86400) \/
     ((ts < cache_timestamp c \/ cache_timestamp c + 86400 <= ts) /\ cache_timestamp c' = (ts + o) / 86400 * 86400 - o /\
      exists y m d b, cache_date c' = mkTm (y - 1900) (m - 1) d b /\ valid_date y m d /\ day_number y m d = (ts + o) / 86400)).
Proof.
  intros o c ts Ho Hts Hn. unfold sane, near in *. unfold date_cache.
  rewrite ll_chk_ok by (unfold LLONG_MIN, LLONG_MAX; lia). cbn [bind].
  destruct ((ts - cache_timestamp c <? 0) || (24 * 60 * 60 <=? ts - cache_timestamp c)) eqn:E.
  - destruct (date_cache_fresh o ts Ho) as (y & m & d & b & T & V & N & M).
    rewrite M. rewrite ll_chk_ok by (unfold LLONG_MIN, LLONG_MAX; lia). cbn [bind].
    eexists; eexists; split; [reflexivity|]. cbn [cache_timestamp cache_date].
    split; [lia|]. split; [reflexivity|]. right. split; [lia|]. split; [reflexivity|].
    exists y, m, d, b. auto.
  - eexists; eexists; split; [reflexivity|]. split; [assumption|]. split; [reflexivity|]. left. split; [reflexivity|]. lia.
Qed.

Definition good (o : Z) (c : cache) : Prop :=
  exists y m d b k, cache_date c = mkTm (y - 1900) (m - 1) d b /\ valid_date y m d /\
    day_number y m d = k /\ cache_timestamp c = k * 86400 - o.

(* history: any timestamps; the cache is consistent once one of them fell
   outside the first 24 hours of 1970 *)
Lemma date_history_ok : forall o, - 86400 <= o <= 86400 -> forall hist c, Forall sane hist -> near c ->
  (c = cache_init \/ good o c) ->
  exists c', date_history (fixed_zone o) c hist = Ret c' /\ near c' /\
    (good o c' \/ (c = cache_init /\ c' = cache_init /\ Forall (fun t => 0 <= t < 86400) hist)).
Proof.
  intros o Ho. induction hist as [|t hist IH]; intros c Hs Hn Hc.
  - exists c. split; [reflexivity|]. split; [assumption|]. destruct Hc as [->|G]; [right; auto|left; assumption].
  - inversion Hs as [|? ? Ht Hs']; subst. cbn [date_history].
    destruct (date_cache_step o c t Ho Ht Hn) as (c1 & ds & R & N1 & _ & D). rewrite R. cbn [bind].
    assert (C1: c1 = cache_init \/ good o c1).
    { destruct D as [(-> & _)|(_ & A & y & m & d & b & B1 & B2 & B3)]; [assumption|].
      right. exists y, m, d, b, ((t + o) / 86400). auto. }
    destruct (IH c1 Hs' N1 C1) as (c' & R' & N' & F). exists c'. split; [assumption|]. split; [assumption|].
    destruct F as [F|(F1 & F2 & F3)]; [left; assumption|].
    destruct D as [(-> & D2)|(_ & A & y & m & d & b & B1 & B2 & B3)].
    + subst c. right. split; [reflexivity|]. split; [assumption|]. constructor; [cbn in D2; lia|assumption].
    + (* a refreshed cache equal to cache_init is impossible: day of month 0 *)
      exfalso. subst c1. cbn in B1. inversion B1. subst d. destruct B2 as (_ & B2). lia.
Qed.

Lemma date_cache_good : forall o c ts, - 86400 <= o <= 86400 -> sane ts -> near c ->
  (good o c \/ (c = cache_init /\ ~ 0 <= ts < 86400)) ->
  exists c' y m d b, date_cache (fixed_zone o) c ts = Ret (c', (ts + o) mod 86400) /\
    cache_date c' = mkTm (y - 1900) (m - 1) d b /\ valid_date y m d /\ day_number y m d = (ts + o) / 86400 /\ good o c'.
Proof.
  intros o c ts Ho Hts Hn Hc.
  destruct (date_cache_step o c ts Ho Hts Hn) as (c1 & ds & R & N1 & Eds & D). subst ds.
  destruct D as [(-> & D2)|(D1 & A & y & m & d & b & B1 & B2 & B3)].
  - destruct Hc as [(y & m & d & b & k & G1 & G2 & G3 & G4)|(-> & Hx)].
    + exists c, y, m, d, b. assert (Hk: k = (ts + o) / 86400) by lia.
      rewrite R. split; [f_equal; f_equal; lia|]. split; [assumption|]. split; [assumption|]. split; [lia|].
      exists y, m, d, b, k. auto.
    + cbn in D2. lia.
  - exists c1, y, m, d, b. rewrite R, A. split; [f_equal; f_equal; lia|]. split; [assumption|]. split; [assumption|].
    split; [assumption|]. exists y, m, d, b, ((ts + o) / 86400). auto.
Qed.

Lemma valid_small : forall y m d, valid_date y m d -> 1 <= m <= 12 /\ 1 <= d <= 31.
Proof.
  intros y m d (Hm & Hd). split; [assumption|].
  rewrite (mdays_ok y m Hm) in Hd. unfold mdays in Hd.
  destruct (m =? 2); [destruct (leap y); lia|]. destruct ((m =? 4) || (m =? 6) || (m =? 9) || (m =? 11)); lia.
Qed.

Lemma u64_id : forall x, 0 <= x < 2 ^ 64 -> u64 x = x.
Proof. intros. unfold u64. apply Z.mod_small. assumption. Qed.

(* one more piece written behind the pieces [x] *)
Lemma blit_step : forall (dst d1 : text) off x w t, 0 <= off -> blit dst off x = Ret d1 ->
  w = off + zlen x -> off + zlen x + zlen t <= zlen dst ->
  exists d2, blit d1 w t = Ret d2 /\ blit dst off (x ++ t) = Ret d2.
Proof.
  intros dst d1 off x w t Ho H -> Hr. pose proof (blit_compose _ dst off x t Ho Hr) as C. rewrite H in C. cbn [bind] in C.
  destruct (blit_ret _ dst off (x ++ t)) ; try (rewrite ?zlen_app; lia).
  rewrite blit_ret in C by (pose proof (blit_len _ _ _ _ _ H); pose proof (zlen_nonneg _ x); lia).
  eexists. split; [apply blit_ret; pose proof (blit_len _ _ _ _ _ H); pose proof (zlen_nonneg _ x); lia|].
  symmetry. exact C.
Qed.

Ltac st B T := let d := fresh "d" in let E := fresh "E" in let B' := fresh "B" in
  match type of B with blit ?l ?o ?x = Ret ?dd =>
    match goal with |- context [blit dd ?w T] =>
      assert (exists d, blit dd w T = Ret d /\ blit l o (x ++ T) = Ret d) as (d & E & B');
      [ apply (blit_step l dd o x w T); [ lia | exact B | rewrite ?zlen_app, ?zlen_cons, ?zlen_nil; lia | rewrite ?zlen_app, ?zlen_cons, ?zlen_nil; lia ]
      | rewrite E; cbn [bind]; clear B E; rename B' into B ]
    end end.

Lemma put_date_ok : forall L p y m d b c', 0 <= p < 2 ^ 32 ->
  cache_date c' = mkTm (y - 1900) (m - 1) d b -> valid_date y m d -> day_number y m d = L / 86400 ->
  0 <= y <= 9999 ->
  exists t, is_date_text L p t /\ zlen t = 23 /\
    forall dst off, 0 <= off -> off + 23 <= zlen dst ->
      put_date c' (L mod 86400) dst off p = bind (blit dst off t) (fun l => Ret (c', l, 23)).
Proof.
  intros L p y m d b c' Hp HD HV HN Hy.
  pose proof (valid_small y m d HV) as (Hm & Hd).
  set (s := L mod 86400) in *.
  assert (Hs: 0 <= s < 86400) by (unfold s; lia).
  destruct (numeral_exists 4 y) as (tY & NY); [unfold is_u64; lia|lia|].
  destruct (numeral_exists 2 m) as (tM & NM); [unfold is_u64; lia|lia|].
  destruct (numeral_exists 2 d) as (tD & ND); [unfold is_u64; lia|lia|].
  destruct (numeral_exists 2 (s / 3600)) as (th & Nh); [unfold is_u64; lia|lia|].
  destruct (numeral_exists 2 (s mod 3600 / 60)) as (tmi & Nmi); [unfold is_u64; lia|lia|].
  destruct (numeral_exists 2 (s mod 60)) as (tse & Nse); [unfold is_u64; lia|lia|].
  destruct (numeral_exists 3 (Z.min p 999)) as (tms & Nms); [unfold is_u64; lia|lia|].
  pose proof (numeral_len_fix 4 y tY ltac:(lia) ltac:(lia) NY) as LY.
  pose proof (numeral_len_fix 2 m tM ltac:(lia) ltac:(lia) NM) as LM.
  pose proof (numeral_len_fix 2 d tD ltac:(lia) ltac:(lia) ND) as LD.
  pose proof (numeral_len_fix 2 (s / 3600) th ltac:(lia) ltac:(lia) Nh) as Lh.
  pose proof (numeral_len_fix 2 (s mod 3600 / 60) tmi ltac:(lia) ltac:(lia) Nmi) as Lmi.
  pose proof (numeral_len_fix 2 (s mod 60) tse ltac:(lia) ltac:(lia) Nse) as Lse.
  pose proof (numeral_len_fix 3 (Z.min p 999) tms ltac:(lia) ltac:(lia) Nms) as Lms.
  exists ([91] ++ tY ++ tM ++ tD ++ [32] ++ th ++ [58] ++ tmi ++ [58] ++ tse ++ [46] ++ tms ++ [93]).
  assert (HL: zlen ([91] ++ tY ++ tM ++ tD ++ [32] ++ th ++ [58] ++ tmi ++ [58] ++ tse ++ [46] ++ tms ++ [93]) = 23)
    by (rewrite !zlen_app, ?zlen_cons, ?zlen_nil; lia).
  split.
  { exists y, m, d, tY, tM, tD, th, tmi, tse, tms.
    split; [assumption|]. split; [assumption|]. split; [assumption|]. split; [assumption|]. split; [assumption|].
    split; [exact Nh|]. split.
    { replace (L mod 3600) with (s mod 3600) by (unfold s; lia). exact Nmi. }
    split. { replace (L mod 60) with (s mod 60) by (unfold s; lia). exact Nse. }
    split; [exact Nms|]. reflexivity. }
  split; [exact HL|].
  intros dst off Hoff Hroom. unfold put_date. rewrite HD. cbn [tm_year tm_mon tm_mday]. cbv zeta.
  replace (u64 (u64 (y - 1900) + 1900)) with y by (unfold u64; lia).
  replace (u64 (u64 (m - 1) + 1)) with m by (unfold u64; lia).
  rewrite (u64_id d) by lia. rewrite (u64_id s) by lia.
  rewrite !Z.rem_mod_nonneg by lia.
  rewrite (u64_id (s mod 3600)) by lia.
  replace ((s mod 3600) mod 60) with (s mod 60) by lia. rewrite (u64_id (s mod 60)) by lia.
  replace (if 1000 <=? p then 999 else p) with (Z.min p 999) by (destruct (1000 <=? p) eqn:E; lia).
  clearbody s. clear HD HV HN.
  assert (P1: forall dst off, write_dec_u 4 dst off y = bind (blit dst off tY) (fun l => Ret (l, 4)))
    by (intros; rewrite (write_dec_numeral 4 y tY) by (unfold is_u64; lia || assumption); rewrite LY; reflexivity).
  assert (P2: forall dst off, write_dec_u 2 dst off m = bind (blit dst off tM) (fun l => Ret (l, 2)))
    by (intros; rewrite (write_dec_numeral 2 m tM) by (unfold is_u64; lia || assumption); rewrite LM; reflexivity).
  assert (P3: forall dst off, write_dec_u 2 dst off d = bind (blit dst off tD) (fun l => Ret (l, 2)))
    by (intros; rewrite (write_dec_numeral 2 d tD) by (unfold is_u64; lia || assumption); rewrite LD; reflexivity).
  assert (P4: forall dst off, write_dec_u 2 dst off (s / 3600) = bind (blit dst off th) (fun l => Ret (l, 2)))
    by (intros; rewrite (write_dec_numeral 2 (s / 3600) th) by (unfold is_u64; lia || assumption); rewrite Lh; reflexivity).
  assert (P5: forall dst off, write_dec_u 2 dst off (s mod 3600 / 60) = bind (blit dst off tmi) (fun l => Ret (l, 2)))
    by (intros; rewrite (write_dec_numeral 2 (s mod 3600 / 60) tmi) by (unfold is_u64; lia || assumption); rewrite Lmi; reflexivity).
  assert (P6: forall dst off, write_dec_u 2 dst off (s mod 60) = bind (blit dst off tse) (fun l => Ret (l, 2)))
    by (intros; rewrite (write_dec_numeral 2 (s mod 60) tse) by (unfold is_u64; lia || assumption); rewrite Lse; reflexivity).
  assert (P7: forall dst off, write_dec_u 3 dst off (Z.min p 999) = bind (blit dst off tms) (fun l => Ret (l, 3)))
    by (intros; rewrite (write_dec_numeral 3 (Z.min p 999) tms) by (unfold is_u64; lia || assumption); rewrite Lms; reflexivity).
  generalize dependent (Z.min p 999). intros pm Nms P7.
  set (A1 := s / 3600) in *. set (A2 := s mod 3600 / 60) in *. set (A3 := s mod 60) in *.
  clearbody A1 A2 A3. clear Nh Nmi Nse Nms NY NM ND Hs.
  assert (B0: blit dst off [] = Ret dst) by (apply blit_nil; lia).
  unfold wr.
  st B0 [91]. rewrite P1. st B0 tY. rewrite P2. st B0 tM. rewrite P3. st B0 tD. st B0 [32].
  rewrite P4. st B0 th. st B0 [58]. rewrite P5. st B0 tmi. st B0 [58]. rewrite P6. st B0 tse. st B0 [46].
  rewrite P7. st B0 tms. st B0 [93].
  match goal with |- context [negb (?a =? 23)] => replace a with 23 by lia end.
  cbn [negb Z.eqb Pos.eqb].
  match type of B0 with blit _ _ ?x = _ => match goal with |- _ = bind (blit _ _ ?y) _ => replace y with x by (rewrite <- !app_assoc; reflexivity) end end.
  rewrite B0. reflexivity.
Qed.

Lemma write_date_ok : forall o c ts p y m d b c', - 86400 <= o <= 86400 -> 0 <= p < 2 ^ 32 ->
  date_cache (fixed_zone o) c ts = Ret (c', (ts + o) mod 86400) ->
  cache_date c' = mkTm (y - 1900) (m - 1) d b -> valid_date y m d -> day_number y m d = (ts + o) / 86400 ->
  0 <= y <= 9999 ->
  exists t, is_date_text (ts + o) p t /\ zlen t = 23 /\
    forall dst off, 0 <= off -> off + 23 <= zlen dst ->
      write_date (fixed_zone o) c dst off ts p = bind (blit dst off t) (fun l => Ret (c', l, 23)).
Proof.
  intros o c ts p y m d b c' Ho Hp HR HD HV HN Hy.
  destruct (put_date_ok (ts + o) p y m d b c' Hp HD HV HN Hy) as (t & T & Lt & W).
  exists t. split; [assumption|]. split; [assumption|]. intros dst off H1 H2.
  unfold write_date. rewrite HR. cbn [bind]. apply W; assumption.
Qed.

(* full statement for a thread's history *)
Lemma write_date_correct : forall o hist ts p, - 86400 <= o <= 86400 -> Forall sane hist -> sane ts -> 0 <= p < 2 ^ 32 ->
  (exists y m d, valid_date y m d /\ day_number y m d = (ts + o) / 86400 /\ 0 <= y <= 9999) ->
  (~ 0 <= ts < 86400 \/ Exists (fun t => ~ 0 <= t < 86400) hist) ->
  exists t, is_date_text (ts + o) p t /\ zlen t = 23 /\
    exists c c', date_history (fixed_zone o) cache_init hist = Ret c /\
      forall pre old post, zlen old = 23 ->
        write_date (fixed_zone o) c (pre ++ old ++ post) (zlen pre) ts p = Ret (c', pre ++ t ++ post, 23).
Proof.
  intros o hist ts p Ho Hh Hts Hp (y0 & m0 & d0 & V0 & N0 & Y0) Hex.
  destruct (date_history_ok o Ho hist cache_init Hh) as (c & R & N & G).
  { unfold near, cache_init; cbn; lia. } { left; reflexivity. }
  assert (G': good o c \/ (c = cache_init /\ ~ 0 <= ts < 86400)).
  { destruct G as [G|(_ & -> & F)]; [left; assumption|]. destruct Hex as [H|H]; [right; auto|].
    exfalso. rewrite Exists_exists in H. destruct H as (t & Hin & Ht). rewrite Forall_forall in F. apply Ht. apply F; assumption. }
  destruct (date_cache_good o c ts Ho Hts N G') as (c' & y & m & d & b & R' & D & V & ND & _).
  destruct (date_unique y m d y0 m0 d0 V V0 ltac:(congruence)) as (-> & -> & ->).
  destruct (write_date_ok o c ts p y0 m0 d0 b c' Ho Hp R' D V ND Y0) as (t & T & L & W).
  exists t. split; [assumption|]. split; [assumption|]. exists c, c'. split; [assumption|].
  intros pre old post Ho2. rewrite W; [|apply zlen_nonneg|rewrite !zlen_app; pose proof (zlen_nonneg _ post); lia].
  rewrite blit_splice by (congruence || lia). reflexivity.
Qed.

(* every instant has exactly one such text *)
Lemma is_date_text_unique : forall L p t1 t2, is_date_text L p t1 -> is_date_text L p t2 -> t1 = t2.
Proof.
  intros L p t1 t2 (y & m & d & Y & M & D & h & mi & s & x & V & N & H1 & H2 & H3 & H4 & H5 & H6 & H7 & ->)
                   (y' & m' & d' & Y' & M' & D' & h' & mi' & s' & x' & V' & N' & K1 & K2 & K3 & K4 & K5 & K6 & K7 & ->).
  destruct (date_unique y m d y' m' d' V V' ltac:(congruence)) as (<- & <- & <-).
  rewrite (is_numeral_unique 10 _ _ _ _ ltac:(lia) H1 K1), (is_numeral_unique 10 _ _ _ _ ltac:(lia) H2 K2),
    (is_numeral_unique 10 _ _ _ _ ltac:(lia) H3 K3), (is_numeral_unique 10 _ _ _ _ ltac:(lia) H4 K4),
    (is_numeral_unique 10 _ _ _ _ ltac:(lia) H5 K5), (is_numeral_unique 10 _ _ _ _ ltac:(lia) H6 K6),
    (is_numeral_unique 10 _ _ _ _ ltac:(lia) H7 K7). reflexivity.
Qed.
