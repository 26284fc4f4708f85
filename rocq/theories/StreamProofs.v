(* Streaming appends exactly the specified text. *)
From Coq Require Import String ZArith List Bool Lia ZifyBool ZifyNat ZifyN.
From Verif Require Import Base BaseFacts NumFmt NumSpec NumFacts NumFmtProofs DateFmt DateSpec CalendarFacts DateProofs
  DblFmt DblSpec DblProofs Stream StreamSpec.
Import ListNotations.
Open Scope Z_scope.
Ltac Zify.zify_post_hook ::= Z.div_mod_to_equations.

(* the stream [st] holds the text [T] in a buffer of [cap] bytes *)
Definition holds (cap : Z) (T : text) (st : strm) : Prop :=
  exists rest, s_buf st = T ++ rest /\ s_len st = zlen T /\ zlen (s_buf st) = cap.

(* a formatter in splice form *)
Definition writes (f : text -> Z -> outcome (text * Z)) (t junk : text) : Prop :=
  forall pre old post, zlen old = zlen (t ++ junk) ->
    f (pre ++ old ++ post) (zlen pre) = Ret (pre ++ t ++ junk ++ post, zlen t).

Lemma emits_writes : forall f t junk, emits f t junk -> writes f t junk.
Proof. intros f t junk H pre old post Ho. exact (emits_splice f t junk H pre old post Ho). Qed.

Lemma holds_len : forall cap T st, holds cap T st -> 0 <= zlen T <= cap.
Proof.
  intros cap T st (rest & E & L & C). rewrite E, zlen_app in C. pose proof (zlen_nonneg _ rest). pose proof (zlen_nonneg _ T). lia.
Qed.

Lemma holds_split : forall cap T st n, holds cap T st -> 0 <= n -> zlen T + n <= cap ->
  exists old post, s_buf st = T ++ old ++ post /\ zlen old = n.
Proof.
  intros cap T st n (rest & E & L & C) Hn Hf. rewrite E, zlen_app in C.
  destruct (split_at _ rest n ltac:(lia)) as (a & b & -> & Ha). exists a, b. auto.
Qed.

Lemma advance_ok : forall cap T st f t junk, holds cap T st -> writes f t junk -> zlen T + zlen (t ++ junk) <= cap ->
  exists st', advance st f = Ret st' /\ holds cap (T ++ t) st' /\ s_cache st' = s_cache st.
Proof.
  intros cap T st f t junk H W Hf.
  destruct (holds_split cap T st (zlen (t ++ junk)) H (zlen_nonneg _ _) Hf) as (old & post & E & Ho).
  destruct H as (rest & _ & L & C). unfold advance. rewrite L, E, W by assumption. cbn [bind].
  eexists; split; [reflexivity|]. cbn [s_cache]. split; [|reflexivity].
  exists (junk ++ post). cbn [s_buf s_len]. split; [rewrite <- app_assoc; reflexivity|].
  rewrite zlen_app. split; [reflexivity|]. rewrite <- C, E. rewrite !zlen_app, Ho, zlen_app. lia.
Qed.

Lemma feed_whole : forall cap T r t, zlen T + r <= cap -> feed cap T (PWhole r t) = T ++ t.
Proof. intros. cbn [feed]. destruct (zlen T + r <=? cap) eqn:E; [reflexivity|lia]. Qed.
Lemma feed_whole_skip : forall cap T r t, cap < zlen T + r -> feed cap T (PWhole r t) = T.
Proof. intros. cbn [feed]. destruct (zlen T + r <=? cap) eqn:E; [lia|reflexivity]. Qed.

Lemma guarded_ok : forall E T st f t junk, holds (e_cap E) T st -> writes f t junk -> zlen (t ++ junk) <= 30 ->
  exists st', guarded E st f = Ret st' /\ holds (e_cap E) (feed (e_cap E) T (PWhole 30 t)) st' /\ s_cache st' = s_cache st.
Proof.
  intros E T st f t junk H W Hl. unfold guarded.
  assert (L: s_len st = zlen T) by (destruct H as (? & _ & L & _); assumption). rewrite L.
  destruct (zlen T + 30 <=? e_cap E) eqn:G.
  - rewrite feed_whole by lia. apply (advance_ok _ _ _ _ _ _ H W). lia.
  - rewrite feed_whole_skip by lia. eauto.
Qed.

Lemma take_ok : forall s n, 0 <= n <= zlen s -> take s n = Ret (firstn (Z.to_nat n) s).
Proof.
  intros s n H. unfold take, slice. destruct ((0 <? 0) || (n <? 0) || (zlen s <? 0 + n)) eqn:E; [lia|]. reflexivity.
Qed.

Lemma wbu_ok : forall cap T st s n, holds cap T st -> 0 <= n <= zlen s -> zlen T + n <= cap ->
  exists st', write_buffer_unsafe st s n = Ret st' /\ holds cap (T ++ firstn (Z.to_nat n) s) st' /\ s_cache st' = s_cache st.
Proof.
  intros cap T st s n H Hn Hf. unfold write_buffer_unsafe. rewrite take_ok by lia. cbn [bind].
  destruct (holds_split cap T st n H ltac:(lia) Hf) as (old & post & E & Ho).
  destruct H as (rest & _ & L & C). rewrite L, E.
  assert (Lf: zlen (firstn (Z.to_nat n) s) = n) by (apply zlen_firstn; lia).
  rewrite blit_splice by (reflexivity || lia). cbn [bind].
  eexists; split; [reflexivity|]. split; [|reflexivity].
  exists post. cbn [s_buf s_len]. split; [rewrite <- app_assoc; reflexivity|].
  rewrite zlen_app, Lf. split; [reflexivity|]. rewrite <- C, E. rewrite !zlen_app. lia.
Qed.

Lemma wcu_ok : forall cap T st c, holds cap T st -> zlen T + 1 <= cap ->
  exists st', write_char_unsafe st c = Ret st' /\ holds cap (T ++ [c]) st' /\ s_cache st' = s_cache st.
Proof.
  intros cap T st c H Hf. unfold write_char_unsafe, wr.
  destruct (holds_split cap T st 1 H ltac:(lia) Hf) as (old & post & E & Ho).
  destruct H as (rest & _ & L & C). rewrite L, E.
  rewrite blit_splice by (reflexivity || (rewrite zlen_cons, zlen_nil; lia)). cbn [bind].
  eexists; split; [reflexivity|]. split; [|reflexivity].
  exists post. cbn [s_buf s_len]. split; [rewrite <- app_assoc; reflexivity|].
  rewrite zlen_app, zlen_cons, zlen_nil. split; [reflexivity|]. rewrite <- C, E. rewrite !zlen_app, zlen_cons, zlen_nil. lia.
Qed.

Lemma firstn_le : forall (T t : text) n, 0 <= n -> zlen T <= n ->
  firstn (Z.to_nat n) (T ++ t) = T ++ firstn (Z.to_nat (n - zlen T)) t.
Proof.
  intros T t n Hn H. rewrite firstn_app. rewrite firstn_all2 by (unfold zlen in H; lia).
  f_equal. f_equal. unfold zlen. lia.
Qed.

Lemma wb_ok : forall E T st s n, holds (e_cap E) T st -> 0 <= n <= zlen s ->
  exists st', write_buffer E st s n = Ret st' /\ holds (e_cap E) (feed (e_cap E) T (PCut (firstn (Z.to_nat n) s))) st' /\
    s_cache st' = s_cache st.
Proof.
  intros E T st s n H Hn. pose proof (holds_len _ _ _ H) as HL. unfold write_buffer.
  assert (L: s_len st = zlen T) by (destruct H as (? & _ & L & _); assumption). rewrite L.
  cbn [feed].
  destruct ((0 <? n) && (zlen T <? e_cap E)) eqn:G.
  - cbv zeta. rewrite firstn_firstn.
    replace (Init.Nat.min (Z.to_nat (e_cap E - zlen T)) (Z.to_nat n)) with (Z.to_nat (Z.min n (e_cap E - zlen T))) by lia.
    apply wbu_ok; [assumption|lia|lia].
  - exists st. split; [reflexivity|]. split; [|reflexivity].
    rewrite firstn_firstn.
    replace (Init.Nat.min (Z.to_nat (e_cap E - zlen T)) (Z.to_nat n)) with 0%nat by lia.
    rewrite firstn_O, app_nil_r. assumption.
Qed.
Lemma wb_all : forall E T st s n, holds (e_cap E) T st -> n = zlen s ->
  exists st', write_buffer E st s n = Ret st' /\ holds (e_cap E) (feed (e_cap E) T (PCut s)) st' /\ s_cache st' = s_cache st.
Proof.
  intros E T st s n H ->. pose proof (zlen_nonneg _ s).
  destruct (wb_ok E T st s (zlen s) H ltac:(lia)) as (st' & R & Hh & C).
  rewrite firstn_all2 in Hh by (unfold zlen; lia). eauto.
Qed.
Lemma wlit_ok : forall E T st s, holds (e_cap E) T st ->
  exists st', write_lit E st s = Ret st' /\ holds (e_cap E) (feed (e_cap E) T (PCut s)) st' /\ s_cache st' = s_cache st.
Proof. intros. apply wb_all; auto. Qed.

(* ---- the formatters ---- *)
Lemma w_dec_u : forall n, is_u64 n -> exists t, is_numeral 10 0 n t /\ zlen t <= 20 /\ writes (fun d o => write_dec_u 0 d o n) t [].
Proof.
  intros n Hn. destruct (write_dec_u_correct 0 n Hn ltac:(lia)) as ((t & N & L) & W).
  exists t. split; [assumption|]. split; [lia|].
  intros pre old post Ho. rewrite app_nil_r in Ho. cbn [app]. apply W; assumption.
Qed.
Lemma w_dec_s : forall n, is_ll n -> n <> LLONG_MIN -> exists t, is_numeral 10 0 (Z.abs n) t /\ zlen t <= 20 /\
  writes (fun d o => write_dec_s 0 d o n) (sign n ++ t) [].
Proof.
  intros n Hn Hm. unfold is_ll, LLONG_MIN, LLONG_MAX in *.
  destruct (w_dec_u (Z.abs n)) as (t & N & L & _); [unfold is_u64; lia|].
  exists t. split; [assumption|]. split; [assumption|].
  intros pre old post Ho. rewrite app_nil_r in Ho. cbn [app].
  assert (X: sign_text n t = sign n ++ t) by (unfold sign_text, sign; destruct (n <? 0); reflexivity).
  rewrite <- X in *. apply write_dec_s_correct; try assumption; try lia.
  - destruct (n <? 0); [|assumption]. destruct N as (N1 & N2 & N3 & N4). repeat split; try assumption; try lia.
Qed.
Lemma w_ptr : forall p, 0 <= p < 2 ^ 64 -> exists t, ptr_text p t /\ zlen t <= 18 /\ writes (fun d o => write_pointer d o p) t [].
Proof.
  intros p Hp. destruct (Z.eq_dec p 0) as [->|Hn].
  - exists (s2z "null"). split; [constructor|]. split; [vm_compute; congruence|].
    intros pre old post Ho. cbn [app]. apply write_pointer_null. rewrite app_nil_r in Ho. exact Ho.
  - destruct (write_hex_correct 0 p ltac:(lia)) as ((t & N & L) & _).
    exists (s2z "0x" ++ t). split; [constructor; [lia|assumption]|].
    assert (X: zlen (s2z "0x" ++ t) = 2 + zlen t) by (rewrite zlen_app; reflexivity).
    split; [lia|]. intros pre old post Ho. rewrite app_nil_r in Ho. cbn [app].
    rewrite X in *. rewrite <- app_assoc. apply write_pointer_correct; try assumption; lia.
Qed.
Lemma w_hex2 : forall c, 0 < c <= 255 -> exists t, is_numeral 16 2 c t /\ zlen t = 2 /\ writes (fun d o => write_hex 2 d o c) t [].
Proof.
  intros c Hc. destruct (write_hex_correct 2 c ltac:(lia)) as ((t & N & L) & W).
  exists t. split; [assumption|].
  pose proof (is_numeral_len 16 2 c t 2 ltac:(lia) ltac:(lia) N ltac:(change (16 ^ 2) with 256; lia)).
  split; [destruct N as (_ & _ & N & _); lia|].
  intros pre old post Ho. rewrite app_nil_r in Ho. cbn [app]. apply W; assumption.
Qed.

Lemma dlt_spec : forall m1 e1 m2 e2, -1074 <= e1 -> -1074 <= e2 ->
  dlt m1 e1 m2 e2 = true <-> m1 * 2 ^ (e1 + 1074) < m2 * 2 ^ (e2 + 1074).
Proof.
  intros m1 e1 m2 e2 H1 H2. unfold dlt. cbv zeta. rewrite Z.ltb_lt.
  set (e := Z.min e1 e2). assert (He: e <= e1 /\ e <= e2 /\ -1074 <= e) by lia. clearbody e.
  replace (e1 + 1074) with ((e1 - e) + (e + 1074)) by lia. replace (e2 + 1074) with ((e2 - e) + (e + 1074)) by lia.
  rewrite (Z.pow_add_r 2 (e1 - e)), (Z.pow_add_r 2 (e2 - e)) by lia. pose proof (pow2_pos (e + 1074) ltac:(lia)).
  rewrite !Z.mul_assoc. split; intros L; [apply Z.mul_lt_mono_pos_r; assumption|].
  apply Z.mul_lt_mono_pos_r in L; assumption.
Qed.

Lemma sub_spec : forall m e, -1074 <= e -> dlt m e 1 (-1022) = true <-> subnormal_range m e.
Proof. intros m e H. rewrite dlt_spec by lia. unfold subnormal_range, units. change (1 * 2 ^ (-1022 + 1074)) with (2 ^ 52). reflexivity. Qed.
Lemma fixed_spec : forall m e, -1074 <= e ->
  dlt m e (fst c_1em4) (snd c_1em4) && dlt (fst c_1em7) (snd c_1em7) m e = true <-> fixed_range m e.
Proof.
  intros m e H. rewrite andb_true_iff. unfold c_1em4, c_1em7, fixed_range, units. cbn [fst snd]. rewrite !dlt_spec by lia.
  change (-66 + 1074) with 1008. change (-76 + 1074) with 998. tauto.
Qed.
Lemma gcvt_spec : forall m e, -1074 <= e -> dlt m e 1 (-1022) = false ->
  dlt m e (fst c_1em4) (snd c_1em4) || dlt (fst c_2p60) (snd c_2p60) m e = true ->
  dlt m e (fst c_1em4) (snd c_1em4) && dlt (fst c_1em7) (snd c_1em7) m e = false -> gcvt_range m e.
Proof.
  intros m e H SUB R T. assert (S0 : ~ subnormal_range m e) by (rewrite <- sub_spec by assumption; congruence).
  unfold gcvt_range. destruct (dlt m e (fst c_1em4) (snd c_1em4)) eqn:A.
  - cbn [andb] in T. left. unfold subnormal_range in S0. split; [lia|].
    assert (X : ~ 7555786372591432 * 2 ^ (-76 + 1074) < m * 2 ^ (e + 1074)) by (rewrite <- dlt_spec by lia; change (fst c_1em7) with 7555786372591432 in T; change (snd c_1em7) with (-76) in T; congruence).
    change (-76 + 1074) with 998 in X. unfold units. apply Z.nlt_ge. exact X.
  - cbn [orb] in R. right. unfold c_2p60 in R. cbn [fst snd] in R. rewrite dlt_spec in R by lia. change (1 * 2 ^ (60 + 1074)) with (2 ^ 1134) in R. exact R.
Qed.

Lemma w_dbl : forall L d, libc_ok L -> is_double d -> exists t junk, dbl_text L d t /\ zlen (t ++ junk) <= 30 /\
  writes (fun dst o => write_double L dst o d) t junk.
Proof.
  intros L d HL Hd. destruct d as [n|n| |neg m e]; cbn [is_double] in Hd.
  - exists (s2z "0"), []. split; [constructor|]. split; [vm_compute; congruence|].
    apply emits_writes. intros dst off _ _. reflexivity.
  - exists (s2z "inf"), []. split; [constructor|]. split; [vm_compute; congruence|].
    apply emits_writes. intros dst off _ _. reflexivity.
  - exists (s2z "nan"), []. split; [constructor|]. split; [vm_compute; congruence|].
    apply emits_writes. intros dst off _ _. reflexivity.
  - assert (HE : -1074 <= e) by lia. destruct (dlt m e 1 (-1022)) eqn:SUB.
    { exists (s2z "0"), []. split; [constructor; apply sub_spec; assumption|].
      split; [vm_compute; congruence|]. apply emits_writes. intros dst off Ho Hr. unfold write_double. rewrite SUB. reflexivity. }
    destruct (dlt m e (fst c_1em4) (snd c_1em4) || dlt (fst c_2p60) (snd c_2p60) m e) eqn:RNG.
    + destruct (dlt m e (fst c_1em4) (snd c_1em4) && dlt (fst c_1em7) (snd c_1em7) m e) eqn:TINY.
      * exists (firstn 29 (fmt_08lf L (DFin false m e))), [0]. split; [constructor; apply fixed_spec; assumption|]. split.
        { rewrite zlen_app. change (zlen [0]) with 1. unfold zlen. pose proof (firstn_le_length 29 (fmt_08lf L (DFin false m e))). lia. }
        apply emits_writes. intros dst off Ho Hr. unfold write_double. rewrite SUB, RNG, TINY. reflexivity.
      * exists (gcvt16 L (DFin neg m e)), [0]. split; [constructor; apply gcvt_spec; assumption|]. split.
        { rewrite zlen_app. change (zlen [0]) with 1. pose proof (HL (DFin neg m e)). lia. }
        apply emits_writes. intros dst off Ho Hr. unfold write_double. rewrite SUB, RNG, TINY. reflexivity.
    + apply orb_false_iff in RNG. destruct RNG as (R1 & R2).
      assert (P : plain_range m e).
      { apply double_cases; try assumption. destruct Hd as [|(Hm & ->)]; [assumption|exfalso].
        assert (X : ~ subnormal_range m (-1074)) by (rewrite <- sub_spec by lia; congruence).
        apply X. unfold subnormal_range, units. change (-1074 + 1074) with 0. rewrite Z.pow_0_r. lia. }
      destruct (write_double_plain L neg m e P) as (t & junk & T & Ln & E). exists t, junk.
      split; [econstructor; [exact P|exact (dbl_decimals m e P)|exact T]|]. split; [lia|]. apply emits_writes; exact E.
Qed.

(* ---- dates ---- *)
Definition date_ok (o ts : Z) : Prop :=
  - 2 ^ 55 <= ts <= 2 ^ 55 /\ ~ 0 <= ts < 86400 /\
  exists y m d, valid_date y m d /\ day_number y m d = (ts + o) / 86400 /\ 0 <= y <= 9999.
Definition cache_fine (o : Z) (c : cache) : Prop := near c /\ (good o c \/ c = cache_init).

Lemma cache_init_fine : forall o, cache_fine o cache_init.
Proof. intros o. split; [unfold near, cache_init; cbn; lia|right; reflexivity]. Qed.

Lemma date_ok_run : forall E o T st ts p, e_zone E = fixed_zone o -> - 86400 <= o <= 86400 ->
  holds (e_cap E) T st -> cache_fine o (s_cache st) -> date_ok o ts -> 0 <= p < 2 ^ 32 -> zlen T + 23 <= e_cap E ->
  exists t st', is_date_text (ts + o) p t /\ zlen t = 23 /\
    advance_date E st ts p = Ret st' /\ holds (e_cap E) (T ++ t) st' /\ cache_fine o (s_cache st').
Proof.
  intros E o T st ts p EZ Ho H (N & G) (Hs & H0 & y0 & m0 & d0 & V0 & N0 & Y0) Hp Hf.
  destruct (date_cache_step o (s_cache st) ts Ho Hs N) as (c1 & ds & R & N1 & _ & _).
  destruct (date_cache_good o (s_cache st) ts Ho Hs N) as (c' & y & m & d & b & R' & D & V & ND & G').
  { destruct G as [G|G]; auto. }
  rewrite R in R'. injection R' as -> ->.
  destruct (date_unique y m d y0 m0 d0 V V0 ltac:(congruence)) as (-> & -> & ->).
  destruct (write_date_ok o (s_cache st) ts p y0 m0 d0 b c' Ho Hp R D V ND Y0) as (t & HT & L & W).
  exists t. destruct (holds_split _ T st 23 H ltac:(lia) Hf) as (old & post & EB & Lo).
  destruct H as (rest & _ & LN & C).
  unfold advance_date. rewrite EZ, LN, EB. rewrite W.
  2: apply zlen_nonneg. 2: rewrite !zlen_app; pose proof (zlen_nonneg _ post); lia.
  rewrite blit_splice by (reflexivity || lia). cbn [bind].
  eexists. split; [assumption|]. split; [assumption|]. split; [reflexivity|]. cbn [s_cache].
  split; [|split; [assumption|left; assumption]].
  exists post. cbn [s_buf s_len]. split; [rewrite <- app_assoc; reflexivity|].
  rewrite zlen_app, L. split; [reflexivity|]. rewrite <- C, EB, !zlen_app. lia.
Qed.

(* ---- running a piece of code that appends pieces ---- *)
Definition runs (E : env) (o : Z) (m : outcome strm) (T : text) (ps : list piece) : Prop :=
  exists st', m = Ret st' /\ holds (e_cap E) (feed_all (e_cap E) T ps) st' /\ cache_fine o (s_cache st').
Definition ready (E : env) (o : Z) (T : text) (st : strm) : Prop :=
  holds (e_cap E) T st /\ cache_fine o (s_cache st).

Lemma feed_all_app : forall cap T ps qs, feed_all cap T (ps ++ qs) = feed_all cap (feed_all cap T ps) qs.
Proof. intros. unfold feed_all. apply fold_left_app. Qed.

Lemma runs_bind : forall E o m k T ps qs, runs E o m T ps ->
  (forall st', ready E o (feed_all (e_cap E) T ps) st' -> runs E o (k st') (feed_all (e_cap E) T ps) qs) ->
  runs E o (bind m k) T (ps ++ qs).
Proof.
  intros E o m k T ps qs (st & -> & H & C) K. cbn [bind]. destruct (K st (conj H C)) as (st' & R & H' & C').
  exists st'. rewrite feed_all_app. auto.
Qed.
Lemma runs_cons : forall E o m k T p qs, runs E o m T [p] ->
  (forall st', ready E o (feed (e_cap E) T p) st' -> runs E o (k st') (feed (e_cap E) T p) qs) ->
  runs E o (bind m k) T (p :: qs).
Proof. intros E o m k T p qs H K. apply (runs_bind E o m k T [p] qs H K). Qed.
Lemma runs_ret : forall E o T st, ready E o T st -> runs E o (Ret st) T [].
Proof. intros E o T st (H & C). exists st. auto. Qed.

Lemma run_same : forall E o T st m p, ready E o T st ->
  (exists st', m = Ret st' /\ holds (e_cap E) (feed (e_cap E) T p) st' /\ s_cache st' = s_cache st) -> runs E o m T [p].
Proof. intros E o T st m p (H & C) (st' & R & H' & C'). exists st'. split; [assumption|]. split; [exact H'|]. rewrite C'. assumption. Qed.
Lemma run_lit : forall E o T st s, ready E o T st -> runs E o (write_lit E st s) T [PCut s].
Proof. intros E o T st s H. apply (run_same E o T st _ _ H). apply wlit_ok. exact (proj1 H). Qed.
Lemma run_wb : forall E o T st s n, ready E o T st -> n = zlen s -> runs E o (write_buffer E st s n) T [PCut s].
Proof. intros E o T st s n H ->. apply (run_same E o T st _ _ H). apply wb_all; [exact (proj1 H)|reflexivity]. Qed.
Lemma run_guarded : forall E o T st f t junk, ready E o T st -> writes f t junk -> zlen (t ++ junk) <= 30 ->
  runs E o (guarded E st f) T [PWhole 30 t].
Proof. intros E o T st f t junk H W L. apply (run_same E o T st _ _ H). apply (guarded_ok E T st f t junk (proj1 H) W L). Qed.

Lemma feed_cut_app : forall cap T a b, feed cap (feed cap T (PCut a)) (PCut b) = feed cap T (PCut (a ++ b)).
Proof.
  intros. cbn [feed]. rewrite <- app_assoc. f_equal. rewrite (firstn_app _ a b). f_equal. f_equal.
  rewrite zlen_app. unfold zlen. rewrite firstn_length. lia.
Qed.

(* ---- binary dump ---- *)
Lemma run_chars : forall E o row T st, ready E o T st ->
  runs E o (bin_chars E st row) T (map (fun c => PCut (shown_char c)) row).
Proof.
  intros E o. induction row as [|c row IH]; intros T st H; [apply runs_ret; assumption|].
  cbn [bin_chars map]. apply runs_cons; [|intros st' H'; apply IH; assumption].
  unfold shown_char. change ((32 <=? c) && (c <=? 126)) with (isprint c). destruct (isprint c); [|apply run_lit; assumption].
  assert (R: runs E o (let! st := write_lit E st [32] in let! st := write_buffer E st [c] 1 in write_lit E st [32]) T
    [PCut [32]; PCut [c]; PCut [32]]).
  { apply runs_cons; [apply run_lit; assumption|]. intros st1 H1.
    apply runs_cons; [apply run_wb; [assumption|reflexivity]|]. intros st2 H2. apply run_lit; assumption. }
  destruct R as (st' & R & Hh & C). exists st'. split; [exact R|]. split; [|assumption].
  cbn [feed_all fold_left] in Hh. rewrite !feed_cut_app in Hh. exact Hh.
Qed.

Lemma hex_skip : forall cap row ps T, hex_bytes row ps -> cap < zlen T + 31 -> feed_all cap T ps = T.
Proof.
  intros cap row ps T H. induction H as [|c r h ps N H IH]; intros L; [reflexivity|].
  unfold feed_all in *. cbn [fold_left]. rewrite feed_whole_skip by lia. apply IH; assumption.
Qed.

Lemma hex_exists : forall row, Forall (fun c => 0 < c <= 255) row -> exists ps, hex_bytes row ps.
Proof.
  intros row H. induction H as [|c row Hc H (ps & IH)]; [exists []; constructor|].
  destruct (w_hex2 c Hc) as (t & N & _). eexists. econstructor; eauto.
Qed.

Lemma run_hex : forall E o row, Forall (fun c => 0 < c <= 255) row -> exists ps, hex_bytes row ps /\
  forall T st, ready E o T st -> runs E o (bin_hex E st row) T ps.
Proof.
  intros E o row H. induction H as [|c row Hc H (ps & HB & IH)].
  - exists []. split; [constructor|]. intros T st R. apply runs_ret; assumption.
  - destruct (w_hex2 c Hc) as (t & N & L & W).
    exists (PWhole 31 (t ++ [32]) :: ps). split; [constructor; assumption|].
    intros T st R. cbn [bin_hex]. assert (LEN: s_len st = zlen T) by (destruct R as ((? & _ & X & _) & _); assumption).
    rewrite LEN. destruct (e_cap E <=? zlen T + 30) eqn:G.
    + exists st. split; [reflexivity|]. split; [|exact (proj2 R)].
      rewrite (hex_skip _ (c :: row)); [exact (proj1 R)|constructor; assumption|lia].
    + destruct (advance_ok (e_cap E) T st _ t [] (proj1 R) W) as (s1 & R1 & H1 & C1); [rewrite app_nil_r; lia|].
      rewrite R1. cbn [bind].
      assert (RD1: ready E o (T ++ t) s1) by (split; [assumption|rewrite C1; exact (proj2 R)]).
      destruct (run_lit E o (T ++ t) s1 [32] RD1) as (s2 & R2 & H2 & C2). rewrite R2. cbn [bind].
      cbn [feed_all fold_left feed] in H2. rewrite firstn_all2 in H2.
      2: { rewrite zlen_app. cbn [length]. lia. }
      destruct (IH ((T ++ t) ++ [32]) s2 (conj H2 C2)) as (s3 & R3 & H3 & C3). exists s3. split; [exact R3|].
      split; [|assumption]. unfold feed_all in *. cbn [fold_left]. rewrite feed_whole by lia. rewrite app_assoc. exact H3.
Qed.

Lemma run_rows : forall E o n data addr, Forall (fun c => 0 < c <= 255) data -> 0 <= addr -> addr + 32 * Z.of_nat n <= 2 ^ 64 ->
  exists ps, dump_rows n addr data ps /\ forall T st, ready E o T st -> runs E o (bin_rows n E st addr data) T ps.
Proof.
  intros E o. induction n as [|n IH]; intros data addr Hd Ha Hb.
  - exists []. split; [constructor|]. intros. apply runs_ret; assumption.
  - assert (Hd1: Forall (fun c => 0 < c <= 255) (firstn 32 data)).
    { rewrite <- (firstn_skipn 32 data) in Hd. apply Forall_app in Hd. tauto. }
    assert (Hd2: Forall (fun c => 0 < c <= 255) (skipn 32 data)).
    { rewrite <- (firstn_skipn 32 data) in Hd. apply Forall_app in Hd. tauto. }
    destruct (w_ptr addr ltac:(lia)) as (p & HP & LP & WP).
    destruct (run_hex E o (firstn 32 data) Hd1) as (hs & HH & RH).
    destruct (IH (skipn 32 data) (addr + 32) Hd2 ltac:(lia) ltac:(lia)) as (ps & HR & RR).
    eexists. split; [econstructor; eassumption|]. intros T st R. cbn [bin_rows]. cbv zeta.
    change (crlf_tab ++ [91]) with bar.
    assert (PTR: forall T st, ready E o T st -> runs E o (stream_pointer E st addr) T [PWhole 30 p]).
    { intros T' st' R'. apply (run_guarded E o T' st' _ p [] R' WP). rewrite app_nil_r. lia. }
    cbn [app]. apply runs_cons; [apply run_lit; assumption|]. intros s1 R1.
    apply runs_cons; [apply PTR; assumption|]. intros s2 R2.
    apply runs_cons; [apply run_lit; assumption|]. intros s3 R3.
    apply runs_bind; [apply run_chars; assumption|]. intros s4 R4.
    apply runs_cons; [apply run_lit; assumption|]. intros s5 R5.
    apply runs_cons.
    { assert (LEN: s_len s5 = zlen (feed (e_cap E) (feed_all (e_cap E) (feed (e_cap E) (feed (e_cap E) (feed (e_cap E) T (PCut bar)) (PWhole 30 p)) (PCut (s2z ": "))) (map (fun c => PCut (shown_char c)) (firstn 32 data))) (PCut bar)))
        by (destruct R5 as ((? & _ & X & _) & _); exact X).
      destruct (s_len s5 + 8 <=? e_cap E) eqn:G8; [apply PTR; assumption|].
      exists s5. split; [reflexivity|]. split; [|exact (proj2 R5)].
      cbn [feed_all fold_left]. rewrite feed_whole_skip by lia. exact (proj1 R5). }
    intros s6 R6. apply runs_cons; [apply run_lit; assumption|]. intros s7 R7.
    apply runs_bind; [apply RH; assumption|]. intros s8 R8. apply RR; assumption.
Qed.

(* ---- percentages ---- *)
Definition is_float (v : dbl) : Prop :=
  match v with DFin _ m e => 0 < m < 2 ^ 24 /\ -149 <= e <= 104 | _ => True end.

Lemma percent_small_spec : forall v, is_float v -> percent_small v = true <-> low_ratio v.
Proof.
  intros v Hv. destruct v as [s|s| |s m e]; cbn [percent_small low_ratio is_float] in *; try tauto; try (split; [discriminate|tauto]).
  rewrite orb_true_iff. rewrite dlt_spec by lia. change (-72 + 1074) with (1074 - 72). tauto.
Qed.

Lemma times100_ok : forall m e, 0 < m < 2 ^ 24 -> -149 <= e <= 104 -> exists m' e',
  times100 (DFin false m e) = DFin false m' e' /\ is_double (DFin false m' e') /\
  m' * 2 ^ (e' + 1074) = 100 * (m * 2 ^ (e + 1074)).
Proof.
  intros m e Hm He. cbn [times100]. cbv zeta. set (p := m * 100).
  assert (Hp: 0 < p < 2 ^ 31) by (unfold p; lia).
  pose proof (Z.log2_spec p ltac:(lia)) as (L1 & L2). pose proof (Z.log2_nonneg p) as L0.
  assert (L31: Z.log2 p < 31) by (apply Z.log2_lt_pow2; lia).
  set (l := Z.log2 p) in *. do 2 eexists. split; [reflexivity|]. split.
  - cbn [is_double]. left. split; [|lia].
    assert (E1: 2 ^ 52 = 2 ^ l * 2 ^ (52 - l)) by (rewrite <- Z.pow_add_r by lia; f_equal; lia).
    assert (E2: 2 ^ 53 = 2 ^ Z.succ l * 2 ^ (52 - l)) by (rewrite <- Z.pow_add_r by lia; f_equal; lia).
    pose proof (pow2_pos (52 - l) ltac:(lia)). rewrite E1, E2. split; [apply Z.mul_le_mono_nonneg_r; lia|].
    apply Z.mul_lt_mono_pos_r; lia.
  - rewrite <- Z.mul_assoc, <- Z.pow_add_r by lia. replace (52 - l + (e - (52 - l) + 1074)) with (e + 1074) by lia.
    unfold p. ring.
Qed.

(* ---- the values for which streaming is defined ---- *)
Inductive val_ok (o : Z) : sval -> Prop :=
| vo_null : val_ok o SNullCstr
| vo_str : forall s, zlen s <= INT_MAX -> val_ok o (SStr s)
| vo_char : forall c, val_ok o (SChar c)
| vo_bool : forall b, val_ok o (SBool b)
| vo_ll : forall n, LLONG_MIN < n <= LLONG_MAX -> val_ok o (SLL n)
| vo_ull : forall n, 0 <= n < 2 ^ 64 -> val_ok o (SULL n)
| vo_ptr : forall p, 0 <= p < 2 ^ 64 -> val_ok o (SPtr p)
| vo_dbl : forall d, is_double d -> val_ok o (SDbl d)
| vo_pair : forall a b, val_ok o a -> val_ok o b -> val_ok o (SPair a b)
| vo_cont : forall name elems, zlen elems < 2 ^ 64 -> vals_ok o elems -> val_ok o (SCont name elems)
| vo_blank : forall n, val_ok o (SBlank n)
| vo_percent : forall v, is_float v -> val_ok o (SPercent v)
| vo_date : forall ts p, date_ok o ts -> val_ok o (SDate ts p)
| vo_bin : forall a d, 0 <= a -> a + zlen d + 32 <= 2 ^ 64 -> Forall (fun c => 0 < c <= 255) d -> val_ok o (SBin a d)
with vals_ok (o : Z) : list sval -> Prop :=
| vso_nil : vals_ok o []
| vso_cons : forall v vs, val_ok o v -> vals_ok o vs -> vals_ok o (v :: vs).

Scheme val_ok_mut := Induction for val_ok Sort Prop
  with vals_ok_mut := Induction for vals_ok Sort Prop.

Lemma int_of_small : forall n, 0 <= n <= INT_MAX -> int_of n = n.
Proof. intros n H. unfold int_of, INT_MAX in *. rewrite Z.mod_small by lia. lia. Qed.

Lemma run_blanks : forall cap n T st, holds cap T st -> zlen T + Z.of_nat n <= cap ->
  exists st', blanks n st = Ret st' /\ holds cap (T ++ repeat 32 n) st' /\ s_cache st' = s_cache st.
Proof.
  intros cap. induction n as [|n IH]; intros T st H L.
  - exists st. cbn [repeat]. rewrite app_nil_r. auto.
  - cbn [blanks]. destruct (wcu_ok cap T st 32 H ltac:(lia)) as (s1 & -> & H1 & C1). cbn [bind].
    destruct (IH (T ++ [32]) s1 H1) as (s2 & R2 & H2 & C2); [rewrite zlen_app, zlen_cons, zlen_nil; lia|].
    exists s2. split; [assumption|]. cbn [repeat]. rewrite <- app_assoc in H2. split; [exact H2|congruence].
Qed.

(* the local loop of write_container *)
Definition each (E : env) : list sval -> Z -> strm -> outcome strm :=
  fix each (l : list sval) (input_count : Z) (st : strm) {struct l} : outcome strm :=
    match l with
    | [] => Ret st
    | x :: l' =>
        if MAX_CONTAINER_DEPTH <=? input_count then write_lit E st (s2z "..., ")
        else
          let! st := if 0 <? input_count then write_lit E st (s2z ", ") else Ret st in
          let! st := stream_val E st x in
          each l' (input_count + 1) st
    end.

Definition sep : list piece := [PCut (s2z ", ")].
Definition tail_join (l : list (list piece)) : list piece := concat (map (fun x => sep ++ x) l).
Lemma join_cons : forall x l, join sep (x :: l) = x ++ tail_join l.
Proof.
  intros x l. revert x. induction l as [|y l IH]; intros x; [cbn; rewrite app_nil_r; reflexivity|].
  change (join sep (x :: y :: l)) with (x ++ sep ++ join sep (y :: l)). rewrite IH.
  unfold tail_join. cbn [map concat]. rewrite <- !app_assoc. reflexivity.
Qed.

Definition goes (E : env) (o : Z) (v : sval) (ps : list piece) : Prop :=
  shows o (e_libc E) v ps /\ forall T st, ready E o T st -> runs E o (stream_val E st v) T ps.
Definition val_runs (E : env) (o : Z) (v : sval) : Prop := exists ps, goes E o v ps.
Lemma goes_each : forall E o vs ps, Forall2 (goes E o) vs ps -> shows_each o (e_libc E) vs ps.
Proof. intros E o vs ps H. induction H as [|v p vs ps (S & _) H IH]; constructor; assumption. Qed.

Lemma each_tail : forall E o l, Forall (val_runs E o) l -> forall k, 1 <= k <= 5 ->
  exists ps, Forall2 (goes E o) (firstn (Z.to_nat (5 - k)) l) ps /\
  forall T st, ready E o T st ->
    runs E o (each E l k st) T (tail_join ps ++ if 5 <? k + zlen l then [PCut (s2z "..., ")] else []).
Proof.
  intros E o l H. induction H as [|v l (pv & SV & RV) H IH]; intros k Hk.
  - exists []. rewrite firstn_nil. split; [constructor|]. intros T st R. rewrite zlen_nil.
    destruct (5 <? k + 0) eqn:G; [lia|]. cbn. apply runs_ret; assumption.
  - rewrite zlen_cons. pose proof (zlen_nonneg _ l). destruct (Z.eq_dec k 5) as [->|Hn].
    + exists []. split; [constructor|]. intros T st R. destruct (5 <? 5 + (1 + zlen l)) eqn:G; [|lia].
      cbn [each]. change (MAX_CONTAINER_DEPTH <=? 5) with true. cbn [tail_join map concat app]. apply run_lit; assumption.
    + destruct (IH (k + 1) ltac:(lia)) as (ps & SH & R0). exists (pv :: ps). split.
      * replace (Z.to_nat (5 - k)) with (S (Z.to_nat (5 - (k + 1)))) by lia. cbn [firstn]. constructor; [split|]; assumption.
      * intros T st R. cbn [each]. unfold MAX_CONTAINER_DEPTH. destruct (5 <=? k) eqn:G; [lia|]. destruct (0 <? k) eqn:G0; [|lia].
        unfold tail_join. cbn [map concat]. fold (tail_join ps). unfold sep at 1. cbn [app].
        apply runs_cons; [apply run_lit; assumption|]. intros s1 R1. rewrite <- app_assoc.
        apply runs_bind; [apply RV; assumption|]. intros s2 R2.
        replace (k + (1 + zlen l)) with (k + 1 + zlen l) by lia. apply R0; assumption.
Qed.

Lemma each_ok : forall E o l, Forall (val_runs E o) l ->
  exists ps, Forall2 (goes E o) (firstn 5 l) ps /\
  forall T st, ready E o T st ->
    runs E o (each E l 0 st) T (join sep ps ++ if 5 <? zlen l then [PCut (s2z "..., ")] else []).
Proof.
  intros E o l H. destruct H as [|v l (pv & SV & RV) H].
  - exists []. split; [constructor|]. intros T st R. cbn. apply runs_ret; assumption.
  - destruct (each_tail E o l H 1 ltac:(lia)) as (ps & SH & R0).
    exists (pv :: ps). split; [constructor; [split|]; assumption|]. intros T st R. cbn [each].
    change (MAX_CONTAINER_DEPTH <=? 0) with false. change (0 <? 0) with false. cbv iota.
    rewrite join_cons, <- app_assoc. cbn [bind]. apply runs_bind; [apply RV; assumption|].
    intros s2 R2. rewrite zlen_cons. apply R0; assumption.
Qed.

Definition cont_pieces (name : text) (n : Z) (size : text) (ps : list (list piece)) : list piece :=
  [PCut name; PCut (s2z "("); PWhole 30 size; PCut (s2z ")[")] ++ join sep ps ++
  (if 5 <? n then [PCut (s2z "..., ")] else []) ++ [PCut (s2z "]")].
Lemma cont_goes : forall E o name elems, Forall (val_runs E o) elems -> zlen elems < 2 ^ 64 ->
  exists size ps, is_numeral 10 0 (zlen elems) size /\ Forall2 (goes E o) (firstn 5 elems) ps /\
    goes E o (SCont name elems) (cont_pieces name (zlen elems) size ps).
Proof.
  intros E o name elems IH Hn. destruct (each_ok E o elems IH) as (ps & SH & R0).
  destruct (w_dec_u (zlen elems)) as (t & N & L & W); [pose proof (zlen_nonneg _ elems); unfold is_u64; lia|].
  exists t, ps. split; [assumption|]. split; [assumption|]. unfold cont_pieces. split.
  { econstructor; [assumption|apply (goes_each E); assumption]. }
  intros T st R.
  change (stream_val E st (SCont name elems)) with
    (let! st := write_buffer E st name (zlen name) in
     let! st := write_buffer E st [40] 1 in
     let! st := write_ulonglong 0 E st (zlen elems) in
     let! st := write_buffer E st (s2z ")[") 2 in
     let! st := each E elems 0 st in write_lit E st [93]).
  cbn [app]. apply runs_cons; [apply run_wb; [assumption|reflexivity]|]. intros s1 R1.
  apply runs_cons; [apply run_wb; [assumption|reflexivity]|]. intros s2 R2.
  apply runs_cons; [apply (run_guarded E o _ s2 _ _ _ R2 W); rewrite app_nil_r; lia|]. intros s3 R3.
  apply runs_cons; [apply run_wb; [assumption|reflexivity]|]. intros s4 R4.
  rewrite app_assoc. apply runs_bind; [apply R0; assumption|]. intros s5 R5. apply run_lit; assumption.
Qed.

Lemma val_runs_ok : forall E o, e_zone E = fixed_zone o -> - 86400 <= o <= 86400 -> libc_ok (e_libc E) ->
  forall v, val_ok o v -> val_runs E o v.
Proof.
  intros E o EZ Ho HL. apply (val_ok_mut o (fun v _ => val_runs E o v) (fun l _ => Forall (val_runs E o) l)).
  - eexists; split; [constructor|]. intros T st R. apply run_wb; [assumption|reflexivity].
  - intros s Hs. eexists; split; [constructor|]. intros T st R. cbn [stream_val].
    apply run_wb; [assumption|]. apply int_of_small. pose proof (zlen_nonneg _ s). lia.
  - intros c. eexists; split; [constructor|]. intros T st R. apply run_wb; [assumption|reflexivity].
  - intros b. eexists; split; [constructor|]. intros T st R. cbn [stream_val].
    destruct b; (apply run_wb; [assumption|reflexivity]).
  - intros n Hn. destruct (w_dec_s n) as (t & N & L & W); [unfold is_ll; lia|lia|].
    eexists; split; [constructor; eassumption|]. intros T st R. cbn [stream_val]. unfold write_longlong.
    apply (run_guarded E o T st _ _ _ R W). rewrite app_nil_r, zlen_app. unfold sign. destruct (n <? 0); rewrite ?zlen_cons, ?zlen_nil; lia.
  - intros n Hn. destruct (w_dec_u n Hn) as (t & N & L & W).
    eexists; split; [constructor; eassumption|]. intros T st R. apply (run_guarded E o T st _ _ _ R W). rewrite app_nil_r. lia.
  - intros p Hp. destruct (w_ptr p Hp) as (t & N & L & W).
    eexists; split; [constructor; eassumption|]. intros T st R. apply (run_guarded E o T st _ _ _ R W). rewrite app_nil_r. lia.
  - intros d Hd. destruct (w_dbl (e_libc E) d HL Hd) as (t & junk & N & L & W).
    eexists; split; [constructor; eassumption|]. intros T st R. apply (run_guarded E o T st _ _ _ R W). lia.
  - intros a b _ (pa & Sa & Ra) _ (pb & Sb & Rb).
    eexists; split; [constructor; eassumption|]. intros T st R. cbn [stream_val app].
    apply runs_cons; [apply run_wb; [assumption|reflexivity]|]. intros s1 R1.
    apply runs_bind; [apply Ra; assumption|]. intros s2 R2.
    apply runs_cons; [apply run_wb; [assumption|reflexivity]|]. intros s3 R3.
    apply runs_bind; [apply Rb; assumption|]. intros s4 R4.
    apply run_wb; [assumption|reflexivity].
  - intros name elems Hn _ IH. destruct (cont_goes E o name elems IH Hn) as (t & ps & _ & _ & G). eexists; exact G.
  - intros n. eexists; split; [constructor|]. intros T st R. cbn [stream_val].
    assert (LEN: s_len st = zlen T) by (destruct R as ((? & _ & X & _) & _); assumption). rewrite LEN.
    apply (run_same E o T st _ _ R). cbn [feed]. destruct (zlen T + n <? e_cap E) eqn:G.
    + apply run_blanks; [exact (proj1 R)|]. pose proof (holds_len _ _ _ (proj1 R)). lia.
    + exists st. split; [reflexivity|]. split; [exact (proj1 R)|reflexivity].
  - intros v Hv. pose proof (percent_small_spec v Hv) as PS. destruct (percent_small v) eqn:P.
    + eexists; split; [apply sh_percent_low; apply PS; reflexivity|]. intros T st R. cbn [stream_val]. rewrite P.
      assert (LEN: s_len st = zlen T) by (destruct R as ((? & _ & X & _) & _); assumption). rewrite LEN.
      destruct (zlen T + 40 <? e_cap E) eqn:G.
      * destruct (run_wb E o T st (s2z "00.00%") 6 R eq_refl) as (s1 & R1 & H1 & C1). exists s1.
        split; [assumption|]. split; [|assumption]. cbn [feed_all fold_left] in *. rewrite feed_whole by lia.
        cbn [feed] in H1. rewrite firstn_all2 in H1; [exact H1|].
        change (length (s2z "00.00%")) with 6%nat. lia.
      * exists st. split; [reflexivity|]. split; [|exact (proj2 R)]. cbn [feed_all fold_left].
        rewrite feed_whole_skip by lia. exact (proj1 R).
    + assert (X: exists d t junk, times100 v = d /\ shows o (e_libc E) (SPercent v) [PWhole 41 (t ++ s2z "%")] /\ zlen (t ++ junk) <= 30 /\
         writes (fun dst o => write_double (e_libc E) dst o d) t junk).
      { assert (NL: ~ low_ratio v) by (rewrite <- PS; discriminate).
        destruct v as [s|s| |s m e]; cbn [percent_small] in P; try discriminate.
        - subst s. destruct (w_dbl (e_libc E) (DInf false) HL I) as (t & junk & N & L & W).
          exists (DInf false), t, junk. split; [reflexivity|]. split; [apply sh_percent_special; [right; reflexivity|assumption]|auto].
        - destruct (w_dbl (e_libc E) DNan HL I) as (t & junk & N & L & W).
          exists DNan, t, junk. split; [reflexivity|]. split; [apply sh_percent_special; [left; reflexivity|assumption]|auto].
        - destruct s; [discriminate|]. cbn [is_float] in Hv. destruct (times100_ok m e) as (m' & e' & X1 & X2 & X3); [tauto|tauto|].
          destruct (w_dbl (e_libc E) (DFin false m' e') HL X2) as (t & junk & N & L & W).
          exists (DFin false m' e'), t, junk. split; [assumption|].
          split; [eapply sh_percent; [exact NL| |exact X3|exact N]|auto].
          assert (~ m * 2 ^ (e + 1074) < 4722366482869645 * 2 ^ (1074 - 72)) by (intros X; apply NL; right; exact X).
          assert (C : 2 ^ 52 <= m' < 2 ^ 53 \/ 0 < m' < 2 ^ 52 /\ e' = -1074) by (cbn [is_double] in X2; tauto). destruct C as [C|(C & ->)]; [exact C|exfalso].
          change (-1074 + 1074) with 0 in X3. rewrite Z.pow_0_r in X3.
          assert (2 ^ 52 < 4722366482869645 * 2 ^ (1074 - 72)) by (vm_compute; reflexivity). lia. }
      destruct X as (d & t & junk & TD & S & L & W). eexists; split; [exact S|]. intros T st R. cbn [stream_val]. rewrite P, TD.
      assert (LEN: s_len st = zlen T) by (destruct R as ((? & _ & X & _) & _); assumption). rewrite LEN.
      destruct (zlen T + 40 <? e_cap E) eqn:G.
      * destruct (advance_ok (e_cap E) T st _ t junk (proj1 R) W ltac:(lia)) as (s1 & -> & H1 & C1). cbn [bind].
        rewrite zlen_app in L. pose proof (zlen_nonneg _ junk).
        destruct (wcu_ok (e_cap E) (T ++ t) s1 37 H1) as (s2 & R2 & H2 & C2); [rewrite zlen_app; lia|].
        exists s2. split; [assumption|]. cbn [feed_all fold_left]. rewrite feed_whole by lia.
        rewrite <- app_assoc in H2. split; [exact H2|]. rewrite C2, C1. exact (proj2 R).
      * exists st. split; [reflexivity|]. split; [|exact (proj2 R)]. cbn [feed_all fold_left].
        rewrite feed_whole_skip by lia. exact (proj1 R).
  - intros ts p (D1 & D2 & D3).
    assert (PB: 0 <= u32 p < 2 ^ 32) by (unfold u32; lia).
    (* the text does not depend on the stream *)
    set (E40 := mkEnv (e_zone E) (e_libc E) 40). set (s0 := mkStrm (repeat 0 40) 0 cache_init).
    destruct (date_ok_run E40 o [] s0 ts (u32 p) EZ Ho) as (t & _ & HT & LT & _); try assumption.
    { exists (repeat 0 40). split; [reflexivity|]. split; reflexivity. } { apply cache_init_fine. } { repeat split; assumption || lia. }
    { cbn. vm_compute. congruence. }
    exists [PWhole 41 t]. split; [constructor; exact HT|].
    intros T st R. cbn [stream_val].
    assert (LEN: s_len st = zlen T) by (destruct R as ((? & _ & X & _) & _); assumption). rewrite LEN.
    destruct (zlen T + 40 <? e_cap E) eqn:G.
    + destruct (date_ok_run E o T st ts (u32 p) EZ Ho (proj1 R) (proj2 R)) as (t' & s1 & HT' & LT' & R1 & H1 & C1); try assumption.
      { repeat split; assumption || lia. } { lia. }
      rewrite (is_date_text_unique _ _ _ _ HT' HT) in *.
      exists s1. split; [assumption|]. cbn [feed_all fold_left]. rewrite feed_whole by lia. auto.
    + exists st. split; [reflexivity|]. split; [|exact (proj2 R)]. cbn [feed_all fold_left].
      rewrite feed_whole_skip by lia. exact (proj1 R).
  - intros a d Ha Hb Hd. pose proof (zlen_nonneg _ d).
    destruct (run_rows E o (Z.to_nat (zlen d / 32 + 1)) d a Hd Ha) as (ps & SH & R0); [lia|].
    eexists; split; [econstructor; eassumption|]. intros T st R. cbn [stream_val]. unfold write_binary.
    change (crlf_tab ++ [91]) with bar. cbn [app].
    apply runs_cons; [apply run_lit; assumption|]. intros s1 R1.
    apply runs_bind; [apply R0; assumption|]. intros s2 R2. apply run_lit; assumption.
  - constructor.
  - intros v vs _ IHv _ IHvs. constructor; assumption.
Qed.

(* any sequence of << *)
Lemma stream_all_ok : forall E o, e_zone E = fixed_zone o -> - 86400 <= o <= 86400 -> libc_ok (e_libc E) ->
  forall vs, Forall (val_ok o) vs -> exists pss, Forall2 (shows o (e_libc E)) vs pss /\
  forall T st, ready E o T st -> runs E o (stream_all E st vs) T (concat pss).
Proof.
  intros E o EZ Ho HL vs H. induction H as [|v vs Hv H (pss & S & R0)].
  - exists []. split; [constructor|]. intros T st R. apply runs_ret; assumption.
  - destruct (val_runs_ok E o EZ Ho HL v Hv) as (ps & Sv & Rv). exists (ps :: pss). split; [constructor; assumption|].
    intros T st R. cbn [stream_all concat]. apply runs_bind; [apply Rv; assumption|]. intros s1 R1. apply R0; assumption.
Qed.

(* ---- consequences about the text ---- *)
Definition prefix_of (a b : text) : Prop := exists c, b = a ++ c.

Lemma prefix_refl : forall a, prefix_of a a.
Proof. intros a. exists []. rewrite app_nil_r. reflexivity. Qed.
Lemma feed_prefix : forall cap T p, prefix_of T (feed cap T p).
Proof.
  intros cap T p. destruct p as [t|n t|col]; cbn [feed].
  - eexists; reflexivity.
  - destruct (zlen T + n <=? cap); [eexists; reflexivity|]. apply prefix_refl.
  - destruct (zlen T + col <? cap); [eexists; reflexivity|]. apply prefix_refl.
Qed.
Lemma feed_all_prefix : forall cap ps T, prefix_of T (feed_all cap T ps).
Proof.
  intros cap ps. induction ps as [|p ps IH]; intros T; [apply prefix_refl|].
  destruct (IH (feed cap T p)) as (a & A). destruct (feed_prefix cap T p) as (b & B).
  exists (b ++ a). unfold feed_all in *. cbn [fold_left]. rewrite A, B, <- app_assoc. reflexivity.
Qed.

(* When everything fits the result is plain concatenation. *)
Definition piece_text (p : piece) : text := match p with PCut t => t | PWhole _ t => t | PAlign _ => [] end.
Definition small_piece (p : piece) : Prop := match p with PCut _ => True | PWhole n _ => n <= 41 | PAlign _ => False end.
Lemma feed_all_fits : forall cap ps T, Forall small_piece ps ->
  zlen T + zlen (concat (map piece_text ps)) + 41 <= cap -> feed_all cap T ps = T ++ concat (map piece_text ps).
Proof.
  intros cap ps. induction ps as [|p ps IH]; intros T H L; [cbn; rewrite app_nil_r; reflexivity|].
  inversion H as [|? ? Hp Hps]; subst. cbn [map concat] in *. rewrite zlen_app in L.
  pose proof (zlen_nonneg _ (concat (map piece_text ps))). pose proof (zlen_nonneg _ (piece_text p)). pose proof (zlen_nonneg _ T).
  assert (F: feed cap T p = T ++ piece_text p).
  { destruct p as [t|n t|col]; cbn [small_piece piece_text] in *; [|apply feed_whole; lia|tauto].
    cbn [feed]. f_equal. rewrite firstn_all2; [reflexivity|]. unfold zlen in *. lia. }
  unfold feed_all in *. cbn [fold_left]. rewrite F, IH; [rewrite <- app_assoc; reflexivity|assumption|].
  rewrite zlen_app. lia.
Qed.

(* ---- push ---- *)
Lemma push_text_ok : forall E T st, holds (e_cap E) T st -> 2 <= e_cap E ->
  exists st' post, push_text E st = Ret st' /\
    s_buf st' = firstn (Z.to_nat (e_cap E - 2)) T ++ [10; 0] ++ post /\
    s_len st' = zlen (firstn (Z.to_nat (e_cap E - 2)) T ++ [10]) /\ zlen (s_buf st') = e_cap E.
Proof.
  intros E T st H Hc. pose proof (holds_len _ _ _ H) as HL. destruct H as (rest & EB & L & C).
  unfold push_text. cbv zeta. rewrite L. set (n := Z.min (zlen T) (e_cap E - 2)).
  set (X := firstn (Z.to_nat (e_cap E - 2)) T).
  assert (LX: zlen X = n).
  { unfold X, n. destruct (Z_le_gt_dec (zlen T) (e_cap E - 2)) as [G|G].
    - rewrite firstn_all2 by (unfold zlen in G; lia). lia.
    - rewrite zlen_firstn by lia. lia. }
  assert (SP: exists a b post, s_buf st = X ++ [a] ++ [b] ++ post).
  { assert (P: s_buf st = X ++ skipn (Z.to_nat (e_cap E - 2)) T ++ rest).
    { rewrite EB. unfold X. rewrite app_assoc, firstn_skipn. reflexivity. }
    set (r := skipn (Z.to_nat (e_cap E - 2)) T ++ rest) in *.
    assert (Lr: 2 <= zlen r) by (rewrite P, zlen_app in C; lia).
    destruct r as [|a [|b r]]; [rewrite zlen_nil in Lr; lia|rewrite zlen_cons, zlen_nil in Lr; lia|]. exists a, b, r. exact P. }
  destruct SP as (a & b & post & ES). rewrite ES. unfold wr.
  rewrite (blit_splice _ X [a] ([b] ++ post) [10] n LX eq_refl). cbn [bind].
  replace (X ++ [10] ++ [b] ++ post) with ((X ++ [10]) ++ [b] ++ post) by (rewrite <- app_assoc; reflexivity).
  rewrite (blit_splice _ (X ++ [10]) [b] post [0] (n + 1)) by (reflexivity || (rewrite zlen_app, zlen_cons, zlen_nil; lia)).
  cbn [bind]. eexists. exists post. split; [reflexivity|]. cbn [s_buf s_len].
  split; [rewrite <- app_assoc; reflexivity|]. split; [rewrite zlen_app, zlen_cons, zlen_nil; lia|].
  rewrite <- C, ES. rewrite !zlen_app, !zlen_cons. lia.
Qed.

(* ---- LOG_FORMAT ---- *)
Lemma log_format_ok : forall E T st full, holds (e_cap E) T st -> zlen T < e_cap E ->
  exists st', log_format E st (SnOk full) = Ret st' /\
    holds (e_cap E) (firstn (Z.to_nat (e_cap E - 1)) (T ++ full)) st' /\ s_cache st' = s_cache st.
Proof.
  intros E T st full H Hr. pose proof (holds_len _ _ _ H) as HL.
  assert (L: s_len st = zlen T) by (destruct H as (? & _ & L & _); assumption).
  unfold log_format, snprintf. cbv zeta. rewrite L. destruct (0 <? e_cap E - zlen T) eqn:G; [|lia].
  set (room := e_cap E - zlen T) in *.
  set (w := firstn (Z.to_nat (room - 1)) full).
  pose proof (zlen_nonneg _ full) as Hfull.
  assert (Lw: zlen w = Z.min (zlen full) (room - 1)).
  { unfold w. destruct (Z_le_gt_dec (zlen full) (room - 1)) as [G1|G1].
    - rewrite firstn_all2 by (unfold zlen in G1; lia). lia.
    - rewrite zlen_firstn by lia. lia. }
  assert (Lw0: zlen (w ++ [0]) = zlen w + 1) by (rewrite zlen_app, zlen_cons, zlen_nil; lia).
  destruct (holds_split _ T st (zlen (w ++ [0])) H ltac:(lia) ltac:(lia)) as (old & post & EB & Lo).
  destruct H as (rest & _ & _ & C). rewrite EB.
  rewrite blit_splice by (reflexivity || assumption). cbn [bind].
  destruct (zlen full <? 0) eqn:G0; [lia|].
  assert (N: (if room <=? zlen full then room - 1 else zlen full) = zlen w) by (destruct (room <=? zlen full) eqn:G2; lia).
  rewrite N. eexists. split; [reflexivity|]. split; [|reflexivity].
  rewrite firstn_le by lia. replace (e_cap E - 1 - zlen T) with (room - 1) by lia. fold w.
  exists (0 :: post). cbn [s_buf s_len]. split; [rewrite <- !app_assoc; reflexivity|].
  split; [rewrite zlen_app; reflexivity|]. rewrite <- C, EB. rewrite !zlen_app in *. lia.
Qed.
Lemma log_format_err : forall E T st ret junk, holds (e_cap E) T st -> zlen T < e_cap E -> ret < 0 ->
  exists st', log_format E st (SnErr ret junk) = Ret st' /\ holds (e_cap E) T st' /\ s_cache st' = s_cache st.
Proof.
  intros E T st ret junk H Hr Hn. pose proof (holds_len _ _ _ H) as HL.
  assert (L: s_len st = zlen T) by (destruct H as (? & _ & L & _); assumption).
  unfold log_format, snprintf. cbv zeta. rewrite L. set (room := e_cap E - zlen T) in *.
  set (w := firstn (Z.to_nat room) junk).
  assert (Lw: zlen w <= room) by (unfold w, zlen; pose proof (firstn_le_length (Z.to_nat room) junk); lia).
  destruct (holds_split _ T st (zlen w) H (zlen_nonneg _ _) ltac:(lia)) as (old & post & EB & Lo).
  destruct H as (rest & _ & _ & C). rewrite EB.
  rewrite blit_splice by (reflexivity || assumption). cbn [bind].
  destruct (ret <? 0) eqn:G0; [|lia]. destruct (room <=? 0) eqn:G2; [lia|].
  eexists. split; [reflexivity|]. split; [|reflexivity].
  exists (w ++ post). cbn [s_buf s_len]. split; [reflexivity|]. split; [lia|].
  rewrite <- C, EB. rewrite !zlen_app in *. lia.
Qed.

(* ---- short_path ---- *)
Lemma seps_app : forall a b, seps (a ++ b) = seps a + seps b.
Proof. intros. unfold seps. rewrite filter_app. apply zlen_app. Qed.
Lemma seps_nonneg : forall a, 0 <= seps a.
Proof. intros. apply zlen_nonneg. Qed.
Lemma seps_one : forall c, seps [c] = if is_sep c then 1 else 0.
Proof. intros. unfold seps. cbn [filter]. destruct (is_sep c); reflexivity. Qed.

Lemma short_loop_ok : forall rest a s count, 1 <= count ->
  (* a: bytes not looked at yet, s: bytes already passed *)
  exists k, short_loop (length a) (a ++ s ++ rest) count = Ret k /\
   ((k = 0 /\ seps a < count) \/
    (exists b c d, a = b ++ [c] ++ d /\ is_sep c = true /\ seps d = count - 1 /\ k = zlen b + 1)).
Proof.
  intros rest a. induction a as [|c a IH] using rev_ind; intros s count Hc.
  - exists 0. split; [reflexivity|]. left. split; [reflexivity|]. unfold seps. cbn [filter]. rewrite zlen_nil. lia.
  - rewrite app_length. cbn [length]. rewrite Nat.add_1_r. cbn [short_loop].
    rewrite <- app_assoc. change ([c] ++ s ++ rest) with (c :: (s ++ rest)). rewrite rd_app_mid by reflexivity. cbn [bind].
    change ((c =? 47) || (c =? 92)) with (is_sep c). destruct (is_sep c) eqn:S.
    + cbv zeta. destruct (count - 1 <=? 0) eqn:G.
      * eexists. split; [reflexivity|]. right. exists a, c, []. split; [reflexivity|]. split; [assumption|].
        split; [unfold seps; cbn [filter]; rewrite zlen_nil; lia|]. unfold zlen. reflexivity.
      * destruct (IH (c :: s) (count - 1) ltac:(lia)) as (k & R & D). exists k. split; [exact R|].
        destruct D as [(-> & D)|(b & c' & d & -> & D1 & D2 & D3)].
        -- left. split; [reflexivity|]. rewrite seps_app, seps_one, S. lia.
        -- right. exists b, c', (d ++ [c]). split; [rewrite <- !app_assoc; reflexivity|]. split; [assumption|].
           split; [rewrite seps_app, seps_one, S; lia|assumption].
    + destruct (IH (c :: s) count Hc) as (k & R & D). exists k. split; [exact R|].
      destruct D as [(-> & D)|(b & c' & d & -> & D1 & D2 & D3)].
      * left. split; [reflexivity|]. rewrite seps_app, seps_one, S. lia.
      * right. exists b, c', (d ++ [c]). split; [rewrite <- !app_assoc; reflexivity|]. split; [assumption|].
        split; [rewrite seps_app, seps_one, S; lia|assumption].
Qed.

(* [a] are the len bytes of the name; what lies behind is not looked at *)
Lemma short_path_ok : forall a rest, exists k,
  short_path (Some (a ++ rest)) (zlen a) = Ret k /\ 0 <= k <= zlen a /\
  ((k = 0 /\ seps a < 3) \/
   (exists b c s, a = b ++ [c] ++ s /\ is_sep c = true /\ seps s = 2 /\ k = zlen b + 1)).
Proof.
  intros a rest. unfold short_path. pose proof (zlen_nonneg _ a) as Ha. destruct (zlen a <=? 0) eqn:G.
  - exists 0. split; [reflexivity|]. split; [lia|]. left. split; [reflexivity|].
    destruct a as [|x a]; [vm_compute; reflexivity|exfalso; rewrite zlen_cons in G; pose proof (zlen_nonneg _ a); lia].
  - destruct (short_loop_ok rest a [] 3 ltac:(lia)) as (k & R & D). exists k.
    replace (Z.to_nat (zlen a)) with (length a) by (unfold zlen; lia). split; [exact R|].
    destruct D as [(-> & D)|(b & c & d & -> & D1 & D2 & ->)].
    + split; [lia|]. left. auto.
    + split; [rewrite !zlen_app, zlen_cons, zlen_nil; pose proof (zlen_nonneg _ b); pose proof (zlen_nonneg _ d); lia|].
      right. exists b, c, d. auto.
Qed.

(* LOG_FORMAT on any record, including a full one *)
Definition formatted (r : snprintf_result) : text := match r with SnOk full => full | SnErr _ _ => [] end.
Definition snprintf_may (r : snprintf_result) : Prop := match r with SnOk full => zlen full <= INT_MAX | SnErr ret _ => ret < 0 end.
Lemma log_format_any : forall E T st r, holds (e_cap E) T st -> snprintf_may r -> 1 <= e_cap E ->
  exists st', log_format E st r = Ret st' /\
    holds (e_cap E) (firstn (Z.to_nat (e_cap E - 1)) (T ++ formatted r)) st'.
Proof.
  intros E T st r H M Hc. pose proof (holds_len _ _ _ H) as HL.
  destruct (Z_lt_dec (zlen T) (e_cap E)) as [L|L].
  - destruct r as [full|ret junk]; cbn [formatted snprintf_may] in *.
    + destruct (log_format_ok E T st full H L) as (s & R & Hs & _). eauto.
    + destruct (log_format_err E T st ret junk H L M) as (s & R & Hs & _). exists s. split; [assumption|].
      rewrite app_nil_r, firstn_all2; [assumption|]. unfold zlen in L. lia.
  - assert (LT: zlen T = e_cap E) by lia.
    assert (X: log_format E st r = Ret (mkStrm (s_buf st) (e_cap E - 1) (s_cache st))).
    { assert (LS: s_len st = e_cap E) by (destruct H as (? & _ & Q & _); lia).
      assert (LB: zlen (s_buf st) = e_cap E) by (destruct H as (? & _ & _ & Q); lia).
      unfold log_format. cbv zeta. rewrite LS, Z.sub_diag. destruct r as [full|ret junk]; cbn [snprintf snprintf_may] in *.
      - change (0 <? 0) with false. cbn [bind]. pose proof (zlen_nonneg _ full).
        destruct (zlen full <? 0) eqn:G; [lia|]. destruct (0 <=? zlen full) eqn:G1; [|lia]. reflexivity.
      - change (firstn (Z.to_nat 0) junk) with (@nil Z). rewrite blit_nil by lia. cbn [bind].
        destruct (ret <? 0) eqn:G; [|lia]. reflexivity. }
    exists (mkStrm (s_buf st) (e_cap E - 1) (s_cache st)). split; [exact X|].
    rewrite firstn_app. replace (Z.to_nat (e_cap E - 1) - length T)%nat with 0%nat by (unfold zlen in LT; lia).
    rewrite firstn_O, app_nil_r. destruct H as (rest & B & _ & C).
    exists (skipn (Z.to_nat (e_cap E - 1)) T ++ rest). cbn [s_buf s_len]. split; [rewrite app_assoc, firstn_skipn; exact B|].
    split; [rewrite zlen_firstn; lia|assumption].
Qed.

(* ---- values without alignment print the same text wherever there is room ---- *)
Fixpoint no_align (v : sval) : bool :=
  match v with
  | SBlank _ => false
  | SPair a b => no_align a && no_align b
  | SCont _ l => forallb no_align l
  | _ => true
  end.
Scheme shows_mut := Minimality for shows Sort Prop
  with shows_each_mut := Minimality for shows_each Sort Prop.
Lemma forall_join : forall (P : piece -> Prop) s l, Forall P s -> Forall (Forall P) l -> Forall P (join s l).
Proof.
  intros P s l Hs H. induction H as [|x l Hx H IH]; [constructor|]. destruct l as [|y l]; [assumption|].
  change (join s (x :: y :: l)) with (x ++ s ++ join s (y :: l)). apply Forall_app. split; [assumption|]. apply Forall_app. auto.
Qed.
Lemma hex_small : forall d ps, hex_bytes d ps -> Forall small_piece ps.
Proof. intros d ps H. induction H; constructor; [cbn; lia|assumption]. Qed.
Lemma rows_small : forall n a d ps, dump_rows n a d ps -> Forall small_piece ps.
Proof.
  intros n a d ps H. induction H as [|n a d p hs ps HP HB H IH]; [constructor|].
  apply Forall_app. split; [repeat constructor; cbn; lia|]. apply Forall_app. split.
  { apply Forall_forall. intros x X. apply in_map_iff in X as (c & <- & _). exact I. }
  apply Forall_app. split; [repeat constructor; cbn; lia|]. apply Forall_app. split; [eapply hex_small; eassumption|assumption].
Qed.
Lemma shows_small : forall o L v ps, shows o L v ps -> no_align v = true -> Forall small_piece ps.
Proof.
  intros o L. apply (shows_mut o L (fun v ps => no_align v = true -> Forall small_piece ps)
    (fun vs pss => forallb no_align vs = true -> Forall (Forall small_piece) pss));
    intros; try (repeat constructor; cbn; lia).
  - cbn [no_align] in *. match goal with H: _ && _ = true |- _ => apply andb_true_iff in H as (? & ?) end.
    repeat (apply Forall_app; split); auto; repeat constructor.
  - cbn [no_align] in *. repeat (apply Forall_app; split).
    + repeat constructor; cbn; lia.
    + apply forall_join; [repeat constructor|]. match goal with H: _ -> Forall _ _ |- _ => apply H end.
      apply forallb_forall. intros x X. match goal with H: forallb _ _ = true |- _ => rewrite forallb_forall in H; apply H end.
      rewrite <- (firstn_skipn 5 elems). apply in_or_app. left. exact X.
    + destruct (5 <? zlen elems); repeat constructor.
    + repeat constructor.
  - discriminate.
  - apply Forall_app. split; [repeat constructor|]. apply Forall_app. split; [eapply rows_small; eassumption|repeat constructor].
  - cbn [forallb] in *. match goal with H: _ && _ = true |- _ => apply andb_true_iff in H as (? & ?) end. constructor; auto.
Qed.
