(* The constructor writes the documented prefix. *)
From Coq Require Import String ZArith List Bool Lia ZifyBool ZifyNat ZifyN.
From Verif Require Import Base BaseFacts NumFmt NumSpec NumFacts NumFmtProofs DateFmt DateSpec CalendarFacts DateProofs
  DblFmt DblSpec DblProofs Stream StreamSpec StreamProofs.
Import ListNotations.
Open Scope Z_scope.
Ltac Zify.zify_post_hook ::= Z.div_mod_to_equations.

Lemma has_testbit : forall p k, 0 <= k -> has p (2 ^ k) = Z.testbit p k.
Proof.
  intros p k Hk. unfold has. destruct (Z.testbit p k) eqn:B.
  - destruct (Z.land p (2 ^ k) =? 0) eqn:E; [|reflexivity]. exfalso. apply Z.eqb_eq in E.
    assert (X: Z.testbit (Z.land p (2 ^ k)) k = true) by (rewrite Z.land_spec, B, Z.pow2_bits_true by lia; reflexivity).
    rewrite E, Z.bits_0 in X. discriminate.
  - replace (Z.land p (2 ^ k)) with 0; [reflexivity|]. symmetry. apply Z.bits_inj'. intros n Hn.
    rewrite Z.land_spec, Z.bits_0, Z.pow2_bits_eqb by lia. destruct (k =? n) eqn:E; [|apply andb_false_r].
    apply Z.eqb_eq in E. subst n. rewrite B. reflexivity.
Qed.

Record head_ok (E : env) (o : Z) (h : head) : Prop := mkHeadOk {
  ho_date : date_ok o (h_ts h);
  ho_precise : 0 <= h_precise h < 2 ^ 31;
  ho_priority : 0 <= h_priority h <= 6;
  ho_thread : 0 <= h_thread h < 2 ^ 32;
  ho_name : 0 <= h_name_len h <= zlen (h_name h);
  ho_desc : 0 <= h_desc_len h <= zlen (h_desc h);
  ho_file : forall f, h_file h = Some f -> h_file_len h <= zlen f;
  ho_line : 0 <= h_line h < 2 ^ 31;
  ho_func : forall f, h_func h = Some f -> h_func_len h <= zlen f;
  (* room: the variable parts plus 150 bytes *)
  ho_room : forall f, file_text (h_file h) (h_file_len h) f ->
    h_name_len h + h_desc_len h + zlen f + Z.max 4 (h_func_len h) + 150 <= e_cap E }.

Lemma zlen_field : forall b t, 0 <= zlen (field b t) <= zlen t.
Proof. intros. unfold field. destruct b; [pose proof (zlen_nonneg _ t); lia|]. rewrite zlen_nil. pose proof (zlen_nonneg _ t). lia. Qed.

Definition stage (E : env) (o : Z) (m : outcome strm) (T : text) : Prop :=
  exists st', m = Ret st' /\ ready E o T st'.

Lemma stage_bind : forall E o m k T U, stage E o m T -> (forall st, ready E o T st -> stage E o (k st) U) -> stage E o (bind m k) U.
Proof. intros E o m k T U (st & -> & R) K. cbn [bind]. apply K; assumption. Qed.
Lemma stage_opt : forall E o (b : bool) m st T t, ready E o T st -> (b = true -> stage E o m (T ++ t)) ->
  stage E o (if b then m else Ret st) (T ++ field b t).
Proof.
  intros E o b m st T t R H. destruct b; cbn [field]; [apply H; reflexivity|]. rewrite app_nil_r. exists st. auto.
Qed.
Lemma stage_char : forall E o T st c, ready E o T st -> zlen T + 1 <= e_cap E -> stage E o (write_char_unsafe st c) (T ++ [c]).
Proof.
  intros E o T st c (H & C) L. destruct (wcu_ok _ T st c H L) as (s & R & H' & C'). exists s. split; [assumption|].
  split; [assumption|]. rewrite C'. assumption.
Qed.
Lemma stage_buf : forall E o T st s n, ready E o T st -> 0 <= n <= zlen s -> zlen T + n <= e_cap E ->
  stage E o (write_buffer_unsafe st s n) (T ++ firstn (Z.to_nat n) s).
Proof.
  intros E o T st s n (H & C) Hn L. destruct (wbu_ok _ T st s n H Hn L) as (s' & R & H' & C'). exists s'. split; [assumption|].
  split; [assumption|]. rewrite C'. assumption.
Qed.
Lemma stage_adv : forall E o T st f t, ready E o T st -> writes f t [] -> zlen T + zlen t <= e_cap E ->
  stage E o (advance st f) (T ++ t).
Proof.
  intros E o T st f t (H & C) W L. destruct (advance_ok _ T st f t [] H W) as (s' & R & H' & C'); [rewrite app_nil_r; assumption|].
  exists s'. split; [assumption|]. split; [assumption|]. rewrite C'. assumption.
Qed.

Lemma w_prio : forall p, 0 <= p <= 6 -> writes (fun d o => write_log_priority d o p) (prio_name p) [] /\ zlen (prio_name p) = 7.
Proof.
  intros p Hp.
  assert (C: p = 0 \/ p = 1 \/ p = 2 \/ p = 3 \/ p = 4 \/ p = 5 \/ p = 6) by lia.
  repeat (destruct C as [->|C]); [..|subst p];
    (split; [|reflexivity]; intros pre old post Ho; unfold write_log_priority;
     match goal with |- context [rd priority_names ?i] => let r := eval vm_compute in (rd priority_names i) in change (rd priority_names i) with r end;
     cbn [bind]; rewrite blit_splice by (reflexivity || assumption); reflexivity).
Qed.

Lemma w_thread : forall n, 0 <= n < 2 ^ 32 -> exists t, is_numeral 10 0 n t /\ zlen t <= 10 /\
  writes (fun d o => write_log_thread d o n) (s2z "[" ++ t ++ s2z "]") [].
Proof.
  intros n Hn. destruct (w_dec_u n) as (t & N & _ & W); [unfold is_u64; lia|].
  exists t. split; [assumption|]. split.
  { pose proof (is_numeral_len 10 0 n t 10 ltac:(lia) ltac:(lia) N ltac:(change (10 ^ 10) with 10000000000; lia)). lia. }
  intros pre old post Ho. rewrite app_nil_r, !zlen_app in Ho. change (zlen (s2z "[")) with 1 in Ho. change (zlen (s2z "]")) with 1 in Ho.
  pose proof (zlen_nonneg _ t).
  destruct (split_at _ old 1 ltac:(lia)) as (a & b & -> & La). rewrite zlen_app in Ho.
  destruct (split_at _ b (zlen t) ltac:(lia)) as (u & v & -> & Lu). rewrite zlen_app in Ho.
  unfold write_log_thread, wr. rewrite <- !app_assoc.
  rewrite (blit_splice _ pre a _ [91]) by (reflexivity || (rewrite zlen_cons, zlen_nil; lia)). cbn [bind].
  rewrite (app_assoc pre [91]). pose proof (W (pre ++ [91]) u (v ++ post) ltac:(rewrite app_nil_r; assumption)) as W'.
  replace (zlen (pre ++ [91])) with (zlen pre + 1) in W' by (rewrite zlen_app; reflexivity).
  match goal with |- bind ?x _ = _ => replace x with (Ret ((pre ++ [91]) ++ t ++ [] ++ v ++ post, zlen t)) by (symmetry; exact W') end.
  cbn [bind]. cbn [app].
  rewrite (app_assoc (pre ++ [91]) t).
  rewrite (blit_splice _ ((pre ++ [91]) ++ t) v post [93]).
  - cbn [bind]. f_equal. f_equal; [|rewrite !zlen_app; change (zlen (s2z "[")) with 1; change (zlen (s2z "]")) with 1; lia]. rewrite <- !app_assoc. reflexivity.
  - rewrite !zlen_app, zlen_cons, zlen_nil. lia.
  - rewrite zlen_cons, zlen_nil. lia.
Qed.

Lemma cut_unique : forall a c s a' c' s', a ++ [c] ++ s = a' ++ [c'] ++ s' -> is_sep c = true -> is_sep c' = true ->
  seps s = 2 -> seps s' = 2 -> s = s'.
Proof.
  assert (X: forall l c s c' s', [c'] ++ s' = l ++ [c] ++ s -> is_sep c = true -> seps s = 2 -> seps s' = 2 -> s = s').
  { intros l c s c' s' H C P P'. destruct l as [|y l]; cbn [app] in H; [congruence|]. inversion H; subst.
    change (l ++ c :: s) with (l ++ [c] ++ s) in P'. rewrite !seps_app, seps_one, C, P in P'. pose proof (seps_nonneg l). lia. }
  intros a c s a' c' s' H C C' P P'. apply app_eq_app in H. destruct H as (l & [(_ & H)|(_ & H)]).
  - eapply X; eassumption.
  - symmetry. eapply X; eassumption.
Qed.

Lemma file_text_unique : forall f n s s', file_text f n s -> file_text f n s' -> s = s'.
Proof.
  intros f n s s' A B. inversion A as [? ? NA|g ? u PA EA LA|g ? a c u PA EA CA LA]; subst;
    inversion B as [? ? NB|g' ? u' PB EB LB|g' ? a' c' u' PB EB CB LB]; subst;
    try (destruct NA as [NA|NA]; [congruence|lia]); try (destruct NB as [NB|NB]; [congruence|lia]); try reflexivity.
  - rewrite EB in LA. rewrite !seps_app, seps_one, CB, LB in LA. pose proof (seps_nonneg a'). lia.
  - rewrite EA in LB. rewrite !seps_app, seps_one, CA, LA in LB. pose proof (seps_nonneg a). lia.
  - rewrite EA in EB. eapply cut_unique; eassumption.
Qed.
Lemma func_text_unique : forall f n s s', func_text f n s -> func_text f n s' -> s = s'.
Proof.
  intros f n s s' A B. inversion A as [? ? NA|g ? PA]; subst; inversion B as [? ? NB|g' ? PB]; subst; try reflexivity.
  - destruct NA; [congruence|lia].
  - destruct NB; [congruence|lia].
Qed.

Lemma file_text_exists : forall E o T st f n, ready E o T st ->
  (forall b, f = Some b -> n <= zlen b) -> exists t, file_text f n t /\ 0 <= zlen t <= Z.max 6 n /\
  (zlen T + zlen t <= e_cap E ->
   stage E o (match f with
        | Some file =>
            if 0 <? n then
              let! jump := short_path (Some file) n in
              write_buffer_unsafe st (skipn (Z.to_nat jump) file) (n - jump)
            else write_buffer_unsafe st (s2z "nofile") 6
        | None => write_buffer_unsafe st (s2z "nofile") 6
        end) (T ++ t)).
Proof.
  intros E o T st f n R Hb.
  assert (NF: forall f', (f' = None \/ n <= 0) -> exists t, file_text f' n t /\ 0 <= zlen t <= Z.max 6 n /\
     (zlen T + zlen t <= e_cap E -> stage E o (write_buffer_unsafe st (s2z "nofile") 6) (T ++ t))).
  { intros f' Hf. exists (s2z "nofile"). split; [constructor; assumption|]. split; [change (zlen (s2z "nofile")) with 6; lia|].
    intros L. change (zlen (s2z "nofile")) with 6 in L.
    apply (stage_buf E o T st (s2z "nofile") 6 R); [change (zlen (s2z "nofile")) with 6; lia|lia]. }
  destruct f as [file|]; [|apply NF; left; reflexivity].
  destruct (0 <? n) eqn:G; [|apply NF; right; lia]. clear NF. specialize (Hb file eq_refl).
  destruct (split_at _ file n ltac:(lia)) as (a & rest & -> & La).
  destruct (short_path_ok a rest) as (k & Rk & Bk & D). rewrite La in *.
  assert (F: firstn (Z.to_nat n) (a ++ rest) = a).
  { rewrite <- La. unfold zlen. rewrite Nat2Z.id, firstn_app, firstn_all, Nat.sub_diag, firstn_O, app_nil_r. reflexivity. }
  assert (S: firstn (Z.to_nat (n - k)) (skipn (Z.to_nat k) (a ++ rest)) = skipn (Z.to_nat k) a).
  { rewrite skipn_app. replace (Z.to_nat k - length a)%nat with 0%nat by (unfold zlen in La; lia). cbn [skipn].
    rewrite firstn_app.
    assert (LS: length (skipn (Z.to_nat k) a) = Z.to_nat (n - k)) by (rewrite skipn_length; unfold zlen in La; lia).
    rewrite LS, Nat.sub_diag, firstn_O, app_nil_r, <- LS. apply firstn_all. }
  exists (skipn (Z.to_nat k) a). split.
  - destruct D as [(-> & D)|(b & c & s & E1 & E2 & E3 & E4)].
    + apply ft_short; [lia|rewrite F; reflexivity|assumption].
    + assert (X: skipn (Z.to_nat k) a = s).
      { rewrite E1, E4. replace (Z.to_nat (zlen b + 1)) with (length (b ++ [c])) by (rewrite app_length; unfold zlen; cbn [length]; lia).
        rewrite app_assoc, skipn_app, skipn_all, Nat.sub_diag. reflexivity. }
      rewrite X. eapply ft_cut; [lia|rewrite F; exact E1|assumption|assumption].
  - rewrite zlen_skipn by lia. split; [lia|]. intros L. rewrite Rk. cbn [bind]. rewrite <- S.
    apply stage_buf; [assumption| |lia]. rewrite zlen_skipn, zlen_app by (rewrite ?zlen_app; pose proof (zlen_nonneg _ rest); lia).
    pose proof (zlen_nonneg _ rest). lia.
Qed.

Lemma func_text_exists : forall E o T st f n, ready E o T st ->
  (forall b, f = Some b -> n <= zlen b) -> exists t, func_text f n t /\ 0 <= zlen t <= Z.max 4 n /\
  (zlen T + Z.max 4 n <= e_cap E ->
   stage E o (match f with
        | Some func =>
            if 0 <? n then write_buffer_unsafe st func n
            else write_buffer_unsafe st (s2z "null") 4
        | None => write_buffer_unsafe st (s2z "null") 4
        end) (T ++ t)).
Proof.
  intros E o T st f n R Hb.
  assert (NF: forall f', (f' = None \/ n <= 0) -> exists t, func_text f' n t /\ 0 <= zlen t <= Z.max 4 n /\
     (zlen T + Z.max 4 n <= e_cap E -> stage E o (write_buffer_unsafe st (s2z "null") 4) (T ++ t))).
  { intros f' Hf. exists (s2z "null"). split; [constructor; assumption|]. split; [change (zlen (s2z "null")) with 4; lia|].
    intros L. apply (stage_buf E o T st (s2z "null") 4 R); [change (zlen (s2z "null")) with 4; lia|lia]. }
  destruct f as [func|]; [|apply NF; left; reflexivity].
  destruct (0 <? n) eqn:G; [|apply NF; right; lia]. clear NF. specialize (Hb func eq_refl).
  exists (firstn (Z.to_nat n) func). split; [constructor; lia|]. rewrite zlen_firstn by lia. split; [lia|].
  intros L. apply stage_buf; [assumption|lia|lia].
Qed.

(* texts that do not depend on the stream *)
Lemma date_text_exists : forall o ts p, - 86400 <= o <= 86400 -> date_ok o ts -> 0 <= p < 2 ^ 32 ->
  exists t, is_date_text (ts + o) p t /\ zlen t = 23.
Proof.
  intros o ts p Ho D Hp. set (E40 := mkEnv (fixed_zone o) (mkLibc (fun _ => []) (fun _ => [])) 40).
  destruct (date_ok_run E40 o [] (mkStrm (repeat 0 40) 0 cache_init) ts p eq_refl Ho) as (t & _ & HT & LT & _); try assumption.
  { exists (repeat 0 40). split; [reflexivity|]. split; reflexivity. } { apply cache_init_fine. } { vm_compute. congruence. }
  eauto.
Qed.

Ltac ln := rewrite ?zlen_app, ?zlen_cons, ?zlen_nil;
  change (zlen (s2z "[")) with 1; change (zlen (s2z "]")) with 1; change (zlen (s2z ":")) with 1;
  change (zlen (s2z "(")) with 1; change (zlen (s2z ")")) with 1; lia.

Lemma write_prefix_ok : forall E o h st, e_zone E = fixed_zone o -> - 86400 <= o <= 86400 -> head_ok E o h ->
  h_prefix h <> 0 -> ready E o [] st ->
  exists t st', prefix_text o h t /\ write_prefix E h st = Ret (st', zlen t) /\ ready E o t st' /\ zlen t + 80 <= e_cap E.
Proof.
  intros E o h st EZ Ho H Hp R0. destruct H as [Hd Hpr Hprio Hth Hn Hde Hfi Hli Hfu Hroom].
  destruct (date_text_exists o (h_ts h) (h_precise h) Ho Hd ltac:(lia)) as (date & Dd & Ld).
  destruct (w_prio (h_priority h) Hprio) as (Wp & Lp).
  destruct (w_thread (h_thread h) Hth) as (th & Nth & Lth & Wth).
  destruct (w_dec_u (h_line h)) as (line & Nl & _ & Wl); [unfold is_u64; lia|].
  assert (Lline: zlen line <= 10).
  { pose proof (is_numeral_len 10 0 (h_line h) line 10 ltac:(lia) ltac:(lia) Nl ltac:(change (10 ^ 10) with 10000000000; lia)). lia. }
  destruct (file_text_exists E o [] st (h_file h) (h_file_len h) R0 Hfi) as (file & Ff & Lf & _). specialize (Hroom file Ff).
  destruct (func_text_exists E o [] st (h_func h) (h_func_len h) R0 Hfu) as (func & Fu & Lu & _).
  set (N := firstn (Z.to_nat (h_name_len h)) (h_name h)). assert (LN: zlen N = h_name_len h) by (apply zlen_firstn; lia).
  set (D := firstn (Z.to_nat (h_desc_len h)) (h_desc h)). assert (LD: zlen D = h_desc_len h) by (apply zlen_firstn; lia).
  set (f1 := field (Z.testbit (h_prefix h) 0) date).
  set (f2 := field (Z.testbit (h_prefix h) 1) (prio_name (h_priority h))).
  set (f3 := field (Z.testbit (h_prefix h) 2) (s2z "[" ++ th ++ s2z "]")).
  set (f4 := field (Z.testbit (h_prefix h) 3) (s2z "[" ++ N ++ s2z "]")).
  set (f5 := field (Z.testbit (h_prefix h) 4) (s2z "[" ++ D ++ s2z "]")).
  set (f6 := field (Z.testbit (h_prefix h) 5) (s2z "[" ++ file ++ s2z ":" ++ line ++ s2z "]")).
  set (f7 := field (Z.testbit (h_prefix h) 6) (s2z "(" ++ func ++ s2z ")")).
  pose proof (zlen_nonneg _ th) as Pth. pose proof (zlen_nonneg _ line) as Pline.
  assert (B1: 0 <= zlen f1 <= 23) by (pose proof (zlen_field (Z.testbit (h_prefix h) 0) date) as X; fold f1 in X; lia).
  assert (B2: 0 <= zlen f2 <= 7) by (pose proof (zlen_field (Z.testbit (h_prefix h) 1) (prio_name (h_priority h))) as X; fold f2 in X; lia).
  assert (B3: 0 <= zlen f3 <= 12).
  { pose proof (zlen_field (Z.testbit (h_prefix h) 2) (s2z "[" ++ th ++ s2z "]")) as X; fold f3 in X.
    rewrite !zlen_app in X. change (zlen (s2z "[")) with 1 in X. change (zlen (s2z "]")) with 1 in X. lia. }
  assert (B4: 0 <= zlen f4 <= h_name_len h + 2).
  { pose proof (zlen_field (Z.testbit (h_prefix h) 3) (s2z "[" ++ N ++ s2z "]")) as X; fold f4 in X.
    rewrite !zlen_app in X. change (zlen (s2z "[")) with 1 in X. change (zlen (s2z "]")) with 1 in X. lia. }
  assert (B5: 0 <= zlen f5 <= h_desc_len h + 2).
  { pose proof (zlen_field (Z.testbit (h_prefix h) 4) (s2z "[" ++ D ++ s2z "]")) as X; fold f5 in X.
    rewrite !zlen_app in X. change (zlen (s2z "[")) with 1 in X. change (zlen (s2z "]")) with 1 in X. lia. }
  assert (B6: 0 <= zlen f6 <= zlen file + 13).
  { pose proof (zlen_field (Z.testbit (h_prefix h) 5) (s2z "[" ++ file ++ s2z ":" ++ line ++ s2z "]")) as X; fold f6 in X.
    rewrite !zlen_app in X. change (zlen (s2z "[")) with 1 in X. change (zlen (s2z "]")) with 1 in X. change (zlen (s2z ":")) with 1 in X. lia. }
  assert (B7: 0 <= zlen f7 <= Z.max 4 (h_func_len h) + 2).
  { pose proof (zlen_field (Z.testbit (h_prefix h) 6) (s2z "(" ++ func ++ s2z ")")) as X; fold f7 in X.
    rewrite !zlen_app in X. change (zlen (s2z "(")) with 1 in X. change (zlen (s2z ")")) with 1 in X. lia. }
  exists (f1 ++ f2 ++ f3 ++ f4 ++ f5 ++ f6 ++ f7 ++ s2z " ").
  assert (ST: exists st', write_prefix E h st = Ret (st', s_len st') /\ ready E o (((((((([] ++ f1) ++ f2) ++ f3) ++ f4) ++ f5) ++ f6) ++ f7) ++ [32]) st').
  { unfold write_prefix. destruct (h_prefix h =? 0) eqn:P0; [lia|]. clear P0.
    change 1 with (2 ^ 0) at 1. change 2 with (2 ^ 1) at 2. change 4 with (2 ^ 2) at 1.
    change 8 with (2 ^ 3) at 1. change 16 with (2 ^ 4) at 1. change 32 with (2 ^ 5) at 1. change 64 with (2 ^ 6) at 1.
    rewrite !has_testbit by lia.
    assert (FIN: forall m k T, stage E o m T -> (forall s, ready E o T s -> exists st', k s = Ret (st', s_len st') /\ ready E o (((((((([] ++ f1) ++ f2) ++ f3) ++ f4) ++ f5) ++ f6) ++ f7) ++ [32]) st') ->
       exists st', bind m k = Ret (st', s_len st') /\ ready E o (((((((([] ++ f1) ++ f2) ++ f3) ++ f4) ++ f5) ++ f6) ++ f7) ++ [32]) st').
    { intros m k T (s & -> & RR) K. cbn [bind]. apply K; assumption. }
    eapply FIN.
    { apply (stage_opt E o _ _ st [] date R0). intros _. unfold u32. rewrite Z.mod_small by lia.
      destruct (date_ok_run E o [] st (h_ts h) (h_precise h) EZ Ho (proj1 R0) (proj2 R0) Hd ltac:(lia)) as (t' & s1 & T1 & L1 & R1 & H1 & C1).
      { rewrite zlen_nil. lia. }
      rewrite (is_date_text_unique _ _ _ _ T1 Dd) in *. exists s1. split; [assumption|]. split; assumption. }
    fold f1. intros s1 R1. eapply FIN.
    { apply (stage_opt E o _ _ s1 ([] ++ f1) (prio_name (h_priority h)) R1). intros _.
      apply stage_adv; [assumption|exact Wp|]. rewrite !zlen_app, zlen_nil. lia. }
    fold f2. intros s2 R2. eapply FIN.
    { apply (stage_opt E o _ _ s2 (([] ++ f1) ++ f2) (s2z "[" ++ th ++ s2z "]") R2). intros _.
      apply stage_adv; [assumption|exact Wth|]. rewrite !zlen_app, zlen_nil. change (zlen (s2z "[")) with 1. change (zlen (s2z "]")) with 1. lia. }
    fold f3. intros s3 R3. eapply FIN.
    { apply (stage_opt E o _ _ s3 _ (s2z "[" ++ N ++ s2z "]") R3). intros _. rewrite !app_assoc.
      eapply stage_bind; [apply stage_char; [exact R3|ln]|]. intros s3a R3a.
      eapply stage_bind; [apply stage_buf; [exact R3a|exact Hn|ln]|]. fold N. intros s3b R3b.
      apply stage_char; [exact R3b|ln]. }
    fold f4. intros s4 R4. eapply FIN.
    { apply (stage_opt E o _ _ s4 _ (s2z "[" ++ D ++ s2z "]") R4). intros _. rewrite !app_assoc.
      eapply stage_bind; [apply stage_char; [exact R4|ln]|]. intros s4a R4a.
      eapply stage_bind; [apply stage_buf; [exact R4a|exact Hde|ln]|]. fold D. intros s4b R4b.
      apply stage_char; [exact R4b|ln]. }
    fold f5. intros s5 R5. eapply FIN.
    { apply (stage_opt E o _ _ s5 _ (s2z "[" ++ file ++ s2z ":" ++ line ++ s2z "]") R5). intros _. rewrite !app_assoc.
      eapply stage_bind; [apply stage_char; [exact R5|ln]|]. intros s5a R5a.
      destruct (file_text_exists E o _ s5a (h_file h) (h_file_len h) R5a Hfi) as (file' & Ff' & Lf' & Sf').
      pose proof (file_text_unique _ _ _ _ Ff' Ff) as ->.
      eapply stage_bind; [apply Sf'; ln|]. intros s5b R5b.
      eapply stage_bind; [apply stage_char; [exact R5b|ln]|]. intros s5c R5c.
      eapply stage_bind.
      { destruct (guarded_ok E _ s5c _ line [] (proj1 R5c) Wl) as (s5d & R5d & H5d & C5d); [rewrite app_nil_r; lia|].
        rewrite feed_whole in H5d by (ln).
        exists s5d. split; [|split; [exact H5d|rewrite C5d; exact (proj2 R5c)]].
        unfold write_ulonglong. rewrite u64_id by lia. exact R5d. }
      intros s5d R5d. apply stage_char; [exact R5d|]. ln. }
    fold f6. intros s6 R6. eapply FIN.
    { apply (stage_opt E o _ _ s6 _ (s2z "(" ++ func ++ s2z ")") R6). intros _. rewrite !app_assoc.
      eapply stage_bind; [apply stage_char; [exact R6|ln]|]. intros s6a R6a.
      destruct (func_text_exists E o _ s6a (h_func h) (h_func_len h) R6a Hfu) as (func' & Fu' & Lu' & Su').
      pose proof (func_text_unique _ _ _ _ Fu' Fu) as ->.
      eapply stage_bind; [apply Su'; ln|]. intros s6b R6b.
      apply stage_char; [exact R6b|ln]. }
    fold f7. intros s7 R7.
    eapply FIN; [apply stage_char; [exact R7|ln]|].
    intros s8 R8. exists s8. split; [reflexivity|exact R8]. }
  destruct ST as (st' & W & R). exists st'.
  replace (((((((([] ++ f1) ++ f2) ++ f3) ++ f4) ++ f5) ++ f6) ++ f7) ++ [32]) with (f1 ++ f2 ++ f3 ++ f4 ++ f5 ++ f6 ++ f7 ++ s2z " ") in R
    by (rewrite <- !app_assoc; reflexivity).
  split; [constructor; assumption|]. split; [|split; [exact R|]].
  - rewrite W. f_equal. f_equal. destruct R as ((? & _ & L & _) & _). exact L.
  - rewrite !zlen_app. change (zlen (s2z " ")) with 1. lia.
Qed.
