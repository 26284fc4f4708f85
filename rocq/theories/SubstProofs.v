(* Substitution of macros and variables. *)
From Coq Require Import String ZArith List Bool Lia ZifyBool ZifyNat ZifyN.
From Verif Require Import Base BaseFacts LoggerState FileName FileNameProofs ParseVal Lexer ParseCfg LexProofs ParseSafe TextSpec ValSpec ValProofs SubstSpec.
Import ListNotations.
Open Scope Z_scope.

Lemma name_spec : forall c, is_name c = true <-> name_char c.
Proof. intros c. unfold is_name, is_lower, is_upper, is_number, name_char, digit. lia. Qed.
Lemma not_name_spec : forall c, is_name c = false <-> ~ name_char c.
Proof. intros c. rewrite <- name_spec. destruct (is_name c); intuition congruence. Qed.

Ltac norm_app := repeat (cbn [app]; rewrite <- app_assoc); cbn [app]; reflexivity.

(* ---- the loop, one character at a time ---- *)
Lemma skipn_pre : forall (pre s : text), skipn (length pre) (pre ++ s) = s.
Proof. intros. rewrite skipn_app, skipn_all, Nat.sub_diag. reflexivity. Qed.
Lemma find_from_here : forall k pre s, starts k s = true -> find_sub_from k (pre ++ s) (length pre) = Some (length pre).
Proof.
  intros k pre s H. unfold find_sub_from. rewrite app_length. replace (length pre + length s <? length pre)%nat with false by lia. rewrite skipn_pre.
  destruct s; cbn [find_sub]; rewrite H; cbn [option_map]; rewrite Nat.add_0_r; reflexivity.
Qed.
Lemma find_from_next : forall k pre c s, starts k (c :: s) = false -> find_sub_from k (pre ++ c :: s) (length pre) = find_sub_from k (pre ++ c :: s) (S (length pre)).
Proof.
  intros k pre c s H. unfold find_sub_from. rewrite app_length. cbn [length]. replace (length pre + S (length s) <? length pre)%nat with false by lia.
  replace (length pre + S (length s) <? S (length pre))%nat with false by lia. rewrite skipn_pre. cbn [find_sub]. rewrite H.
  replace (S (length pre)) with (length (pre ++ [c])) by (rewrite app_length; cbn [length]; lia). replace (pre ++ c :: s) with ((pre ++ [c]) ++ s) by (rewrite <- app_assoc; reflexivity).
  rewrite skipn_pre. destruct (find_sub k s); cbn [option_map]; [|reflexivity]. f_equal. rewrite app_length. cbn [length]. lia.
Qed.
Lemma step_miss : forall fuel k v pb sb pre c s, starts k (c :: s) = false ->
  inplace_loop fuel (pre ++ c :: s) (length pre) k v pb sb = inplace_loop fuel (pre ++ c :: s) (length (pre ++ [c])) k v pb sb.
Proof.
  intros fuel k v pb sb pre c s H. destruct fuel as [|fuel]; [reflexivity|]. cbn [inplace_loop]. rewrite (find_from_next _ _ _ _ H).
  replace (length (pre ++ [c])) with (S (length pre)) by (rewrite app_length; cbn [length]; lia). reflexivity.
Qed.
Lemma steps_miss : forall k v pb sb w pre s fuel, (forall a b, w = a ++ b -> b <> [] -> starts k (b ++ s) = false) ->
  inplace_loop fuel (pre ++ w ++ s) (length pre) k v pb sb = inplace_loop fuel (pre ++ w ++ s) (length (pre ++ w)) k v pb sb.
Proof.
  induction w as [|c w IH]; intros pre s fuel H; [rewrite app_nil_r; reflexivity|]. cbn [app]. rewrite step_miss by (apply (H [] (c :: w)); [reflexivity|discriminate]).
  replace (pre ++ c :: w ++ s) with ((pre ++ [c]) ++ w ++ s) by (rewrite <- app_assoc; reflexivity). rewrite IH.
  - rewrite <- !app_assoc. reflexivity.
  - intros a b E B. apply (H (c :: a) b); [rewrite E; reflexivity|exact B].
Qed.
Definition blocked (pb sb : bool) (pre k s : text) : bool :=
  (pb && negb (length pre =? 0)%nat && is_name (last pre 0)) || (sb && match s with [] => false | c :: _ => is_name c end).
Lemma nth_last : forall (pre s : text), length pre <> 0%nat -> nth (length pre - 1) (pre ++ s) 0 = last pre 0.
Proof.
  intros pre s H. rewrite app_nth1 by lia. destruct (exists_last (l := pre)) as (p & c & ->); [intros ->; apply H; reflexivity|].
  rewrite last_last, app_length. cbn [length]. rewrite app_nth2 by lia. replace (length p + 1 - 1 - length p)%nat with O by lia. reflexivity.
Qed.
Lemma block_case : forall (pb sb : bool) (pre k v s : text), length v = length k ->
  (pb && negb (length pre =? 0)%nat && is_name (nth (length pre - 1) (pre ++ k ++ s) 0)) ||
  (sb && negb (length pre + length v =? length (pre ++ k ++ s))%nat && is_name (nth (length pre + length v) (pre ++ k ++ s) 0)) = blocked pb sb pre k s.
Proof.
  intros pb sb pre k v s L. unfold blocked. f_equal.
  - destruct pb; [|reflexivity]. cbn [andb]. destruct (length pre =? 0)%nat eqn:E; [reflexivity|]. cbn [negb andb]. rewrite nth_last by lia. reflexivity.
  - destruct sb; [|reflexivity]. cbn [andb]. rewrite !app_length, L. destruct s as [|c s].
    + cbn [length]. replace (length pre + length k =? length pre + (length k + 0))%nat with true by lia. reflexivity.
    + cbn [length]. replace (length pre + length k =? length pre + (length k + S (length s)))%nat with false by lia. cbn [negb andb].
      rewrite app_nth2 by lia. rewrite app_nth2 by lia. replace (length pre + length k - length pre - length k)%nat with O by lia. reflexivity.
Qed.
Lemma step_skip : forall fuel k v pb sb pre s, length v = length k -> k <> [] -> blocked pb sb pre k s = true ->
  inplace_loop (S fuel) (pre ++ k ++ s) (length pre) k v pb sb = inplace_loop fuel (pre ++ k ++ s) (S (length pre)) k v pb sb.
Proof.
  intros fuel k v pb sb pre s L K B. cbn [inplace_loop]. rewrite find_from_here by apply starts_refl. rewrite <- (block_case pb sb pre k v s L) in B.
  apply orb_prop in B. destruct B as [B|B]; [rewrite B; reflexivity|]. destruct (pb && _ && _); [reflexivity|]. rewrite B. reflexivity.
Qed.
Lemma step_hit : forall fuel k v pb sb pre s, length v = length k -> blocked pb sb pre k s = false ->
  inplace_loop (S fuel) (pre ++ k ++ s) (length pre) k v pb sb = inplace_loop fuel (pre ++ v ++ s) (length pre) k v pb sb.
Proof.
  intros fuel k v pb sb pre s L B. cbn [inplace_loop]. rewrite find_from_here by apply starts_refl. rewrite <- (block_case pb sb pre k v s L) in B.
  apply orb_false_elim in B. destruct B as [B1 B2]. rewrite B1, B2. f_equal. unfold replace. rewrite L.
  replace (length pre + length k)%nat with (length (pre ++ k)) by apply app_length. replace (pre ++ k ++ s) with ((pre ++ k) ++ s) at 2 by (symmetry; apply app_assoc). rewrite skipn_pre.
  rewrite firstn_app, firstn_all, Nat.sub_diag, app_nil_r. reflexivity.
Qed.
Lemma step_end : forall fuel k v pb sb t, k <> [] -> inplace_loop (S fuel) t (length t) k v pb sb = Ret t.
Proof.
  intros fuel k v pb sb t K. cbn [inplace_loop]. unfold find_sub_from. replace (length t <? length t)%nat with false by lia. rewrite skipn_all.
  destruct k; [contradiction|]. reflexivity.
Qed.

(* ---- macros ---- *)
Lemma starts_not_name : forall k c s, word k -> ~ name_char c -> starts k (c :: s) = false.
Proof.
  intros k c s [NE F] N. destruct k as [|a k]; [contradiction|]. cbn [starts]. destruct (a =? c) eqn:E; [|reflexivity]. exfalso. apply N. replace c with a by lia. exact (Forall_inv F).
Qed.
(* a word cannot reach over the end of a word *)
Lemma starts_fits : forall k b s, word k -> word_end s -> starts k (b ++ s) = true -> exists r, b = k ++ r.
Proof.
  intros k b s [_ F] E H. revert b F H. induction k as [|a k IH]; intros b F H; [exists b; reflexivity|]. destruct b as [|c b].
  - exfalso. cbn [app] in H. destruct s as [|d s]; [discriminate H|]. cbn [starts] in H. apply (E d s eq_refl). apply andb_prop in H. destruct H as [H _]. replace d with a by lia. exact (Forall_inv F).
  - cbn [app starts] in H. apply andb_prop in H. destruct H as [H1 H2]. destruct (IH b (Forall_inv_tail F) H2) as (r & ->). exists r. cbn [app]. f_equal. lia.
Qed.
Lemma last_snoc : forall (a : text) c, last (a ++ [c]) 0 = c.
Proof. intros. apply last_last. Qed.
Lemma word_walk : forall k v pre s, word k -> length v = length k -> word_end s ->
  forall b a fuel, word (a ++ b) -> a ++ b <> k -> (length b <= fuel)%nat ->
  exists fuel', (fuel - length b <= fuel')%nat /\
    inplace_loop fuel (pre ++ (a ++ b) ++ s) (length (pre ++ a)) k v true true = inplace_loop fuel' (pre ++ (a ++ b) ++ s) (length (pre ++ a ++ b)) k v true true.
Proof.
  intros k v pre s K L E. induction b as [|c b IH]; intros a fuel W NK FU.
  - exists fuel. split; [cbn [length] in *; lia|]. rewrite app_nil_r. reflexivity.
  - cbn [length] in FU.
    assert (AB : a ++ c :: b = (a ++ [c]) ++ b) by (rewrite <- app_assoc; reflexivity).
    assert (NEXT : forall f, (length b <= f)%nat -> (fuel - S (length b) <= f - length b)%nat -> exists fuel', (fuel - S (length b) <= fuel')%nat /\
      inplace_loop f (pre ++ (a ++ c :: b) ++ s) (S (length (pre ++ a))) k v true true = inplace_loop fuel' (pre ++ (a ++ c :: b) ++ s) (length (pre ++ a ++ c :: b)) k v true true).
    { intros f F1 F2. rewrite AB in W, NK. destruct (IH (a ++ [c]) f W NK F1) as (fuel' & G1 & G2). exists fuel'. split; [lia|]. rewrite AB. rewrite <- G2.
      f_equal. rewrite !app_length. cbn [length]. lia. }
    destruct (starts k ((c :: b) ++ s)) eqn:S0.
    + destruct (starts_fits k (c :: b) s K E S0) as (r & R). destruct fuel as [|fuel]; [lia|].
      replace (pre ++ (a ++ c :: b) ++ s) with ((pre ++ a) ++ k ++ (r ++ s)) by (rewrite R; rewrite <- !app_assoc; reflexivity).
      rewrite step_skip; [|exact L|apply K|].
      * replace ((pre ++ a) ++ k ++ r ++ s) with (pre ++ (a ++ c :: b) ++ s) by (rewrite R; rewrite <- !app_assoc; reflexivity). apply NEXT; lia.
      * unfold blocked. destruct a as [|a0 a] using rev_ind.
        -- (* the word is longer *)
           assert (r <> []). { intros ->. apply NK. cbn [app]. rewrite R, app_nil_r. reflexivity. }
           destruct r as [|d r]; [contradiction|]. cbn [app]. destruct W as [_ W]. cbn [app] in W. rewrite R in W. apply Forall_app in W. destruct W as [_ W].
           rewrite (proj2 (name_spec d) (Forall_inv W)). cbn [andb]. apply orb_true_r.
        -- clear IHa. rewrite app_assoc, last_snoc. rewrite app_length. cbn [length]. destruct W as [_ W]. rewrite <- app_assoc in W. apply Forall_app in W. destruct W as [_ W].
           rewrite (proj2 (name_spec a0) (Forall_inv W)). replace (length (pre ++ a) + 1 =? 0)%nat with false by lia. reflexivity.
    + replace (pre ++ (a ++ c :: b) ++ s) with ((pre ++ a) ++ c :: (b ++ s)) by (rewrite <- !app_assoc; reflexivity). rewrite step_miss by exact S0.
      replace ((pre ++ a) ++ c :: b ++ s) with (pre ++ (a ++ c :: b) ++ s) by (rewrite <- !app_assoc; reflexivity).
      replace (length ((pre ++ a) ++ [c])) with (S (length (pre ++ a))) by (rewrite (app_length (pre ++ a)); cbn [length]; lia). apply NEXT; lia.
Qed.
Lemma boundary_end : forall pre w s, word_end s -> boundary (pre ++ w) s.
Proof. intros pre w s E p c d r _ -> [_ N]. apply (E d r eq_refl). exact N. Qed.
Lemma macro_loop : forall k v s s', word k -> length v = length k -> v <> k -> macro k v s s' ->
  forall pre fuel, boundary pre s -> (length s < fuel)%nat -> inplace_loop fuel (pre ++ s) (length pre) k v true true = Ret (pre ++ s').
Proof.
  intros k v s s' K L NV M. induction M as [|c s s' NC M IH|s s' E M IH|w s s' W NK E M IH]; intros pre fuel B FU.
  - rewrite !app_nil_r. destruct fuel as [|fuel]; [cbn [length] in FU; lia|]. apply step_end, K.
  - cbn [length] in FU. rewrite step_miss by (apply starts_not_name; assumption). replace (pre ++ c :: s) with ((pre ++ [c]) ++ s) by (rewrite <- app_assoc; reflexivity).
    rewrite (IH (pre ++ [c])); [rewrite <- app_assoc; reflexivity| |lia]. intros p x d r P _ [N _]. apply app_inj_tail in P. destruct P as [_ <-]. contradiction.
  - destruct fuel as [|fuel]; [lia|]. rewrite app_length in FU. assert (length k <> 0)%nat by (destruct K as [K _]; destruct k; [contradiction|discriminate]).
    rewrite step_hit; [|exact L|].
    + rewrite steps_miss.
      * rewrite app_assoc. rewrite IH; [rewrite <- app_assoc; reflexivity|apply boundary_end, E|lia].
      * intros a b AB NB. destruct (starts k (b ++ s)) eqn:S0; [|reflexivity]. exfalso. destruct (starts_fits k b s K E S0) as (r & R). subst b v. rewrite !app_length in L.
        destruct a; [|cbn [length] in L; lia]. destruct r; [|cbn [length] in L; lia]. apply NV. rewrite app_nil_r. reflexivity.
    + unfold blocked. apply orb_false_intro.
      * destruct (length pre =? 0)%nat eqn:P0; [reflexivity|]. cbn [negb andb]. destruct pre as [|c0 pre] using rev_ind; [discriminate P0|]. rewrite last_snoc.
        destruct k as [|k0 k]; [contradiction|]. apply not_name_spec. intros N. apply (B pre c0 k0 (k ++ s) eq_refl eq_refl). split; [exact N|]. destruct K as [_ K]. exact (Forall_inv K).
      * destruct s as [|d s]; [reflexivity|]. cbn [andb]. apply not_name_spec. apply (E d s eq_refl).
  - rewrite app_length in FU. destruct (word_walk k v pre s K L E w [] fuel W NK ltac:(lia)) as (fuel' & F' & G). rewrite app_nil_r in G. cbn [app] in G. rewrite G.
    rewrite app_assoc. rewrite IH; [rewrite <- app_assoc; reflexivity|apply boundary_end, E|lia].
Qed.
Lemma filled_len : forall k v, (length v <= length k)%nat -> length (filled k v) = length k.
Proof. intros k v L. unfold filled. rewrite app_length, repeat_length. lia. Qed.
Theorem macro_line : forall fuel pre s s' name bl content, word name -> Forall blank bl -> (forall c r, content = c :: r -> ~ blank c) ->
  content <> name -> (length content <= length name)%nat -> boundary pre s -> macro name (filled name content) s s' -> (length s < fuel)%nat ->
  predefined_macro fuel (pre ++ s) (length pre) (name ++ 32 :: bl ++ content) = Ret (0, pre ++ s').
Proof.
  intros fuel pre s s' name bl content W BL NB NE LE B M FU. unfold predefined_macro.
  assert (N32 : ~ In 32 name). { intros I. destruct W as [_ W]. rewrite Forall_forall in W. specialize (W 32 I). unfold name_char, digit in W. lia. }
  rewrite (find_at 32 name _ N32). cbv zeta. rewrite firstn_app, firstn_all, Nat.sub_diag, app_nil_r.
  replace (zlen name =? 0) with false by (destruct W as [W _]; destruct name; [contradiction|]; rewrite zlen_cons; pose proof (zlen_nonneg _ name); lia).
  rewrite skipn_pre.
  assert (DW : drop_while is_blank (32 :: bl ++ content) = content).
  { change (32 :: bl ++ content) with ((32 :: bl) ++ content). rewrite drop_app.
    - destruct content as [|c r]; [reflexivity|]. apply drop_stop. apply Bool.not_true_iff_false. rewrite blank_blank. exact (NB c r eq_refl).
    - constructor; [reflexivity|]. eapply Forall_impl; [|exact BL]. intros x X. apply blank_blank, X. }
  rewrite DW. unfold inplace. replace (length name <? length content)%nat with false by lia. cbv zeta. fold (filled name content).
  rewrite (macro_loop name (filled name content) s s' W (filled_len _ _ LE)); [reflexivity| |exact M|exact B|exact FU].
  intros E. unfold filled in E. destruct (length name - length content)%nat as [|n] eqn:D; [cbn [repeat] in E; rewrite app_nil_r in E; contradiction|].
  apply N32. rewrite <- E. apply in_or_app. right. left. reflexivity.
Qed.
Theorem macro_long : forall fuel t pos name bl content, word name -> Forall blank bl -> (forall c r, content = c :: r -> ~ blank c) -> (length name < length content)%nat ->
  predefined_macro fuel t pos (name ++ 32 :: bl ++ content) = Ret (PEC_DEFINED_TARGET_TOO_LONG, t).
Proof.
  intros fuel t pos name bl content W BL NB LT. unfold predefined_macro.
  assert (N32 : ~ In 32 name). { intros I. destruct W as [_ W]. rewrite Forall_forall in W. specialize (W 32 I). unfold name_char, digit in W. lia. }
  rewrite (find_at 32 name _ N32). cbv zeta. rewrite firstn_app, firstn_all, Nat.sub_diag, app_nil_r.
  replace (zlen name =? 0) with false by (destruct W as [W _]; destruct name; [contradiction|]; rewrite zlen_cons; pose proof (zlen_nonneg _ name); lia).
  rewrite skipn_pre.
  assert (DW : drop_while is_blank (32 :: bl ++ content) = content).
  { change (32 :: bl ++ content) with ((32 :: bl) ++ content). rewrite drop_app.
    - destruct content as [|c r]; [reflexivity|]. apply drop_stop. apply Bool.not_true_iff_false. rewrite blank_blank. exact (NB c r eq_refl).
    - constructor; [reflexivity|]. eapply Forall_impl; [|exact BL]. intros x X. apply blank_blank, X. }
  rewrite DW. unfold inplace. replace (length name <? length content)%nat with true by lia. reflexivity.
Qed.
(* the substitution is always defined and keeps the length *)
Lemma split_word : forall s, exists w r, s = w ++ r /\ Forall name_char w /\ word_end r.
Proof.
  induction s as [|c s (w & r & -> & F & E)]; [exists [], []; split; [reflexivity|split; [constructor|intros c r H; discriminate H]]|].
  destruct (is_name c) eqn:N.
  - exists (c :: w), r. split; [reflexivity|]. split; [constructor; [apply name_spec, N|exact F]|exact E].
  - exists [], (c :: w ++ r). split; [reflexivity|]. split; [constructor|]. intros c' r' H. injection H as <- _. apply not_name_spec, N.
Qed.
Lemma macro_total : forall k v s, word k -> exists s', macro k v s s'.
Proof.
  intros k v s K. remember (length s) as n eqn:L. assert (LE : (length s <= n)%nat) by lia. clear L. revert s LE. induction n as [|n IH]; intros s LE.
  - destruct s; [exists []; constructor|cbn [length] in LE; lia].
  - destruct (split_word s) as (w & r & -> & F & E). destruct w as [|c w].
    + destruct r as [|c r]; [exists []; constructor|]. destruct (IH r) as (s' & M); [cbn [app length] in LE; lia|]. exists (c :: s'). cbn [app]. constructor; [exact (E c r eq_refl)|exact M].
    + rewrite app_length in LE. cbn [length] in LE. destruct (IH r ltac:(lia)) as (s' & M). destruct (list_eq_dec Z.eq_dec (c :: w) k) as [->|N].
      * exists (v ++ s'). apply mc_key; assumption.
      * exists ((c :: w) ++ s'). apply mc_word; try assumption. split; [discriminate|exact F].
Qed.
Lemma macro_len : forall k v s s', macro k v s s' -> length v = length k -> length s' = length s.
Proof. intros k v s s' M L. induction M; cbn [length]; rewrite ?app_length; lia. Qed.

(* ---- variables ---- *)
Lemma hit_spec : forall k sb s pre r, s = k ++ r -> (hit k sb s <-> blocked false sb pre k r = false).
Proof.
  intros k sb s pre r ->. unfold hit, blocked. cbn [andb orb]. split.
  - intros (r' & E & B). apply app_inv_head in E. subst r'. destruct sb; [|reflexivity]. destruct r as [|c r]; [reflexivity|]. cbn [andb]. apply not_name_spec. exact (B eq_refl c r eq_refl).
  - intros B. exists r. split; [reflexivity|]. intros ->. intros c q ->. cbn [andb] in B. apply not_name_spec, B.
Qed.
Lemma var_loop_in : forall k v sb s s', k <> [] -> length v = length k -> (forall a b r, v = a ++ b -> b <> [] -> (sb = true -> word_end r) -> starts k (b ++ r) = false) -> var_in k v sb s s' ->
  forall pre fuel, (length s < fuel)%nat -> inplace_loop fuel (pre ++ s) (length pre) k v false sb = Ret (pre ++ s').
Proof.
  intros k v sb s s' K L NV M. induction M as [|c s s' NH M IH|s s' H M IH]; intros pre fuel FU.
  - rewrite !app_nil_r. destruct fuel as [|fuel]; [cbn [length] in FU; lia|]. apply step_end, K.
  - cbn [length] in FU.
    assert (NEXT : forall f, (length s < f)%nat -> inplace_loop f (pre ++ c :: s) (S (length pre)) k v false sb = Ret (pre ++ c :: s')).
    { intros f F. specialize (IH (pre ++ [c]) f F). rewrite <- !app_assoc in IH. cbn [app] in IH. rewrite <- IH. f_equal. rewrite app_length. cbn [length]. lia. }
    destruct (starts k (c :: s)) eqn:S0.
    + destruct (starts_app _ _ S0) as (r & R). destruct fuel as [|fuel]; [lia|]. rewrite R. rewrite step_skip; [|exact L|exact K|].
      * rewrite <- R. apply NEXT. lia.
      * destruct (blocked false sb pre k r) eqn:B; [reflexivity|]. exfalso. apply NH. apply (proj2 (hit_spec k sb (c :: s) pre r R)). exact B.
    + rewrite step_miss by exact S0. replace (length (pre ++ [c])) with (S (length pre)) by (rewrite app_length; cbn [length]; lia). apply NEXT. lia.
  - destruct fuel as [|fuel]; [lia|]. rewrite app_length in FU. assert (length k <> 0)%nat by (destruct k; [contradiction|discriminate]).
    rewrite step_hit; [|exact L|apply (proj1 (hit_spec k sb (k ++ s) pre s eq_refl) H)].
    destruct H as (r & HR & HB). apply app_inv_head in HR. subst r. rewrite steps_miss by (intros a b E B; eapply NV; eassumption). rewrite app_assoc, IH by lia. rewrite <- app_assoc. reflexivity.
Qed.
Lemma starts_within : forall k b r, starts k (b ++ r) = true -> (length b <= length k)%nat -> exists q, k = b ++ q /\ starts q r = true.
Proof.
  induction k as [|a k IH]; intros b r H L.
  - destruct b; [|cbn [length] in L; lia]. exists []. split; reflexivity.
  - destruct b as [|c b]; [exists (a :: k); split; [reflexivity|exact H]|]. cbn [app starts length] in *. apply andb_prop in H. destruct H as [H1 H2].
    destruct (IH b r H2 ltac:(lia)) as (q & -> & Q). exists q. split; [cbn [app]; f_equal; lia|exact Q].
Qed.
Lemma word_no_blank : forall x, word x -> ~ In 32 x.
Proof. intros x [_ F] I. rewrite Forall_forall in F. specialize (F _ I). unfold name_char, digit in F. lia. Qed.
Lemma filled_suffix : forall k v a b, (length v <= length k)%nat -> filled k v = a ++ b -> (length b <= length k)%nat.
Proof. intros k v a b L E. apply (f_equal (@length Z)) in E. rewrite (filled_len _ _ L), app_length in E. lia. Qed.
Lemma braced_miss : forall x v a b r, word x -> (length v <= length x + 1)%nat -> filled (braced x) v = a ++ b -> b <> [] -> starts (braced x) (b ++ r) = false.
Proof.
  intros x v a b r X L E B. destruct (starts (braced x) (b ++ r)) eqn:S0; [|reflexivity]. exfalso.
  assert (LB : length (braced x) = (length x + 3)%nat) by (unfold braced; rewrite !app_length; cbn [length]; lia).
  destruct (starts_within _ _ _ S0 (filled_suffix (braced x) v a b ltac:(lia) E)) as (q & Q & _).
  assert (I : In 32 b).
  { destruct b as [|c b] using rev_ind; [contradiction|]. clear IHb. unfold filled in E. replace (length (braced x) - length v)%nat with (length x + 2 - length v + 1)%nat in E by lia.
    rewrite repeat_app in E. cbn [repeat] in E. rewrite !app_assoc in E. apply app_inj_tail in E. destruct E as [_ <-]. apply in_or_app. right. left. reflexivity. }
  assert (J : In 32 (braced x)) by (rewrite Q; apply in_or_app; left; exact I). unfold braced in J. apply in_app_or in J. destruct J as [[J|[J|[]]]|J]; [discriminate J|discriminate J|].
  apply in_app_or in J. destruct J as [J|[J|[]]]; [exact (word_no_blank _ X J)|discriminate J].
Qed.
Lemma dollar_miss : forall x v a b r, word x -> v <> dollar x -> (length v <= length x + 1)%nat -> word_end r -> filled (dollar x) v = a ++ b -> b <> [] -> starts (dollar x) (b ++ r) = false.
Proof.
  intros x v a b r X NV L E EQ B. destruct (starts (dollar x) (b ++ r)) eqn:S0; [|reflexivity]. exfalso.
  assert (LD : length (dollar x) = (length x + 1)%nat) by (cbn [dollar length]; lia).
  assert (N32 : ~ In 32 (dollar x)) by (intros [I|I]; [discriminate I|exact (word_no_blank _ X I)]).
  destruct (starts_within _ _ _ S0 (filled_suffix (dollar x) v a b ltac:(lia) EQ)) as (q & Q & SQ). destruct q as [|q0 q].
  - rewrite app_nil_r in Q. assert (a = []) as ->. { pose proof (f_equal (@length Z) EQ) as L2. rewrite filled_len, app_length, <- Q in L2 by lia. destruct a; [reflexivity|cbn [length] in L2; lia]. }
    cbn [app] in EQ. rewrite <- Q in EQ. unfold filled in EQ. destruct (length (dollar x) - length v)%nat as [|n] eqn:D; [cbn [repeat] in EQ; rewrite app_nil_r in EQ; contradiction|].
    apply N32. rewrite <- EQ. apply in_or_app. right. left. reflexivity.
  - destruct r as [|d r]; [discriminate SQ|]. cbn [starts] in SQ. apply andb_prop in SQ. destruct SQ as [SQ _]. apply (E d r eq_refl). replace d with q0 by lia.
    destruct b as [|b0 b]; [contradiction|]. unfold dollar in Q. cbn [app] in Q. injection Q as _ Q. destruct X as [_ X]. rewrite Q in X. apply Forall_app in X. destruct X as [_ X]. exact (Forall_inv X).
Qed.
Lemma inplace_var : forall fuel pre k v sb s s', k <> [] -> (forall a b r, filled k v = a ++ b -> b <> [] -> (sb = true -> word_end r) -> starts k (b ++ r) = false) -> (length v <= length k)%nat -> var_in k (filled k v) sb s s' -> (length s < fuel)%nat ->
  inplace fuel (pre ++ s) (length pre) k v false sb = Ret (0, pre ++ s').
Proof.
  intros fuel pre k v sb s s' K N L M F. unfold inplace. replace (length k <? length v)%nat with false by lia. cbv zeta. fold (filled k v).
  rewrite (var_loop_in k (filled k v) sb s s' K (filled_len _ _ L) N M pre fuel F). reflexivity.
Qed.
Lemma var_in_len : forall k v b s s', var_in k v b s s' -> length v = length k -> length s' = length s.
Proof. intros k v b s s' M L. induction M; cbn [length]; rewrite ?app_length; lia. Qed.
Lemma rtrim_blanks : forall s b, Forall blank b -> (forall c r, s = r ++ [c] -> ~ blank c) -> rtrim (s ++ b) = s.
Proof.
  intros s b B E. unfold rtrim. rewrite rev_app_distr. rewrite drop_app.
  - destruct s as [|c s] using rev_ind; [reflexivity|]. rewrite rev_app_distr. cbn [rev app]. rewrite drop_stop.
    + cbn [rev]. rewrite rev_involutive. reflexivity.
    + apply Bool.not_true_iff_false. rewrite blank_blank. exact (E c s eq_refl).
  - apply Forall_rev. eapply Forall_impl; [|exact B]. intros x X. apply blank_blank, X.
Qed.
Lemma substr_mid : forall (D x r : text), substr (D ++ x ++ r) (length D) (length x) = x.
Proof. intros D x r. unfold substr. rewrite skipn_pre, firstn_app, firstn_all, Nat.sub_diag, app_nil_r. reflexivity. Qed.
Lemma nth_mid : forall (D : text) c r, nth (length D) (D ++ c :: r) 0 = c.
Proof. intros. rewrite app_nth2, Nat.sub_diag by lia. reflexivity. Qed.
Lemma var_skip : forall b rounds fuel t pos D r, Forall (fun c => c = 32 \/ c = 9) b ->
  var_loop fuel (length b + rounds) t pos (D ++ b ++ r) (length D) = var_loop fuel rounds t pos (D ++ b ++ r) (length (D ++ b)).
Proof.
  induction b as [|c b IH]; intros rounds fuel t pos D r F; [rewrite app_nil_r; reflexivity|]. cbn [length Nat.add var_loop app]. rewrite !app_length. cbn [length].
  replace (length D + S (length (b ++ r)) <=? length D)%nat with false by lia. rewrite nth_mid. pose proof (Forall_inv F) as C. cbv beta in C. replace ((c =? 32) || (c =? 9)) with true by lia.
  replace (D ++ c :: b ++ r) with ((D ++ [c]) ++ b ++ r) by (rewrite <- app_assoc; reflexivity). replace (S (length D)) with (length (D ++ [c])) by (rewrite app_length; cbn [length]; lia).
  rewrite IH by exact (Forall_inv_tail F). f_equal. rewrite !app_length. cbn [length]. lia.
Qed.
(* one item, followed by the end or a comma *)
Definition var_step (fuel : nat) (T : text) (pos : nat) (x v : text) (k : text -> outcome (Z * text)) : outcome (Z * text) :=
  let! r := inplace fuel T pos (braced x) v false false in
  let '(ret, t) := r in
  if negb (ret =? 0) then Ret (ret, t)
  else
    let! r := inplace fuel t pos (dollar x) v false true in
    let '(ret, t) := r in
    if negb (ret =? 0) then Ret (ret, t) else k t.
Lemma var_read : forall x v t u D rounds fuel T pos, item_text x v t -> var_name x -> var_value v -> (u = [] \/ exists u', u = 44 :: u') -> (length t <= rounds)%nat ->
  exists rounds', (rounds - length t <= rounds')%nat /\
  var_loop fuel rounds T pos (D ++ t ++ u) (length D) = var_step fuel T pos x v (fun T' => var_loop fuel rounds' T' pos (D ++ t ++ u) (S (length (D ++ t)))).
Proof.
  intros x v t u D rounds fuel T pos (b1 & b2 & b3 & -> & B1 & B2 & B3) [[XN XF] XD] (V44 & VB) U RO.
  destruct x as [|x0 x]; [contradiction|]. cbn [hd] in XD. pose proof (Forall_inv XF) as X0.
  assert (X61 : forall c, name_char c -> c <> 61 /\ c <> 44 /\ c <> 36 /\ ~ blank c).
  { intros c C. unfold name_char, digit in C. unfold blank. cbn [In]. lia. }
  assert (NB : forall z l, ~ name_char z -> z <> 61 -> Forall blank l -> ~ (In z ((x0 :: x) ++ l)) \/ blank z).
  { intros z l Z1 Z2 BL. destruct (is_blank z) eqn:ZB; [right; apply blank_blank, ZB|left]. intros I. apply in_app_or in I. destruct I as [I|I].
    - rewrite Forall_forall in XF. apply Z1, XF, I.
    - rewrite Forall_forall in BL. apply BL, blank_blank in I. congruence. }
  assert (N61 : ~ In 61 ((x0 :: x) ++ b2)).
  { intros I. apply in_app_or in I. destruct I as [I|I]; [rewrite Forall_forall in XF; destruct (X61 61 (XF _ I)) as [H _]; apply H; reflexivity|].
    rewrite Forall_forall in B2. specialize (B2 _ I). unfold blank in B2. cbn [In] in B2. lia. }
  assert (N44 : ~ In 44 (((x0 :: x) ++ b2) ++ 61 :: v ++ b3)).
  { intros I. apply in_app_or in I. destruct I as [I|I].
    - apply in_app_or in I. destruct I as [I|I]; [rewrite Forall_forall in XF; destruct (X61 44 (XF _ I)) as (_ & H & _); apply H; reflexivity|].
      rewrite Forall_forall in B2. specialize (B2 _ I). unfold blank in B2. cbn [In] in B2. lia.
    - cbn [In] in I. destruct I as [I|I]; [discriminate I|]. apply in_app_or in I. destruct I as [I|I]; [contradiction|]. rewrite Forall_forall in B3. specialize (B3 _ I). unfold blank in B3. cbn [In] in B3. lia. }
  rewrite !app_length in RO. cbn [length] in RO. rewrite !app_length in RO.
  exists (rounds - length b1 - 1)%nat. split; [rewrite !app_length; cbn [length]; lia|].
  replace (D ++ (b1 ++ (x0 :: x) ++ b2 ++ 61 :: v ++ b3) ++ u) with (D ++ b1 ++ ((x0 :: x) ++ b2 ++ 61 :: v ++ b3) ++ u) by norm_app.
  replace rounds with (length b1 + S (rounds - length b1 - 1))%nat at 1 by lia. rewrite var_skip by exact B1.
  set (D1 := D ++ b1).
  assert (EW : D ++ b1 ++ ((x0 :: x) ++ b2 ++ 61 :: v ++ b3) ++ u = D1 ++ (x0 :: x) ++ b2 ++ 61 :: v ++ b3 ++ u) by (unfold D1; norm_app).
  rewrite EW. set (W := D1 ++ (x0 :: x) ++ b2 ++ 61 :: v ++ b3 ++ u). cbn [var_loop]. cbv zeta.
  assert (LW : length W = (length D1 + (S (length x) + (length b2 + S (length v + (length b3 + length u)))))%nat).
  { unfold W. rewrite app_length. cbn [app length]. rewrite !app_length. cbn [length]. rewrite !app_length. lia. }
  replace (length W <=? length D1)%nat with false by lia.
  assert (N0 : nth (length D1) W 0 = x0) by (unfold W; cbn [app]; apply nth_mid). rewrite N0.
  destruct (X61 x0 X0) as (_ & _ & _ & XB). replace ((x0 =? 32) || (x0 =? 9)) with false by (unfold blank in XB; cbn [In] in XB; lia).
  assert (F61 : find_from 61 W (length D1) = Some (length (D1 ++ (x0 :: x) ++ b2))).
  { unfold W. replace (D1 ++ (x0 :: x) ++ b2 ++ 61 :: v ++ b3 ++ u) with (D1 ++ ((x0 :: x) ++ b2) ++ 61 :: v ++ b3 ++ u) by norm_app. apply find_from_at. exact N61. }
  rewrite F61.
  set (item := (x0 :: x) ++ b2 ++ 61 :: v ++ b3).
  assert (WI : W = D1 ++ item ++ u) by (unfold W, item; norm_app).
  assert (FD : match find_from 44 W (length D1) with Some d => d | None => length W end = length (D1 ++ item)).
  { assert (NI : ~ In 44 item) by (unfold item; rewrite app_assoc; exact N44). rewrite WI. destruct U as [->|(u' & ->)].
    - rewrite app_nil_r. unfold find_from. rewrite skipn_pre, (find_none 44 item NI). reflexivity.
    - rewrite find_from_at by exact NI. reflexivity. }
  rewrite FD.
  assert (LI : length (D1 ++ item) = (length (D1 ++ (x0 :: x) ++ b2) + S (length v + length b3))%nat).
  { unfold item. rewrite !app_length. cbn [length]. rewrite !app_length. lia. }
  replace (length (D1 ++ item) <=? length (D1 ++ (x0 :: x) ++ b2))%nat with false by lia.
  assert (SV : rtrim (substr W (length D1) (length (D1 ++ (x0 :: x) ++ b2) - length D1)) = x0 :: x).
  { replace (length (D1 ++ (x0 :: x) ++ b2) - length D1)%nat with (length ((x0 :: x) ++ b2)) by (rewrite (app_length D1); lia).
    unfold W. replace (D1 ++ (x0 :: x) ++ b2 ++ 61 :: v ++ b3 ++ u) with (D1 ++ ((x0 :: x) ++ b2) ++ 61 :: v ++ b3 ++ u) by norm_app.
    rewrite substr_mid. apply rtrim_blanks; [exact B2|]. intros c r E. rewrite E in XF. apply Forall_app in XF. destruct XF as [_ XF]. apply (X61 c (Forall_inv XF)). }
  rewrite SV. cbn [hd]. replace (zlen (x0 :: x) =? 0) with false by (rewrite zlen_cons; pose proof (zlen_nonneg _ x); lia).
  replace (is_name_first x0) with true by (symmetry; unfold name_char, digit in *; unfold is_name_first, is_lower, is_upper; lia). cbn [negb].
  replace (is_blank x0) with false by (symmetry; apply Bool.not_true_iff_false; rewrite blank_blank; exact XB).
  assert (SX : rtrim (substr W (S (length (D1 ++ (x0 :: x) ++ b2))) (length (D1 ++ item) - S (length (D1 ++ (x0 :: x) ++ b2)))) = v).
  { replace (length (D1 ++ item) - S (length (D1 ++ (x0 :: x) ++ b2)))%nat with (length (v ++ b3)) by (rewrite LI, (app_length v); lia).
    replace (S (length (D1 ++ (x0 :: x) ++ b2))) with (length (D1 ++ (x0 :: x) ++ b2 ++ [61])) by (rewrite !app_length; cbn [length]; lia).
    unfold W. replace (D1 ++ (x0 :: x) ++ b2 ++ 61 :: v ++ b3 ++ u) with ((D1 ++ (x0 :: x) ++ b2 ++ [61]) ++ (v ++ b3) ++ u).
    - rewrite substr_mid. apply rtrim_blanks; assumption.
    - norm_app. }
  rewrite SX.
  change ([36; 123] ++ (x0 :: x) ++ [125]) with (braced (x0 :: x)). change (36 :: x0 :: x) with (dollar (x0 :: x)). rewrite WI.
  assert (LE : length (D ++ b1 ++ item) = length (D1 ++ item)) by (unfold D1; rewrite !app_length; lia). rewrite LE. reflexivity.
Qed.
Lemma var_item : forall x v t u D rounds fuel pre s s1 s2, item_text x v t -> var_name x -> var_value v -> v <> dollar x -> (length v <= length x + 1)%nat -> (u = [] \/ exists u', u = 44 :: u') ->
  var_in (braced x) (filled (braced x) v) false s s1 -> var_in (dollar x) (filled (dollar x) v) true s1 s2 -> (length s < fuel)%nat -> (length t <= rounds)%nat ->
  exists rounds', (rounds - length t <= rounds')%nat /\
  var_loop fuel rounds (pre ++ s) (length pre) (D ++ t ++ u) (length D) = var_loop fuel rounds' (pre ++ s2) (length pre) (D ++ t ++ u) (S (length (D ++ t))).
Proof.
  intros x v t u D rounds fuel pre s s1 s2 IT XN VV VN LV U M1 M2 FU RO.
  destruct (var_read x v t u D rounds fuel (pre ++ s) (length pre) IT XN VV U RO) as (r' & R1 & R2). exists r'. split; [exact R1|]. rewrite R2. unfold var_step.
  assert (LB : length (braced x) = (length x + 3)%nat) by (unfold braced; rewrite !app_length; cbn [length]; lia). destruct XN as [XW XD].
  rewrite (inplace_var fuel pre (braced x) v false s s1); [|discriminate|intros a b r EB NBB _; eapply (braced_miss x); [exact XW|exact LV|exact EB|exact NBB]|rewrite LB; lia|exact M1|exact FU].
  cbn [bind]. change (negb (0 =? 0)) with false. cbv iota.
  pose proof (var_in_len _ _ _ _ _ M1 (filled_len (braced x) v ltac:(rewrite LB; lia))) as LS1.
  rewrite (inplace_var fuel pre (dollar x) v true s1 s2); [|discriminate|intros a b r EB NBB WE; eapply (dollar_miss x); [exact XW|exact VN|exact LV|exact (WE eq_refl)|exact EB|exact NBB]|cbn [dollar length] in *; lia|exact M2|lia].
  cbn [bind]. change (negb (0 =? 0)) with false. reflexivity.
Qed.
Theorem var_line : forall l t, vars_text l t -> Forall (fun p => var_name (fst p) /\ var_value (snd p) /\ snd p <> dollar (fst p) /\ (length (snd p) <= length (fst p) + 1)%nat) l ->
  forall pre s s' fuel D rounds, vars l s s' -> (length s < fuel)%nat -> (length t < rounds)%nat ->
  var_loop fuel rounds (pre ++ s) (length pre) (D ++ t) (length D) = Ret (0, pre ++ s').
Proof.
  intros l t T. induction T as [b B|x v t IT|x v t y l u IT T IH]; intros F pre s s' fuel D rounds V FU RO.
  - inversion V; subst. replace rounds with (length b + S (rounds - length b - 1))%nat by lia. replace (D ++ b) with (D ++ b ++ []) by (rewrite app_nil_r; reflexivity). rewrite var_skip by exact B.
    rewrite app_nil_r. cbn [var_loop]. replace (length (D ++ b) <=? length (D ++ b))%nat with true by lia. reflexivity.
  - inversion V as [|? ? ? ? s1 s2 ? M1 M2 VL]; subst. inversion VL; subst. destruct (Forall_inv F) as (H1 & H2 & H4 & H3). cbn [fst snd] in *.
    destruct (var_item x v t [] D rounds fuel pre s s1 s' IT H1 H2 H4 H3 (or_introl eq_refl) M1 M2 FU ltac:(lia)) as (r' & R1 & R2). rewrite app_nil_r in R2. rewrite R2.
    destruct r' as [|r']; [lia|]. cbn [var_loop]. replace (length (D ++ t) <=? S (length (D ++ t)))%nat with true by lia. reflexivity.
  - inversion V as [|? ? ? ? s1 s2 ? M1 M2 VL]; subst. destruct (Forall_inv F) as (H1 & H2 & H4 & H3). cbn [fst snd] in *. rewrite app_length in RO. cbn [length] in RO.
    destruct (var_item x v t (44 :: u) D rounds fuel pre s s1 s2 IT H1 H2 H4 H3 (or_intror (ex_intro _ u eq_refl)) M1 M2 FU ltac:(lia)) as (r' & R1 & R2). rewrite R2.
    assert (LB : length (braced x) = (length x + 3)%nat) by (unfold braced; rewrite !app_length; cbn [length]; lia).
    pose proof (var_in_len _ _ _ _ _ M1 (filled_len (braced x) v ltac:(rewrite LB; lia))) as LS1.
    pose proof (var_in_len _ _ _ _ _ M2 (filled_len (dollar x) v ltac:(cbn [dollar length]; lia))) as LS2.
    replace (D ++ t ++ 44 :: u) with ((D ++ t ++ [44]) ++ u) by norm_app. replace (S (length (D ++ t))) with (length (D ++ t ++ [44])) by (rewrite !app_length; cbn [length]; lia).
    apply IH; [exact (Forall_inv_tail F)|exact VL|lia|lia].
Qed.
(* the relations are total and keep the length *)
Lemma hit_dec : forall k sb s, {hit k sb s} + {~ hit k sb s}.
Proof.
  intros k sb s. destruct (starts k s) eqn:S0.
  - assert (s = k ++ skipn (length k) s). { destruct (starts_app _ _ S0) as (r & ->). rewrite skipn_pre. reflexivity. }
    destruct (blocked false sb [] k (skipn (length k) s)) eqn:B.
    + right. intros H1. apply (hit_spec k sb s [] _ H) in H1. congruence.
    + left. apply (hit_spec k sb s [] _ H). exact B.
  - right. intros (r & -> & _). rewrite starts_refl in S0. discriminate.
Qed.
Lemma var_in_total : forall k v sb s, k <> [] -> exists s', var_in k v sb s s'.
Proof.
  intros k v sb s K. remember (length s) as n eqn:L. assert (LE : (length s <= n)%nat) by lia. clear L. revert s LE. induction n as [|n IH]; intros s LE.
  - destruct s; [exists []; constructor|cbn [length] in LE; lia].
  - destruct s as [|c s]; [exists []; constructor|]. destruct (hit_dec k sb (c :: s)) as [H|N].
    + destruct H as (r & E & B). destruct (IH r) as (s' & M). { apply (f_equal (@length Z)) in E. rewrite app_length in E. destruct k; [contradiction|]. cbn [length] in *. lia. }
      exists (v ++ s'). rewrite E. apply vi_hit; [exists r; split; [reflexivity|exact B]|exact M].
    + destruct (IH s) as (s' & M); [cbn [length] in LE; lia|]. exists (c :: s'). apply vi_skip; assumption.
Qed.
Lemma vars_total : forall l s, exists s', vars l s s'.
Proof.
  induction l as [|[x v] l IH]; intros s; [exists s; constructor|]. destruct (var_in_total (braced x) (filled (braced x) v) false s ltac:(discriminate)) as (s1 & M1).
  destruct (var_in_total (dollar x) (filled (dollar x) v) true s1 ltac:(discriminate)) as (s2 & M2). destruct (IH s2) as (s' & V). exists s'. econstructor; eassumption.
Qed.
Lemma vars_len : forall l s s', vars l s s' -> Forall (fun p => (length (snd p) <= length (fst p) + 1)%nat) l -> length s' = length s.
Proof.
  intros l s s' V. induction V as [|x v l s s1 s2 s' M1 M2 V IH]; intros F; [reflexivity|]. pose proof (Forall_inv F) as H. cbn [fst snd] in H. rewrite (IH (Forall_inv_tail F)).
  rewrite (var_in_len _ _ _ _ _ M2) by (apply filled_len; cbn [dollar length]; lia). apply (var_in_len _ _ _ _ _ M1). apply filled_len. unfold braced. rewrite !app_length. cbn [length]. lia.
Qed.
(* a value that is too long *)
Lemma inplace_code : forall fuel t pos k v pb sb ret t', inplace fuel t pos k v pb sb = Ret (ret, t') -> ret = if (length k <? length v)%nat then PEC_DEFINED_TARGET_TOO_LONG else 0.
Proof.
  intros fuel t pos k v pb sb ret t' H. unfold inplace in H. destruct (length k <? length v)%nat; [injection H as <- _; reflexivity|]. cbv zeta in H.
  destruct (inplace_loop _ _ _ _ _ _ _); cbn [bind] in H; try discriminate. injection H as <- _. reflexivity.
Qed.
Lemma step_code : forall fuel T pos x v k ret t', var_step fuel T pos x v k = Ret (ret, t') ->
  if (length x + 1 <? length v)%nat then ret = PEC_DEFINED_TARGET_TOO_LONG else exists T', k T' = Ret (ret, t').
Proof.
  intros fuel T pos x v k ret t' H. unfold var_step in H. assert (LB : length (braced x) = (length x + 3)%nat) by (unfold braced; rewrite !app_length; cbn [length]; lia).
  assert (LD : length (dollar x) = (length x + 1)%nat) by (cbn [dollar length]; lia).
  destruct (inplace fuel T pos (braced x) v false false) as [[r1 t1]| |] eqn:E1; cbn [bind] in H; try discriminate. pose proof (inplace_code _ _ _ _ _ _ _ _ _ E1) as C1. rewrite LB in C1.
  destruct (length x + 3 <? length v)%nat eqn:L1.
  - subst r1. change (negb (PEC_DEFINED_TARGET_TOO_LONG =? 0)) with true in H. injection H as <- _. replace (length x + 1 <? length v)%nat with true by lia. reflexivity.
  - subst r1. change (negb (0 =? 0)) with false in H. cbv iota in H.
    destruct (inplace fuel t1 pos (dollar x) v false true) as [[r2 t2]| |] eqn:E2; cbn [bind] in H; try discriminate. pose proof (inplace_code _ _ _ _ _ _ _ _ _ E2) as C2. rewrite LD in C2.
    destruct (length x + 1 <? length v)%nat eqn:L2; subst r2.
    + change (negb (PEC_DEFINED_TARGET_TOO_LONG =? 0)) with true in H. injection H as <- _. reflexivity.
    + change (negb (0 =? 0)) with false in H. exists t2. exact H.
Qed.
Theorem var_too_long : forall l t, vars_text l t -> Forall (fun p => var_name (fst p) /\ var_value (snd p)) l -> Exists (fun p => (length (fst p) + 1 < length (snd p))%nat) l ->
  forall fuel T pos D rounds ret T', (length t < rounds)%nat -> var_loop fuel rounds T pos (D ++ t) (length D) = Ret (ret, T') -> ret = PEC_DEFINED_TARGET_TOO_LONG.
Proof.
  intros l t VT. induction VT as [b B|x v t IT|x v t y l u IT VT IH]; intros F X fuel T pos D rounds ret T' RO H.
  - inversion X.
  - destruct (Forall_inv F) as (H1 & H2). cbn [fst snd] in *. replace (D ++ t) with (D ++ t ++ []) in H by (rewrite app_nil_r; reflexivity).
    destruct (var_read x v t [] D rounds fuel T pos IT H1 H2 (or_introl eq_refl) ltac:(lia)) as (r' & R1 & R2). rewrite R2 in H. apply step_code in H.
    assert (L : (length x + 1 < length v)%nat) by (inversion X as [? ? Y|? ? Y]; [exact Y|inversion Y]). replace (length x + 1 <? length v)%nat with true in H by lia. exact H.
  - destruct (Forall_inv F) as (H1 & H2). cbn [fst snd] in *. rewrite app_length in RO. cbn [length] in RO.
    destruct (var_read x v t (44 :: u) D rounds fuel T pos IT H1 H2 (or_intror (ex_intro _ u eq_refl)) ltac:(lia)) as (r' & R1 & R2). rewrite R2 in H. apply step_code in H.
    destruct (length x + 1 <? length v)%nat eqn:L; [exact H|]. destruct H as (T1 & H).
    replace (D ++ t ++ 44 :: u) with ((D ++ t ++ [44]) ++ u) in H by norm_app. replace (S (length (D ++ t))) with (length (D ++ t ++ [44])) in H by (rewrite !app_length; cbn [length]; lia).
    apply IH in H; [exact H|exact (Forall_inv_tail F)| |lia]. inversion X as [? ? Y|? ? Y]; [cbn [fst snd] in Y; lia|exact Y].
Qed.
