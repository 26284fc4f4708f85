(* The configuration parser on every text: what it can deliver, where it stays,
   and when it returns. *)
From Coq Require Import String ZArith List Bool Lia ZifyBool ZifyNat ZifyN.
From Verif Require Import Base BaseFacts LoggerState FileName ParseVal Lexer ParseCfg ParseSpec LexProofs.
Import ListNotations.
Open Scope Z_scope.

(* A result P, undefined only through undefined arithmetic, out of fuel only when
   the fuel is not enough. *)
Definition okx {A} (enough : Prop) (e : penv) (P : A -> Prop) (o : outcome A) : Prop :=
  match o with
  | Ret x => P x
  | Ub => x_arith e = Ub
  | Fuel => ~ enough
  end.

(* what undefined arithmetic may deliver *)
Definition arith_ok (e : penv) : Prop :=
  match x_arith e with
  | Ret z => LLONG_MIN <= z <= LLONG_MAX
  | Ub => True
  | Fuel => False
  end.

Lemma okx_bind : forall A B (n : Prop) e (P : A -> Prop) (Q : B -> Prop) m k,
  okx n e P m -> (forall x, P x -> okx n e Q (k x)) -> okx n e Q (bind m k).
Proof. intros A B n e P Q m k H1 H2. destruct m; cbn [bind okx] in *; auto. Qed.
Lemma okx_mono : forall A (n n' : Prop) e (P Q : A -> Prop) o,
  okx n e P o -> (n' -> n) -> (forall x, P x -> Q x) -> okx n' e Q o.
Proof. intros A n n' e P Q o H1 H2 H3. destruct o; cbn [okx] in *; auto. Qed.
Lemma okx_arith : forall n e, arith_ok e -> okx n e (fun z => LLONG_MIN <= z <= LLONG_MAX) (x_arith e).
Proof. intros n e H. unfold arith_ok in H. unfold okx. destruct (x_arith e); auto. Qed.
Lemma okx_ret : forall A (n : Prop) e (P : A -> Prop) x, P x -> okx n e P (Ret x).
Proof. intros. exact H. Qed.

(* ---- numbers ---- *)
Lemma digits_of_ret : forall base s acc, base <= 16 -> In 0 s -> exists v, digits_of base s acc = Ret v.
Proof.
  intros base s. induction s as [|c s IH]; intros acc B H; [contradiction|]. cbn [digits_of].
  destruct (digit_val c <? base) eqn:E; [|eauto]. destruct H as [->|H]; [|apply IH; assumption]. exfalso. unfold digit_val in E. cbn in E. lia.
Qed.
Lemma skip_spaces_in : forall s, In 0 s -> In 0 (skip_spaces s).
Proof.
  induction s as [|c s IH]; intros H; [contradiction|]. cbn [skip_spaces]. destruct (is_space c) eqn:E; [|exact H].
  destruct H as [->|H]; [discriminate E|auto].
Qed.
Lemma clamp_range : forall v, LLONG_MIN <= clamp v <= LLONG_MAX.
Proof. intros v. unfold clamp. destruct (v <? LLONG_MIN) eqn:A; [|destruct (LLONG_MAX <? v) eqn:B]; unfold LLONG_MIN, LLONG_MAX in *; lia. Qed.
Lemma strtoll10_ret : forall s, In 0 s -> exists v, strtoll10 s = Ret v /\ LLONG_MIN <= v <= LLONG_MAX.
Proof.
  intros s H. apply skip_spaces_in in H. unfold strtoll10. destruct (skip_spaces s) as [|c r]; [contradiction|].
  assert (D : forall s, In 0 s -> forall f, exists v, (let! v := digits_of 10 s 0 in Ret (clamp (f v))) = Ret v /\ LLONG_MIN <= v <= LLONG_MAX).
  { intros s' H' f. destruct (digits_of_ret 10 s' 0) as (v & ->); [lia|assumption|]. cbn [bind]. eexists. split; [reflexivity|apply clamp_range]. }
  destruct (c =? 45) eqn:E1. { apply (D r). destruct H as [->|H]; [discriminate E1|exact H]. }
  destruct (c =? 43) eqn:E2. { apply (D r). destruct H as [->|H]; [discriminate E2|exact H]. }
  apply (D (c :: r)); [exact H].
Qed.
Lemma auto_base_ret : forall s, In 0 s -> exists v, auto_base s = Ret v.
Proof.
  intros s H. unfold auto_base. destruct s as [|c r]; [contradiction|]. destruct (c =? 48) eqn:E.
  - assert (H' : In 0 r). { destruct H as [->|H]; [discriminate E|exact H]. }
    destruct r as [|x [|d r']]; try (apply digits_of_ret; [lia|assumption]).
    destruct (_ && _) eqn:X; [|apply digits_of_ret; [lia|assumption]]. apply digits_of_ret; [lia|].
    destruct H' as [->|H']; [discriminate X|exact H'].
  - apply digits_of_ret; [lia|assumption].
Qed.
Lemma strtoll0_ret : forall s, In 0 s -> exists v, strtoll0 s = Ret v /\ LLONG_MIN <= v <= LLONG_MAX.
Proof.
  intros s H. apply skip_spaces_in in H. unfold strtoll0. destruct (skip_spaces s) as [|c r]; [contradiction|].
  assert (D : forall s, In 0 s -> forall f, exists v, (let! v := auto_base s in Ret (clamp (f v))) = Ret v /\ LLONG_MIN <= v <= LLONG_MAX).
  { intros s' H' f. destruct (auto_base_ret s' H') as (v & ->). cbn [bind]. eexists. split; [reflexivity|apply clamp_range]. }
  destruct (c =? 45) eqn:E1. { apply (D r). destruct H as [->|H]; [discriminate E1|exact H]. }
  destruct (c =? 43) eqn:E2. { apply (D r). destruct H as [->|H]; [discriminate E2|exact H]. }
  apply (D (c :: r)). exact H.
Qed.
Lemma int_of_range : forall v, INT_MIN <= int_of v <= INT_MAX.
Proof. intros v. unfold int_of, INT_MIN, INT_MAX. pose proof (Z.mod_pos_bound (v + 2 ^ 31) (2 ^ 32)). lia. Qed.
Lemma ll_of_range : forall v, LLONG_MIN <= ll_of v <= LLONG_MAX.
Proof. intros v. unfold ll_of, LLONG_MIN, LLONG_MAX. pose proof (Z.mod_pos_bound (v + 2 ^ 63) (2 ^ 64)). lia. Qed.
Lemma atoi_ret : forall s, In 0 s -> exists v, atoi s = Ret v /\ INT_MIN <= v <= INT_MAX.
Proof. intros s H. unfold atoi. destruct (strtoll10_ret s H) as (v & -> & _). cbn [bind]. eexists. split; [reflexivity|apply int_of_range]. Qed.
Lemma parse_number_ret : forall v, exists n, parse_number v = Ret n /\ LLONG_MIN <= n <= LLONG_MAX.
Proof.
  intros v. unfold parse_number. destruct v as [|c v]; [exists 0; split; [reflexivity|unfold LLONG_MIN, LLONG_MAX; lia]|].
  destruct (40 <? zlen (c :: v)); [exists 0; split; [reflexivity|unfold LLONG_MIN, LLONG_MAX; lia]|]. apply strtoll0_ret. rewrite in_app_iff. right. left. reflexivity.
Qed.

(* ---- bit lists ---- *)
Lemma drop_while_len : forall p s, (length (drop_while p s) <= length s)%nat.
Proof. intros p. induction s as [|c s IH]; cbn [drop_while]; [lia|]. destruct (p c); cbn [length]; lia. Qed.
Lemma drop_while_incl : forall p s, incl (drop_while p s) s.
Proof. intros p. induction s as [|c s IH]; cbn [drop_while]; [apply incl_refl|]. destruct (p c); [apply incl_tl, IH|apply incl_refl]. Qed.
Lemma drop_while_hd : forall p s c r, drop_while p s = c :: r -> p c = false.
Proof. intros p. induction s as [|a s IH]; intros c r H; cbn [drop_while] in H; [discriminate|]. destruct (p a) eqn:E; [eauto|]. injection H as <- <-. exact E. Qed.

Lemma set_bit_ok : forall n e b i, arith_ok e -> okx n e (fun _ => True) (set_bit e b i).
Proof.
  intros n e b i A. unfold set_bit, shl1. destruct (_ && _); cbn [bind okx]; [exact I|].
  eapply okx_bind; [apply okx_arith; exact A|]. intros x _. exact I.
Qed.
Lemma set_range_ok : forall n e b i j, arith_ok e -> okx n e (fun _ => True) (set_range e b i j).
Proof.
  intros n e b i j A. unfold set_range. cbv zeta. destruct (_ && _); cbn [okx]; [exact I|].
  apply (okx_mono _ n n e _ _ _ (okx_arith n e A)); auto.
Qed.
Lemma bit_loop_ok : forall n e fuel s rest b, arith_ok e -> In 0 rest -> (length s < fuel)%nat ->
  okx n e (fun _ => True) (bit_loop fuel e s rest b).
Proof.
  intros n e. induction fuel as [|fuel IH]; intros s rest b A R F; [lia|]. cbn [bit_loop].
  destruct (drop_while (fun c => negb (is_number c)) s) as [|c s1] eqn:D; [exact I|].
  pose proof (drop_while_len (fun c => negb (is_number c)) s) as L1. rewrite D in L1. cbn [length] in L1.
  apply drop_while_hd in D. assert (NC : is_number c = true) by (destruct (is_number c); [reflexivity|discriminate]).
  destruct (atoi_ret ((c :: s1) ++ rest)) as (first & -> & _). { rewrite in_app_iff. auto. }
  cbn [bind]. set (s2 := drop_while (fun c => is_number c || is_blank c) (c :: s1)).
  assert (L2 : (length s2 <= length s1)%nat).
  { subst s2. cbn [drop_while]. rewrite NC. cbn [orb]. apply drop_while_len. }
  destruct (negb (hd 0 s2 =? 45)).
  { eapply okx_bind; [apply set_bit_ok; exact A|]. intros x _. apply IH; [exact A|exact R|lia]. }
  pose proof (drop_while_len (fun c => negb (is_number c) && negb (c =? 44)) s2) as L3.
  destruct (negb (is_number (hd 0 (drop_while (fun c => negb (is_number c) && negb (c =? 44)) s2)))).
  { eapply okx_bind; [apply set_bit_ok; exact A|]. intros x _. apply IH; [exact A|exact R|lia]. }
  destruct (atoi_ret (drop_while (fun c => negb (is_number c) && negb (c =? 44)) s2 ++ rest)) as (last & -> & _). { rewrite in_app_iff. auto. }
  cbn [bind]. eapply okx_bind; [apply set_range_ok; exact A|]. intros x _. apply IH; [exact A|exact R|lia].
Qed.
Lemma parse_bit_array_ok : forall n e v rest, arith_ok e -> In 0 rest -> okx n e (fun _ => True) (parse_bit_array e v rest).
Proof. intros. unfold parse_bit_array. apply bit_loop_ok; [assumption|assumption|lia]. Qed.

(* ---- addresses ---- *)
Lemma parse_address_ok : forall e v dn, exists ip port, parse_address e v dn = Ret (ip, port) /\ 0 <= port < 2 ^ 16.
Proof.
  intros e v dn. unfold parse_address. destruct v as [|c v]; [exists 0, 0; split; [reflexivity|lia]|].
  destruct (parse_address_ip e (c :: v) dn) as [ip s]. destruct (drop_while _ s) as [|p q]; [exists 0, 0; split; [reflexivity|lia]|].
  destruct (40 <=? zlen (p :: q)); [exists 0, 0; split; [reflexivity|lia]|].
  destruct (atoi_ret ((p :: q) ++ [0])) as (n & -> & _). { rewrite in_app_iff. right. left. reflexivity. }
  cbn [bind]. exists ip, (swap16 (n mod 2 ^ 16)). split; [reflexivity|]. unfold swap16.
  pose proof (Z.mod_pos_bound (n mod 2 ^ 16) 256). pose proof (Z.mod_pos_bound (n mod 2 ^ 16 / 256) 256). lia.
Qed.

(* ---- substitution ---- *)
Lemma starts_app : forall key s, starts key s = true -> exists r, s = key ++ r.
Proof.
  induction key as [|a key IH]; intros s H; [exists s; reflexivity|]. destruct s as [|c s]; [discriminate|]. cbn [starts] in H.
  apply andb_prop in H. destruct H as [H1 H2]. destruct (IH s H2) as (r & ->). exists r. apply Z.eqb_eq in H1. subst. reflexivity.
Qed.
Lemma starts_refl : forall key r, starts key (key ++ r) = true.
Proof. induction key as [|a key IH]; intros r; [reflexivity|]. cbn [app starts]. rewrite Z.eqb_refl, IH. reflexivity. Qed.
Lemma find_sub_some : forall key s p, find_sub key s = Some p ->
  exists r, s = firstn p s ++ key ++ r /\ length (firstn p s) = p /\ starts key (skipn p s) = true /\
    (forall q, (q < p)%nat -> starts key (skipn q s) = false).
Proof.
  intros key. induction s as [|c s IH]; intros p H; cbn [find_sub] in H.
  - destruct (starts key []) eqn:E; [|discriminate]. injection H as <-. destruct (starts_app _ _ E) as (r & R). exists r. cbn [firstn skipn].
    split; [exact R|]. split; [reflexivity|]. split; [exact E|lia].
  - destruct (starts key (c :: s)) eqn:E.
    + injection H as <-. destruct (starts_app _ _ E) as (r & R). exists r. cbn [firstn skipn]. split; [exact R|]. split; [reflexivity|]. split; [exact E|lia].
    + destruct (find_sub key s) as [q|] eqn:F; [|discriminate]. injection H as <-. destruct (IH q eq_refl) as (r & R1 & R2 & R3 & R4).
      exists r. cbn [firstn skipn app length]. split; [congruence|]. split; [lia|]. split; [exact R3|].
      intros q' Q. destruct q' as [|q']; [exact E|]. cbn [skipn]. apply R4. lia.
Qed.
Lemma find_sub_no : forall key s, find_sub key s = None -> forall q, (q <= length s)%nat -> starts key (skipn q s) = false.
Proof.
  intros key. induction s as [|c s IH]; intros H q Q; cbn [find_sub] in H.
  - destruct (starts key []) eqn:E; [discriminate|]. cbn [length] in Q. replace q with O by lia. exact E.
  - destruct (starts key (c :: s)) eqn:E; [discriminate|]. destruct (find_sub key s) as [p|] eqn:F; [discriminate|].
    destruct q as [|q]; [exact E|]. cbn [skipn length] in *. apply IH; [reflexivity|lia].
Qed.

Lemma skipn_add : forall A a b (l : list A), skipn (a + b) l = skipn b (skipn a l).
Proof.
  intros A a b. induction a as [|a IH]; intros l; [reflexivity|]. destruct l as [|x l]; [cbn [Nat.add skipn]; rewrite skipn_nil; reflexivity|].
  cbn [Nat.add skipn]. apply IH.
Qed.
Lemma find_from_some : forall key t pos p, find_sub_from key t pos = Some p ->
  (pos <= p)%nat /\ (exists r, t = firstn p t ++ key ++ r) /\ length (firstn p t) = p /\ starts key (skipn p t) = true /\
  (forall q, (pos <= q < p)%nat -> starts key (skipn q t) = false).
Proof.
  intros key t pos p H. unfold find_sub_from in H. destruct (length t <? pos)%nat eqn:L; [discriminate|]. apply Nat.ltb_ge in L.
  destruct (find_sub key (skipn pos t)) as [q|] eqn:F; [|discriminate]. injection H as <-.
  destruct (find_sub_some _ _ _ F) as (r & R1 & R2 & R3 & R4).
  assert (SK : forall k, skipn (pos + k) t = skipn k (skipn pos t)) by (intros; apply skipn_add).
  assert (FN : firstn (pos + q) t = firstn pos t ++ firstn q (skipn pos t)).
  { rewrite <- (firstn_skipn pos t) at 1. rewrite firstn_app. rewrite firstn_length_le by lia. rewrite firstn_all2 by (rewrite firstn_length; lia).
    f_equal. f_equal. lia. }
  split; [lia|]. split; [|split; [|split]].
  - exists r. rewrite FN, <- app_assoc, <- R1. rewrite firstn_skipn. reflexivity.
  - rewrite FN, app_length, R2, firstn_length_le by lia. lia.
  - rewrite SK. exact R3.
  - intros k K. replace k with (pos + (k - pos))%nat by lia. rewrite SK. apply R4. lia.
Qed.

(* same length, and no new NUL anywhere *)
Definition good (t t' : text) : Prop :=
  length t' = length t /\ (forall i, nth i t 1 <> 0 -> nth i t' 1 <> 0).
Lemma good_refl : forall t, good t t.
Proof. intros t. split; auto. Qed.
Lemma good_trans : forall a b c, good a b -> good b c -> good a c.
Proof. intros a b c [H1 H2] [H3 H4]. split; [congruence|auto]. Qed.
Lemma no_nul_nth : forall t, ~ In 0 t <-> (forall i, nth i t 1 <> 0).
Proof.
  intros t. split.
  - intros H i E. destruct (Nat.lt_ge_cases i (length t)) as [L|L]; [|rewrite nth_overflow in E by lia; discriminate].
    apply H. rewrite <- E. apply nth_In. exact L.
  - intros H I. destruct (In_nth t 0 1 I) as (i & _ & E). exact (H i E).
Qed.

Lemma replace_good : forall t p key val r, t = firstn p t ++ key ++ r -> length (firstn p t) = p -> length val = length key ->
  replace t p (length val) val = firstn p t ++ val ++ r.
Proof.
  intros t p key val r H L V. unfold replace. f_equal. f_equal. rewrite H at 1.
  rewrite app_assoc. rewrite skipn_app. rewrite skipn_all2; [|rewrite app_length; lia]. cbn [app].
  replace (p + length val - length (firstn p t ++ key))%nat with O by (rewrite app_length; lia). reflexivity.
Qed.

Lemma inplace_loop_ok : forall e key val pb sb fuel t pos, length val = length key -> ~ In 0 val ->
  okx (val <> key /\ (2 * (length t - pos) + 1 < fuel)%nat \/ val <> key /\ (2 * (length t - pos) < fuel)%nat /\ starts key (skipn pos t) = false)
      e (fun t' => good t t' /\ firstn pos t' = firstn pos t)
      (inplace_loop fuel t pos key val pb sb).
Proof.
  intros e key val pb sb. induction fuel as [|fuel IH]; intros t pos V N; [cbn [inplace_loop okx]; lia|]. cbn [inplace_loop].
  destruct (find_sub_from key t pos) as [p|] eqn:F; [|cbn [okx]; split; [apply good_refl|reflexivity]].
  destruct (find_from_some _ _ _ _ F) as (P1 & (r & R) & P2 & P3 & P4).
  assert (PL : (p <= length t)%nat). { rewrite firstn_length in P2. lia. }
  assert (SKIP : okx (val <> key /\ (2 * (length t - pos) + 1 < S fuel)%nat \/ val <> key /\ (2 * (length t - pos) < S fuel)%nat /\ starts key (skipn pos t) = false)
      e (fun t' => good t t' /\ firstn pos t' = firstn pos t) (inplace_loop fuel t (S p) key val pb sb)).
  { eapply okx_mono; [apply IH; assumption| |].
    - intros H. assert (pos = p /\ starts key (skipn pos t) = false -> False) by (intros [-> H']; congruence).
      assert (p < length t)%nat.
      { destruct (Nat.eq_dec p (length t)) as [E|E]; [|lia]. rewrite skipn_all2 in P3 by lia. destruct key as [|k key]; [|discriminate P3].
        exfalso. destruct val; [tauto|discriminate V]. }
      destruct H as [H|H]; left; (split; [tauto|]); [lia|]. destruct (Nat.eq_dec pos p) as [->|]; [exfalso; tauto|]. lia.
    - intros t' [G1 G2]. split; [exact G1|].
      assert (X : forall u : text, firstn pos u = firstn pos (firstn (S p) u)) by (intros; rewrite firstn_firstn; f_equal; lia).
      rewrite X, G2, <- X. reflexivity. }
  destruct (pb && _ && _); [exact SKIP|]. destruct (sb && _ && _); [exact SKIP|].
  assert (RG := replace_good t p key val r R P2 V). set (t2 := replace t p (length val) val) in *.
  assert (L2 : length t2 = length t).
  { rewrite RG. rewrite R at 2. rewrite !app_length. lia. }
  assert (ST : val <> key -> starts key (skipn p t2) = false).
  { intros H. rewrite RG. rewrite skipn_app, skipn_all2 by lia. rewrite P2, Nat.sub_diag. cbn [skipn app].
    destruct (starts key (val ++ r)) eqn:S; [|reflexivity]. exfalso. apply H. destruct (starts_app _ _ S) as (r' & S').
    apply (f_equal (firstn (length key))) in S'. rewrite firstn_app, <- V, Nat.sub_diag, firstn_all in S'. cbn [firstn] in S'. rewrite app_nil_r in S'.
    rewrite V in S'. rewrite firstn_app, Nat.sub_diag, firstn_all in S'. cbn [firstn] in S'. rewrite app_nil_r in S'. exact S'. }
  eapply okx_mono; [apply IH; assumption| |].
  - intros H. right. rewrite L2. assert (val <> key) by tauto. split; [assumption|]. split; [|auto].
    destruct (Nat.eq_dec pos p) as [->|]; [|lia]. destruct H as [H|H]; [lia|]. destruct H as (_ & _ & H). congruence.
  - intros t' [G1 G2]. split.
    + eapply good_trans; [|exact G1]. split; [exact L2|]. intros i NT. rewrite RG. rewrite R in NT.
      destruct (Nat.lt_ge_cases i (length (firstn p t))) as [L|L]; [rewrite app_nth1 in * by lia; exact NT|]. rewrite app_nth2 in * by lia.
      destruct (Nat.lt_ge_cases (i - length (firstn p t)) (length val)) as [K|K].
      * rewrite app_nth1 by lia. intros E. apply N. rewrite <- E. apply nth_In. lia.
      * rewrite app_nth2 in * by lia. rewrite V. exact NT.
    + assert (X : forall u : text, firstn pos u = firstn pos (firstn p u)) by (intros; rewrite firstn_firstn; f_equal; lia).
      assert (E : firstn p t2 = firstn p t).
      { rewrite RG, firstn_app, P2, Nat.sub_diag. cbn [firstn]. rewrite app_nil_r, firstn_firstn. f_equal. lia. }
      rewrite X, G2, E, <- X. reflexivity.
Qed.

(* the padded content of a definition *)
Definition padded (key val : text) : text := val ++ repeat 32 (length key - length val).
Lemma inplace_ok : forall e fuel t pos key val pb sb, ~ In 0 val ->
  okx (padded key val <> key /\ (2 * length t + 1 < fuel)%nat) e (fun r => good t (snd r) /\ firstn pos (snd r) = firstn pos t)
      (inplace fuel t pos key val pb sb).
Proof.
  intros e fuel t pos key val pb sb N. unfold inplace. destruct (length key <? length val)%nat eqn:L.
  - cbn [okx snd]. split; [apply good_refl|reflexivity].
  - apply Nat.ltb_ge in L. eapply okx_bind.
    + eapply okx_mono; [apply (inplace_loop_ok e key (padded key val) pb sb fuel t pos)| |].
      * unfold padded. rewrite app_length, repeat_length. lia.
      * unfold padded. rewrite in_app_iff. intros [H|H]; [auto|]. apply repeat_spec in H. discriminate.
      * intros [H1 H2]. left. split; [exact H1|lia].
      * intros x H. exact H.
    + intros t' H. cbn [okx snd]. exact H.
Qed.

Lemma substr_in : forall c v a n, In c (substr v a n) -> In c v.
Proof.
  intros c v a n H. unfold substr in H. rewrite <- (firstn_skipn a v). apply in_app_iff. right.
  rewrite <- (firstn_skipn n (skipn a v)). apply in_app_iff. left. exact H.
Qed.
Lemma rtrim_in : forall c v, In c (rtrim v) -> In c v.
Proof. intros c v H. unfold rtrim in H. apply in_rev in H. apply drop_while_incl in H. apply in_rev in H. exact H. Qed.
Lemma find_lt : forall c s n, find c s = Some n -> (n < length s)%nat /\ nth n s 0 = c /\ ~ In c (firstn n s).
Proof.
  intros c. induction s as [|x s IH]; intros n H; [discriminate|]. cbn [find] in H. destruct (x =? c) eqn:E.
  - injection H as <-. cbn [length nth firstn]. split; [lia|]. split; [lia|]. intros [].
  - destruct (find c s) as [m|]; [|discriminate]. injection H as <-. destruct (IH m eq_refl) as (A & B & D). cbn [length nth firstn].
    split; [lia|]. split; [exact B|]. intros [K|K]; [lia|auto].
Qed.
Lemma find_from_ge : forall c s p n, find_from c s p = Some n -> (p <= n)%nat.
Proof. intros c s p n H. unfold find_from in H. destruct (find c (skipn p s)); [|discriminate]. injection H as <-. lia. Qed.

(* ---- define and var ---- *)
Lemma drop_while_split : forall p s, exists a, s = a ++ drop_while p s /\ Forall (fun c => p c = true) a.
Proof.
  intros p. induction s as [|c s (a & E & F)]; [exists []; split; [reflexivity|constructor]|]. cbn [drop_while]. destruct (p c) eqn:P.
  - exists (c :: a). split; [cbn [app]; congruence|constructor; assumption].
  - exists []. split; [reflexivity|constructor].
Qed.
Lemma padded_self : forall name body, ~ In 32 name -> (length body <= length name)%nat -> padded name body = name -> body = name.
Proof.
  intros name body N L H. unfold padded in H. destruct (length name - length body)%nat as [|n] eqn:E.
  - cbn [repeat] in H. rewrite app_nil_r in H. exact H.
  - exfalso. apply N. rewrite <- H. apply in_app_iff. right. left. reflexivity.
Qed.
Lemma macro_ok : forall e fuel t pos v, ~ In 0 v ->
  okx (~ self_macro v /\ (2 * length t + 1 < fuel)%nat) e (fun r => good t (snd r) /\ firstn pos (snd r) = firstn pos t)
      (predefined_macro fuel t pos v).
Proof.
  intros e fuel t pos v N. unfold predefined_macro. destruct (find 32 v) as [sep|] eqn:F; [|split; [apply good_refl|reflexivity]].
  cbv zeta. destruct (zlen (firstn sep v) =? 0); [split; [apply good_refl|reflexivity]|].
  destruct (find_lt _ _ _ F) as (F1 & F2 & F3).
  set (body := drop_while is_blank (skipn sep v)).
  destruct (Nat.lt_ge_cases (length (firstn sep v)) (length body)) as [L|L].
  { unfold inplace. apply Nat.ltb_lt in L. rewrite L. split; [apply good_refl|reflexivity]. }
  eapply okx_mono; [apply inplace_ok| |intros x H; exact H].
  - intros H. apply N. apply drop_while_incl in H. rewrite <- (firstn_skipn sep v). apply in_app_iff. auto.
  - intros [H1 H2]. split; [|exact H2]. intros P. apply H1. apply padded_self in P; [|exact F3|exact L].
    assert (SK : skipn sep v = 32 :: skipn (S sep) v).
    { clear - F1 F2. revert v F1 F2. induction sep as [|n IH]; intros [|x v] F1 F2; cbn [length nth skipn] in *; try lia; [congruence|].
      rewrite IH by (try assumption; lia). reflexivity. }
    subst body. rewrite SK in P. change (drop_while is_blank (32 :: skipn (S sep) v)) with (drop_while is_blank (skipn (S sep) v)) in P.
    destruct (drop_while_split is_blank (skipn (S sep) v)) as (bl & B1 & B2). rewrite P in B1.
    exists (firstn sep v), bl. split; [|split; [exact F3|exact B2]].
    rewrite <- B1, <- SK. symmetry. apply firstn_skipn.
Qed.

Lemma rtrim_split : forall s, exists b, s = rtrim s ++ b /\ Forall (fun c => is_blank c = true) b.
Proof.
  intros s. destruct (drop_while_split is_blank (rev s)) as (a & E & F). exists (rev a). split; [|apply Forall_rev, F].
  unfold rtrim. rewrite <- rev_app_distr, <- E, rev_involutive. reflexivity.
Qed.
Lemma rtrim_last : forall s a c, rtrim s = a ++ [c] -> is_blank c = false.
Proof.
  intros s a c H. unfold rtrim in H. apply (f_equal (@rev Z)) in H. rewrite rev_involutive, rev_app_distr in H. cbn [rev app] in H. exact (drop_while_hd _ _ _ _ H).
Qed.
Lemma find_from_facts : forall c s p n, find_from c s p = Some n -> (p <= n < length s)%nat /\ skipn n s = c :: skipn (S n) s /\ ~ In c (substr s p (n - p)).
Proof.
  intros c s p n H. unfold find_from in H. destruct (find c (skipn p s)) as [m|] eqn:F; [|discriminate H]. injection H as <-.
  destruct (find_lt _ _ _ F) as (A & B & C). rewrite skipn_length in A.
  assert (L : (p + m < length s)%nat) by lia. split; [lia|]. split.
  - clear - L B. assert (N : nth (p + m) s 0 = c).
    { rewrite <- B. rewrite <- (firstn_skipn p s) at 1. rewrite app_nth2; rewrite firstn_length; [f_equal; lia|lia]. }
    clear B. revert N L. generalize (p + m)%nat as i. intros i. revert s. induction i as [|i IH]; intros [|x s] N L; cbn [length nth skipn] in *; try lia; [subst x; reflexivity|]. apply IH; [exact N|lia].
  - unfold substr. replace (p + m - p)%nat with m by lia. exact C.
Qed.
Lemma padded_same : forall key val, (forall a c, key = a ++ [c] -> c <> 32) -> padded key val = key -> val = key.
Proof.
  intros key val N H. unfold padded in H. destruct (length key - length val)%nat as [|n] eqn:E.
  - cbn [repeat] in H. rewrite app_nil_r in H. exact H.
  - exfalso. replace (S n) with (n + 1)%nat in H by lia. rewrite repeat_app in H. cbn [repeat] in H. rewrite app_assoc in H. symmetry in H. apply (N _ _ H). reflexivity.
Qed.
(* the items are separated by commas and blanks *)
Definition item_here (v : text) (offset : nat) : Prop := (offset < length v)%nat -> offset = O \/ (nth (offset - 1) v 0 = 44 \/ nth (offset - 1) v 0 = 32 \/ nth (offset - 1) v 0 = 9).
Lemma item_self : forall v offset sep dot, (offset < length v)%nat -> item_here v offset -> find_from 61 v offset = Some sep ->
  dot = match find_from 44 v offset with Some d => d | None => length v end -> (sep < dot)%nat ->
  let var := rtrim (substr v offset (sep - offset)) in let val := rtrim (substr v (S sep) (dot - S sep)) in
  var <> [] -> val = 36 :: var \/ val = [36; 123] ++ var ++ [125] -> self_var v.
Proof.
  intros v offset sep dot O I F D SD var val NV E. destruct (find_from_facts _ _ _ _ F) as (F1 & F2 & F3).
  assert (DL : (dot <= length v)%nat /\ (skipn dot v = [] \/ exists r, skipn dot v = 44 :: r)).
  { destruct (find_from 44 v offset) as [d|] eqn:G; subst dot.
    - destruct (find_from_facts _ _ _ _ G) as (G1 & G2 & _). split; [lia|]. right. eauto.
    - split; [lia|]. left. apply skipn_all2. lia. }
  destruct DL as [DL AF]. destruct (rtrim_split (substr v offset (sep - offset))) as (b1 & E1 & B1). destruct (rtrim_split (substr v (S sep) (dot - S sep))) as (b2 & E2 & B2).
  fold var in E1. fold val in E2.
  exists (firstn offset v), var, b1, val, b2, (skipn dot v). split; [|split; [exact NV|split; [|split; [exact E|split; [apply Forall_app; auto|split; [|exact AF]]]]]].
  - assert (X1 : v = firstn offset v ++ skipn offset v) by (symmetry; apply firstn_skipn).
    assert (X2 : skipn offset v = substr v offset (sep - offset) ++ skipn sep v).
    { unfold substr. rewrite <- (firstn_skipn (sep - offset) (skipn offset v)) at 1. f_equal. rewrite <- skipn_add. f_equal. lia. }
    assert (X3 : skipn (S sep) v = substr v (S sep) (dot - S sep) ++ skipn dot v).
    { unfold substr. rewrite <- (firstn_skipn (dot - S sep) (skipn (S sep) v)) at 1. f_equal. rewrite <- skipn_add. f_equal. lia. }
    rewrite X1 at 1. rewrite X2, F2, X3, E1, E2. rewrite <- ?app_assoc. cbn [app]. rewrite <- ?app_assoc. reflexivity.
  - intros H. apply F3. rewrite E1. apply in_or_app. left. exact H.
  - destruct (I O) as [-> |C]; [left; reflexivity|]. destruct offset as [|o]; [left; reflexivity|]. right. exists (firstn o v), (nth o v 0). split.
    + clear - O. revert v O. induction o as [|o IH]; intros [|x v] O; cbn [length] in O; try lia; [reflexivity|]. cbn [nth app]. change (firstn (S (S o)) (x :: v)) with (x :: firstn (S o) v). rewrite IH by lia. reflexivity.
    + replace (S o - 1)%nat with o in C by lia. exact C.
Qed.
Lemma var_loop_ok : forall e fuel rounds t pos v offset, ~ In 0 v -> (length v - offset < rounds)%nat -> item_here v offset ->
  okx (~ self_var v /\ (2 * length t + 1 < fuel)%nat) e (fun r => good t (snd r) /\ firstn pos (snd r) = firstn pos t)
      (var_loop fuel rounds t pos v offset).
Proof.
  intros e fuel. induction rounds as [|rounds IH]; intros t pos v offset N R IT; [lia|]. cbn [var_loop].
  destruct (length v <=? offset)%nat eqn:O; [split; [apply good_refl|reflexivity]|]. apply Nat.leb_gt in O.
  destruct (_ || _) eqn:BL. { apply IH; [exact N|lia|]. intros _. right. replace (S offset - 1)%nat with offset by lia. apply orb_prop in BL. lia. }
  cbv zeta. remember (match find_from 44 v offset with Some d => d | None => length v end) as dot eqn:DOT.
  assert (D : (offset <= dot)%nat). { subst dot. destruct (find_from 44 v offset) eqn:F; [apply find_from_ge in F; exact F|lia]. }
  destruct (find_from 61 v offset) as [sep|] eqn:F61; [|split; [apply good_refl|reflexivity]].
  destruct (dot <=? sep)%nat eqn:DS; [split; [apply good_refl|reflexivity]|]. apply Nat.leb_gt in DS.
  destruct (zlen _ =? 0) eqn:Z0; [split; [apply good_refl|reflexivity]|].
  destruct (negb _); [split; [apply good_refl|reflexivity]|].
  set (var := rtrim (substr v offset (sep - offset))) in *. set (sep' := if is_blank (nth offset v 0) then dot else S sep).
  set (val := rtrim (substr v sep' (dot - sep'))).
  assert (NV : ~ In 0 val) by (intros H; apply N; eapply substr_in, rtrim_in, H).
  assert (VN : var <> []) by (intros H; rewrite H in Z0; discriminate Z0).
  assert (P : forall k, 36 :: k = 36 :: var \/ 36 :: k = [36; 123] ++ var ++ [125] -> ~ self_var v -> padded (36 :: k) val <> 36 :: k).
  { intros k K H E. apply padded_same in E.
    - apply H. unfold val in E. unfold sep' in E. destruct (is_blank (nth offset v 0)).
      + rewrite Nat.sub_diag in E. discriminate E.
      + apply (item_self v offset sep dot O IT F61 DOT DS VN). rewrite E. exact K.
    - intros a c A C. destruct K as [K|K].
      + rewrite K in A. destruct (exists_last VN) as (q & c' & Q). rewrite Q in A. change (36 :: q ++ [c']) with ((36 :: q) ++ [c']) in A. apply app_inj_tail in A. destruct A as [_ <-].
        pose proof (rtrim_last _ _ _ Q) as BQ. subst c'. discriminate BQ.
      + rewrite K in A. rewrite app_assoc in A. apply app_inj_tail in A. destruct A as [_ A]. lia. }
  assert (ST : forall k sb t, 36 :: k = 36 :: var \/ 36 :: k = [36; 123] ++ var ++ [125] ->
                okx (~ self_var v /\ (2 * length t + 1 < fuel)%nat) e (fun r => good t (snd r) /\ firstn pos (snd r) = firstn pos t)
                (inplace fuel t pos (36 :: k) val false sb)).
  { intros k sb t' K. eapply okx_mono; [apply inplace_ok; exact NV| |intros x H; exact H]. intros [H1 H2]. split; [apply P; [exact K|exact H1]|exact H2]. }
  eapply okx_bind; [exact (ST (123 :: var ++ [125]) false t (or_intror eq_refl))|]. intros [ret t1] [G1 G2]. cbn [snd] in G1, G2.
  destruct (negb (ret =? 0)); [split; [exact G1|exact G2]|].
  pose proof (proj1 G1) as L1.
  eapply okx_bind. { rewrite <- L1. exact (ST var true t1 (or_introl eq_refl)). }
  intros [ret2 t2] [G3 G4]. cbn [snd] in G3, G4. destruct (negb (ret2 =? 0)).
  { split; cbn [snd]; [eapply good_trans; eassumption|congruence]. }
  pose proof (proj1 G3) as L2.
  eapply okx_mono; [apply (IH t2 pos v (S dot) N); [lia|]| |].
  - intros DL. right. left. replace (S dot - 1)%nat with dot by lia. destruct (find_from 44 v offset) as [d|] eqn:F44; [|lia]. subst d. destruct (find_from_facts _ _ _ _ F44) as (_ & Q & _).
    rewrite <- (firstn_skipn dot v), app_nth2; rewrite firstn_length; [|lia]. rewrite Q. replace (dot - Nat.min dot (length v))%nat with 0%nat by lia. reflexivity.
  - intros [H1 H2]. split; [exact H1|]. rewrite L2, L1. exact H2.
  - intros x [G5 G6]. split; [eapply good_trans; [exact G1|eapply good_trans; eassumption]|congruence].
Qed.
Lemma var_ok : forall e fuel t pos v, ~ In 0 v ->
  okx (~ self_var v /\ (2 * length t + 1 < fuel)%nat) e (fun r => good t (snd r) /\ firstn pos (snd r) = firstn pos t)
      (predefined_var fuel t pos v).
Proof. intros. unfold predefined_var. apply var_loop_ok; [assumption|lia|intros _; left; reflexivity]. Qed.
