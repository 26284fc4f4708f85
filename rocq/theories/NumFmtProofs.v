(* Correctness of the integer formatters (NumFmt.v) against NumSpec.v. *)
From Coq Require Import String ZArith List Bool Lia ZifyBool ZifyNat ZifyN.
From Verif Require Import Base BaseFacts NumFmt NumSpec NumFacts.
Import ListNotations.
Open Scope Z_scope.
Ltac Zify.zify_post_hook ::= Z.div_mod_to_equations.

Definition ret_is (o : outcome Z) (v : Z) : bool :=
  match o with Ret x => x =? v | _ => false end.
Lemma ret_is_eq : forall o v, ret_is o v = true -> o = Ret v.
Proof. intros [x| |] v H; simpl in H; try discriminate. f_equal; lia. Qed.

Lemma dec_lut_ok : forall m, 0 <= m < 100 ->
  rd dec_lut (m + m) = Ret (48 + m / 10) /\ rd dec_lut (m + m + 1) = Ret (48 + m mod 10).
Proof.
  intros m Hm.
  pose proof (forall_below (fun m => ret_is (rd dec_lut (m + m)) (48 + m / 10) &&
                                     ret_is (rd dec_lut (m + m + 1)) (48 + m mod 10)) 100
                           ltac:(vm_compute; reflexivity) m Hm) as H.
  apply andb_prop in H. destruct H as [H1 H2].
  split; apply ret_is_eq; assumption.
Qed.

Lemma digit_dec : forall d, 0 <= d < 10 -> digit_val (48 + d) = Some d.
Proof.
  intros d H. unfold digit_val. destruct ((48 <=? 48 + d) && (48 + d <=? 57)) eqn:E; [f_equal; lia|lia].
Qed.

Lemma value_pair : forall acc m, 0 <= m < 100 ->
  value 10 acc [48 + m / 10; 48 + m mod 10] = Some (acc * 100 + m).
Proof.
  intros acc m H. cbn [value].
  rewrite (digit_dec (m / 10)) by lia. rewrite (digit_dec (m mod 10)) by lia.
  destruct (m / 10 <? 10) eqn:E; [|lia]. destruct (m mod 10 <? 10) eqn:E2; [|lia].
  f_equal. lia.
Qed.

Lemma list_unsnoc2 : forall (l : text), 2 <= zlen l -> exists p x y, l = p ++ [x; y].
Proof.
  intros l H.
  destruct (split_at _ l (zlen l - 2) ltac:(lia)) as (a & b & -> & Ha).
  rewrite zlen_app in *. destruct b as [|x [|y [|z b]]]; rewrite ?zlen_cons, ?zlen_nil in *; try lia; try (pose proof (zlen_nonneg _ b); lia).
  exists a, x, y; reflexivity.
Qed.

(* two adjacent single writes, right one first *)
Lemma wr_pair : forall (p ds : text) x y a b w,
  zlen p = w - 2 ->
  bind (wr (p ++ [x; y] ++ ds) (w - 1) b) (fun l => wr l (w - 2) a) = Ret (p ++ [a; b] ++ ds).
Proof.
  intros p ds x y a b w H. unfold wr.
  replace (p ++ [x; y] ++ ds) with ((p ++ [x]) ++ [y] ++ ds) by (rewrite <- !app_assoc; reflexivity).
  rewrite blit_splice by (rewrite ?zlen_app, ?zlen_cons, ?zlen_nil; lia). cbn [bind].
  replace ((p ++ [x]) ++ [b] ++ ds) with (p ++ [x] ++ ([b] ++ ds)) by (rewrite <- !app_assoc; reflexivity).
  rewrite blit_splice by (rewrite ?zlen_cons, ?zlen_nil; lia). reflexivity.
Qed.

Lemma dec_loop_S : forall fuel buf w n,
  0 <= n ->
  forall p ds x y, buf = p ++ [x; y] ++ ds -> zlen p = w - 2 ->
  dec_loop (S fuel) buf w n =
  (let buf' := p ++ [48 + (n mod 100) / 10; 48 + (n mod 100) mod 10] ++ ds in
   if n / 100 =? 0 then Ret (buf', w - 2) else dec_loop fuel buf' (w - 2) (n / 100)).
Proof.
  intros fuel buf w n Hn p ds x y -> Hp.
  cbn [dec_loop]. 
  destruct (dec_lut_ok (n mod 100) ltac:(lia)) as [L0 L1].
  rewrite L1. cbn [bind].
  pose proof (wr_pair p ds x y (48 + n mod 100 / 10) (48 + (n mod 100) mod 10) w Hp) as W.
  destruct (wr (p ++ [x; y] ++ ds) (w - 1) (48 + (n mod 100) mod 10)) as [l1| |]; cbn [bind] in W; try discriminate.
  cbn [bind]. rewrite L0. cbn [bind]. rewrite W. reflexivity.
Qed.

Lemma dec_loop_ok : forall k fuel pre ds n,
  (1 <= k <= fuel)%nat -> 0 <= n < 100 ^ Z.of_nat k -> 2 * Z.of_nat k <= zlen pre ->
  exists pre' ds' t,
    dec_loop fuel (pre ++ ds) (zlen pre) n = Ret (pre' ++ ds' ++ ds, zlen pre') /\
    zlen pre' + zlen ds' = zlen pre /\
    is_numeral 10 0 n t /\
    ((ds' = t /\ nth 0 t 0 <> 48) \/ ds' = 48 :: t).
Proof.
  induction k as [|k IH]; intros fuel pre ds n Hk Hn Hp; [lia|].
  destruct fuel as [|fuel]; [lia|].
  destruct (list_unsnoc2 pre ltac:(lia)) as (p & x & y & ->).
  assert (Hp2: zlen p = zlen (p ++ [x; y]) - 2) by (rewrite zlen_app, !zlen_cons, zlen_nil; lia).
  rewrite (dec_loop_S fuel _ _ n ltac:(lia) p ds x y) by (try assumption; rewrite <- app_assoc; reflexivity).
  cbv zeta. rewrite <- Hp2.
  set (a := 48 + n mod 100 / 10). set (b := 48 + (n mod 100) mod 10).
  destruct (n / 100 =? 0) eqn:E.
  - assert (Hs: n mod 100 = n) by lia.
    exists p, [a; b].
    pose proof (value_pair 0 n ltac:(lia)) as V.
    assert (Ha: a = 48 + n / 10) by (unfold a; rewrite Hs; reflexivity).
    assert (Hb: b = 48 + n mod 10) by (unfold b; rewrite Hs; reflexivity).
    rewrite <- Ha, <- Hb in V.
    destruct (Z.eq_dec a 48) as [A|A].
    + exists [b]. repeat split.
      * rewrite zlen_app, !zlen_cons, !zlen_nil. lia.
      * cbn [value] in *. rewrite A in V. change (digit_val 48) with (Some 0) in V.
        cbn in V. exact V.
      * rewrite zlen_cons, zlen_nil; lia.
      * rewrite zlen_cons, zlen_nil; lia.
      * rewrite zlen_cons, zlen_nil; lia.
      * right. rewrite A. reflexivity.
    + exists [a; b]. repeat split.
      * rewrite zlen_app, !zlen_cons, !zlen_nil. lia.
      * exact V.
      * rewrite !zlen_cons, zlen_nil; lia.
      * rewrite !zlen_cons, zlen_nil; lia.
      * intros _. exact A.
      * left. split; [reflexivity|exact A].
  - destruct k as [|k].
    { change (100 ^ Z.of_nat 1) with 100 in Hn. lia. }
    rewrite !zlen_app, !zlen_cons, zlen_nil in Hp.
    replace (Z.of_nat (S (S k))) with (Z.of_nat (S k) + 1) in Hn by lia.
    rewrite Z.pow_add_r, Z.pow_1_r in Hn by lia.
    destruct (IH fuel p ([a; b] ++ ds) (n / 100)) as (pre' & ds' & t & R & L & N & D); [lia|lia|lia|].
    exists pre', (ds' ++ [a; b]), (t ++ [a; b]).
    pose proof N as (V & N1 & N2 & N3).
    repeat split.
    + rewrite R. rewrite <- !app_assoc. reflexivity.
    + rewrite !zlen_app, !zlen_cons, zlen_nil. lia.
    + rewrite value_app, V. unfold a, b. rewrite value_pair by lia. f_equal. lia.
    + rewrite zlen_app. pose proof (zlen_nonneg _ [a; b]). lia.
    + rewrite zlen_app. pose proof (zlen_nonneg _ [a; b]). lia.
    + intros _. destruct t as [|c t]; [rewrite zlen_nil in N1; lia|].
      cbn [nth app]. cbn [nth] in N3.
      destruct t as [|c' t].
      * intros ->. cbn in V. inversion V. lia.
      * apply N3. rewrite !zlen_cons. pose proof (zlen_nonneg _ t). lia.
    + destruct D as [[-> D]| ->].
      * left. split; [reflexivity|]. destruct t as [|c t]; [rewrite zlen_nil in N1; lia|]. exact D.
      * right. reflexivity.
Qed.

Lemma dec_pad_ok : forall fuel wide pre ds,
  zlen pre + zlen ds = 30 -> wide <= 30 -> 
  wide - zlen ds <= Z.of_nat fuel ->
  exists pre', dec_pad fuel wide (pre ++ ds) (zlen pre) =
    Ret (pre' ++ repeat 48 (Z.to_nat (wide - zlen ds)) ++ ds, zlen pre') /\
    zlen pre' = zlen pre - Z.max 0 (wide - zlen ds).
Proof.
  induction fuel as [|fuel IH]; intros wide pre ds HL HW HF; cbn [dec_pad]; unfold dec_buf_len.
  - destruct (30 - zlen pre <? wide) eqn:E; [lia|].
    exists pre. replace (Z.to_nat (wide - zlen ds)) with 0%nat by lia. split; [reflexivity|lia].
  - destruct (30 - zlen pre <? wide) eqn:E.
    + assert (HP: 1 <= zlen pre) by lia.
      destruct (split_at _ pre (zlen pre - 1) ltac:(lia)) as (p & r & Epre & Hp).
      rewrite Epre in *. clear Epre pre. rewrite zlen_app in *.
      destruct r as [|x [|y r]]; rewrite ?zlen_cons, ?zlen_nil in *; try lia; try (pose proof (zlen_nonneg _ r); lia).
      unfold wr. rewrite <- app_assoc.
      rewrite blit_splice by (rewrite ?zlen_cons, ?zlen_nil; lia). cbn [bind].
      replace (zlen p + (1 + 0) - 1) with (zlen p) by lia.
      destruct (IH wide p ([48] ++ ds)) as (p' & R & L).
      { rewrite zlen_app, zlen_cons, zlen_nil; lia. } { lia. } { rewrite zlen_app, zlen_cons, zlen_nil; lia. }
      rewrite zlen_app, zlen_cons, zlen_nil in *.
      exists p'. rewrite R. split; [|lia]. f_equal. f_equal. f_equal.
      replace (Z.to_nat (wide - zlen ds)) with (Z.to_nat (wide - (1 + 0 + zlen ds)) + 1)%nat by lia.
      rewrite repeat_app, <- app_assoc. reflexivity.
    + exists pre. replace (Z.to_nat (wide - zlen ds)) with 0%nat by lia. split; [reflexivity|lia].
Qed.

Lemma slice_app : forall (a b : text), slice (a ++ b) (zlen a) (zlen b) = Ret b.
Proof.
  intros a b. unfold slice. pose proof (zlen_nonneg _ a). pose proof (zlen_nonneg _ b).
  rewrite zlen_app. destruct ((zlen a <? 0) || (zlen b <? 0) || (zlen a + zlen b <? zlen a + zlen b)) eqn:E; [lia|].
  replace (Z.to_nat (zlen a)) with (length a) by (unfold zlen; lia).
  replace (Z.to_nat (zlen b)) with (length b) by (unfold zlen; lia).
  rewrite skipn_app, Nat.sub_diag, skipn_all. simpl. rewrite firstn_all. reflexivity.
Qed.

(* padding a width-0 numeral gives the padded numeral *)
Lemma numeral_pad : forall base n t wide, 1 < base ->
  is_numeral base 0 n t ->
  is_numeral base wide n (repeat 48 (Z.to_nat (wide - zlen t)) ++ t).
Proof.
  intros base n t wide Hb (V & L & W & N).
  assert (HR: zlen (repeat 48 (Z.to_nat (wide - zlen t))) = Z.max 0 (wide - zlen t))
    by (unfold zlen; rewrite repeat_length; lia).
  repeat split.
  - rewrite value_app, value_zeros by assumption. rewrite Z.mul_0_l. exact V.
  - rewrite zlen_app, HR. lia.
  - rewrite zlen_app, HR. lia.
  - rewrite zlen_app, HR. intros H. 
    replace (Z.to_nat (wide - zlen t)) with 0%nat by lia. simpl. apply N. lia.
Qed.

(* main result for unsigned decimals: the call is one memcpy of the numeral *)
Lemma write_dec_u_blit : forall wide n, is_u64 n -> wide <= 30 ->
  exists t, is_numeral 10 wide n t /\
    forall dst off, write_dec_u wide dst off n =
      bind (blit dst off t) (fun d => Ret (d, zlen t)).
Proof.
  intros wide n Hn Hw. unfold is_u64 in Hn.
  destruct (dec_loop_ok 10 16 (repeat UNINIT 30) [] n) as (pre & ds & t & R & L & N & D).
  { lia. } { change (100 ^ Z.of_nat 10) with 100000000000000000000. lia. } { vm_compute; discriminate. }
  rewrite !app_nil_r in R. change (zlen (repeat UNINIT 30)) with 30 in *.
  pose proof (is_numeral_len 10 0 n t 20 ltac:(lia) ltac:(lia) N ltac:(change (10^20) with 100000000000000000000; lia)) as NL.
  exists (repeat 48 (Z.to_nat (wide - zlen t)) ++ t).
  split; [apply numeral_pad; [lia|assumption]|].
  intros dst off. unfold write_dec_u.
  change (Z.to_nat dec_buf_len) with 30%nat. change dec_buf_len with 30. rewrite R. cbn [bind].
  assert (exists pre2, zlen pre2 + zlen t = 30 /\ 
     (let! c := rd (pre ++ ds) (zlen pre) in Ret (if c =? 48 then zlen pre + 1 else zlen pre)) = Ret (zlen pre2) /\
     pre ++ ds = pre2 ++ t) as (pre2 & L2 & R2 & Q2).
  { destruct D as [[-> D]| ->].
    - exists pre. split; [lia|]. split; [|reflexivity].
      destruct t as [|c t]; [destruct N as (_&N&_); rewrite zlen_nil in N; lia|].
      rewrite rd_app_mid by reflexivity. cbn [bind]. cbn [nth] in D.
      destruct (c =? 48) eqn:E; [lia|reflexivity].
    - exists (pre ++ [48]). rewrite zlen_app, !zlen_cons, zlen_nil in *.
      split; [lia|]. split; [|rewrite <- app_assoc; reflexivity].
      rewrite rd_app_mid by reflexivity. cbn [bind]. change (48 =? 48) with true. cbv iota. f_equal. }
  destruct (rd (pre ++ ds) (zlen pre)) as [c| |]; cbn [bind] in R2 |- *; try discriminate.
  assert (E2: (if c =? 48 then zlen pre + 1 else zlen pre) = zlen pre2) by congruence.
  cbv zeta. rewrite E2, Q2.
  pose proof (zlen_nonneg _ t).
  destruct (dec_pad_ok 32 wide pre2 t) as (pre3 & R3 & L3); [lia|lia|lia|].
  rewrite R3. cbn [bind].
  assert (HR: zlen (repeat 48 (Z.to_nat (wide - zlen t))) = Z.max 0 (wide - zlen t))
    by (unfold zlen; rewrite repeat_length; lia).
  replace (30 - zlen pre3) with (zlen (repeat 48 (Z.to_nat (wide - zlen t)) ++ t))
    by (rewrite zlen_app, HR; lia).
  rewrite slice_app. cbn [bind]. reflexivity.
Qed.

Lemma write_dec_u_correct : forall wide n, is_u64 n -> wide <= 30 ->
  (exists t, is_numeral 10 wide n t /\ zlen t <= Z.max wide 20) /\
  forall t pre old post,
    is_numeral 10 wide n t -> zlen old = zlen t ->
    write_dec_u wide (pre ++ old ++ post) (zlen pre) n = Ret (pre ++ t ++ post, zlen t).
Proof.
  intros wide n Hn Hw.
  destruct (write_dec_u_blit wide n Hn Hw) as (t & N & R).
  split.
  - exists t. split; [assumption|]. unfold is_u64 in Hn.
    apply (is_numeral_len 10 wide n t 20); [lia|lia|assumption|].
    change (10^20) with 100000000000000000000. lia.
  - intros t' pre old post N' L.
    rewrite (is_numeral_unique 10 wide n t' t ltac:(lia) N' N) in *.
    rewrite R, blit_splice by (assumption || reflexivity). reflexivity.
Qed.

(* signed decimals *)
Definition sign_text (n : Z) (t : text) : text := if n <? 0 then 45 :: t else t.

Lemma write_dec_s_correct : forall wide n, is_ll n -> n <> LLONG_MIN -> wide <= 30 ->
  forall t pre old post,
    is_numeral 10 (if n <? 0 then wide - 1 else wide) (Z.abs n) t ->
    zlen old = zlen (sign_text n t) ->
    write_dec_s wide (pre ++ old ++ post) (zlen pre) n =
      Ret (pre ++ sign_text n t ++ post, zlen (sign_text n t)).
Proof.
  intros wide n Hn Hmin Hw t pre old post N L. unfold is_ll, LLONG_MIN, LLONG_MAX in *.
  unfold write_dec_s, sign_text in *. destruct (n <? 0) eqn:E.
  - rewrite zlen_cons in L. destruct old as [|o old]; [rewrite zlen_nil in L; pose proof (zlen_nonneg _ t); lia|].
    rewrite zlen_cons in L. unfold wr.
    change (pre ++ (o :: old) ++ post) with (pre ++ [o] ++ (old ++ post)).
    rewrite blit_splice by reflexivity. cbn [bind].
    unfold ll_chk, LLONG_MIN, LLONG_MAX.
    destruct ((- 2 ^ 63 <=? - n) && (- n <=? 2 ^ 63 - 1)) eqn:E2; [|lia]. cbn [bind].
    replace (u64 (- n)) with (Z.abs n) by (unfold u64; rewrite Z.mod_small; lia).
    change (pre ++ [45] ++ old ++ post) with (pre ++ ([45] ++ (old ++ post))).
    rewrite app_assoc.
    replace (zlen pre + 1) with (zlen (pre ++ [45])) by (rewrite zlen_app, zlen_cons, zlen_nil; lia).
    destruct (write_dec_u_correct (wide - 1) (Z.abs n)) as [_ C]; [unfold is_u64; lia|lia|].
    rewrite (C t) by (assumption || lia). cbn [bind]. rewrite zlen_cons.
    rewrite <- !app_assoc. reflexivity.
  - replace (u64 n) with (Z.abs n) by (unfold u64; rewrite Z.mod_small; lia).
    destruct (write_dec_u_correct wide (Z.abs n)) as [_ C]; [unfold is_u64; lia|lia|].
    apply C; assumption.
Qed.

Lemma write_dec_s_min : forall wide pre o post,
  write_dec_s wide (pre ++ o :: post) (zlen pre) LLONG_MIN = Ub.
Proof.
  intros. unfold write_dec_s, wr. change (LLONG_MIN <? 0) with true. cbv iota.
  change (pre ++ o :: post) with (pre ++ [o] ++ post).
  rewrite blit_splice by reflexivity. reflexivity.
Qed.

(* ---------- hexadecimal ---------- *)
Definition hexch (d : Z) : Z := if d <? 10 then 48 + d else 55 + d.

Lemma hex_lut_ok : forall m, 0 <= m < 256 ->
  rd hex_lut (m * 2) = Ret (hexch (m / 16)) /\ rd hex_lut (m * 2 + 1) = Ret (hexch (m mod 16)).
Proof.
  intros m Hm.
  pose proof (forall_below (fun m => ret_is (rd hex_lut (m * 2)) (hexch (m / 16)) &&
                                     ret_is (rd hex_lut (m * 2 + 1)) (hexch (m mod 16))) 256
                           ltac:(vm_compute; reflexivity) m Hm) as H.
  apply andb_prop in H. destruct H as [H1 H2].
  split; apply ret_is_eq; assumption.
Qed.

Lemma hex1_lut_ok : forall m, 0 <= m < 16 -> rd hex1_lut m = Ret (hexch m).
Proof.
  intros m Hm. apply ret_is_eq.
  exact (forall_below (fun m => ret_is (rd hex1_lut m) (hexch m)) 16 ltac:(vm_compute; reflexivity) m Hm).
Qed.

Lemma digit_hex : forall d, 0 <= d < 16 -> digit_val (hexch d) = Some d.
Proof.
  intros d H. unfold hexch, digit_val. destruct (d <? 10) eqn:E.
  - destruct ((48 <=? 48 + d) && (48 + d <=? 57)) eqn:E1; [f_equal; lia|lia].
  - destruct ((48 <=? 55 + d) && (55 + d <=? 57)) eqn:E1; [lia|].
    destruct ((65 <=? 55 + d) && (55 + d <=? 70)) eqn:E2; [f_equal; lia|lia].
Qed.

Lemma value_hexpair : forall acc m, 0 <= m < 256 ->
  value 16 acc [hexch (m / 16); hexch (m mod 16)] = Some (acc * 256 + m).
Proof.
  intros acc m H. cbn [value].
  rewrite !digit_hex by lia.
  destruct (m / 16 <? 16) eqn:E; [|lia]. destruct (m mod 16 <? 16) eqn:E2; [|lia].
  f_equal. lia.
Qed.

Lemma hex_loop_ok : forall fuel pre o1 ds post n,
  0 <= n < 256 ^ Z.of_nat fuel -> n < 16 ^ zlen o1 ->
  exists o1' ds' n' v,
    hex_loop fuel (pre ++ o1 ++ ds ++ post) (zlen pre) (zlen o1) n =
      Ret (pre ++ o1' ++ ds' ++ ds ++ post, zlen o1', n') /\
    zlen o1' + zlen ds' = zlen o1 /\
    value 16 0 ds' = Some v /\ n = n' * 16 ^ zlen ds' + v /\
    0 <= n' < 16 ^ zlen o1' /\ (n' = 0 \/ zlen o1' < 2).
Proof.
  induction fuel as [|fuel IH]; intros pre o1 ds post n Hn Hb; cbn [hex_loop].
  - change (256 ^ Z.of_nat 0) with 1 in Hn.
    destruct (negb (n =? 0) && (2 <=? zlen o1)) eqn:E; [lia|].
    exists o1, [], n, 0. rewrite zlen_nil. repeat split; try lia; reflexivity.
  - destruct (negb (n =? 0) && (2 <=? zlen o1)) eqn:E.
    2: { exists o1, [], n, 0. rewrite zlen_nil. repeat split; try lia; try reflexivity. }
    replace (Z.of_nat (S fuel)) with (Z.of_nat fuel + 1) in Hn by lia.
    rewrite Z.pow_add_r, Z.pow_1_r in Hn by lia.
    destruct (list_unsnoc2 o1 ltac:(lia)) as (p & x & y & ->).
    destruct (hex_lut_ok (n mod 256) ltac:(lia)) as [L0 L1].
    rewrite L1. cbn [bind]. cbv zeta.
    pose proof (wr_pair (pre ++ p) (ds ++ post) x y (hexch (n mod 256 / 16)) (hexch ((n mod 256) mod 16))
                  (zlen pre + zlen (p ++ [x; y]))
                  ltac:(rewrite !zlen_app, !zlen_cons, zlen_nil; lia)) as W.
    rewrite <- !app_assoc in W. rewrite <- !app_assoc.
    destruct (wr (pre ++ p ++ [x; y] ++ ds ++ post) (zlen pre + zlen (p ++ [x; y]) - 1) (hexch ((n mod 256) mod 16))) as [l1| |]; cbn [bind] in W; try discriminate.
    cbn [bind]. rewrite L0. cbn [bind].
    rewrite W. cbn [bind].
    set (pr := [hexch (n mod 256 / 16); hexch ((n mod 256) mod 16)]).
    rewrite zlen_app, !zlen_cons, zlen_nil in *.
    replace (zlen p + (1 + (1 + 0)) - 2) with (zlen p) by lia.
    assert (HB: n / 256 < 16 ^ zlen p).
    { replace (zlen p + (1 + (1 + 0))) with (zlen p + 2) in Hb by lia.
      rewrite Z.pow_add_r in Hb by (pose proof (zlen_nonneg _ p); lia).
      change (16 ^ 2) with 256 in Hb. apply Z.div_lt_upper_bound; lia. }
    destruct (IH pre p (pr ++ ds) post (n / 256) ltac:(lia) HB) as (o1' & ds' & n' & v & R & L & V & Q & B & F).
    rewrite <- app_assoc in R. rewrite R.
    exists o1', (ds' ++ pr), n', (v * 256 + n mod 256).
    assert (LP: zlen pr = 2) by reflexivity.
    split; [rewrite <- !app_assoc; reflexivity|].
    split; [rewrite zlen_app; lia|].
    split; [rewrite value_app, V; unfold pr; apply value_hexpair; lia|].
    split; [|split; assumption].
    rewrite zlen_app, LP, Z.pow_add_r by (pose proof (zlen_nonneg _ ds'); lia).
    change (16 ^ 2) with 256. nia.
Qed.

Lemma hex_fill_ok : forall k pre o post, length o = k ->
  hex_fill k (pre ++ o ++ post) (zlen pre) = Ret (pre ++ repeat 48 k ++ post).
Proof.
  induction k as [|k IH]; intros pre o post Ho; cbn [hex_fill].
  - destruct o; [reflexivity|discriminate].
  - destruct (split_at _ o (Z.of_nat k) ltac:(unfold zlen; lia)) as (a & b & -> & Ha).
    destruct b as [|x [|y b]]; rewrite app_length in Ho; unfold zlen in Ha; simpl in Ho; try lia.
    unfold wr. rewrite <- app_assoc. rewrite (app_assoc pre a).
    rewrite blit_splice by (rewrite ?zlen_app; unfold zlen; simpl; lia).
    cbn [bind]. rewrite <- app_assoc. rewrite IH by lia.
    replace (S k) with (k + 1)%nat by lia. rewrite repeat_app, <- app_assoc. reflexivity.
Qed.

Lemma lead_from_bound : forall base t n, 1 < base -> 1 <= zlen t ->
  value base 0 t = Some n -> base ^ (zlen t - 1) <= n -> nth 0 t 0 <> 48.
Proof.
  intros base [|c t] n Hb Hl V B; [rewrite zlen_nil in Hl; lia|]. cbn [nth]. intros ->.
  cbn [value] in V. change (digit_val 48) with (Some 0) in V.
  cbv iota beta in V. destruct (0 <? base) eqn:E; [|lia]. change (0 * base + 0) with 0 in V.
  pose proof (value_bound _ _ _ Hb V). rewrite zlen_cons in B.
  replace (1 + zlen t - 1) with (zlen t) in B by lia. lia.
Qed.

Lemma log2_bounds : forall n, 0 < n -> 2 ^ Z.log2 n <= n < 2 ^ (Z.log2 n + 1).
Proof. intros n H. pose proof (Z.log2_spec n H). rewrite <- Z.add_1_r in H0. exact H0. Qed.

Lemma write_hex_exact : forall wide n, 0 < n < 2 ^ 64 ->
  exists t, is_numeral 16 wide n t /\
    forall pre old post, zlen old = zlen t ->
    write_hex wide (pre ++ old ++ post) (zlen pre) n = Ret (pre ++ t ++ post, zlen t).
Proof.
  intros wide n Hn.
  pose proof (log2_bounds n ltac:(lia)) as HL. pose proof (Z.log2_nonneg n) as HL0.
  set (d := (Z.log2 n + 1 + 3) / 4).
  set (rw := if d <? wide then wide else d).
  assert (Hd: 1 <= d /\ 4 * (d - 1) <= Z.log2 n < 4 * d) by (unfold d; lia).
  assert (H16: forall k, 0 <= k -> 16 ^ k = 2 ^ (4 * k)).
  { intros k Hk. rewrite Z.pow_mul_r by lia. reflexivity. }
  assert (HU: n < 16 ^ d).
  { rewrite H16 by lia. eapply Z.lt_le_trans; [apply HL|]. apply Z.pow_le_mono_r; lia. }
  assert (HW: 16 ^ (d - 1) <= n).
  { rewrite H16 by lia. eapply Z.le_trans; [|apply HL]. apply Z.pow_le_mono_r; lia. }
  assert (Hrw: rw = Z.max wide d) by (unfold rw; destruct (d <? wide) eqn:E; lia).
  assert (HU2: n < 16 ^ rw).
  { eapply Z.lt_le_trans; [apply HU|]. apply Z.pow_le_mono_r; lia. }
  assert (G: forall pre old post, zlen old = rw ->
     exists t, value 16 0 t = Some n /\ zlen t = rw /\
      write_hex wide (pre ++ old ++ post) (zlen pre) n = Ret (pre ++ t ++ post, rw)).
  { intros pre old post Ho. unfold write_hex, bit_width.
    destruct (n =? 0) eqn:E0; [lia|]. cbn [bind]. fold d. cbv zeta. fold rw. rewrite <- Ho.
    destruct (hex_loop_ok 16 pre old [] post n) as (o1 & ds & n' & v & R & L & V & Q & B & F).
    { change (256 ^ Z.of_nat 16) with (2 ^ 128).
      assert (2 ^ 64 < 2 ^ 128) by reflexivity. lia. } { rewrite Ho; assumption. }
    cbn [app] in R. rewrite R. cbn [bind].
    destruct (negb (n' =? 0)) eqn:En.
    - assert (L1: zlen o1 = 1).
      { destruct F as [F|F]; [lia|]. destruct (Z.eq_dec (zlen o1) 0) as [Z0|]; [rewrite Z0 in B; change (16 ^ 0) with 1 in B; lia|].
        pose proof (zlen_nonneg _ o1). lia. }
      rewrite L1 in B. change (16 ^ 1) with 16 in B.
      rewrite Z.mod_small by lia. rewrite hex1_lut_ok by lia. cbn [bind].
      destruct o1 as [|x [|y o1]]; rewrite ?zlen_cons, ?zlen_nil in L1; try lia; try (pose proof (zlen_nonneg _ o1); lia).
      unfold wr. rewrite blit_splice by reflexivity. cbn [bind].
      rewrite zlen_cons, zlen_nil. change (Z.to_nat (1 + 0 - 1)) with 0%nat. cbn [hex_fill bind].
      exists ([hexch n'] ++ ds). split.
      + rewrite value_app. cbn [value]. rewrite digit_hex by lia.
        destruct (n' <? 16) eqn:E16; [|lia].
        rewrite (value_shift_intro _ _ _ _ V). f_equal. lia.
      + split; [rewrite zlen_app, !zlen_cons, zlen_nil in *; lia|]. rewrite <- !app_assoc. reflexivity.
    - assert (n' = 0) by lia. subst n'. cbn [bind].
      rewrite hex_fill_ok by (unfold zlen; lia). cbn [bind].
      exists (repeat 48 (Z.to_nat (zlen o1)) ++ ds). split; [|split].
      + rewrite value_app, value_zeros by lia. rewrite Z.mul_0_l, V. f_equal; lia.
      + rewrite zlen_app. replace (zlen (repeat 48 (Z.to_nat (zlen o1)))) with (zlen o1); [lia|].
        unfold zlen. rewrite repeat_length. lia.
      + rewrite <- !app_assoc. reflexivity. }
  destruct (G [] (repeat 0 (Z.to_nat rw)) []) as (t & V & L & _).
  { unfold zlen; rewrite repeat_length; lia. }
  exists t. split.
  - repeat split; [assumption|lia|lia|]. rewrite L. intros Hx.
    apply (lead_from_bound 16 t n); [lia|lia|assumption|]. rewrite L.
    replace (rw - 1) with (d - 1) by lia. assumption.
  - intros pre old post Ho. rewrite L in Ho.
    destruct (G pre old post Ho) as (t' & V' & L' & R). rewrite R, L.
    rewrite (value_inj 16 t' t n); [reflexivity|lia| |assumption|assumption]. unfold zlen in *; lia.
Qed.

Lemma write_hex_correct : forall wide n, 0 < n < 2 ^ 64 ->
  (exists t, is_numeral 16 wide n t /\ zlen t <= Z.max wide 16) /\
  forall t pre old post, is_numeral 16 wide n t -> zlen old = zlen t ->
    write_hex wide (pre ++ old ++ post) (zlen pre) n = Ret (pre ++ t ++ post, zlen t).
Proof.
  intros wide n Hn. destruct (write_hex_exact wide n Hn) as (t & N & R). split.
  - exists t. split; [assumption|]. apply (is_numeral_len 16 wide n t 16); [lia|lia|assumption|].
    change (16 ^ 16) with (2 ^ 64). lia.
  - intros t' pre old post N' L. rewrite (is_numeral_unique 16 wide n t' t ltac:(lia) N' N) in *.
    apply R; assumption.
Qed.

Lemma write_hex_zero : forall wide dst off, write_hex wide dst off 0 = Ub.
Proof. reflexivity. Qed.

(* pointers *)
Lemma write_pointer_null : forall pre old post, zlen old = 4 ->
  write_pointer (pre ++ old ++ post) (zlen pre) 0 = Ret (pre ++ s2z "null" ++ post, 4).
Proof.
  intros. unfold write_pointer. change (0 =? 0) with true. cbv iota.
  rewrite blit_splice by (assumption || reflexivity). reflexivity.
Qed.

Lemma write_pointer_correct : forall p, 0 < p < 2 ^ 64 ->
  forall t pre old post, is_numeral 16 0 p t -> zlen old = 2 + zlen t ->
  write_pointer (pre ++ old ++ post) (zlen pre) p = Ret (pre ++ s2z "0x" ++ t ++ post, 2 + zlen t).
Proof.
  intros p Hp t pre old post N L. unfold write_pointer. destruct (p =? 0) eqn:E; [lia|].
  pose proof (zlen_nonneg _ t).
  destruct (split_at _ old 2 ltac:(lia)) as (a & b & -> & Ha). rewrite zlen_app in L.
  rewrite <- app_assoc, blit_splice by (assumption || reflexivity). cbn [bind].
  rewrite app_assoc.
  replace (zlen pre + 2) with (zlen (pre ++ s2z "0x")) by (rewrite zlen_app; reflexivity).
  destruct (write_hex_correct 0 p Hp) as [_ C]. rewrite (C t) by (assumption || lia).
  cbn [bind]. rewrite <- app_assoc. reflexivity.
Qed.

(* ---------- binary ---------- *)
Lemma bin_loop_ok : forall k fuel pre o1 ds post n,
  (1 <= k <= fuel)%nat -> zlen o1 = Z.of_nat k -> 2 ^ (zlen o1 - 1) <= n < 2 ^ zlen o1 ->
  exists ds',
    (forall stale, bin_loop fuel (pre ++ stale ++ o1 ++ ds ++ post) (zlen pre) (zlen stale + zlen o1) n =
      Ret (pre ++ stale ++ ds' ++ ds ++ post)) /\
    zlen ds' = zlen o1 /\ value 2 0 ds' = Some n.
Proof.
  induction k as [|k IH]; intros fuel pre o1 ds post n Hk Hl Hn; [lia|].
  destruct fuel as [|fuel]; [lia|].
  destruct (split_at _ o1 (Z.of_nat k) ltac:(lia)) as (a & b & -> & Ha).
  destruct b as [|x [|y b]]; rewrite zlen_app, ?zlen_cons, ?zlen_nil in Hl; try lia; try (pose proof (zlen_nonneg _ b); lia).
  assert (B1: forall m, 0 <= m < 2 -> rd bin_lut m = Ret (48 + m)).
  { intros m Hm. assert (m = 0 \/ m = 1) as [-> | ->] by lia; reflexivity. }
  rewrite zlen_app, zlen_cons, zlen_nil in *.
  assert (W: forall stale, wr (pre ++ stale ++ (a ++ [x]) ++ ds ++ post) (zlen pre + (zlen stale + (zlen a + (1 + 0))) - 1) (48 + n mod 2) =
     Ret (pre ++ stale ++ a ++ [48 + n mod 2] ++ ds ++ post)).
  { intros stale. unfold wr. rewrite <- !app_assoc.
    replace (pre ++ stale ++ a ++ [x] ++ ds ++ post) with ((pre ++ stale ++ a) ++ [x] ++ ds ++ post) by (rewrite <- !app_assoc; reflexivity).
    rewrite blit_splice by (rewrite ?zlen_app, ?zlen_cons, ?zlen_nil; lia). rewrite <- !app_assoc. reflexivity. }
  assert (VB: forall acc, value 2 acc [48 + n mod 2] = Some (acc * 2 + n mod 2)).
  { intros acc. cbn [value]. rewrite digit_dec by lia. destruct (n mod 2 <? 2) eqn:E; [reflexivity|lia]. }
  destruct k as [|k].
  - assert (zlen a = 0) by lia. destruct a; [|rewrite zlen_cons in *; pose proof (zlen_nonneg _ a); lia].
    rewrite zlen_nil in *. change (0 + (1 + 0)) with 1 in *. change (2 ^ (1 - 1)) with 1 in Hn. change (2 ^ 1) with 2 in Hn.
    exists [48 + n mod 2]. split; [|split].
    + intros stale. cbn [bin_loop]. rewrite B1 by lia. cbn [bind]. rewrite W. cbn [bind].
      destruct (n / 2 =? 0) eqn:E; [reflexivity|lia].
    + reflexivity.
    + rewrite VB. f_equal. lia.
  - replace (zlen a + (1 + 0) - 1) with (zlen a - 1 + 1) in Hn by lia.
    replace (zlen a + (1 + 0)) with (zlen a + 1) in Hn by lia.
    rewrite !Z.pow_add_r, !Z.pow_1_r in Hn by lia.
    destruct (IH fuel pre a ([48 + n mod 2] ++ ds) post (n / 2)) as (ds' & R & L & V); [lia|lia| |].
    { split; [apply Z.div_le_lower_bound; lia|apply Z.div_lt_upper_bound; lia]. }
    exists (ds' ++ [48 + n mod 2]). split; [|split].
    + intros stale. cbn [bin_loop]. rewrite B1 by lia. cbn [bind]. rewrite W. cbn [bind].
      assert (0 < 2 ^ (zlen a - 1)) by (apply Z.pow_pos_nonneg; lia).
      destruct (n / 2 =? 0) eqn:E; [lia|].
      specialize (R stale). replace (zlen stale + (zlen a + (1 + 0)) - 1) with (zlen stale + zlen a) by lia.
      rewrite <- !app_assoc in *. exact R.
    + rewrite zlen_app, zlen_cons, zlen_nil. lia.
    + rewrite value_app, V, VB. f_equal. lia.
Qed.

(* What write_bin really does: the digits right-aligned in max(wide, digits)
   characters; the characters to their left are left as they were. *)
Lemma write_bin_general : forall wide n, 0 < n < 2 ^ 64 ->
  forall t, is_numeral 2 0 n t ->
  forall pre stale old post,
    zlen old = zlen t -> zlen stale = Z.max 0 (wide - zlen t) ->
    write_bin wide (pre ++ stale ++ old ++ post) (zlen pre) n =
      Ret (pre ++ stale ++ t ++ post, Z.max wide (zlen t)).
Proof.
  intros wide n Hn t N pre stale old post Ho Hs.
  pose proof (log2_bounds n ltac:(lia)) as HL. pose proof (Z.log2_nonneg n) as HL0.
  assert (HL64: Z.log2 n < 64) by (apply Z.log2_lt_pow2; lia).
  assert (LT: zlen t = Z.log2 n + 1).
  { pose proof N as (V & L1 & _ & NZ).
    pose proof (value_bound 2 t n ltac:(lia) V) as VB.
    pose proof (is_numeral_len 2 0 n t (Z.log2 n + 1) ltac:(lia) ltac:(lia) N ltac:(lia)) as U.
    destruct (Z_lt_le_dec (zlen t) (Z.log2 n + 1)); [|lia].
    assert (2 ^ zlen t <= 2 ^ Z.log2 n) by (apply Z.pow_le_mono_r; lia). lia. }
  unfold write_bin, bit_width. destruct (n =? 0) eqn:E; [lia|]. cbn [bind]. cbv zeta.
  set (rw := if Z.log2 n + 1 <? wide then wide else Z.log2 n + 1).
  assert (Hrw: rw = zlen stale + zlen old) by (unfold rw; destruct (Z.log2 n + 1 <? wide) eqn:E2; lia).
  destruct (bin_loop_ok (Z.to_nat (zlen old)) 65 pre old [] post n) as (ds & R & L & V); [lia|lia| |].
  { rewrite Ho, LT. replace (Z.log2 n + 1 - 1) with (Z.log2 n) by lia. assumption. }
  rewrite Hrw. specialize (R stale). cbn [app] in R. rewrite R. cbn [bind].
  destruct N as (V' & _).
  rewrite (value_inj 2 ds t n); [|lia|unfold zlen in *; lia|assumption|assumption].
  f_equal. f_equal. lia.
Qed.
