(* Values: numbers, bit lists and addresses are read as they are written. *)
From Coq Require Import String ZArith List Bool Lia ZifyBool ZifyNat ZifyN.
From Verif Require Import Base BaseFacts LoggerState FileName Filter FilterSpec ParseVal Lexer ParseCfg LexProofs ParseSafe TextSpec ValSpec.
Import ListNotations.
Open Scope Z_scope.

(* ---- numbers ---- *)
Lemma digit_spec : forall c, is_number c = true <-> digit c.
Proof. intros c. unfold is_number, digit. lia. Qed.
Lemma not_digit_spec : forall c, is_number c = false <-> ~ digit c.
Proof. intros c. unfold is_number, digit. lia. Qed.
Lemma digit_val10 : forall c, (digit_val c <? 10) = is_number c.
Proof.
  intros c. unfold digit_val, is_number. destruct ((48 <=? c) && (c <=? 57)) eqn:E; [lia|].
  destruct ((97 <=? c) && (c <=? 102)) eqn:E1; [lia|]. destruct ((65 <=? c) && (c <=? 70)) eqn:E2; lia.
Qed.
Lemma digit_val_num : forall c, digit c -> digit_val c = c - 48.
Proof. intros c D. unfold digit_val. rewrite (proj2 (digit_spec c) D). reflexivity. Qed.
Lemma digits_of_num : forall s acc r, Forall digit s -> ends_number r ->
  digits_of 10 (s ++ r) acc = Ret (fold_left (fun a c => a * 10 + (c - 48)) s acc).
Proof.
  induction s as [|c s IH]; intros acc r F E.
  - destruct E as (c & r' & -> & ND). cbn [app digits_of fold_left]. rewrite digit_val10, (proj2 (not_digit_spec c) ND). reflexivity.
  - inversion F as [|? ? FC FS]; subst. cbn [app digits_of fold_left]. rewrite digit_val10, (proj2 (digit_spec c) FC), (digit_val_num c FC). apply IH; assumption.
Qed.
Lemma num_ge : forall s acc, Forall digit s -> 0 <= acc -> 0 <= fold_left (fun a c => a * 10 + (c - 48)) s acc.
Proof.
  induction s as [|c s IH]; intros acc F A; [exact A|]. inversion F as [|? ? FC FS]; subst. cbn [fold_left]. apply IH; [exact FS|]. unfold digit in FC. lia.
Qed.
Lemma num_nonneg : forall s, Forall digit s -> 0 <= num s.
Proof. intros s F. apply num_ge; [exact F|lia]. Qed.
Lemma digit_space : forall c, digit c -> is_space c = false.
Proof. intros c D. unfold digit in D. unfold is_space. lia. Qed.
Lemma decimal_read : forall n s r, decimal n s -> ends_number r -> strtoll10 (s ++ r) = Ret (clamp n).
Proof.
  intros n s r D E. destruct D as [s [NE F] <-|s [NE F] EQ].
  - destruct s as [|c s]; [contradiction|]. inversion F as [|? ? FC FS]; subst. unfold strtoll10. cbn [app skip_spaces]. rewrite (digit_space c FC).
    pose proof FC as FC'. unfold digit in FC'. replace (c =? 45) with false by lia. replace (c =? 43) with false by lia.
    change (c :: s ++ r) with ((c :: s) ++ r). rewrite (digits_of_num _ 0 r F E). reflexivity.
  - unfold strtoll10. cbn [app skip_spaces]. change (is_space 45) with false. cbv iota. rewrite Z.eqb_refl.
    rewrite (digits_of_num _ 0 r F E). cbn [bind]. fold (num s). rewrite EQ, Z.opp_involutive. reflexivity.
Qed.
Lemma clamp_id : forall n, - 2 ^ 63 <= n < 2 ^ 63 -> clamp n = n.
Proof. intros n H. change (2 ^ 63) with 9223372036854775808 in H. unfold clamp, LLONG_MIN, LLONG_MAX. change (2 ^ 63) with 9223372036854775808. destruct (n <? _) eqn:A; [lia|]. destruct (_ <? n) eqn:B; lia. Qed.
Lemma atoll_read : forall n s r, decimal n s -> ends_number r -> - 2 ^ 63 <= n < 2 ^ 63 -> atoll (s ++ r) = Ret n.
Proof. intros n s r D E R. unfold atoll. rewrite (decimal_read n s r D E), clamp_id by exact R. reflexivity. Qed.
Lemma int_of_id : forall n, - 2 ^ 31 <= n < 2 ^ 31 -> int_of n = n.
Proof.
  intros n H. unfold int_of. rewrite Z.mod_small; [lia|]. change (2 ^ 32) with 4294967296. change (2 ^ 31) with 2147483648 in *. lia.
Qed.
Lemma atoi_read : forall n s r, decimal n s -> ends_number r -> - 2 ^ 31 <= n < 2 ^ 31 -> atoi (s ++ r) = Ret n.
Proof.
  intros n s r D E R. unfold atoi. rewrite (decimal_read n s r D E). cbn [bind]. rewrite clamp_id by (change (2 ^ 63) with 9223372036854775808; change (2 ^ 31) with 2147483648 in R; lia).
  rewrite int_of_id by exact R. reflexivity.
Qed.

(* ---- skipping ---- *)
Lemma drop_app : forall p s r, Forall (fun c => p c = true) s -> drop_while p (s ++ r) = drop_while p r.
Proof. induction s as [|c s IH]; intros r F; [reflexivity|]. inversion F as [|? ? FC FS]; subst. cbn [app drop_while]. rewrite FC. apply IH, FS. Qed.
Lemma drop_stop : forall p c r, p c = false -> drop_while p (c :: r) = c :: r.
Proof. intros p c r H. cbn [drop_while]. rewrite H. reflexivity. Qed.
Lemma drop_all : forall p s, Forall (fun c => p c = true) s -> drop_while p s = [].
Proof. intros p s F. rewrite <- (app_nil_r s), drop_app by exact F. reflexivity. Qed.
Lemma take_app : forall p s c r, Forall (fun c => p c = true) s -> p c = false -> take_while p (s ++ c :: r) = s.
Proof.
  induction s as [|x s IH]; intros c r F H; cbn [app take_while]; [rewrite H; reflexivity|].
  inversion F as [|? ? FC FS]; subst. rewrite FC, IH; auto.
Qed.
Lemma blank_blank : forall c, is_blank c = true <-> blank c.
Proof. intros c. unfold is_blank, blank. cbn [In]. lia. Qed.
Lemma blank_not_digit : forall c, blank c -> is_number c = false.
Proof. intros c B. unfold blank in B. cbn [In] in B. unfold is_number. lia. Qed.

(* ---- setting bits ---- *)
Lemma set_bits_test : forall n i b k, 0 <= i -> 0 <= k -> Z.testbit (set_bits n i b) k = Z.testbit b k || ((i <=? k) && (k <? i + Z.of_nat n)).
Proof.
  induction n as [|n IH]; intros i b k I K; cbn [set_bits].
  - replace ((i <=? k) && (k <? i + Z.of_nat 0)) with false by lia. rewrite orb_false_r. reflexivity.
  - rewrite IH by lia. rewrite Z.lor_spec, Z.pow2_bits_eqb by lia. destruct (Z.testbit b k); [reflexivity|]. cbn [orb].
    destruct (i =? k) eqn:E; lia.
Qed.
Lemma set_bits_nonneg : forall n i b, 0 <= i -> 0 <= b -> 0 <= set_bits n i b.
Proof. induction n as [|n IH]; intros i b I B; cbn [set_bits]; [exact B|]. apply IH; [lia|]. apply Z.lor_nonneg. split; [exact B|]. apply Z.pow_nonneg. lia. Qed.
Lemma set_range_ok : forall e b x y, 0 <= x <= 63 -> 0 <= y <= 63 -> exists m, set_range e b x y = Ret m /\ (0 <= b -> 0 <= m) /\
  forall k, 0 <= k -> Z.testbit m k = Z.testbit b k || ((Z.min x y <=? k) && (k <=? Z.max x y)).
Proof.
  intros e b x y X Y. unfold set_range. cbv zeta. replace ((0 <=? Z.min x y) && (Z.max x y <? 64)) with true by lia. eexists. split; [reflexivity|].
  split; [intros B; apply set_bits_nonneg; lia|]. intros k K. rewrite set_bits_test by lia. f_equal. lia.
Qed.
Lemma set_bit_ok : forall e b x, 0 <= x <= 63 -> exists m, set_bit e b x = Ret m /\ (0 <= b -> 0 <= m) /\
  forall k, 0 <= k -> Z.testbit m k = Z.testbit b k || (k =? x).
Proof.
  intros e b x X. unfold set_bit, shl1. replace ((0 <=? x) && (x <? 64)) with true by lia. cbn [bind]. eexists. split; [reflexivity|].
  split; [intros B; apply Z.lor_nonneg; split; [exact B|apply Z.pow_nonneg; lia]|]. intros k K. rewrite Z.lor_spec, Z.pow2_bits_eqb by lia. f_equal. lia.
Qed.

(* ---- bit lists ---- *)
Definition bits_inb (x : bits) (i : Z) : bool :=
  match x with Bit n => i =? n | Bits a b => (Z.min a b <=? i) && (i <=? Z.max a b) end.
Lemma bits_inb_spec : forall x i, bits_inb x i = true <-> bits_in x i.
Proof. intros [n|a b] i; cbn [bits_inb bits_in]; lia. Qed.
Lemma drop_len_le : forall p s, (length (drop_while p s) <= length s)%nat.
Proof. induction s as [|c s IH]; cbn [drop_while]; [lia|]. destruct (p c); cbn [length]; lia. Qed.

(* a number, then blanks, then something that is not a hyphen *)
Lemma loop_bit : forall s b2 u rest e bm n, digits s -> num s = n -> 0 <= n <= 63 -> Forall blank b2 -> ends_number rest ->
  (u = [] \/ exists u', u = 44 :: u') ->
  exists m, (0 <= bm -> 0 <= m) /\ (forall k, 0 <= k -> Z.testbit m k = Z.testbit bm k || (k =? n)) /\
    forall fuel, bit_loop (S fuel) e (s ++ b2 ++ u) rest bm = bit_loop fuel e u rest m.
Proof.
  intros s b2 u rest e bm n [NE F] N R B2 ER U. destruct (set_bit_ok e bm n R) as (m & M1 & M2 & M3). exists m. split; [exact M2|]. split; [exact M3|].
  intros fuel. cbn [bit_loop]. destruct s as [|c s]; [contradiction|]. pose proof (Forall_inv F) as FC. cbn [app].
  rewrite (drop_stop _ c) by (rewrite (proj2 (digit_spec c) FC); reflexivity). cbv iota.
  assert (EN : ends_number ((b2 ++ u) ++ rest)).
  { destruct b2 as [|x b2].
    - destruct U as [->|(u' & ->)]; cbn [app]; [exact ER|]. exists 44, (u' ++ rest). split; [reflexivity|]. unfold digit. lia.
    - inversion B2 as [|? ? BX _]; subst. cbn [app]. eexists _, _. split; [reflexivity|]. apply not_digit_spec, blank_not_digit, BX. }
  change (c :: s ++ b2 ++ u) with ((c :: s) ++ b2 ++ u). replace (c :: (s ++ b2 ++ u) ++ rest) with ((c :: s) ++ (b2 ++ u) ++ rest) by (cbn [app]; rewrite <- !app_assoc; reflexivity).
  rewrite (atoi_read n (c :: s) ((b2 ++ u) ++ rest)); [|apply dec_pos; [split; [exact NE|exact F]|exact N]|exact EN|change (2 ^ 31) with 2147483648; lia].
  cbn [bind].
  assert (D : drop_while (fun c => is_number c || is_blank c) ((c :: s) ++ b2 ++ u) = u).
  { rewrite drop_app by (eapply Forall_impl; [|exact F]; intros x X; cbv beta in *; rewrite (proj2 (digit_spec x) X); reflexivity).
    rewrite drop_app by (eapply Forall_impl; [|exact B2]; intros x X; cbv beta in *; rewrite (proj2 (blank_blank x) X), orb_true_r; reflexivity).
    destruct U as [->|(u' & ->)]; reflexivity. }
  rewrite D. replace (negb (hd 0 u =? 45)) with true by (destruct U as [->|(u' & ->)]; reflexivity).
  rewrite M1. reflexivity.
Qed.
Lemma lead_skip : forall b1 s rest e bm fuel, Forall blank b1 -> bit_loop fuel e (b1 ++ s) rest bm = bit_loop fuel e s rest bm.
Proof.
  intros b1 s rest e bm fuel B. destruct fuel as [|fuel]; [reflexivity|]. cbn [bit_loop].
  rewrite drop_app; [reflexivity|]. eapply Forall_impl; [|exact B]. intros x X. cbv beta in *. rewrite (blank_not_digit x X). reflexivity.
Qed.
Lemma loop_item : forall x t u rest e bm, bits_text x t -> bits_ok x -> ends_number rest -> (u = [] \/ exists u', u = 44 :: u') ->
  exists m, (0 <= bm -> 0 <= m) /\ (forall k, 0 <= k -> Z.testbit m k = Z.testbit bm k || bits_inb x k) /\
    forall fuel, (length (t ++ u) < fuel)%nat -> exists fuel', (length u < fuel')%nat /\ bit_loop fuel e (t ++ u) rest bm = bit_loop fuel' e u rest m.
Proof.
  intros x t u rest e bm T OK ER U. destruct T as [n b1 s b2 D N B1 B2|x y b1 s b2 b3 t b4 DS NS DT NT B1 B2 B3 B4]; cbn [bits_ok bits_inb] in *.
  - destruct (loop_bit s b2 u rest e bm n D N OK B2 ER U) as (m & M1 & M2 & M3). exists m. split; [exact M1|]. split; [exact M2|].
    intros fuel FU. rewrite <- !app_assoc in *. destruct fuel as [|fuel]; [lia|]. exists fuel. rewrite !app_length in FU. destruct s as [|c s]; [destruct D as [D _]; contradiction|]. cbn [length] in FU.
    split; [lia|]. rewrite lead_skip by exact B1. apply M3.
  - destruct OK as [OX OY]. destruct (set_range_ok e bm x y OX OY) as (m1 & R1 & R2 & R3).
    destruct (loop_bit t b4 u rest e m1 y DT NT OY B4 ER U) as (m & M1 & M2 & M3). exists m. split; [auto|]. split.
    { intros k K. rewrite M2, R3 by exact K. destruct (Z.testbit bm k); [reflexivity|]. cbn [orb]. lia. }
    intros fuel FU. rewrite <- !app_assoc in *. cbn [app] in *. rewrite <- !app_assoc in *. rewrite !app_length in FU. cbn [length] in FU. rewrite !app_length in FU.
    destruct fuel as [|[|fuel]]; [lia|destruct s as [|c s]; [destruct DS as [DS _]; contradiction|cbn [length] in FU; lia]|]. exists fuel.
    destruct DS as [NE FS]. destruct DT as [NE2 FT]. destruct s as [|c s]; [contradiction|]. destruct t as [|d t]; [contradiction|]. cbn [length] in FU. split; [lia|].
    rewrite lead_skip by exact B1. rewrite <- M3.
    remember (S fuel) as fuel1 eqn:EF1. cbn [bit_loop]. pose proof (Forall_inv FS) as FC. pose proof (Forall_inv FT) as FD. cbn [app].
    rewrite (drop_stop _ c) by (rewrite (proj2 (digit_spec c) FC); reflexivity). cbv iota.
    change (c :: s ++ b2 ++ 45 :: b3 ++ d :: t ++ b4 ++ u) with ((c :: s) ++ b2 ++ 45 :: b3 ++ (d :: t) ++ b4 ++ u).
    replace (c :: (s ++ b2 ++ 45 :: b3 ++ d :: t ++ b4 ++ u) ++ rest) with ((c :: s) ++ (b2 ++ 45 :: b3 ++ d :: t ++ b4 ++ u) ++ rest) by (cbn [app]; rewrite (app_assoc s); reflexivity).
    rewrite (atoi_read x (c :: s)); [|apply dec_pos; [split; [exact NE|exact FS]|exact NS]| |change (2 ^ 31) with 2147483648; lia].
    2: { destruct b2 as [|z b2]; cbn [app]; eexists _, _; (split; [reflexivity|]); [unfold digit; lia|]. inversion B2; subst. apply not_digit_spec, blank_not_digit; assumption. }
    cbn [bind].
    rewrite drop_app by (eapply Forall_impl; [|exact FS]; intros z X; cbv beta in *; rewrite (proj2 (digit_spec z) X); reflexivity).
    rewrite drop_app by (eapply Forall_impl; [|exact B2]; intros z X; cbv beta in *; rewrite (proj2 (blank_blank z) X), orb_true_r; reflexivity).
    rewrite (drop_stop _ 45) by reflexivity. cbn [hd]. change (negb (45 =? 45)) with false. cbv iota.
    assert (D3 : drop_while (fun c => negb (is_number c) && negb (c =? 44)) (45 :: b3 ++ (d :: t) ++ b4 ++ u) = (d :: t) ++ b4 ++ u).
    { change (45 :: b3 ++ (d :: t) ++ b4 ++ u) with ((45 :: b3) ++ (d :: t) ++ b4 ++ u). rewrite drop_app.
      - cbn [app]. apply drop_stop. rewrite (proj2 (digit_spec d) FD). reflexivity.
      - constructor; [reflexivity|]. eapply Forall_impl; [|exact B3]. intros z X. cbv beta in *. rewrite (blank_not_digit z X). unfold blank in X. cbn [In] in X. cbn [negb andb]. lia. }
    rewrite D3. cbn [app hd]. rewrite (proj2 (digit_spec d) FD). cbn [negb].
    change (d :: t ++ b4 ++ u) with ((d :: t) ++ b4 ++ u). replace (d :: (t ++ b4 ++ u) ++ rest) with ((d :: t) ++ (b4 ++ u) ++ rest) by (cbn [app]; rewrite (app_assoc t); reflexivity).
    rewrite (atoi_read y (d :: t)); [|apply dec_pos; [split; [exact NE2|exact FT]|exact NT]| |change (2 ^ 31) with 2147483648; lia].
    2: { destruct b4 as [|z b4]; cbn [app].
         - destruct U as [->|(u' & ->)]; cbn [app]; [exact ER|]. eexists _, _; (split; [reflexivity|]). unfold digit; lia.
         - eexists _, _; (split; [reflexivity|]). inversion B4; subst. apply not_digit_spec, blank_not_digit; assumption. }
    cbn [bind]. rewrite R1. reflexivity.
Qed.
Lemma loop_list : forall l t, list_text l t -> forall rest e bm, Forall bits_ok l -> ends_number rest ->
  exists m, (0 <= bm -> 0 <= m) /\ (forall k, 0 <= k -> Z.testbit m k = Z.testbit bm k || existsb (fun x => bits_inb x k) l) /\
    forall fuel, (length t < fuel)%nat -> bit_loop fuel e t rest bm = Ret m.
Proof.
  intros l t H. induction H as [b B|x t T|x t y l u T L IH]; intros rest e bm OK ER.
  - exists bm. split; [auto|]. split; [intros k K; rewrite orb_false_r; reflexivity|]. intros fuel FU. destruct fuel as [|fuel]; [lia|]. cbn [bit_loop].
    rewrite drop_all; [reflexivity|]. eapply Forall_impl; [|exact B]. intros z X. cbv beta in *. rewrite (blank_not_digit z X). reflexivity.
  - inversion OK as [|? ? OX _]; subst. destruct (loop_item x t [] rest e bm T OX ER (or_introl eq_refl)) as (m & M1 & M2 & M3). exists m. split; [exact M1|].
    split; [intros k K; cbn [existsb]; rewrite orb_false_r; auto|]. intros fuel FU. rewrite app_nil_r in M3. destruct (M3 fuel FU) as (fuel' & F' & ->).
    destruct fuel' as [|fuel']; [cbn in F'; lia|]. reflexivity.
  - inversion OK as [|? ? OX OL]; subst. destruct (loop_item x t (44 :: u) rest e bm T OX ER (or_intror (ex_intro _ u eq_refl))) as (m1 & M1 & M2 & M3).
    destruct (IH rest e m1 OL ER) as (m & N1 & N2 & N3). exists m. split; [auto|].
    split; [intros k K; rewrite N2, M2 by exact K; cbn [existsb]; rewrite <- !orb_assoc; reflexivity|].
    intros fuel FU. destruct (M3 fuel FU) as (fuel' & F' & ->). rewrite <- (N3 fuel') by (cbn [length] in F'; lia).
    destruct fuel' as [|fuel']; [reflexivity|]. reflexivity.
Qed.
Theorem bit_list : forall l t rest e, list_text l t -> Forall bits_ok l -> ends_number rest ->
  exists m, parse_bit_array e t rest = Ret m /\ 0 <= m < 2 ^ 64 /\ forall i, 0 <= i -> (Z.testbit m i = true <-> listed l i).
Proof.
  intros l t rest e L OK ER. destruct (loop_list l t L rest e 0 OK ER) as (m & M1 & M2 & M3). exists m.
  assert (TB : forall i, 0 <= i -> (Z.testbit m i = true <-> listed l i)).
  { intros i I. rewrite M2, Z.bits_0 by exact I. cbn [orb]. rewrite existsb_exists. unfold listed. split; intros (x & X1 & X2); exists x; (split; [exact X1|apply bits_inb_spec, X2]). }
  split; [apply M3; lia|]. split; [|exact TB]. specialize (M1 ltac:(lia)). split; [exact M1|].
  destruct (Z.eq_dec m 0) as [->|NZ]; [lia|]. apply Z.log2_lt_pow2; [lia|].
  destruct (Z_lt_le_dec (Z.log2 m) 64) as [|G]; [assumption|]. exfalso.
  pose proof (Z.bit_log2 m ltac:(lia)) as B. apply TB in B; [|lia]. destruct B as (x & X1 & X2). rewrite Forall_forall in OK. specialize (OK x X1).
  destruct x as [n|a b]; cbn [bits_in bits_ok] in *; lia.
Qed.

(* ---- black lists ---- *)
Lemma ll_of_mod : forall v, ll_of v mod 2 ^ 64 = v mod 2 ^ 64.
Proof.
  intros v. unfold ll_of. replace ((v + 2 ^ 63) mod 2 ^ 64 - 2 ^ 63) with (v + - ((v + 2 ^ 63) / 2 ^ 64) * 2 ^ 64).
  - apply Z_mod_plus_full.
  - rewrite Z.mod_eq by (change (2 ^ 64) with 18446744073709551616; lia). lia.
Qed.
Lemma testbit_mod64 : forall v w i, v mod 2 ^ 64 = w mod 2 ^ 64 -> 0 <= i < 64 -> Z.testbit v i = Z.testbit w i.
Proof. intros v w i E I. rewrite <- (Z.mod_pow2_bits_low v 64 i), <- (Z.mod_pow2_bits_low w 64 i) by lia. rewrite E. reflexivity. Qed.
Lemma black_mask : forall l t rest e, list_text l t -> Forall bits_ok l -> ends_number rest -> (exists i, 0 <= i <= 63 /\ ~ listed l i) ->
  exists m, flip (parse_bit_array e t rest) = Ret m /\ m mod 2 ^ 64 <> 0 /\ forall i, 0 <= i <= 63 -> (Z.testbit m i = true <-> ~ listed l i).
Proof.
  intros l t rest e L OK ER (j & J & NJ). destruct (bit_list l t rest e L OK ER) as (m & M1 & M2 & M3).
  exists (ll_of (Z.lnot m)). split; [unfold flip; rewrite M1; reflexivity|].
  assert (T : forall i, 0 <= i <= 63 -> (Z.testbit (ll_of (Z.lnot m)) i = true <-> ~ listed l i)).
  { intros i I. rewrite (testbit_mod64 _ (Z.lnot m) i (ll_of_mod _)) by lia. rewrite Z.lnot_spec by lia. rewrite <- (M3 i) by lia. destruct (Z.testbit m i); cbn [negb]; intuition congruence. }
  split; [|exact T]. intros Z0. pose proof (proj2 (T j J) NJ) as TJ. rewrite (testbit_mod64 _ 0 j) in TJ; [|rewrite Z0; reflexivity|lia]. rewrite Z.bits_0 in TJ. discriminate TJ.
Qed.
Lemma mask_reject_spec : forall m i, m mod 2 ^ 64 <> 0 -> 0 <= i <= 63 -> mask_reject m i = Ret (negb (Z.testbit m i)).
Proof.
  intros m i NZ I. unfold mask_reject, u64, u32. replace (m mod 2 ^ 64 =? 0) with false by lia. rewrite (Z.mod_small i) by (change (2 ^ 32) with 4294967296; lia).
  replace (64 <=? i) with false by lia. f_equal. rewrite <- (Z.mod_pow2_bits_low m 64 i) by lia.
  destruct (Z.testbit (m mod 2 ^ 64) i) eqn:B; cbn [negb].
  - apply Z.eqb_neq. intros E. assert (X : Z.testbit (Z.land (m mod 2 ^ 64) (2 ^ i)) i = true) by (rewrite Z.land_spec, B, Z.pow2_bits_true by lia; reflexivity). rewrite E, Z.bits_0 in X. discriminate X.
  - apply Z.eqb_eq. apply Z.bits_inj'. intros k K. rewrite Z.bits_0, Z.land_spec, Z.pow2_bits_eqb by lia. destruct (i =? k) eqn:E; [|apply andb_false_r]. replace k with i by lia. rewrite B. reflexivity.
Qed.

(* ---- addresses ---- *)
Lemma plain_num_dec : forall s acc, Forall digit s -> plain_num 10 s acc = Some (fold_left (fun a c => a * 10 + (c - 48)) s acc).
Proof.
  induction s as [|c s IH]; intros acc F; [reflexivity|]. pose proof (Forall_inv F) as FC. cbn [plain_num fold_left]. rewrite digit_val10, (proj2 (digit_spec c) FC), (digit_val_num c FC).
  apply IH. exact (Forall_inv_tail F).
Qed.
Lemma part_read : forall n s, part n s -> addr_part s = Some n.
Proof.
  intros n s ([NE F] & <- & Z0). destruct s as [|c s]; [contradiction|]. cbn [addr_part hd] in *. destruct (c =? 48) eqn:C.
  - assert (c = 48) by lia. rewrite (Z0 H). reflexivity.
  - apply plain_num_dec. exact F.
Qed.
Lemma split_dots_digits : forall s acc r, Forall digit s -> split_dots (s ++ 46 :: r) acc = (acc ++ s) :: split_dots r [].
Proof.
  induction s as [|c s IH]; intros acc r F; cbn [app split_dots].
  - rewrite Z.eqb_refl, app_nil_r. reflexivity.
  - pose proof (Forall_inv F) as FC. unfold digit in FC. replace (c =? 46) with false by lia. rewrite IH by exact (Forall_inv_tail F). rewrite <- app_assoc. reflexivity.
Qed.
Lemma split_dots_last : forall s acc, Forall digit s -> split_dots s acc = [acc ++ s].
Proof.
  induction s as [|c s IH]; intros acc F; cbn [split_dots]; [rewrite app_nil_r; reflexivity|].
  pose proof (Forall_inv F) as FC. unfold digit in FC. replace (c =? 46) with false by lia. rewrite IH by exact (Forall_inv_tail F). rewrite <- app_assoc. reflexivity.
Qed.
Lemma swap32_bytes : forall a b c d, 0 <= a <= 255 -> 0 <= b <= 255 -> 0 <= c <= 255 -> 0 <= d <= 255 ->
  swap32 (a * 2 ^ 24 + b * 2 ^ 16 + c * 2 ^ 8 + d) = a + 256 * (b + 256 * (c + 256 * d)).
Proof.
  intros a b c d A B C D. unfold swap32. change (2 ^ 24) with 16777216. change (2 ^ 16) with 65536. change (2 ^ 8) with 256.
  set (v := a * 16777216 + b * 65536 + c * 256 + d).
  assert (E0 : v mod 256 = d) by (symmetry; apply Z.mod_unique with (q := a * 65536 + b * 256 + c); unfold v; lia).
  assert (E1 : v / 256 = a * 65536 + b * 256 + c) by (symmetry; apply Z.div_unique with (r := d); unfold v; lia).
  assert (E2 : v / 65536 = a * 256 + b) by (symmetry; apply Z.div_unique with (r := c * 256 + d); unfold v; lia).
  assert (E3 : v / 16777216 = a) by (symmetry; apply Z.div_unique with (r := b * 65536 + c * 256 + d); unfold v; lia).
  rewrite E0, E1, E2, E3.
  assert (M1 : (a * 65536 + b * 256 + c) mod 256 = c) by (symmetry; apply Z.mod_unique with (q := a * 256 + b); lia).
  assert (M2 : (a * 256 + b) mod 256 = b) by (symmetry; apply Z.mod_unique with (q := a); lia).
  rewrite M1, M2, (Z.mod_small a) by lia. lia.
Qed.
Lemma quad_chars : forall a b c d q, quad_text a b c d q -> q <> [] /\ Forall (fun x => digit x \/ x = 46) q.
Proof.
  intros a b c d q (ta & tb & tc & td & -> & ([N1 F1] & _) & ([N2 F2] & _) & ([N3 F3] & _) & ([N4 F4] & _)). split; [destruct ta; [contradiction|discriminate]|].
  assert (G : forall s, Forall digit s -> Forall (fun x => digit x \/ x = 46) s) by (intros s F; eapply Forall_impl; [|exact F]; intros; auto).
  repeat first [apply Forall_app; split; [auto|] | constructor; [auto|]]. auto.
Qed.
Lemma quad_addr : forall a b c d q, quad_text a b c d q -> 0 <= a <= 255 -> 0 <= b <= 255 -> 0 <= c <= 255 -> 0 <= d <= 255 ->
  inet_addr q = a + 256 * (b + 256 * (c + 256 * d)).
Proof.
  intros a b c d q (ta & tb & tc & td & -> & PA & PB & PC & PD) A B C D.
  pose proof (proj2 (proj1 PA)) as FA. pose proof (proj2 (proj1 PB)) as FB. pose proof (proj2 (proj1 PC)) as FC. pose proof (proj2 (proj1 PD)) as FD.
  unfold inet_addr. cbv zeta. rewrite (split_dots_digits ta), (split_dots_digits tb), (split_dots_digits tc), (split_dots_last td) by assumption. cbn [app map].
  rewrite (part_read _ _ PA), (part_read _ _ PB), (part_read _ _ PC), (part_read _ _ PD). cbn [byte_part].
  replace (a <? 256) with true by lia. replace (b <? 256) with true by lia. replace (c <? 256) with true by lia. replace (d <? 256) with true by lia.
  apply swap32_bytes; assumption.
Qed.
Lemma num_big : forall s acc, Forall digit s -> 1 <= acc -> acc * 10 ^ zlen s <= fold_left (fun a c => a * 10 + (c - 48)) s acc.
Proof.
  induction s as [|c s IH]; intros acc F A; cbn [fold_left]; [change (zlen (@nil Z)) with 0; lia|]. pose proof (Forall_inv F) as FC. unfold digit in FC.
  rewrite zlen_cons, Z.pow_add_r by (pose proof (zlen_nonneg _ s); lia). specialize (IH (acc * 10 + (c - 48)) (Forall_inv_tail F) ltac:(lia)).
  assert (0 < 10 ^ zlen s) by (apply Z.pow_pos_nonneg; [lia|apply zlen_nonneg]). nia.
Qed.
Lemma part_len : forall n s, part n s -> 1 <= n <= 65535 -> zlen s <= 5 /\ 49 <= hd 0 s <= 57.
Proof.
  intros n s ([NE F] & <- & Z0) N. destruct s as [|c s]; [contradiction|]. pose proof (Forall_inv F) as FC. unfold digit in FC. cbn [hd] in *.
  assert (c <> 48). { intros ->. specialize (Z0 eq_refl). injection Z0 as ->. vm_compute in N. destruct N as [N _]. apply N. reflexivity. }
  split; [|lia]. unfold num in N. cbn [fold_left] in N. pose proof (num_big s (0 * 10 + (c - 48)) (Forall_inv_tail F) ltac:(lia)) as B. rewrite zlen_cons.
  destruct (Z_le_gt_dec (zlen s) 4) as [|G]; [lia|]. exfalso. pose proof (Z.pow_le_mono_r 10 5 (zlen s) ltac:(lia) ltac:(lia)) as P. change (10 ^ 5) with 100000 in P. nia.
Qed.
Lemma address_gen : forall e q p port dn, q <> [] -> Forall (fun x => digit x \/ x = 46) q -> part port p -> 1 <= port <= 65535 ->
  parse_address e (q ++ 58 :: p) dn = Ret (inet_addr q, port mod 256 * 256 + port / 256).
Proof.
  intros e q p port dn QN QF P PT. destruct (part_len _ _ P PT) as [PL PH].
  destruct P as ([PN PF] & PE & _). unfold parse_address.
  assert (IP : parse_address_ip e (q ++ 58 :: p) dn = (inet_addr q, 58 :: p)).
  { unfold parse_address_ip. cbv zeta.
    assert (DB : drop_while is_blank (q ++ 58 :: p) = q ++ 58 :: p).
    { destruct q as [|x q]; [contradiction|]. cbn [app]. apply drop_stop. pose proof (Forall_inv QF) as X. unfold digit in X. unfold is_blank. lia. }
    assert (HQ : Forall (fun c => negb (is_blank c || (c =? 58)) = true) q).
    { eapply Forall_impl; [|exact QF]. intros x X. cbv beta in *. unfold digit in X. unfold is_blank. lia. }
    rewrite DB, (take_app _ q) by (exact HQ || reflexivity). rewrite drop_app, drop_stop by (exact HQ || reflexivity).
    assert (L : zlen q <> 0) by (destruct q; [contradiction|]; rewrite zlen_cons; pose proof (zlen_nonneg _ q); lia). pose proof (zlen_nonneg _ q).
    replace (zlen q <=? 0) with false by lia.
    replace (existsb (fun c => negb (is_number c) && negb (c =? 46)) q) with false.
    { destruct q; [contradiction|]. reflexivity. }
    symmetry. apply Bool.not_true_iff_false. intros X. apply existsb_exists in X. destruct X as (x & X1 & X2). rewrite Forall_forall in QF. specialize (QF x X1). unfold digit in QF. unfold is_number in X2. lia. }
  destruct (q ++ 58 :: p) as [|x0 r0] eqn:EQ; [destruct q; discriminate EQ|]. rewrite IP.
  cbn [drop_while]. change ((58 <? 49) || (57 <? 58)) with true. cbv iota. destruct p as [|x p]; [contradiction|]. cbn [hd] in PH.
  rewrite drop_stop by lia. replace (40 <=? zlen (x :: p)) with false by lia.
  rewrite (atoi_read port (x :: p) [0]); [|apply dec_pos; [split; [discriminate|exact PF]|exact PE]|exists 0, []; split; [reflexivity|unfold digit; lia]|change (2 ^ 31) with 2147483648; lia].
  cbn [bind]. unfold swap16. rewrite (Z.mod_small port (2 ^ 16)) by (change (2 ^ 16) with 65536; lia).
  f_equal. f_equal. f_equal. rewrite Z.mod_small; [reflexivity|]. split; [apply Z.div_pos; lia|apply Z.div_lt_upper_bound; lia].
Qed.
Theorem address_read : forall e a b c d port s dn, address_text a b c d port s -> 0 <= a <= 255 -> 0 <= b <= 255 -> 0 <= c <= 255 -> 0 <= d <= 255 -> 1 <= port <= 65535 ->
  parse_address e s dn = Ret (a + 256 * (b + 256 * (c + 256 * d)), port mod 256 * 256 + port / 256).
Proof.
  intros e a b c d port s dn (q & p & -> & Q & P) A B C D PT. destruct (quad_chars _ _ _ _ _ Q) as [QN QF].
  rewrite (address_gen e q p port dn QN QF P PT), (quad_addr _ _ _ _ _ Q A B C D). reflexivity.
Qed.

(* ---- every text of digits and dots ---- *)
Lemma with_dots_cons : forall t u l, with_dots (t :: u :: l) = t ++ 46 :: with_dots (u :: l).
Proof. reflexivity. Qed.
Lemma split_with_dots : forall ts, ts <> [] -> Forall (Forall digit) ts -> split_dots (with_dots ts) [] = ts.
Proof.
  induction ts as [|t ts IH]; intros N F; [contradiction|]. pose proof (Forall_inv F) as FT. destruct ts as [|u ts].
  - cbn [with_dots]. apply (split_dots_last t []). exact FT.
  - rewrite with_dots_cons, split_dots_digits by exact FT. exact (f_equal (cons t) (IH ltac:(discriminate) (Forall_inv_tail F))).
Qed.
Lemma dotted_split : forall q, Forall (fun x => digit x \/ x = 46) q -> forall acc, Forall digit acc ->
  exists ts, split_dots q acc = ts /\ ts <> [] /\ Forall (Forall digit) ts /\ acc ++ q = with_dots ts.
Proof.
  induction q as [|x q IH]; intros F acc FA; cbn [split_dots].
  - exists [acc]. split; [reflexivity|]. split; [discriminate|]. split; [repeat constructor; exact FA|]. cbn [with_dots]. apply app_nil_r.
  - pose proof (Forall_inv F) as FX. destruct (x =? 46) eqn:E.
    + destruct (IH (Forall_inv_tail F) [] (Forall_nil _)) as (ts & -> & N & FT & E2). exists (acc :: ts). split; [reflexivity|]. split; [discriminate|].
      split; [constructor; assumption|]. cbn [app] in E2. assert (x = 46) by lia. subst x. destruct ts; [contradiction|]. rewrite with_dots_cons, <- E2. reflexivity.
    + destruct (IH (Forall_inv_tail F) (acc ++ [x])) as (ts & -> & N & FT & E2).
      { apply Forall_app. split; [exact FA|]. constructor; [|constructor]. destruct FX; [assumption|lia]. }
      exists ts. split; [reflexivity|]. split; [exact N|]. split; [exact FT|]. rewrite <- E2, <- app_assoc. reflexivity.
Qed.
Lemma plain_num_oct : forall s acc, Forall digit s ->
  (Forall octal s -> plain_num 8 s acc = Some (fold_left (fun a c => a * 8 + (c - 48)) s acc)) /\
  (forall n, plain_num 8 s acc = Some n -> Forall octal s).
Proof.
  induction s as [|c s IH]; intros acc F; cbn [plain_num fold_left]; [split; [reflexivity|constructor]|].
  pose proof (Forall_inv F) as FC. rewrite (digit_val_num c FC). unfold digit in FC. destruct (IH (acc * 8 + (c - 48)) (Forall_inv_tail F)) as (I1 & I2). split.
  - intros FO. pose proof (Forall_inv FO) as C. unfold octal in C. replace (c - 48 <? 8) with true by lia. apply I1. exact (Forall_inv_tail FO).
  - intros n H. destruct (c - 48 <? 8) eqn:E; [|discriminate]. constructor; [unfold octal; lia|eauto].
Qed.
Lemma ip_number_read : forall n s, ip_number n s -> addr_part s = Some n.
Proof.
  intros n s ((NE & F) & [(H & <-)|(H & FO & <-)]); (destruct s as [|c s]; [contradiction|]); cbn [addr_part hd] in *.
  - replace (c =? 48) with false by lia. apply plain_num_dec. exact F.
  - replace (c =? 48) with true by lia. apply plain_num_oct; assumption.
Qed.
Lemma ip_number_ok : forall n s, Forall digit s -> addr_part s = Some n -> ip_number n s.
Proof.
  intros n s F H. destruct s as [|c s]; [discriminate|]. cbn [addr_part] in H. split; [split; [discriminate|exact F]|]. cbn [hd]. destruct (c =? 48) eqn:E.
  - right. split; [lia|]. destruct (plain_num_oct (c :: s) 0 F) as (O1 & O2). pose proof (O2 _ H) as FO. split; [exact FO|]. rewrite (O1 FO) in H. congruence.
  - left. split; [lia|]. rewrite plain_num_dec in H by exact F. unfold num. congruence.
Qed.
Lemma ip_number_ge : forall n s, ip_number n s -> 0 <= n.
Proof.
  assert (G : forall b s acc, 0 <= acc -> 0 <= b -> Forall digit s -> 0 <= fold_left (fun a c => a * b + (c - 48)) s acc).
  { intros b s. induction s as [|c s IH]; intros acc A B F; cbn [fold_left]; [exact A|]. pose proof (Forall_inv F) as FC. unfold digit in FC.
    apply IH; [nia|exact B|exact (Forall_inv_tail F)]. }
  intros n s ((NE & F) & [(H & <-)|(H & FO & <-)]); apply G; (lia || exact F).
Qed.
Lemma hf1 : forall a, high_first [a] = a. Proof. reflexivity. Qed.
Lemma ip_text_read : forall q a b c d, ip_text q [a; b; c; d] -> inet_addr q = a + 256 * (b + 256 * (c + 256 * d)).
Proof.
  intros q a b c d (_ & FB & ts & k & -> & K & F2).
  assert (A : 0 <= a <= 255) by (inversion FB; assumption). assert (B : 0 <= b <= 255) by (inversion FB as [|? ? ? X]; inversion X; assumption).
  assert (C : 0 <= c <= 255) by (inversion FB as [|? ? ? X]; inversion X as [|? ? ? Y]; inversion Y; assumption).
  assert (D : 0 <= d <= 255) by (inversion FB as [|? ? ? X]; inversion X as [|? ? ? Y]; inversion Y as [|? ? ? W]; inversion W; assumption).
  assert (NE : ts <> []) by (intros ->; destruct k; inversion F2).
  assert (FD : Forall (Forall digit) ts).
  { clear -F2. induction F2 as [|n t ns ts P F2 IH]; constructor; [exact (proj2 (proj1 P))|exact IH]. }
  assert (MP : map addr_part ts = map Some (firstn k [a; b; c; d] ++ [high_first (skipn k [a; b; c; d])])).
  { clear -F2. induction F2 as [|n t ns ts P F2 IH]; [reflexivity|]. cbn [map]. rewrite (ip_number_read _ _ P), IH. reflexivity. }
  unfold inet_addr. cbv zeta. rewrite split_with_dots, MP by assumption. clear MP F2 FD NE.
  destruct k as [|[|[|[|k]]]]; [| | | |lia]; cbn [firstn skipn app map]; unfold high_first; cbn [fold_left byte_part];
    rewrite <- (swap32_bytes a b c d A B C D); change (2 ^ 32) with 4294967296; change (2 ^ 24) with 16777216; change (2 ^ 16) with 65536; change (2 ^ 8) with 256.
  - replace (_ <? 4294967296) with true by lia. f_equal. lia.
  - replace (a <? 256) with true by lia. replace (_ <? 16777216) with true by lia. f_equal. lia.
  - replace (a <? 256) with true by lia. replace (b <? 256) with true by lia. replace (_ <? 65536) with true by lia. f_equal. lia.
  - replace (a <? 256) with true by lia. replace (b <? 256) with true by lia. replace (c <? 256) with true by lia. replace (0 * 256 + d <? 256) with true by lia. f_equal.
Qed.
Lemma byte_some : forall o v, byte_part o = Some v -> o = Some v /\ v < 256.
Proof. intros [x|] v H; cbn [byte_part] in H; [|discriminate]. destruct (x <? 256) eqn:E; [|discriminate]. injection H as <-. split; [reflexivity|lia]. Qed.
Lemma bytes_of : forall n, exists x y z w, 0 <= y <= 255 /\ 0 <= z <= 255 /\ 0 <= w <= 255 /\ n = ((x * 256 + y) * 256 + z) * 256 + w /\
  x = n / 16777216.
Proof.
  intros n. exists (n / 16777216), (n / 65536 mod 256), (n / 256 mod 256), (n mod 256).
  pose proof (Z.mod_pos_bound (n / 65536) 256). pose proof (Z.mod_pos_bound (n / 256) 256). pose proof (Z.mod_pos_bound n 256).
  split; [lia|]. split; [lia|]. split; [lia|]. split; [|reflexivity].
  pose proof (Z.div_mod n 256 ltac:(lia)). pose proof (Z.div_mod (n / 256) 256 ltac:(lia)). pose proof (Z.div_mod (n / 65536) 256 ltac:(lia)).
  replace (n / 16777216) with (n / 65536 / 256) by (rewrite Z.div_div by lia; reflexivity).
  assert (n / 65536 = n / 256 / 256) by (rewrite Z.div_div by lia; reflexivity). lia.
Qed.
Lemma ip_none : forall q, Forall (fun x => digit x \/ x = 46) q -> (forall bs, ~ ip_text q bs) -> inet_addr q = 4294967295.
Proof.
  intros q F N. destruct (dotted_split q F [] (Forall_nil _)) as (ts & SP & NE & FD & E). cbn [app] in E.
  assert (P : forall bs k ns, zlen bs = 4 -> Forall (fun b => 0 <= b <= 255) bs -> (k < 4)%nat -> ns = firstn k bs ++ [high_first (skipn k bs)] -> map addr_part ts = map Some ns -> False).
  { intros bs k ns Z4 FB K -> M. apply (N bs). split; [exact Z4|]. split; [exact FB|]. exists ts, k. split; [exact E|]. split; [exact K|].
    clear -M FD. revert M. generalize (firstn k bs ++ [high_first (skipn k bs)]). revert FD. induction ts as [|t ts IH]; intros FD [|n ns] M; try discriminate; constructor.
    - injection M as M _. apply ip_number_ok; [exact (Forall_inv FD)|exact M].
    - injection M as _ M. apply IH; [exact (Forall_inv_tail FD)|exact M]. }
  assert (GE : forall o, In o (map addr_part ts) -> forall n, o = Some n -> 0 <= n).
  { intros o I n ->. apply in_map_iff in I as (t & T & I). rewrite Forall_forall in FD. exact (ip_number_ge n t (ip_number_ok n t (FD t I) T)). }
  unfold inet_addr. cbv zeta. rewrite SP. clear SP N F E.
  match goal with |- match ?r with Some v => swap32 v | None => _ end = _ => destruct r as [v|] eqn:R end; [exfalso|reflexivity].
  destruct (map addr_part ts) as [|[a|] [|b [|c [|d [|? ?]]]]]; try discriminate R;
    try (destruct b; try destruct c; discriminate R).
  - destruct (a <? 2 ^ 32) eqn:L; [|discriminate R]. change (2 ^ 32) with 4294967296 in L. pose proof (GE (Some a) ltac:(cbn; auto) a eq_refl). destruct (bytes_of a) as (x & y & z & w & Y & Z & W & EA & EX).
    apply (P [x; y; z; w] 0%nat [a]); [reflexivity| |lia| |reflexivity].
    + assert (0 <= x <= 255) by lia. repeat (constructor; [assumption|]). constructor.
    + cbn [firstn skipn app]. unfold high_first. cbn [fold_left]. f_equal. lia.
  - destruct b as [b|]; [|discriminate R]. destruct (byte_part (Some a)) as [a'|] eqn:A; [|discriminate R]. apply byte_some in A as (A & LA). injection A as <-.
    destruct (b <? 2 ^ 24) eqn:L; [|discriminate R]. change (2 ^ 24) with 16777216 in L. pose proof (GE (Some a) ltac:(cbn; auto) a eq_refl). pose proof (GE (Some b) ltac:(cbn; auto) b eq_refl).
    destruct (bytes_of b) as (x & y & z & w & Y & Z & W & EA & EX). assert (x = 0) by lia.
    apply (P [a; y; z; w] 1%nat [a; b]); [reflexivity| |lia| |reflexivity].
    + constructor; [lia|]. repeat (constructor; [assumption|]). constructor.
    + cbn [firstn skipn app]. unfold high_first. cbn [fold_left]. do 2 f_equal. lia.
  - destruct b as [b|]; destruct c as [c|]; try discriminate R; try (cbn [byte_part] in R; destruct (a <? 256); discriminate R).
    destruct (byte_part (Some a)) as [a'|] eqn:A; [|discriminate R]. apply byte_some in A as (A & LA). injection A as <-.
    destruct (byte_part (Some b)) as [b1|] eqn:B; [|discriminate R]. apply byte_some in B as (B & LB). injection B as <-.
    destruct (c <? 2 ^ 16) eqn:L; [|discriminate R]. change (2 ^ 16) with 65536 in L. pose proof (GE (Some a) ltac:(cbn; auto) a eq_refl). pose proof (GE (Some b) ltac:(cbn; auto) b eq_refl). pose proof (GE (Some c) ltac:(cbn; auto) c eq_refl).
    destruct (bytes_of c) as (x & y & z & w & Y & Z & W & EA & EX). assert (x = 0) by lia. assert (y = 0) by lia.
    apply (P [a; b; z; w] 2%nat [a; b; c]); [reflexivity| |lia| |reflexivity].
    + constructor; [lia|]. constructor; [lia|]. repeat (constructor; [assumption|]). constructor.
    + cbn [firstn skipn app]. unfold high_first. cbn [fold_left]. do 3 f_equal. lia.
  - destruct b as [b|]; destruct c as [c|]; try discriminate R; try (cbn [byte_part] in R; destruct (a <? 256); try destruct (b <? 256); discriminate R).
    destruct (byte_part (Some a)) as [a'|] eqn:A; [|discriminate R]. apply byte_some in A as (A & LA). injection A as <-.
    destruct (byte_part (Some b)) as [b1|] eqn:B; [|discriminate R]. apply byte_some in B as (B & LB). injection B as <-. 
    destruct (byte_part (Some c)) as [c1|] eqn:C; [|discriminate R]. apply byte_some in C as (C & LC). injection C as <-.
    destruct (byte_part d) as [d'|] eqn:D; [|discriminate R]. apply byte_some in D as (-> & LD).
    pose proof (GE (Some a) ltac:(cbn; auto) a eq_refl). pose proof (GE (Some b) ltac:(cbn; auto) b eq_refl). pose proof (GE (Some c) ltac:(cbn; auto) c eq_refl). pose proof (GE (Some d') ltac:(cbn; auto) d' eq_refl).
    apply (P [a; b; c; d'] 3%nat [a; b; c; d']); [reflexivity| |lia| |reflexivity].
    + repeat (constructor; [lia|]). constructor.
    + cbn [firstn skipn app]. unfold high_first. cbn [fold_left]. reflexivity.
Qed.
