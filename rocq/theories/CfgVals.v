(* Single options: what the parser makes of key and value. *)
From Coq Require Import String ZArith List Bool Lia ZifyBool ZifyNat ZifyN.
From Verif Require Import Base BaseFacts LoggerState FileName ParseVal Lexer ParseCfg LexProofs TextSpec ValSpec ValProofs CfgSpec.
Import ListNotations.
Open Scope Z_scope.

(* ---- pick and fields ---- *)
Lemma pick_app : forall A B (f : A -> option B) l1 l2 d, pick f (l1 ++ l2) d = pick f l2 (pick f l1 d).
Proof. intros. unfold pick. apply fold_left_app. Qed.
Lemma field_snoc : forall l j v i, field (l ++ [(j, v)]) i = if j =? i then v else field l i.
Proof. intros. unfold field. rewrite pick_app. cbn [pick fold_left fst snd]. unfold pick. cbn [fold_left fst snd]. destruct (j =? i); reflexivity. Qed.
Lemma map_seq_same : forall (f g : nat -> Z) a n, (forall i, (a <= i < a + n)%nat -> f i = g i) -> map f (seq a n) = map g (seq a n).
Proof. intros f g a n H. apply map_ext_in. intros i I. apply in_seq in I. apply H. lia. Qed.
Lemma cput_fields : forall n j v l, 0 <= j < Z.of_nat n -> cput (fields l n) j v = fields (l ++ [(j, v)]) n.
Proof.
  intros n j v l J. unfold fields, cput. replace n with (Z.to_nat j + S (n - Z.to_nat j - 1))%nat by lia. rewrite !seq_app, !map_app. cbn [seq map Nat.add].
  set (A := map (fun i => field l (Z.of_nat i)) (seq 0 (Z.to_nat j))). set (B := map (fun i => field l (Z.of_nat i)) (seq (S (Z.to_nat j)) (n - Z.to_nat j - 1))).
  assert (LA : length A = Z.to_nat j) by (unfold A; rewrite map_length, seq_length; reflexivity).
  rewrite <- LA at 1. rewrite firstn_app, firstn_all, Nat.sub_diag. cbn [firstn]. rewrite app_nil_r.
  replace (S (Z.to_nat j)) with (length (A ++ [field l (Z.of_nat (Z.to_nat j))])) at 1 by (rewrite app_length; cbn [length]; lia).
  replace (A ++ field l (Z.of_nat (Z.to_nat j)) :: B) with ((A ++ [field l (Z.of_nat (Z.to_nat j))]) ++ B) by (rewrite <- app_assoc; reflexivity).
  rewrite skipn_app, skipn_all, Nat.sub_diag. cbn [skipn app]. f_equal; [|f_equal].
  - unfold A. apply map_seq_same. intros i I. rewrite field_snoc. replace (j =? Z.of_nat i) with false by lia. reflexivity.
  - rewrite field_snoc. replace (j =? Z.of_nat (Z.to_nat j)) with true by lia. reflexivity.
  - unfold B. apply map_seq_same. intros i I. rewrite field_snoc. replace (j =? Z.of_nat i) with false by lia. reflexivity.
Qed.

(* ---- bit lists as numbers ---- *)
Lemma in_bits_spec : forall l i, in_bits l i = true <-> listed l i.
Proof.
  intros l i. unfold in_bits, listed. rewrite existsb_exists. split; intros (x & I & H); exists x; (split; [exact I|]); destruct x; cbn [bits_in] in *; lia.
Qed.
Lemma bit_sum_S : forall l n, bit_sum l (S n) = bit_sum l n + (if in_bits l (Z.of_nat n) then 2 ^ Z.of_nat n else 0).
Proof. reflexivity. Qed.
Lemma bit_sum_spec : forall l n, 0 <= bit_sum l n < 2 ^ Z.of_nat n /\ forall i, 0 <= i -> Z.testbit (bit_sum l n) i = (i <? Z.of_nat n) && in_bits l i.
Proof.
  intros l n. induction n as [|n [R T]].
  - split; [cbn; lia|]. intros i I. change (bit_sum l 0) with 0. rewrite Z.bits_0. replace (i <? Z.of_nat 0) with false by lia. reflexivity.
  - assert (P : 2 ^ Z.of_nat (S n) = 2 * 2 ^ Z.of_nat n) by (rewrite Nat2Z.inj_succ, Z.pow_succ_r by lia; reflexivity).
    cbn [bit_sum]. destruct (in_bits l (Z.of_nat n)) eqn:E.
    + split; [lia|]. intros i I.
      assert (L : bit_sum l n + 2 ^ Z.of_nat n = Z.lor (bit_sum l n) (2 ^ Z.of_nat n)).
      { assert (L0 : Z.land (bit_sum l n) (2 ^ Z.of_nat n) = 0); [|rewrite Z.add_nocarry_lxor by exact L0; apply Z.lxor_lor, L0]. apply Z.bits_inj'. intros k K. rewrite Z.land_spec, Z.bits_0, T by exact K. rewrite Z.pow2_bits_eqb by lia.
        destruct (Z.of_nat n =? k) eqn:NK; [|apply andb_false_r]. replace (k <? Z.of_nat n) with false by lia. reflexivity. }
      rewrite L, Z.lor_spec, T by exact I. rewrite Z.pow2_bits_eqb by lia. destruct (Z.of_nat n =? i) eqn:NI.
      * rewrite orb_true_r. replace i with (Z.of_nat n) by lia. rewrite E. replace (Z.of_nat n <? Z.of_nat (S n)) with true by lia. reflexivity.
      * rewrite orb_false_r. f_equal. lia.
    + rewrite Z.add_0_r. split; [lia|]. intros i I. rewrite T by exact I. destruct (Z.of_nat n =? i) eqn:NI.
      * replace i with (Z.of_nat n) by lia. rewrite E, !andb_false_r. reflexivity.
      * f_equal. lia.
Qed.
Lemma ll_split : forall B (b : bool), 0 <= B < 2 ^ Z.of_nat 63 -> ll_of (B + (if b then 2 ^ Z.of_nat 63 else 0)) = B - (if b then 2 ^ 63 else 0) /\
  ll_of (Z.lnot (B + (if b then 2 ^ Z.of_nat 63 else 0))) = -1 - (B - (if b then 2 ^ 63 else 0)).
Proof.
  intros B b R. unfold ll_of, Z.lnot. change (2 ^ Z.of_nat 63) with 9223372036854775808 in *. change (2 ^ 63) with 9223372036854775808. change (2 ^ 64) with 18446744073709551616. split.
  - destruct b.
    + replace (B + 9223372036854775808 + 9223372036854775808) with (B + 1 * 18446744073709551616) by lia. rewrite Z_mod_plus_full, Z.mod_small by lia. lia.
    + rewrite Z.mod_small by lia. lia.
  - destruct b.
    + replace (Z.pred (- (B + 9223372036854775808)) + 9223372036854775808) with ((18446744073709551615 - B) + (-1) * 18446744073709551616) by lia. rewrite Z_mod_plus_full, Z.mod_small by lia. lia.
    + rewrite Z.mod_small by lia. lia.
Qed.
Lemma white_read : forall l t rest e, list_text l t -> Forall bits_ok l -> ends_number rest -> as_ll (parse_bit_array e t rest) = Ret (white l) /\ flip (parse_bit_array e t rest) = Ret (black l).
Proof.
  intros l t rest e LT OK ER. destruct (bit_list l t rest e LT OK ER) as (m & M1 & M2 & M3).
  assert (E : m = bit_sum l 64).
  { destruct (bit_sum_spec l 64) as [B1 B2]. apply Z.bits_inj'. intros i I. rewrite B2 by exact I. destruct (i <? Z.of_nat 64) eqn:L.
    - cbn [andb]. apply Bool.eq_true_iff_eq. rewrite in_bits_spec. apply M3, I.
    - cbn [andb]. destruct (Z.eq_dec m 0) as [->|NZ]; [apply Z.bits_0|]. apply Z.bits_above_log2; [lia|]. assert (Z.log2 m < 64) by (apply Z.log2_lt_pow2; lia). lia. }
  destruct (bit_sum_spec l 63) as [R _]. rewrite (bit_sum_S l 63) in E.
  destruct (ll_split (bit_sum l 63) (in_bits l (Z.of_nat 63)) R) as [L1 L2]. unfold as_ll, flip. rewrite M1, E. cbn [bind]. rewrite L1, L2. assert (Z63 : Z.of_nat 63 = 63) by reflexivity. rewrite Z63. unfold black, white. split; reflexivity.
Qed.

(* ---- numbers ---- *)
Lemma amount_split : forall n v r, amount n v -> ends_number r -> exists s r', v ++ r = s ++ r' /\ decimal n s /\ ends_number r'.
Proof.
  intros n v r (s & u & -> & D & U) E. exists s, (u ++ r). split; [rewrite <- app_assoc; reflexivity|]. split; [exact D|]. destruct u as [|c u]; [exact E|].
  exists c, (u ++ r). split; [reflexivity|exact (U c u eq_refl)].
Qed.
Lemma amount_ll : forall n v r, amount n v -> ends_number r -> in_ll n -> atoll (v ++ r) = Ret n.
Proof. intros n v r A E R. destruct (amount_split n v r A E) as (s & r' & -> & D & E'). apply atoll_read; assumption. Qed.
Lemma amount_int : forall n v r, amount n v -> ends_number r -> in_int n -> atoi (v ++ r) = Ret n.
Proof. intros n v r A E R. destruct (amount_split n v r A E) as (s & r' & -> & D & E'). apply atoi_read; assumption. Qed.
Lemma flip_ll : forall n, in_ll n -> flip (Ret n) = Ret (-1 - n).
Proof. intros n R. unfold flip. cbn [bind]. f_equal. unfold ll_of, in_ll in *. unfold Z.lnot. change (2 ^ 63) with 9223372036854775808 in *. change (2 ^ 64) with 18446744073709551616. rewrite Z.mod_small by lia. lia. Qed.
Lemma hex_val : forall c d, hex_digit c d -> digit_val c = d /\ 0 <= d < 16.
Proof. intros c d H. unfold hex_digit, digit, digit_val, is_number in *. destruct ((48 <=? c) && (c <=? 57)) eqn:A; [lia|]. destruct ((97 <=? c) && (c <=? 102)) eqn:B; [lia|]. destruct ((65 <=? c) && (c <=? 70)) eqn:C; lia. Qed.
Lemma hex_read : forall n s, hex_text n s -> forall acc r, (forall c q, r = c :: q -> 16 <= digit_val c) -> r <> [] -> digits_of 16 (s ++ r) acc = Ret (acc * 16 ^ zlen s + n).
Proof.
  intros n s H. assert (G : forall acc r, digits_of 16 (s ++ r) acc = digits_of 16 r (acc * 16 ^ zlen s + n) ).
  { induction H as [c d D|n s c d H IH D]; intros acc r.
    - destruct (hex_val c d D) as [V R]. cbn [app digits_of]. rewrite V. replace (d <? 16) with true by lia. replace (acc * 16 ^ zlen [c] + d) with (acc * 16 + d) by (change (zlen [c]) with 1; lia). reflexivity.
    - destruct (hex_val c d D) as [V R]. rewrite <- app_assoc. rewrite IH. cbn [app digits_of]. rewrite V. replace (d <? 16) with true by lia. f_equal.
      rewrite zlen_app. change (zlen [c]) with 1. rewrite Z.pow_add_r by (try apply zlen_nonneg; lia). lia. }
  intros acc r E N. rewrite G. destruct r as [|c q]; [contradiction|]. cbn [digits_of]. specialize (E c q eq_refl). replace (digit_val c <? 16) with false by lia. reflexivity.
Qed.
Lemma hex_head : forall n s, hex_text n s -> exists c r d, s = c :: r /\ hex_digit c d.
Proof. intros n s H. induction H as [c d D|n s c d H (c0 & r & d0 & -> & D0) D]; [exists c, [], d; auto|]. exists c0, (r ++ [c]), d0. auto. Qed.
Lemma number_read : forall n v, number_text n v -> 0 <= n < 2 ^ 63 -> parse_number v = Ret n.
Proof.
  intros n v [H LV] R. unfold parse_number. destruct H as [(s & H & ->)|((DN & DF) & N & H0)].
  - replace (40 <? zlen (48 :: 120 :: s)) with false by lia. destruct (hex_head n s H) as (c & r & d & E & D). destruct (hex_val c d D) as [V VR].
    unfold strtoll0. cbn [app skip_spaces]. change (is_space 48) with false. cbv iota. change (48 =? 45) with false. change (48 =? 43) with false. cbv iota.
    unfold auto_base. change (48 =? 48) with true. cbv iota. rewrite E. cbn [app]. change ((120 =? 120) || (120 =? 88)) with true. cbn [andb]. rewrite V. replace (d <? 16) with true by lia.
    replace (c :: r ++ [0]) with (s ++ [0]) by (rewrite E; reflexivity). rewrite (hex_read n s H 0 [0]); [|intros c' q X; injection X as <- _; vm_compute; discriminate|discriminate].
    cbn [bind]. rewrite Z.mul_0_l, Z.add_0_l. rewrite clamp_id by lia. reflexivity.
  - destruct v as [|c v]; [contradiction|]. replace (40 <? zlen (c :: v)) with false by lia. pose proof (Forall_inv DF) as C. unfold digit in C.
    unfold strtoll0. cbn [app skip_spaces]. replace (is_space c) with false by (unfold is_space; lia). replace (c =? 45) with false by lia. replace (c =? 43) with false by lia.
    unfold auto_base. destruct (c =? 48) eqn:C0.
    + assert (E : c :: v = [48]) by (apply H0; cbn [hd]; lia). injection E as -> ->. cbn [app]. cbn [digits_of]. change (digit_val 48 <? 8) with true. cbv iota. change (digit_val 0 <? 8) with false. cbv iota. cbn [bind]. rewrite <- N. reflexivity.
    + change (c :: v ++ [0]) with ((c :: v) ++ [0]). rewrite digits_of_num; [|exact DF|exists 0, []; split; [reflexivity|unfold digit; lia]].
      cbn [bind]. fold (num (c :: v)). rewrite N, clamp_id by lia. reflexivity.
Qed.

(* ---- device options ---- *)
Definition wsel {A} (w : which) (a b : A) : A := match w with Category => a | Identify => b end.
Definition fkey (f : fopt) : Z :=
  match f with
  | FPriority _ => RK_PRIORITY
  | FBase w _ => wsel w RK_CATEGORY RK_IDENTIFY
  | FExtend w _ => wsel w RK_CATEGORY_EXTEND RK_IDENTIFY_EXTEND
  | FWmask w _ => wsel w RK_CATEGORY_WMASK RK_IDENTIFY_WMASK
  | FBmask w _ => wsel w RK_CATEGORY_BMASK RK_IDENTIFY_BMASK
  | FWlist w _ => wsel w RK_CATEGORY_WLIST RK_IDENTIFY_WLIST
  | FBlist w _ => wsel w RK_CATEGORY_BLIST RK_IDENTIFY_BLIST
  end.
Definition dkey (o : dopt) : Z :=
  match o with
  | DFilter f => fkey f
  | DIn => RK_IN_TYPE
  | DOut _ => RK_OUT_TYPE
  | DDisable _ => RK_DISABLE
  | DLimit _ => RK_LIMIT_SIZE
  | DRollback _ => RK_ROLLBACK
  | DDaily _ => RK_ROLLDAILY
  | DHourly _ => RK_ROLLHOURLY
  | DStuff _ => RK_FILE_STUFF_UP
  | DPath _ => RK_PATH
  | DFile _ => RK_FILE
  | DUdp _ _ _ _ _ => RK_UDP_ADDR
  end.
Definition ckey (o : copt) : Z := match o with CFilter f => fkey f | CSync _ => RK_SYNC end.
Lemma fkey_spec : forall f k v, fwrite f k v -> parse_reserve k = Ret (fkey f) /\ fkey f <> RK_NULL /\ fkey f <> RK_DEVICE.
Proof. intros f k v H. destruct f as [p|w n|w n|w n|w n|w l|w l]; try destruct w; destruct H as [-> _]; (split; [vm_compute; reflexivity|split; discriminate]). Qed.
Lemma dkey_spec : forall o k v, dwrite o k v -> parse_reserve k = Ret (dkey o) /\ dkey o <> RK_NULL.
Proof.
  intros o k v H. destruct o; cbn [dwrite dkey] in *; [destruct (fkey_spec _ _ _ H) as (A & B & _); split; assumption|..]; destruct H as [-> _]; (split; [vm_compute; reflexivity|discriminate]).
Qed.
Lemma ckey_spec : forall o k v, cwrite o k v -> parse_reserve k = Ret (ckey o) /\ ckey o <> RK_NULL /\ ckey o <> RK_DEVICE.
Proof. intros o k v H. destruct o; cbn [cwrite ckey] in *; [exact (fkey_spec _ _ _ H)|]. destruct H as [-> _]. split; [vm_compute; reflexivity|split; discriminate]. Qed.
Lemma priority_read : forall p v, priority_words p v -> parse_priority v = p.
Proof. intros p v (s & I & ->). cbn [In] in I. repeat (destruct I as [I|I]; [injection I as <- <-; reflexivity|]). destruct I. Qed.
Lemma out_read : forall t v, out_words t v -> parse_out_type v = t /\ (t =? DEVICE_OUT_NULL) = false.
Proof. intros t v (s & I & ->). cbn [In] in I. repeat (destruct I as [I|I]; [injection I as <- <-; split; reflexivity|]). destruct I. Qed.
Lemma yes_no_read : forall b v, yes_no b v -> parse_bool v = b.
Proof. intros b v (s & I & ->). destruct b; cbn [yes_words In] in I; repeat (destruct I as [<-|I]; [reflexivity|]); destruct I. Qed.

Lemma want_dev_put : forall id os o j v, 0 <= j < 15 -> dsets o = [(j, v)] ->
  (match o with DIn | DOut _ | DPath _ | DFile _ => False | _ => True end) ->
  dput (want_dev id os) j v = want_dev id (os ++ [o]).
Proof.
  intros id os o j v J S N. unfold dput, want_dev. cbn [pd_id pd_in pd_out pd_cfg pd_file pd_path]. rewrite !pick_app, flat_map_app. cbn [flat_map]. rewrite app_nil_r, S.
  rewrite cput_fields by lia. destruct o; try contradiction; reflexivity.
Qed.
Lemma put_dev : forall id os o j v x, x = Ret v -> 0 <= j < 15 -> dsets o = [(j, v)] ->
  (match o with DIn | DOut _ | DPath _ | DFile _ => False | _ => True end) ->
  put (want_dev id os) j x = Ret (PEC_NONE, want_dev id (os ++ [o])).
Proof. intros id os o j v x -> J S N. unfold put. cbn [bind]. rewrite (want_dev_put id os o j v J S N). reflexivity. Qed.
Ltac slot := unfold DEVICE_CFG_ABLE, DEVICE_CFG_PRIORITY, DEVICE_CFG_CATEGORY, DEVICE_CFG_CATEGORY_EXTEND, DEVICE_CFG_CATEGORY_MASK, DEVICE_CFG_IDENTIFY, DEVICE_CFG_IDENTIFY_EXTEND,
  DEVICE_CFG_IDENTIFY_MASK, DEVICE_CFG_FILE_LIMIT_SIZE, DEVICE_CFG_FILE_ROLLBACK, DEVICE_CFG_FILE_ROLLDAILY, DEVICE_CFG_FILE_ROLLHOURLY, DEVICE_CFG_FILE_STUFF_UP,
  CHANNEL_CFG_PRIORITY, CHANNEL_CFG_CATEGORY, CHANNEL_CFG_CATEGORY_EXTEND, CHANNEL_CFG_CATEGORY_MASK, CHANNEL_CFG_IDENTIFY, CHANNEL_CFG_IDENTIFY_EXTEND, CHANNEL_CFG_IDENTIFY_MASK; lia.
Lemma dev_filter : forall e id os f k v r, fwrite f k v -> fopt_ok in_ll f -> ends_number r ->
  device_key e (want_dev id os) (fkey f) v (v ++ r) r = Ret (PEC_NONE, want_dev id (os ++ [DFilter f])).
Proof.
  intros e id os f k v r W OK E. set (D := want_dev id os). destruct f as [p|w n|w n|w n|w n|w l|w l]; destruct W as [_ W]; cbn [fopt_ok] in OK.
  - change (device_key e D (fkey (FPriority p)) v (v ++ r) r) with (put D DEVICE_CFG_PRIORITY (Ret (parse_priority v))).
    eapply put_dev; [rewrite (priority_read p v W); reflexivity|slot|reflexivity|exact Logic.I].
  - pose proof (amount_ll n v r W E OK) as A. destruct w.
    + change (device_key e D (fkey (FBase Category n)) v (v ++ r) r) with (put D DEVICE_CFG_CATEGORY (atoll (v ++ r))). eapply put_dev; [exact A|slot|reflexivity|exact Logic.I].
    + change (device_key e D (fkey (FBase Identify n)) v (v ++ r) r) with (put D DEVICE_CFG_IDENTIFY (atoll (v ++ r))). eapply put_dev; [exact A|slot|reflexivity|exact Logic.I].
  - pose proof (amount_ll n v r W E OK) as A. destruct w.
    + change (device_key e D (fkey (FExtend Category n)) v (v ++ r) r) with (put D DEVICE_CFG_CATEGORY_EXTEND (atoll (v ++ r))). eapply put_dev; [exact A|slot|reflexivity|exact Logic.I].
    + change (device_key e D (fkey (FExtend Identify n)) v (v ++ r) r) with (put D DEVICE_CFG_IDENTIFY_EXTEND (atoll (v ++ r))). eapply put_dev; [exact A|slot|reflexivity|exact Logic.I].
  - pose proof (amount_ll n v r W E OK) as A. destruct w.
    + change (device_key e D (fkey (FWmask Category n)) v (v ++ r) r) with (put D DEVICE_CFG_CATEGORY_MASK (atoll (v ++ r))). eapply put_dev; [exact A|slot|reflexivity|exact Logic.I].
    + change (device_key e D (fkey (FWmask Identify n)) v (v ++ r) r) with (put D DEVICE_CFG_IDENTIFY_MASK (atoll (v ++ r))). eapply put_dev; [exact A|slot|reflexivity|exact Logic.I].
  - pose proof (amount_ll n v r W E OK) as A. pose proof (flip_ll n OK) as F. rewrite <- A in F. destruct w.
    + change (device_key e D (fkey (FBmask Category n)) v (v ++ r) r) with (put D DEVICE_CFG_CATEGORY_MASK (flip (atoll (v ++ r)))). eapply put_dev; [exact F|slot|reflexivity|exact Logic.I].
    + change (device_key e D (fkey (FBmask Identify n)) v (v ++ r) r) with (put D DEVICE_CFG_IDENTIFY_MASK (flip (atoll (v ++ r)))). eapply put_dev; [exact F|slot|reflexivity|exact Logic.I].
  - destruct (white_read l v r e W OK E) as [F _]. destruct w.
    + change (device_key e D (fkey (FWlist Category l)) v (v ++ r) r) with (put D DEVICE_CFG_CATEGORY_MASK (as_ll (parse_bit_array e v r))). eapply put_dev; [exact F|slot|reflexivity|exact Logic.I].
    + change (device_key e D (fkey (FWlist Identify l)) v (v ++ r) r) with (put D DEVICE_CFG_IDENTIFY_MASK (as_ll (parse_bit_array e v r))). eapply put_dev; [exact F|slot|reflexivity|exact Logic.I].
  - destruct (white_read l v r e W OK E) as [_ F]. destruct w.
    + change (device_key e D (fkey (FBlist Category l)) v (v ++ r) r) with (put D DEVICE_CFG_CATEGORY_MASK (flip (parse_bit_array e v r))). eapply put_dev; [exact F|slot|reflexivity|exact Logic.I].
    + change (device_key e D (fkey (FBlist Identify l)) v (v ++ r) r) with (put D DEVICE_CFG_IDENTIFY_MASK (flip (parse_bit_array e v r))). eapply put_dev; [exact F|slot|reflexivity|exact Logic.I].
Qed.
Lemma limit_read : forall e n v r, amount n v -> ends_number r -> in_ll (n * 1000000) -> limit_size e (atoll (v ++ r)) = Ret (n * 1000000).
Proof.
  intros e n v r A E R. unfold limit_size. unfold in_ll in R. change (2 ^ 63) with 9223372036854775808 in R. rewrite (amount_ll n v r A E) by (unfold in_ll; change (2 ^ 63) with 9223372036854775808; lia). cbn [bind].
  unfold LLONG_MIN, LLONG_MAX. match goal with |- context [if ?c then _ else _] => replace c with true end; [f_equal; lia|].
  symmetry. change (2 ^ 63) with 9223372036854775808. lia.
Qed.
Lemma dev_opt : forall e id os o k v r, dwrite o k v -> dopt_ok o -> ends_number r ->
  device_key e (want_dev id os) (dkey o) v (v ++ r) r = Ret (PEC_NONE, want_dev id (os ++ [o])).
Proof.
  intros e id os o k v r W OK E. set (D := want_dev id os). destruct o as [f| |t|b|n|n|b|b|b|p|p|a b c d port]; cbn [dwrite dopt_ok] in *.
  - exact (dev_filter e id os f k v r W OK E).
  - assert (X : device_key e D (dkey DIn) v (v ++ r) r = Ret (PEC_NONE, mkPdev (pd_id D) DEVICE_IN_UDP (pd_out D) (pd_cfg D) (pd_file D) (pd_path D))) by (destruct W as [_ [->| ->]]; reflexivity).
    rewrite X. unfold D, want_dev. cbn [pd_id pd_in pd_out pd_cfg pd_file pd_path]. rewrite !pick_app, flat_map_app. cbn [flat_map dsets app]. rewrite app_nil_r. reflexivity.
  - destruct W as [_ W]. destruct (out_read t v W) as [O1 O2].
    change (device_key e D (dkey (DOut t)) v (v ++ r) r) with (Ret (if parse_out_type v =? DEVICE_OUT_NULL then PEC_UNDEFINED_DEVICE_TYPE else PEC_NONE, mkPdev (pd_id D) (pd_in D) (parse_out_type v) (pd_cfg D) (pd_file D) (pd_path D)) : outcome (Z * pdev)).
    rewrite O1, O2. unfold D, want_dev. cbn [pd_id pd_in pd_out pd_cfg pd_file pd_path]. rewrite !pick_app, flat_map_app. cbn [flat_map dsets app]. rewrite app_nil_r. reflexivity.
  - destruct W as [_ W]. change (device_key e D (dkey (DDisable b)) v (v ++ r) r) with (put D DEVICE_CFG_ABLE (Ret (bool_of (negb (parse_bool v))))).
    eapply put_dev; [rewrite (yes_no_read b v W); reflexivity|slot|reflexivity|exact Logic.I].
  - destruct W as [_ W]. change (device_key e D (dkey (DLimit n)) v (v ++ r) r) with (put D DEVICE_CFG_FILE_LIMIT_SIZE (limit_size e (atoll (v ++ r)))).
    eapply put_dev; [exact (limit_read e n v r W E OK)|slot|reflexivity|exact Logic.I].
  - destruct W as [_ W]. change (device_key e D (dkey (DRollback n)) v (v ++ r) r) with (put D DEVICE_CFG_FILE_ROLLBACK (atoll (v ++ r))).
    eapply put_dev; [exact (amount_ll n v r W E OK)|slot|reflexivity|exact Logic.I].
  - destruct W as [_ W]. change (device_key e D (dkey (DDaily b)) v (v ++ r) r) with (put D DEVICE_CFG_FILE_ROLLDAILY (Ret (bool_of (parse_bool v)))).
    eapply put_dev; [rewrite (yes_no_read b v W); reflexivity|slot|reflexivity|exact Logic.I].
  - destruct W as [_ W]. change (device_key e D (dkey (DHourly b)) v (v ++ r) r) with (put D DEVICE_CFG_FILE_ROLLHOURLY (Ret (bool_of (parse_bool v)))).
    eapply put_dev; [rewrite (yes_no_read b v W); reflexivity|slot|reflexivity|exact Logic.I].
  - destruct W as [_ W]. change (device_key e D (dkey (DStuff b)) v (v ++ r) r) with (put D DEVICE_CFG_FILE_STUFF_UP (Ret (bool_of (parse_bool v)))).
    eapply put_dev; [rewrite (yes_no_read b v W); reflexivity|slot|reflexivity|exact Logic.I].
  - destruct W as [_ ->]. change (device_key e D (dkey (DPath p)) p (p ++ r) r) with (Ret (PEC_NONE, if (zlen p <? 200 - 1) && (1 <=? zlen p) then mkPdev (pd_id D) (pd_in D) (pd_out D) (pd_cfg D) (pd_file D) p else D)).
    replace ((zlen p <? 200 - 1) && (1 <=? zlen p)) with true by lia. unfold D, want_dev. cbn [pd_id pd_in pd_out pd_cfg pd_file pd_path]. rewrite !pick_app, flat_map_app. cbn [flat_map dsets app]. rewrite app_nil_r. reflexivity.
  - destruct W as [_ ->]. change (device_key e D (dkey (DFile p)) p (p ++ r) r) with (Ret (PEC_NONE, if (zlen p <? 50 - 1) && (1 <=? zlen p) then mkPdev (pd_id D) (pd_in D) (pd_out D) (pd_cfg D) p (pd_path D) else D)).
    replace ((zlen p <? 50 - 1) && (1 <=? zlen p)) with true by lia. unfold D, want_dev. cbn [pd_id pd_in pd_out pd_cfg pd_file pd_path]. rewrite !pick_app, flat_map_app. cbn [flat_map dsets app]. rewrite app_nil_r. reflexivity.
  - destruct W as [_ W]. destruct OK as (OA & OB & OC & OD & NZ & OP). unfold byte in *.
    change (device_key e D (dkey (DUdp a b c d port)) v (v ++ r) r) with
      (let able := negb (fld (pd_cfg D) DEVICE_CFG_ABLE =? 0) in
       let! r := parse_address e v able in
       let '(ip, port) := r in
       let d := dput (dput D DEVICE_CFG_UDP_IP ip) DEVICE_CFG_UDP_PORT port in
       Ret (if able && (pd_in d =? DEVICE_IN_NULL) && (ip =? 0) then PEC_ILLEGAL_ADDR_IP else if able && (port =? 0) then PEC_ILLEGAL_ADDR_PORT else PEC_NONE, d)).
    cbv zeta. rewrite (address_read e a b c d port v _ W OA OB OC OD OP). cbn [bind].
    set (ip := a + 256 * (b + 256 * (c + 256 * d))). set (pt := port mod 256 * 256 + port / 256).
    assert (I0 : (ip =? 0) = false) by (unfold ip; lia). assert (P0 : (pt =? 0) = false) by (unfold pt; apply Z.eqb_neq; pose proof (Z.mod_pos_bound port 256); pose proof (Z.div_mod port 256); lia).
    rewrite I0, P0, !andb_false_r. f_equal. f_equal. unfold D, dput, want_dev. cbn [pd_id pd_in pd_out pd_cfg pd_file pd_path]. rewrite !pick_app, flat_map_app. cbn [flat_map dsets app].
    rewrite !cput_fields by (unfold DEVICE_CFG_UDP_IP, DEVICE_CFG_UDP_PORT; lia). rewrite <- app_assoc. reflexivity.
Qed.

(* ---- channel options ---- *)
Lemma want_devs_app : forall is1 is2 id, want_devs id (is1 ++ is2) = want_devs id is1 ++ want_devs (id + zlen (want_devs id is1)) is2.
Proof.
  induction is1 as [|[o|os] is1 IH]; intros is2 id; cbn [app want_devs].
  - change (zlen (@nil pdev)) with 0. rewrite Z.add_0_r. reflexivity.
  - apply IH.
  - cbn [app]. rewrite IH, zlen_cons. replace (id + 1 + zlen (want_devs (id + 1) is1)) with (id + (1 + zlen (want_devs (id + 1) is1))) by lia. reflexivity.
Qed.
Lemma want_chan_opt : forall id is o, want_chan id (is ++ [COpt o]) =
  mkPchan id (pick (fun o => match o with CSync b => Some (if b then CHANNEL_SYNC else CHANNEL_ASYNC) | _ => None end) [o] (pc_type (want_chan id is)))
    (pc_virtual (want_chan id is)) (fields (flat_map csets (copts is) ++ csets o) 7) (want_devs 0 is).
Proof.
  intros id is o. unfold want_chan. cbv zeta. unfold copts. rewrite !want_devs_app, !flat_map_app. cbn [want_devs flat_map app pc_type pc_virtual]. rewrite !app_nil_r, pick_app. reflexivity.
Qed.
Lemma want_chan_dev : forall id is os, want_chan id (is ++ [CDev os]) = add_dev (want_chan id is) (want_dev (zlen (want_devs 0 is)) os).
Proof.
  intros id is os. unfold want_chan, add_dev. cbv zeta. unfold copts. rewrite !want_devs_app, !flat_map_app. cbn [want_devs flat_map app pc_type pc_virtual pc_id pc_cfg pc_devs]. rewrite !app_nil_r, Z.add_0_l, pick_app. unfold pick at 2. cbn [fold_left]. destruct (pd_out _ =? _); reflexivity.
Qed.
Lemma put_chan : forall id is f j v x, x = Ret v -> 0 <= j < 7 -> csets (CFilter f) = [(j, v)] ->
  putc (want_chan id is) j x = Ret (PEC_NONE, want_chan id (is ++ [COpt (CFilter f)])).
Proof.
  intros id is f j v x -> J S. unfold putc. cbn [bind]. rewrite want_chan_opt, S. unfold cputc, want_chan. cbv zeta. cbn [pc_id pc_type pc_virtual pc_cfg pc_devs]. rewrite cput_fields by lia. reflexivity.
Qed.
Lemma chan_filter : forall e id is f k v r, fwrite f k v -> fopt_ok in_int f -> ends_number r ->
  channel_key e (want_chan id is) (fkey f) v (v ++ r) r = Ret (PEC_NONE, want_chan id (is ++ [COpt (CFilter f)])).
Proof.
  intros e id is f k v r W OK E. set (C := want_chan id is). destruct f as [p|w n|w n|w n|w n|w l|w l]; destruct W as [_ W]; cbn [fopt_ok] in OK.
  - change (channel_key e C (fkey (FPriority p)) v (v ++ r) r) with (putc C CHANNEL_CFG_PRIORITY (Ret (parse_priority v))).
    eapply put_chan; [rewrite (priority_read p v W); reflexivity|slot|reflexivity].
  - pose proof (amount_int n v r W E OK) as A. destruct w.
    + change (channel_key e C (fkey (FBase Category n)) v (v ++ r) r) with (putc C CHANNEL_CFG_CATEGORY (atoi (v ++ r))). eapply put_chan; [exact A|slot|reflexivity].
    + change (channel_key e C (fkey (FBase Identify n)) v (v ++ r) r) with (putc C CHANNEL_CFG_IDENTIFY (atoi (v ++ r))). eapply put_chan; [exact A|slot|reflexivity].
  - pose proof (amount_int n v r W E OK) as A. destruct w.
    + change (channel_key e C (fkey (FExtend Category n)) v (v ++ r) r) with (putc C CHANNEL_CFG_CATEGORY_EXTEND (atoi (v ++ r))). eapply put_chan; [exact A|slot|reflexivity].
    + change (channel_key e C (fkey (FExtend Identify n)) v (v ++ r) r) with (putc C CHANNEL_CFG_IDENTIFY_EXTEND (atoi (v ++ r))). eapply put_chan; [exact A|slot|reflexivity].
  - pose proof (amount_ll n v r W E OK) as A. destruct w.
    + change (channel_key e C (fkey (FWmask Category n)) v (v ++ r) r) with (putc C CHANNEL_CFG_CATEGORY_MASK (atoll (v ++ r))). eapply put_chan; [exact A|slot|reflexivity].
    + change (channel_key e C (fkey (FWmask Identify n)) v (v ++ r) r) with (putc C CHANNEL_CFG_IDENTIFY_MASK (atoll (v ++ r))). eapply put_chan; [exact A|slot|reflexivity].
  - pose proof (amount_ll n v r W E OK) as A. pose proof (flip_ll n OK) as F. rewrite <- A in F. destruct w.
    + change (channel_key e C (fkey (FBmask Category n)) v (v ++ r) r) with (putc C CHANNEL_CFG_CATEGORY_MASK (flip (atoll (v ++ r)))). eapply put_chan; [exact F|slot|reflexivity].
    + change (channel_key e C (fkey (FBmask Identify n)) v (v ++ r) r) with (putc C CHANNEL_CFG_IDENTIFY_MASK (flip (atoll (v ++ r)))). eapply put_chan; [exact F|slot|reflexivity].
  - destruct (white_read l v r e W OK E) as [F _]. destruct w.
    + change (channel_key e C (fkey (FWlist Category l)) v (v ++ r) r) with (putc C CHANNEL_CFG_CATEGORY_MASK (as_ll (parse_bit_array e v r))). eapply put_chan; [exact F|slot|reflexivity].
    + change (channel_key e C (fkey (FWlist Identify l)) v (v ++ r) r) with (putc C CHANNEL_CFG_IDENTIFY_MASK (as_ll (parse_bit_array e v r))). eapply put_chan; [exact F|slot|reflexivity].
  - destruct (white_read l v r e W OK E) as [_ F]. destruct w.
    + change (channel_key e C (fkey (FBlist Category l)) v (v ++ r) r) with (putc C CHANNEL_CFG_CATEGORY_MASK (flip (parse_bit_array e v r))). eapply put_chan; [exact F|slot|reflexivity].
    + change (channel_key e C (fkey (FBlist Identify l)) v (v ++ r) r) with (putc C CHANNEL_CFG_IDENTIFY_MASK (flip (parse_bit_array e v r))). eapply put_chan; [exact F|slot|reflexivity].
Qed.
Lemma chan_opt : forall e id is o k v r, cwrite o k v -> copt_ok o -> ends_number r ->
  channel_key e (want_chan id is) (ckey o) v (v ++ r) r = Ret (PEC_NONE, want_chan id (is ++ [COpt o])).
Proof.
  intros e id is o k v r W OK E. destruct o as [f|b]; cbn [cwrite copt_ok ckey] in *; [exact (chan_filter e id is f k v r W OK E)|].
  destruct W as [_ ->]. set (C := want_chan id is).
  change (channel_key e C RK_SYNC (s2z (if b then "sync"%string else "async"%string)) (s2z (if b then "sync"%string else "async"%string) ++ r) r) with
    (Ret (PEC_NONE, mkPchan (pc_id C) (parse_channel_type (s2z (if b then "sync"%string else "async"%string))) (pc_virtual C) (pc_cfg C) (pc_devs C))).
  rewrite want_chan_opt. cbn [csets]. rewrite app_nil_r. destruct b; reflexivity.
Qed.
