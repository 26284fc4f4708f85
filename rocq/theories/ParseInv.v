(* The parser above the lexer, on every text: where it stays, when it returns and
   what it delivers. *)
From Coq Require Import String ZArith List Bool Lia ZifyBool ZifyNat ZifyN.
From Verif Require Import Base BaseFacts LoggerState FileName ParseVal Lexer ParseCfg ParseSpec LexProofs ParseSafe.
Import ListNotations.
Open Scope Z_scope.

(* ---- a lexed line ---- *)
Record wfs (s : lstate) : Prop := mkWfs {
  ws_cur : 0 <= s_cur s <= zlen (s_text s);
  ws_end : zlen (s_text s) <= s_end s;
  ws_nz : forall i, (Z.of_nat i < s_cur s) -> nth i (s_text s) 1 <> 0
}.
(* s' is s further on in the same text *)
Definition moved (s s' : lstate) : Prop :=
  exists cur no, s' = set_cur s cur no /\ s_cur s <= cur /\ wfs s'.
Lemma moved_wfs : forall s s', moved s s' -> wfs s'.
Proof. intros s s' (c & n & -> & _ & H). exact H. Qed.
Lemma moved_refl : forall s, wfs s -> moved s s.
Proof. intros s W. exists (s_cur s), (s_no s). destruct s; cbn in *. split; [reflexivity|]. split; [lia|exact W]. Qed.
Lemma moved_back : forall s no, wfs s -> moved s (set_cur s (s_cur s) no).
Proof. intros s no W. exists (s_cur s), no. split; [reflexivity|]. split; [lia|]. destruct W; constructor; assumption. Qed.
Lemma moved_trans : forall a b c, moved a b -> moved b c -> moved a c.
Proof.
  intros a b c (c1 & n1 & -> & L1 & W1) (c2 & n2 & -> & L2 & W2). cbn in L2. exists c2, n2. split; [destruct a; reflexivity|]. split; [lia|exact W2].
Qed.
Lemma moved_set : forall s s' cur no, moved s s' -> set_cur s' cur no = set_cur s cur no.
Proof. intros s s' cur no (c & n & -> & _). destruct s; reflexivity. Qed.

(* texts on which every line makes progress, and fuel for the rest of the text *)
Definition enough (s : lstate) (fuel : nat) : Prop :=
  ~ In 0 (s_text s) /\ s_end s = zlen (s_text s) /\ 3 * zlen (s_text s) - s_cur s + 5 < Z.of_nat fuel.

Definition line_post (s : lstate) (r : Z * lstate * line) : Prop :=
  let '(code, s1, l) := r in
  (exists cur no, s1 = set_cur s cur no /\ s_cur s <= cur) /\
  (code = PEC_NONE -> moved s s1 /\ line_ok (s_cur s) (s_cur s1) l /\
     (~ In 0 (s_text s) -> s_cur s < s_end s -> s_end s = zlen (s_text s) -> s_cur s < s_cur s1)).

Lemma nth_of_rd : forall t i, 0 <= i < zlen t -> rd (t ++ [0]) i <> Ret 0 -> nth (Z.to_nat i) t 1 <> 0.
Proof.
  intros t i H R E. apply R. rewrite rd_app_l by lia. apply rd_ret; [lia|].
  rewrite (nth_error_nth' t 1) by (unfold zlen in H; lia). congruence.
Qed.

Lemma lex_at_ok : forall e fuel s, wfs s -> okx (zlen (s_text s) - s_cur s < Z.of_nat fuel) e (line_post s) (lex_at fuel s).
Proof.
  intros e fuel s W. unfold lex_at, buf. destruct W as [W1 W2 W3].
  assert (J := lex_inside (s_text s) fuel (s_cur s) (s_end s) W1).
  destruct (lex fuel (s_text s ++ [0]) (s_cur s) (s_end s)) as [[[[code cur] l] n]| |]; cbn [bind okx]; [|contradiction|lia].
  destruct J as [J1 J2]. unfold line_post. split. { exists cur, (s_no s + n). split; [reflexivity|lia]. }
  intros C. destruct (J2 C) as (K1 & K2 & K3 & K4). split; [|split].
  - exists cur, (s_no s + n). split; [reflexivity|]. split; [lia|]. constructor; cbn [set_cur s_cur s_text s_end]; [lia|exact W2|].
    intros i I. destruct (Z_lt_ge_dec (Z.of_nat i) (s_cur s)) as [L|L]; [apply W3; exact L|].
    rewrite <- (Nat2Z.id i). apply nth_of_rd; [lia|]. apply K3. lia.
  - exact K2.
  - intros N C1 E. cbn [set_cur s_cur]. destruct (Z.eq_dec (s_cur s) cur) as [E1|]; [|lia]. exfalso. specialize (K4 C1 E1).
    rewrite rd_app_l in K4 by lia. apply rd_inv in K4. destruct K4 as [_ K4]. apply nth_error_In in K4. auto.
Qed.

(* the value of a line that has a key *)
Definition vals_ok (v w rest : text) : Prop := ~ In 0 v /\ In 0 w /\ In 0 rest.
Lemma line_val_ok : forall s s1 l, wfs s -> moved s s1 -> line_ok (s_cur s) (s_cur s1) l -> (l_ke l - l_kb l =? 0) = false ->
  exists v w rest, line_val (buf s1) l = Ret (v, w, rest) /\ vals_ok v w rest /\ 0 <= l_ve l <= s_cur s1.
Proof.
  intros s s1 l W M L K. pose proof (moved_wfs _ _ M) as W1. destruct W as [Wc We Wz]. destruct W1 as [W1 W2 W3].
  destruct L as [(A & B & _)|(A & B & C)]; [rewrite A, B in K; discriminate K|].
  assert (LB : zlen (buf s1) = zlen (s_text s1) + 1) by (unfold buf; rewrite zlen_app; reflexivity).
  unfold line_val. rewrite !sub_ret by lia. cbn [bind].
  assert (IN : forall i, 0 <= i <= zlen (s_text s1) -> In 0 (firstn (Z.to_nat (zlen (buf s1) - i)) (skipn (Z.to_nat i) (buf s1)))).
  { intros i I. rewrite firstn_all2 by (rewrite skipn_length; unfold zlen in *; lia). unfold buf. rewrite skipn_app.
    apply in_app_iff. right. replace (Z.to_nat i - length (s_text s1))%nat with O by (unfold zlen in I; lia). left. reflexivity. }
  eexists _, _, _. split; [reflexivity|]. split; [|lia]. split; [|split; apply IN; lia].
  intros H. destruct (In_nth _ 0 1 H) as (i & I1 & I2).
  rewrite firstn_length, skipn_length in I1.
  assert (E : nth i (firstn (Z.to_nat (l_ve l - l_vb l)) (skipn (Z.to_nat (l_vb l)) (buf s1))) 1 = nth (Z.to_nat (l_vb l) + i) (s_text s1) 1).
  { unfold buf in *. rewrite <- (app_nth1 (s_text s1) [0] 1) by (unfold zlen in *; lia).
    rewrite <- (firstn_skipn (Z.to_nat (l_vb l)) (s_text s1 ++ [0])) at 2. rewrite app_nth2 by (rewrite firstn_length; lia).
    rewrite firstn_length_le by (unfold zlen in *; lia). replace (Z.to_nat (l_vb l) + i - Z.to_nat (l_vb l))%nat with i by lia.
    rewrite <- (firstn_skipn (Z.to_nat (l_ve l - l_vb l)) (skipn (Z.to_nat (l_vb l)) (s_text s1 ++ [0]))) at 2.
    rewrite app_nth1 by (rewrite firstn_length, skipn_length; lia). reflexivity. }
  rewrite E in I2. apply (W3 (Z.to_nat (l_vb l) + i)%nat); [lia|exact I2].
Qed.

(* ---- configuration fields ---- *)
Lemma cput_len : forall l i v, 0 <= i < zlen l -> length (cput l i v) = length l.
Proof. intros l i v H. unfold cput. rewrite app_length. cbn [length]. rewrite firstn_length, skipn_length. unfold zlen in H. lia. Qed.
Lemma cput_fld : forall l i v j, 0 <= i < zlen l -> 0 <= j -> fld (cput l i v) j = if j =? i then v else fld l j.
Proof.
  intros l i v j H J. unfold fld, cput. unfold zlen in H. destruct (j =? i) eqn:E.
  - replace j with i by lia. rewrite app_nth2 by (rewrite firstn_length; lia). rewrite firstn_length_le by lia. rewrite Nat.sub_diag. reflexivity.
  - destruct (Z_lt_ge_dec j i) as [L|L].
    + rewrite app_nth1 by (rewrite firstn_length; lia). rewrite <- (firstn_skipn (Z.to_nat i) l) at 2. rewrite app_nth1 by (rewrite firstn_length; lia). reflexivity.
    + rewrite app_nth2 by (rewrite firstn_length; lia). rewrite firstn_length_le by lia.
      replace (Z.to_nat j - Z.to_nat i)%nat with (S (Z.to_nat j - S (Z.to_nat i)))%nat by lia. cbn [nth].
      rewrite <- (firstn_skipn (S (Z.to_nat i)) l) at 2. rewrite app_nth2 by (rewrite firstn_length; lia). rewrite firstn_length_le by lia. reflexivity.
Qed.
Lemma cput_forall : forall P l i v, Forall P l -> P v -> Forall P (cput l i v).
Proof.
  intros P l i v F V. unfold cput. rewrite <- (firstn_skipn (Z.to_nat i) l) in F. apply Forall_app in F. destruct F as [F1 F2].
  apply Forall_app. split; [exact F1|]. constructor; [exact V|].
  replace (skipn (S (Z.to_nat i)) l) with (skipn 1 (skipn (Z.to_nat i) l)).
  - destruct (skipn (Z.to_nat i) l); [constructor|]. inversion F2. assumption.
  - rewrite <- skipn_add. f_equal. lia.
Qed.

Lemma dput_wf : forall d i v, dev_wf d -> 0 <= i < 15 -> in_ll v ->
  (i = DEVICE_CFG_ABLE \/ i = DEVICE_CFG_FILE_ROLLDAILY \/ i = DEVICE_CFG_FILE_ROLLHOURLY \/ i = DEVICE_CFG_FILE_STUFF_UP -> flag v) ->
  (i = DEVICE_CFG_PRIORITY -> 0 <= v <= 6) -> (i = DEVICE_CFG_UDP_IP -> 0 <= v < 2 ^ 32) -> (i = DEVICE_CFG_UDP_PORT -> 0 <= v < 2 ^ 16) ->
  dev_wf (dput d i v).
Proof.
  intros d i v [A1 A2 A3 A4 A5 A6 A7 A8 A9 A10 A11 A12 A13] I L F P IP PO.
  assert (Z : 0 <= i < zlen (pd_cfg d)) by (unfold zlen; lia).
  unfold DEVICE_CFG_ABLE, DEVICE_CFG_FILE_ROLLDAILY, DEVICE_CFG_FILE_ROLLHOURLY, DEVICE_CFG_FILE_STUFF_UP, DEVICE_CFG_PRIORITY, DEVICE_CFG_UDP_IP, DEVICE_CFG_UDP_PORT in *.
  constructor; cbn [dput pd_in pd_out pd_cfg pd_file pd_path];
    unfold DEVICE_CFG_ABLE, DEVICE_CFG_FILE_ROLLDAILY, DEVICE_CFG_FILE_ROLLHOURLY, DEVICE_CFG_FILE_STUFF_UP, DEVICE_CFG_PRIORITY, DEVICE_CFG_UDP_IP, DEVICE_CFG_UDP_PORT;
    rewrite ?cput_fld by lia; try assumption; try (match goal with |- context [if ?c then _ else _] => destruct c eqn:E end; [|assumption]);
    try (apply F; lia); try (apply P; lia); try (apply IP; lia); try (apply PO; lia).
  - rewrite cput_len by lia. exact A3.
  - apply cput_forall; assumption.
Qed.

Lemma ll_in : forall v, LLONG_MIN <= v <= LLONG_MAX -> in_ll v.
Proof. intros v H. unfold in_ll, LLONG_MIN, LLONG_MAX in *. lia. Qed.
Lemma flag_bool : forall b, flag (bool_of b).
Proof. intros [|]; [right|left]; reflexivity. Qed.
Lemma flag_ll : forall v, flag v -> in_ll v.
Proof. intros v [-> | ->]; unfold in_ll; lia. Qed.

Lemma put_ok : forall n e d i o (P : Z -> Prop), okx n e P o -> (forall v, P v -> dev_wf (dput d i v)) ->
  okx n e (fun r => dev_wf (snd r) /\ pd_id (snd r) = pd_id d) (put d i o).
Proof. intros n e d i o P H1 H2. unfold put. eapply okx_bind; [exact H1|]. intros v V. cbn [okx snd]. split; [auto|reflexivity]. Qed.

Lemma atoll_ok : forall n e w, In 0 w -> okx n e in_ll (atoll w).
Proof. intros n e w H. unfold atoll. destruct (strtoll10_ret w H) as (v & -> & R). apply ll_in. exact R. Qed.
Lemma as_ll_ok : forall n e o, okx n e (fun _ => True) o -> okx n e in_ll (as_ll o).
Proof. intros n e o H. unfold as_ll. eapply okx_bind; [exact H|]. intros x _. apply ll_in, ll_of_range. Qed.
Lemma flip_ok : forall n e P o, okx n e P o -> okx n e in_ll (flip o).
Proof. intros n e P o H. unfold flip. eapply okx_bind; [exact H|]. intros x _. apply ll_in, ll_of_range. Qed.
Lemma limit_ok : forall n e o, arith_ok e -> okx n e in_ll o -> okx n e in_ll (limit_size e o).
Proof.
  intros n e o A H. unfold limit_size. eapply okx_bind; [exact H|]. intros x X. destruct (_ && _) eqn:E.
  - apply ll_in. unfold LLONG_MIN, LLONG_MAX in *. lia.
  - apply (okx_mono _ n n e _ _ _ (okx_arith n e A)); [auto|]. intros; apply ll_in; assumption.
Qed.
Lemma parse_priority_range : forall v, 0 <= parse_priority v <= 6.
Proof.
  intros [|c v]; unfold parse_priority, PRIORITY_TRACE, PRIORITY_DEBUG, PRIORITY_INFO, PRIORITY_WARN, PRIORITY_ERROR, PRIORITY_ALARM, PRIORITY_FATAL; [lia|].
  repeat (destruct (_ || _); [lia|]). lia.
Qed.
Lemma parse_in_range : forall v, flag (parse_in_type v).
Proof. intros [|c v]; unfold parse_in_type; [left; reflexivity|]. destruct (_ || _); [right|left]; reflexivity. Qed.
Lemma parse_out_range : forall v, 0 <= parse_out_type v <= 5.
Proof.
  intros [|c v]; unfold parse_out_type, DEVICE_OUT_NULL, DEVICE_OUT_EMPTY, DEVICE_OUT_FILE, DEVICE_OUT_UDP, DEVICE_OUT_SCREEN, DEVICE_OUT_VIRTUAL; [lia|].
  repeat (destruct (_ || _); [lia|]). lia.
Qed.
Lemma swap32_range : forall v, 0 <= swap32 v < 2 ^ 32.
Proof.
  intros v. unfold swap32. pose proof (Z.mod_pos_bound v 256). pose proof (Z.mod_pos_bound (v / 2 ^ 8) 256).
  pose proof (Z.mod_pos_bound (v / 2 ^ 16) 256). pose proof (Z.mod_pos_bound (v / 2 ^ 24) 256). lia.
Qed.
Lemma inet_range : forall s, 0 <= inet_addr s < 2 ^ 32.
Proof. intros s. unfold inet_addr. match goal with |- context [match ?r with Some v => swap32 v | None => _ end] => destruct r end; [apply swap32_range|unfold INADDR_NONE; lia]. Qed.
Lemma address_range : forall e v dn ip port, dns_wf e -> parse_address e v dn = Ret (ip, port) -> 0 <= ip < 2 ^ 32.
Proof.
  intros e v dn ip port D H. unfold parse_address in H. destruct v as [|c v]; [injection H as <- <-; lia|].
  destruct (parse_address_ip e (c :: v) dn) as [ip' s] eqn:P.
  assert (R : 0 <= ip' < 2 ^ 32).
  { unfold parse_address_ip in P. cbv zeta in P. destruct (_ <=? _); [injection P as <- <-; lia|]. destruct (existsb _ _).
    - destruct dn; [|injection P as <- <-; lia]. destruct (x_dns e _) eqn:X; injection P as <- <-; [eapply D; exact X|lia].
    - injection P as <- <-. apply inet_range. }
  destruct (drop_while _ s) as [|p q]; [injection H as <- <-; lia|]. destruct (40 <=? _); [injection H as <- <-; lia|].
  destruct (atoi _); cbn [bind] in H; try discriminate. injection H as <- <-. exact R.
Qed.

Lemma dev0_wf : forall id, dev_wf (dev0 id).
Proof.
  intros id. constructor; try (cbn; lia); try (left; reflexivity); try (split; [cbn; lia|intros []]).
  - apply Forall_forall. intros x H. apply repeat_spec in H. subst x. unfold in_ll. lia.
  - change (fld (pd_cfg (dev0 id)) DEVICE_CFG_PRIORITY) with 0. lia.
  - change (fld (pd_cfg (dev0 id)) DEVICE_CFG_UDP_IP) with 0. lia.
  - change (fld (pd_cfg (dev0 id)) DEVICE_CFG_UDP_PORT) with 0. lia.
  - change (zlen (pd_file (dev0 id))) with 0. split; [lia|intros []].
  - change (zlen (pd_path (dev0 id))) with 0. split; [lia|intros []].
Qed.

Lemma device_key_ok : forall n e d key v w rest, arith_ok e -> dns_wf e -> dev_wf d -> vals_ok v w rest ->
  okx n e (fun r => dev_wf (snd r) /\ pd_id (snd r) = pd_id d) (device_key e d key v w rest).
Proof.
  intros n e d key v w rest A D W (V1 & V2 & V3). unfold device_key.
  destruct (key =? RK_IN_TYPE).
  { split; [|reflexivity]. destruct W; constructor; try assumption. apply parse_in_range. }
  destruct (key =? RK_OUT_TYPE).
  { split; [|reflexivity]. destruct W; constructor; try assumption. apply parse_out_range. }
  assert (LL : forall i o, 0 <= i < 15 -> ~ In i [0; 1; 10; 11; 12; 13; 14] -> okx n e in_ll o ->
     okx n e (fun r => dev_wf (snd r) /\ pd_id (snd r) = pd_id d) (put d i o)).
  { intros i o I1 I2 O. eapply put_ok; [exact O|]. intros x X. cbn [In] in I2.
    apply dput_wf; try assumption; unfold DEVICE_CFG_ABLE, DEVICE_CFG_FILE_ROLLDAILY, DEVICE_CFG_FILE_ROLLHOURLY, DEVICE_CFG_FILE_STUFF_UP, DEVICE_CFG_PRIORITY, DEVICE_CFG_UDP_IP, DEVICE_CFG_UDP_PORT; lia. }
  assert (FL : forall i b, In i [0; 10; 11; 12] -> okx n e (fun r => dev_wf (snd r) /\ pd_id (snd r) = pd_id d) (put d i (Ret (bool_of b)))).
  { intros i b I1. eapply (put_ok _ _ _ _ _ flag); [apply flag_bool|]. intros x X. cbn [In] in I1.
    apply dput_wf; try assumption; unfold DEVICE_CFG_ABLE, DEVICE_CFG_FILE_ROLLDAILY, DEVICE_CFG_FILE_ROLLHOURLY, DEVICE_CFG_FILE_STUFF_UP, DEVICE_CFG_PRIORITY, DEVICE_CFG_UDP_IP, DEVICE_CFG_UDP_PORT; try lia; auto using flag_ll. }
  assert (NI : forall i, In i [2; 3; 4; 5; 6; 7; 8; 9] -> 0 <= i < 15 /\ ~ In i [0; 1; 10; 11; 12; 13; 14]).
  { intros i H. cbn [In] in *. lia. }
  destruct (key =? RK_DISABLE); [apply FL; cbn; auto|].
  destruct (key =? RK_PRIORITY).
  { eapply (put_ok _ _ _ _ _ (fun v => 0 <= v <= 6)); [apply parse_priority_range|]. intros x X.
    apply dput_wf; try assumption; unfold in_ll, DEVICE_CFG_ABLE, DEVICE_CFG_FILE_ROLLDAILY, DEVICE_CFG_FILE_ROLLHOURLY, DEVICE_CFG_FILE_STUFF_UP, DEVICE_CFG_PRIORITY, DEVICE_CFG_UDP_IP, DEVICE_CFG_UDP_PORT; try lia. }
  assert (AT : okx n e in_ll (atoll w)) by (apply atoll_ok; assumption).
  assert (BA : okx n e (fun _ => True) (parse_bit_array e v rest)) by (apply parse_bit_array_ok; assumption).
  assert (LN : forall i o, In i [2; 3; 4; 5; 6; 7; 8; 9] -> okx n e in_ll o ->
     okx n e (fun r => dev_wf (snd r) /\ pd_id (snd r) = pd_id d) (put d i o)).
  { intros i o I O. destruct (NI i I). apply LL; assumption. }
  destruct (key =? RK_CATEGORY); [apply LN; [cbn; auto 10|exact AT]|].
  destruct (key =? RK_CATEGORY_EXTEND); [apply LN; [cbn; auto 10|exact AT]|].
  destruct (key =? RK_CATEGORY_WLIST); [apply LN; [cbn; auto 10|apply as_ll_ok; exact BA]|].
  destruct (key =? RK_CATEGORY_BLIST); [apply LN; [cbn; auto 10|eapply flip_ok; exact BA]|].
  destruct (key =? RK_CATEGORY_WMASK); [apply LN; [cbn; auto 10|exact AT]|].
  destruct (key =? RK_CATEGORY_BMASK); [apply LN; [cbn; auto 10|eapply flip_ok; exact AT]|].
  destruct (key =? RK_IDENTIFY); [apply LN; [cbn; auto 10|exact AT]|].
  destruct (key =? RK_IDENTIFY_EXTEND); [apply LN; [cbn; auto 10|exact AT]|].
  destruct (key =? RK_IDENTIFY_WLIST); [apply LN; [cbn; auto 10|apply as_ll_ok; exact BA]|].
  destruct (key =? RK_IDENTIFY_BLIST); [apply LN; [cbn; auto 10|eapply flip_ok; exact BA]|].
  destruct (key =? RK_IDENTIFY_WMASK); [apply LN; [cbn; auto 10|exact AT]|].
  destruct (key =? RK_IDENTIFY_BMASK); [apply LN; [cbn; auto 10|eapply flip_ok; exact AT]|].
  destruct (key =? RK_LIMIT_SIZE); [apply LN; [cbn; auto 10|apply limit_ok; assumption]|].
  destruct (key =? RK_ROLLBACK); [apply LN; [cbn; auto 10|exact AT]|].
  destruct (key =? RK_ROLLDAILY); [apply FL; cbn; auto|].
  destruct (key =? RK_ROLLHOURLY); [apply FL; cbn; auto|].
  destruct (key =? RK_FILE_STUFF_UP); [apply FL; cbn; auto|].
  destruct (key =? RK_PATH).
  { cbn [okx snd]. destruct (_ && _) eqn:E; [|auto]. split; [|reflexivity]. destruct W; constructor; try assumption. cbn [pd_path]. split; [lia|assumption]. }
  destruct (key =? RK_FILE).
  { cbn [okx snd]. destruct (_ && _) eqn:E; [|auto]. split; [|reflexivity]. destruct W; constructor; try assumption. cbn [pd_file]. split; [lia|assumption]. }
  destruct (key =? RK_UDP_ADDR); [|split; [exact W|reflexivity]].
  cbv zeta. destruct (parse_address_ok e v (negb (fld (pd_cfg d) DEVICE_CFG_ABLE =? 0))) as (ip & port & P1 & P2). rewrite P1. cbn [bind okx snd].
  apply (address_range _ _ _ _ _ D) in P1. split; [|reflexivity].
  apply dput_wf; [apply dput_wf; try assumption| | | | | |];
    unfold in_ll, DEVICE_CFG_ABLE, DEVICE_CFG_FILE_ROLLDAILY, DEVICE_CFG_FILE_ROLLHOURLY, DEVICE_CFG_FILE_STUFF_UP, DEVICE_CFG_PRIORITY, DEVICE_CFG_UDP_IP, DEVICE_CFG_UDP_PORT; lia.
Qed.

(* ---- ParseDevice ---- *)
Definition env_ok (e : penv) : Prop := arith_ok e /\ dns_wf e.

Lemma enough_next : forall s s1 fuel, enough s (S fuel) -> moved s s1 -> s_cur s < s_cur s1 -> enough s1 fuel.
Proof.
  intros s s1 fuel (E1 & E2 & E3) (cur & no & -> & _) L. unfold enough in *. cbn [set_cur s_cur s_text s_end] in *. split; [exact E1|]. split; [exact E2|]. lia.
Qed.
Lemma enough_lex : forall s fuel, wfs s -> enough s (S fuel) -> zlen (s_text s) - s_cur s < Z.of_nat fuel.
Proof. intros s fuel W (_ & _ & E). destruct W. lia. Qed.
Lemma enough_same : forall s s1 fuel, moved s s1 -> enough s fuel -> enough s1 fuel.
Proof.
  intros s s1 fuel (cur & no & -> & L & _) (E1 & E2 & E3). unfold enough. cbn [set_cur s_cur s_text s_end]. split; [exact E1|]. split; [exact E2|]. lia.
Qed.
Lemma progress : forall s s1 fuel l, wfs s -> line_post s (PEC_NONE, s1, l) -> enough s (S fuel) -> s_cur s < s_end s -> enough s1 fuel.
Proof.
  intros s s1 fuel l W [_ P] E C. destruct (P eq_refl) as (M & _ & G). eapply enough_next; [exact E|exact M|].
  destruct E as (E1 & E2 & _). apply G; assumption.
Qed.

Definition dev_post (s : lstate) (d : pdev) (r : Z * lstate * pdev) : Prop :=
  moved s (snd (fst r)) /\ dev_wf (snd r) /\ pd_id (snd r) = pd_id d.

Lemma line_end : forall s s1 l, line_post s (PEC_NONE, s1, l) -> l_ke l - l_kb l =? 0 = false -> s_cur s < s_cur s1.
Proof.
  intros s s1 l [_ P] K. destruct (P eq_refl) as (_ & L & _). destruct L as [(A & B & _)|(A & B & C)]; [rewrite A, B in K; discriminate K|]. lia.
Qed.

Lemma parse_device_ok : forall e indent fuel s d, env_ok e -> wfs s -> dev_wf d ->
  okx (enough s fuel) e (dev_post s d) (parse_device fuel e s d indent).
Proof.
  intros e indent. induction fuel as [|fuel IH]; intros s d E W D.
  { cbn [parse_device okx]. intros (_ & _ & H). destruct W. pose proof (zlen_nonneg _ (s_text s)). lia. }
  cbn [parse_device]. cbv zeta. eapply okx_bind. { eapply okx_mono; [apply (lex_at_ok e fuel s W)|apply enough_lex; exact W|intros x H; exact H]. }
  intros [[ret s1] l] LP. pose proof LP as LP0. destruct LP as [(cur & no & -> & CL) LP].
  destruct (ret =? PEC_NONE) eqn:RN; cbn [negb].
  2: { cbn [okx]. split; [|split; [exact D|reflexivity]]. cbn [fst snd]. exact (moved_back s _ W). }
  apply Z.eqb_eq in RN. subst ret. destruct (LP eq_refl) as (M & LO & PR). set (s1 := set_cur s cur no) in *.
  assert (AG : forall d', dev_wf d' -> pd_id d' = pd_id d -> (s_cur s < s_end s \/ s_cur s < s_cur s1) ->
     okx (enough s (S fuel)) e (dev_post s d) (if s_cur s1 <? s_end s1 then parse_device fuel e s1 d' indent else Ret (0, s1, d'))).
  { intros d' D' ID C. destruct (s_cur s1 <? s_end s1) eqn:CE.
    - eapply okx_mono; [apply (IH s1 d' E (moved_wfs _ _ M) D')| |].
      + intros H. destruct C as [C|C]; [eapply progress; eassumption|eapply enough_next; eassumption].
      + intros [[r s2] d2] (P1 & P2 & P3). cbn [fst snd] in *. split; [|split; [exact P2|cbn [fst snd]; congruence]]. eapply moved_trans; eassumption.
    - split; [exact M|]. split; [exact D'|exact ID]. }
  destruct (l_ke l - l_kb l =? 0) eqn:K.
  { destruct (s_end s1 <=? s_cur s1) eqn:CE; [split; [exact M|split; [exact D|reflexivity]]|]. apply AG; [exact D|reflexivity|].
    left. subst s1. cbn [set_cur s_cur s_end] in CE. lia. }
  destruct (l_blank l <=? indent).
  { split; [|split; [exact D|reflexivity]]. cbn [fst snd]. exact (moved_back s _ W). }
  destruct (line_val_ok s s1 l W M LO K) as (v & w & rest & LV & VO & _). rewrite LV. cbn [bind].
  eapply okx_bind; [apply (device_key_ok _ e d (l_key l) v w rest (proj1 E) (proj2 E) D VO)|].
  intros [ret d'] [D' ID]. cbn [snd] in D', ID. destruct (ret =? PEC_NONE).
  { apply AG; [exact D'|exact ID|right; eapply line_end; eassumption]. }
  destruct (ret =? PEC_UNDEFINED_DEVICE_KEY).
  { split; [exact M|split; assumption]. }
  split; [|split; assumption]. cbn [fst snd]. exact (moved_back s _ W).
Qed.

(* ---- ParseChannel ---- *)
Lemma cputc_wf : forall m c i v, chan_wf m c -> 0 <= i < 7 -> in_ll v -> (i = CHANNEL_CFG_PRIORITY -> 0 <= v <= 6) -> chan_wf m (cputc c i v).
Proof.
  intros m c i v [A1 A2 A3 A4 A5 A6 A7 A8] I L P. assert (Z : 0 <= i < zlen (pc_cfg c)) by (unfold zlen; lia).
  unfold CHANNEL_CFG_PRIORITY in *. constructor; cbn [cputc pc_type pc_cfg pc_devs pc_virtual]; try assumption.
  - rewrite cput_len by lia. exact A2.
  - apply cput_forall; assumption.
  - unfold CHANNEL_CFG_PRIORITY. rewrite cput_fld by lia. destruct (0 =? i) eqn:E; [apply P; lia|exact A4].
Qed.
Lemma chan0_wf : forall m id, 0 <= m -> chan_wf m (chan0 id).
Proof.
  intros m id M. constructor; cbn [chan0 pc_type pc_cfg pc_devs pc_virtual].
  - left. reflexivity.
  - reflexivity.
  - apply Forall_forall. intros x H. apply repeat_spec in H. subst x. unfold in_ll. lia.
  - change (fld (repeat 0 7) CHANNEL_CFG_PRIORITY) with 0. lia.
  - change (zlen (@nil pdev)) with 0. exact M.
  - intros i d H. destruct i; discriminate H.
  - constructor.
  - reflexivity.
Qed.
Lemma putc_ok : forall n e m c i o (P : Z -> Prop), okx n e P o -> (forall v, P v -> chan_wf m (cputc c i v)) ->
  okx n e (fun r => chan_wf m (snd r) /\ pc_id (snd r) = pc_id c) (putc c i o).
Proof. intros n e m c i o P H1 H2. unfold putc. eapply okx_bind; [exact H1|]. intros v V. cbn [okx snd]. split; [auto|reflexivity]. Qed.
Lemma atoi_ok : forall n e w, In 0 w -> okx n e in_ll (atoi w).
Proof. intros n e w H. destruct (atoi_ret w H) as (v & -> & R). unfold in_ll, INT_MIN, INT_MAX in *. cbn [okx]. lia. Qed.

Lemma channel_key_ok : forall n e m c key v w rest, arith_ok e -> chan_wf m c -> vals_ok v w rest ->
  okx n e (fun r => chan_wf m (snd r) /\ pc_id (snd r) = pc_id c) (channel_key e c key v w rest).
Proof.
  intros n e m c key v w rest A W (V1 & V2 & V3). unfold channel_key.
  destruct (key =? RK_SYNC).
  { split; [|reflexivity]. destruct W; constructor; try assumption. cbn [pc_type]. unfold parse_channel_type. destruct v as [|x v]; [auto|]. destruct (x =? 115); auto. }
  destruct (key =? RK_PRIORITY).
  { eapply (putc_ok _ _ _ _ _ _ (fun v => 0 <= v <= 6)); [apply parse_priority_range|]. intros x X.
    apply cputc_wf; [exact W|unfold CHANNEL_CFG_PRIORITY; lia|unfold in_ll; lia|auto]. }
  assert (LN : forall i o, 1 <= i < 7 -> okx n e in_ll o -> okx n e (fun r => chan_wf m (snd r) /\ pc_id (snd r) = pc_id c) (putc c i o)).
  { intros i o I O. eapply putc_ok; [exact O|]. intros x X. apply cputc_wf; [exact W|lia|exact X|unfold CHANNEL_CFG_PRIORITY; lia]. }
  assert (AT : okx n e in_ll (atoll w)) by (apply atoll_ok; assumption).
  assert (AI : okx n e in_ll (atoi w)) by (apply atoi_ok; assumption).
  assert (BA : okx n e (fun _ => True) (parse_bit_array e v rest)) by (apply parse_bit_array_ok; assumption).
  destruct (key =? RK_CATEGORY); [apply LN; [unfold CHANNEL_CFG_CATEGORY; lia|exact AI]|].
  destruct (key =? RK_CATEGORY_EXTEND); [apply LN; [unfold CHANNEL_CFG_CATEGORY_EXTEND; lia|exact AI]|].
  destruct (key =? RK_CATEGORY_WLIST); [apply LN; [unfold CHANNEL_CFG_CATEGORY_MASK; lia|apply as_ll_ok; exact BA]|].
  destruct (key =? RK_CATEGORY_BLIST); [apply LN; [unfold CHANNEL_CFG_CATEGORY_MASK; lia|eapply flip_ok; exact BA]|].
  destruct (key =? RK_CATEGORY_WMASK); [apply LN; [unfold CHANNEL_CFG_CATEGORY_MASK; lia|exact AT]|].
  destruct (key =? RK_CATEGORY_BMASK); [apply LN; [unfold CHANNEL_CFG_CATEGORY_MASK; lia|eapply flip_ok; exact AT]|].
  destruct (key =? RK_IDENTIFY); [apply LN; [unfold CHANNEL_CFG_IDENTIFY; lia|exact AI]|].
  destruct (key =? RK_IDENTIFY_EXTEND); [apply LN; [unfold CHANNEL_CFG_IDENTIFY_EXTEND; lia|exact AI]|].
  destruct (key =? RK_IDENTIFY_WLIST); [apply LN; [unfold CHANNEL_CFG_IDENTIFY_MASK; lia|apply as_ll_ok; exact BA]|].
  destruct (key =? RK_IDENTIFY_BLIST); [apply LN; [unfold CHANNEL_CFG_IDENTIFY_MASK; lia|eapply flip_ok; exact BA]|].
  destruct (key =? RK_IDENTIFY_WMASK); [apply LN; [unfold CHANNEL_CFG_IDENTIFY_MASK; lia|exact AT]|].
  destruct (key =? RK_IDENTIFY_BMASK); [apply LN; [unfold CHANNEL_CFG_IDENTIFY_MASK; lia|eapply flip_ok; exact AT]|].
  split; [exact W|reflexivity].
Qed.

Lemma virtual_app : forall ds d, virtual_of (ds ++ [d]) = if pd_out d =? DEVICE_OUT_VIRTUAL then pd_id d else virtual_of ds.
Proof.
  intros ds d. unfold virtual_of. rewrite rev_app_distr. cbn [rev app filter]. unfold is_virtual at 1. destruct (pd_out d =? DEVICE_OUT_VIRTUAL); reflexivity.
Qed.
Lemma nth_snoc : forall A (l : list A) x i y, nth_error (l ++ [x]) i = Some y -> nth_error l i = Some y \/ i = length l /\ y = x.
Proof.
  intros A l x i y H. destruct (Nat.lt_ge_cases i (length l)) as [L|L]; [rewrite nth_error_app1 in H by lia; auto|].
  rewrite nth_error_app2 in H by lia. right. destruct (i - length l)%nat as [|k] eqn:E; cbn in H; [|destruct k; discriminate H]. split; [lia|congruence].
Qed.
Lemma add_dev_wf : forall m c d, chan_wf m c -> zlen (pc_devs c) < m -> dev_wf d -> pd_id d = zlen (pc_devs c) -> chan_wf m (add_dev c d).
Proof.
  intros m c d [A1 A2 A3 A4 A5 A6 A7 A8] L D ID. constructor; cbn [add_dev pc_type pc_cfg pc_devs pc_virtual]; try assumption.
  - rewrite zlen_app. change (zlen [d]) with 1. lia.
  - intros i d' H. apply nth_snoc in H. destruct H as [H|[-> ->]]; [eauto|]. rewrite ID. reflexivity.
  - apply Forall_app. split; [exact A7|]. constructor; [exact D|constructor].
  - rewrite virtual_app. rewrite A8. reflexivity.
Qed.

Definition chan_post (m : Z) (s : lstate) (c : pchan) (r : Z * lstate * pchan) : Prop :=
  moved s (snd (fst r)) /\ chan_wf m (snd r) /\ pc_id (snd r) = pc_id c.

Lemma parse_channel_ok : forall e indent fuel s c, env_ok e -> wfs s -> chan_wf (x_maxdev e) c ->
  okx (enough s fuel) e (chan_post (x_maxdev e) s c) (parse_channel fuel e s c indent).
Proof.
  intros e indent. induction fuel as [|fuel IH]; intros s c E W D.
  { cbn [parse_channel okx]. intros (_ & _ & H). destruct W. pose proof (zlen_nonneg _ (s_text s)). lia. }
  cbn [parse_channel]. cbv zeta. eapply okx_bind. { eapply okx_mono; [apply (lex_at_ok e fuel s W)|apply enough_lex; exact W|intros x H; exact H]. }
  intros [[ret s1] l] LP. pose proof LP as LP0. destruct LP as [(cur & no & -> & CL) LP].
  destruct (ret =? PEC_NONE) eqn:RN; cbn [negb].
  2: { cbn [okx]. split; [|split; [exact D|reflexivity]]. cbn [fst snd]. exact (moved_back s _ W). }
  apply Z.eqb_eq in RN. subst ret. destruct (LP eq_refl) as (M & LO & PR). set (s1 := set_cur s cur no) in *.
  assert (AG : forall s2 c', chan_wf (x_maxdev e) c' -> pc_id c' = pc_id c -> moved s1 s2 -> (s_cur s < s_end s \/ s_cur s < s_cur s1) ->
     okx (enough s (S fuel)) e (chan_post (x_maxdev e) s c) (if s_cur s2 <? s_end s2 then parse_channel fuel e s2 c' indent else Ret (0, s2, c'))).
  { intros s2 c' D' ID M2 C. destruct (s_cur s2 <? s_end s2) eqn:CE.
    - eapply okx_mono; [apply (IH s2 c' E (moved_wfs _ _ M2) D')| |].
      + intros H. eapply enough_same; [exact M2|]. destruct C as [C|C]; [eapply progress; eassumption|eapply enough_next; eassumption].
      + intros [[r s3] c3] (P1 & P2 & P3). cbn [fst snd] in *. split; [|split; [exact P2|cbn [fst snd]; congruence]]. cbn [fst snd]. eapply moved_trans; [exact M|]. eapply moved_trans; eassumption.
    - split; [eapply moved_trans; eassumption|]. split; [exact D'|exact ID]. }
  assert (M1 : moved s1 s1) by (apply moved_refl, (moved_wfs _ _ M)).
  destruct (l_ke l - l_kb l =? 0) eqn:K.
  { destruct (s_end s1 <=? s_cur s1) eqn:CE; [split; [exact M|split; [exact D|reflexivity]]|]. apply AG; [exact D|reflexivity|exact M1|].
    left. subst s1. cbn [set_cur s_cur s_end] in CE. lia. }
  assert (LE : s_cur s < s_cur s1) by (eapply line_end; eassumption).
  destruct (l_blank l <=? indent).
  { split; [|split; [exact D|reflexivity]]. cbn [fst snd]. exact (moved_back s _ W). }
  destruct (line_val_ok s s1 l W M LO K) as (v & w & rest & LV & VO & _). rewrite LV. cbn [bind].
  destruct (l_key l =? RK_DEVICE).
  - destruct VO as (V1 & V2 & V3). destruct (atoi_ret w V2) as (id & -> & _). cbn [bind].
    destruct (x_maxdev e <=? zlen (pc_devs c)) eqn:MX.
    { split; [|split; [exact D|reflexivity]]. cbn [fst snd]. exact (moved_back s _ W). }
    destruct (id =? zlen (pc_devs c)) eqn:IE; cbn [negb].
    2: { split; [|split; [exact D|reflexivity]]. cbn [fst snd]. exact (moved_back s _ W). }
    eapply okx_bind.
    { eapply okx_mono; [apply (parse_device_ok e (l_blank l) fuel s1 (dev0 id) E (moved_wfs _ _ M) (dev0_wf id))| |intros x H; exact H].
      intros H. eapply enough_next; eassumption. }
    intros [[ret s2] d] (P1 & P2 & P3). cbn [fst snd] in P1, P2, P3.
    assert (WA : chan_wf (x_maxdev e) (add_dev c d)). { apply add_dev_wf; [exact D|lia|exact P2|]. rewrite P3. cbn. lia. }
    destruct (negb (ret =? PEC_NONE)).
    + split; [eapply moved_trans; eassumption|]. split; [exact WA|reflexivity].
    + apply AG; [exact WA|reflexivity|exact P1|auto].
  - eapply okx_bind; [apply (channel_key_ok _ e (x_maxdev e) c (l_key l) v w rest (proj1 E) D VO)|].
    intros [ret c'] [D' ID]. cbn [snd] in D', ID. destruct (ret =? PEC_NONE).
    + apply AG; [exact D'|exact ID|exact M1|auto].
    + split; [exact M|split; assumption].
Qed.

(* ---- ParseLogger ---- *)
Record ginv (e : penv) (s : lstate) : Prop := mkGinv {
  gi_wfs : wfs s;
  gi_cfg : cfg_wf (x_maxch e) (x_maxdev e) (s_chs s);
  gi_name : zlen (s_name s) <= 249 /\ ~ In 0 (s_name s);
  gi_desc : zlen (s_desc s) <= 49 /\ ~ In 0 (s_desc s)
}.
(* s' is s after some more lines *)
Definition later (s s' : lstate) : Prop :=
  length (s_text s') = length (s_text s) /\ s_end s' = s_end s /\ s_cur s <= s_cur s' /\ (~ In 0 (s_text s) -> ~ In 0 (s_text s')).
Lemma later_trans : forall a b c, later a b -> later b c -> later a c.
Proof. intros a b c (A1 & A2 & A3 & A4) (B1 & B2 & B3 & B4). split; [congruence|]. split; [congruence|]. split; [lia|auto]. Qed.
Lemma moved_later : forall s s', moved s s' -> later s s'.
Proof. intros s s' (cur & no & -> & L & _). split; [reflexivity|]. split; [reflexivity|]. split; [exact L|auto]. Qed.

Definition next_post (e : penv) (s : lstate) (r : lnext) : Prop :=
  match r with
  | Next s' => ginv e s' /\ later s s' /\ s_cur s' < s_end s' /\
      (~ In 0 (s_text s) -> s_end s = zlen (s_text s) -> s_cur s < s_end s -> s_cur s < s_cur s')
  | Stop code s' => ginv e s' /\ later s s' /\ (code = 0 -> s_end s' <= s_cur s')
  end.

Lemma moved_ginv : forall e s s', ginv e s -> moved s s' -> ginv e s'.
Proof. intros e s s' [G1 G2 G3 G4] M. pose proof (moved_wfs _ _ M) as W. destruct M as (cur & no & -> & _). constructor; assumption. Qed.

Lemma firstn_in : forall A n (l : list A) x, In x (firstn n l) -> In x l.
Proof. intros A n l x H. rewrite <- (firstn_skipn n l). apply in_app_iff. auto. Qed.
Lemma parse_string_ok : forall v n, 1 <= n -> ~ In 0 v ->
  let r := match parse_string v n with Some x => x | None => [] end in zlen r <= n - 1 /\ ~ In 0 r.
Proof.
  intros v n N H. unfold parse_string. destruct v as [|c v]; cbv zeta; [split; [change (zlen (@nil Z)) with 0; lia|intros []]|].
  split; [unfold zlen; rewrite firstn_length; lia|]. intros I. apply H. eapply firstn_in, I.
Qed.

Lemma logger_line_ok : forall e fuel s, env_ok e -> 0 <= x_maxdev e -> ginv e s ->
  okx (enough s (S fuel) /\ s_cur s < s_end s /\ ~ self_line s) e (next_post e s) (logger_line fuel e s).
Proof.
  intros e fuel s E MD G. pose proof (gi_wfs _ _ G) as W. unfold logger_line. cbv zeta.
  assert (LX := lex_at_ok e fuel s W). destruct (lex_at fuel s) as [[[ret s1] l]| |] eqn:LX0; cbn [bind okx] in *; [|exact LX|].
  2: { intros (H & _). apply LX. apply enough_lex; assumption. }
  pose proof LX as LP0. destruct LX as [(cur & no & S1 & CL) LP].
  assert (BACK : forall no, ginv e (set_cur s1 (s_cur s) no) /\ later s (set_cur s1 (s_cur s) no)).
  { intros n'. rewrite S1. change (set_cur (set_cur s cur no) (s_cur s) n') with (set_cur s (s_cur s) n').
    pose proof (moved_back s n' W) as MB. split; [eapply moved_ginv; eassumption|apply moved_later; exact MB]. }
  destruct (ret =? PEC_NONE) eqn:RN; cbn [negb].
  2: { cbn [okx]. destruct (BACK (s_no s1)). split; [assumption|]. split; [assumption|]. intros ->. discriminate RN. }
  apply Z.eqb_eq in RN. subst ret. destruct (LP eq_refl) as (M & LO & PR).
  assert (G1 : ginv e s1) by (eapply moved_ginv; eassumption).
  assert (AG : forall s2, ginv e s2 -> later s1 s2 -> (~ In 0 (s_text s) -> s_end s = zlen (s_text s) -> s_cur s < s_end s -> s_cur s < s_cur s2) -> next_post e s (again s2)).
  { intros s2 G2 L2 P2. unfold again. assert (L : later s s2) by (eapply later_trans; [apply moved_later; exact M|exact L2]).
    destruct (s_cur s2 <? s_end s2) eqn:C; cbn [next_post].
    - split; [exact G2|]. split; [exact L|]. split; [lia|exact P2].
    - split; [exact G2|]. split; [exact L|]. intros _. lia. }
  assert (LR : later s1 s1) by (apply moved_later, moved_refl, (gi_wfs _ _ G1)).
  destruct (l_ke l - l_kb l =? 0) eqn:K.
  { destruct (s_end s1 <=? s_cur s1) eqn:CE; cbn [okx].
    - split; [exact G1|]. split; [apply moved_later; exact M|]. lia.
    - apply AG; [exact G1|exact LR|auto]. }
  assert (LE : s_cur s < s_cur s1) by (eapply line_end; eassumption).
  destruct (line_val_ok s s1 l W M LO K) as (v & w & rest & LV & VO & VE). rewrite LV. cbn [bind]. destruct VO as (V1 & V2 & V3).
  assert (SIMPLE : forall shm hot nm ds, zlen nm <= 249 /\ ~ In 0 nm -> zlen ds <= 49 /\ ~ In 0 ds ->
     next_post e s (again (mkLs (s_text s1) (s_cur s1) (s_end s1) (s_no s1) (s_chs s1) shm hot nm ds))).
  { intros shm hot nm ds N1 N2. apply AG.
    - destruct G1 as [[A1 A2 A3] B C D]. constructor; [constructor; assumption|exact B|exact N1|exact N2].
    - exact LR.
    - intros _ _ _. exact LE. }
  destruct (l_key l =? RK_HOT_UPDATE); [apply SIMPLE; [apply (gi_name _ _ G1)|apply (gi_desc _ _ G1)]|].
  destruct ((l_key l =? RK_DEFINE) || (l_key l =? RK_VARIABLE)) eqn:DV.
  { apply okx_bind with (P := fun r => good (s_text s1) (snd r) /\ firstn (Z.to_nat (l_ve l)) (snd r) = firstn (Z.to_nat (l_ve l)) (s_text s1)).
    - assert (SL : enough s (S fuel) /\ s_cur s < s_end s /\ ~ self_line s -> (2 * length (s_text s1) + 1 < fuel)%nat).
      { intros ((_ & _ & H) & _). rewrite S1. cbn [set_cur s_text]. unfold zlen in H. destruct W as [W _ _]. unfold zlen in W. lia. }
      destruct (l_key l =? RK_DEFINE) eqn:KD.
      + eapply okx_mono; [apply (macro_ok e fuel (s_text s1) (Z.to_nat (l_ve l)) v V1)| |intros x H; exact H].
        intros H. split; [|apply SL; exact H]. intros SM. apply H. exists fuel, s1, l, v, w, rest. split; [exact LX0|]. split; [exact LV|]. left. split; [lia|exact SM].
      + eapply okx_mono; [apply (var_ok e fuel (s_text s1) (Z.to_nat (l_ve l)) v V1)| |intros x H; exact H].
        intros H. split; [|apply SL; exact H]. intros SM. apply H. exists fuel, s1, l, v, w, rest. split; [exact LX0|]. split; [exact LV|]. right. split; [cbn [orb] in DV; lia|exact SM].
    - intros [ret t'] [G2 _]. cbn [snd] in G2. destruct G2 as [L2 Z2].
      assert (GT : forall c n, 0 <= c <= s_cur s1 -> ginv e (set_cur (set_text s1 t') c n)).
      { intros c n C. destruct G1 as [[A1 A2 A3] B1 C1 D1]. constructor; try assumption. constructor; cbn [set_cur set_text s_cur s_text s_end].
        - unfold zlen in *. rewrite L2. lia.
        - unfold zlen in *. rewrite L2. lia.
        - intros i I. apply Z2, A3. lia. }
      assert (LT : forall c n, s_cur s <= c -> later s (set_cur (set_text s1 t') c n)).
      { intros c n C. split; [|split; [|split]]; cbn [set_cur set_text s_cur s_text s_end].
        - rewrite L2, S1. reflexivity.
        - rewrite S1. reflexivity.
        - exact C.
        - intros N. apply no_nul_nth. intros i. apply Z2. apply no_nul_nth. rewrite S1. exact N. }
      destruct (negb (ret =? PEC_NONE)) eqn:RN; cbn [okx next_post].
      + split; [apply GT; destruct W; lia|]. split; [apply LT; lia|]. intros ->. discriminate RN.
      + assert (EQ : set_text s1 t' = set_cur (set_text s1 t') (s_cur s1) (s_no s1)) by (destruct s1; reflexivity).
        apply AG; [rewrite EQ; apply GT; destruct W, (gi_wfs _ _ G1); lia| |intros _ _ _; exact LE].
        rewrite EQ. split; [|split; [|split]]; cbn [set_cur set_text s_cur s_text s_end]; try reflexivity; try exact L2.
        intros N. apply no_nul_nth. intros i. apply Z2. apply no_nul_nth. exact N. }
  destruct (l_key l =? RK_LOGGER_NAME); [apply SIMPLE; [apply (parse_string_ok v 250); [lia|exact V1]|apply (gi_desc _ _ G1)]|].
  destruct (l_key l =? PK_LOGGER_DESC); [apply SIMPLE; [apply (gi_name _ _ G1)|apply (parse_string_ok v 50); [lia|exact V1]]|].
  destruct (l_key l =? RK_SHM_KEY).
  { destruct (parse_number_ret v) as (n & -> & _). cbn [bind]. apply SIMPLE; [apply (gi_name _ _ G1)|apply (gi_desc _ _ G1)]. }
  destruct (l_key l =? RK_CHANNEL).
  2: { cbn [okx next_post]. split; [exact G1|]. split; [apply moved_later; exact M|]. discriminate. }
  destruct (atoi_ret w V2) as (id & -> & _). cbn [bind].
  destruct (x_maxch e <=? zlen (s_chs s1)) eqn:MX.
  { cbn [okx next_post]. destruct (BACK (s_no s1 - 1)). split; [assumption|]. split; [assumption|]. discriminate. }
  destruct (zlen (s_chs s1) =? id) eqn:IE; cbn [negb].
  2: { cbn [okx next_post]. destruct (BACK (s_no s1 - 1)). split; [assumption|]. split; [assumption|]. discriminate. }
  eapply okx_bind.
  { eapply okx_mono; [apply (parse_channel_ok e (l_blank l) fuel s1 (chan0 id) E (gi_wfs _ _ G1) (chan0_wf _ _ MD))| |intros x H; exact H].
    intros (H & _). eapply enough_next; eassumption. }
  intros [[ret s2] c] (P1 & P2 & P3). cbn [fst snd] in P1, P2, P3.
  assert (G2 : ginv e (set_chs s2 (s_chs s2 ++ [c]))).
  { pose proof (moved_ginv _ _ _ G1 P1) as [[A1 A2 A3] B1 C1 D1]. constructor; [constructor; assumption| |exact C1|exact D1].
    cbn [set_chs s_chs]. assert (SC : s_chs s2 = s_chs s1) by (destruct P1 as (c1 & n1 & -> & _); reflexivity).
    destruct B1 as [B1 B2 B3]. constructor.
    - rewrite zlen_app. change (zlen [c]) with 1. rewrite SC. lia.
    - intros i c' H. apply nth_snoc in H. destruct H as [H|[-> ->]]; [eauto|]. rewrite P3. cbn [chan0 pc_id]. rewrite SC. unfold zlen in IE. lia.
    - apply Forall_app. split; [exact B3|]. constructor; [exact P2|constructor]. }
  assert (L2 : later s1 (set_chs s2 (s_chs s2 ++ [c]))).
  { destruct (moved_later _ _ P1) as (A1 & A2 & A3 & A4). split; [exact A1|]. split; [exact A2|]. split; [exact A3|exact A4]. }
  destruct (negb (ret =? 0)) eqn:RN; cbn [okx].
  - cbn [next_post]. split; [exact G2|]. split; [eapply later_trans; [apply moved_later; exact M|exact L2]|]. intros ->. discriminate RN.
  - apply AG; [exact G2|exact L2|]. intros _ _ _. destruct L2 as (_ & _ & L2 & _). lia.
Qed.

Definition final_post (e : penv) (s : lstate) (r : Z * lstate) : Prop :=
  ginv e (snd r) /\ later s (snd r) /\ (fst r = 0 -> s_end (snd r) <= s_cur (snd r)).

Lemma reaches_trans : forall e a b c, reaches e a b -> reaches e b c -> reaches e a c.
Proof. intros e a b c H1 H2. induction H2 as [|s1 s2 f H IH L]; [exact H1|]. econstructor; eassumption. Qed.

Lemma logger_loop_ok : forall e fuel s, env_ok e -> 0 <= x_maxdev e -> ginv e s ->
  okx (enough s fuel /\ s_cur s < s_end s /\ forall s', reaches e s s' -> ~ self_line s') e (final_post e s) (logger_loop fuel e s).
Proof.
  intros e. induction fuel as [|fuel IH]; intros s E MD G.
  { cbn [logger_loop okx]. intros ((_ & _ & H) & _). destruct (gi_wfs _ _ G). pose proof (zlen_nonneg _ (s_text s)). lia. }
  cbn [logger_loop].
  assert (L := logger_line_ok e fuel s E MD G). destruct (logger_line fuel e s) as [r| |] eqn:LL; cbn [bind okx] in *; [|exact L|].
  2: { intros (H1 & H2 & H3). apply L. split; [exact H1|]. split; [exact H2|]. apply H3. constructor. }
  destruct r as [s'|code s']; cbn [next_post] in L.
  - destruct L as (G' & LT & CE & PR). eapply okx_mono; [apply (IH s' E MD G')| |].
    + intros ((H1 & H2 & H3) & H4 & H5). destruct LT as (T1 & T2 & T3 & T4).
      split; [|split; [exact CE|]].
      * split; [apply T4; exact H1|]. unfold zlen in *. rewrite T1. split; [congruence|].
        assert (s_cur s < s_cur s') by (apply PR; assumption). lia.
      * intros s2 R. apply H5. eapply reaches_trans; [|exact R]. eapply reaches_next; [constructor|exact LL].
    + intros [code s2] (P1 & P2 & P3). split; [exact P1|]. split; [eapply later_trans; eassumption|exact P3].
  - exact L.
Qed.

(* ---- the whole parser ---- *)
Lemma start_ginv : forall e t first shm, 0 <= first <= zlen t -> (forall i, (Z.of_nat i < first) -> nth i t 1 <> 0) -> 0 <= x_maxch e ->
  ginv e (mkLs t first (first + zlen t) 1 [] shm false [] []).
Proof.
  intros e t first shm F N M. constructor; cbn [s_cur s_text s_end s_chs s_name s_desc].
  - constructor; cbn [s_cur s_text s_end]; [exact F|lia|exact N].
  - constructor; [exact M|intros i c H; destruct i; discriminate H|constructor].
  - split; [change (zlen (@nil Z)) with 0; lia|intros []].
  - split; [change (zlen (@nil Z)) with 0; lia|intros []].
Qed.
Lemma bom_first : forall t, let first := if has_bom t then 3 else 0 in
  0 <= first <= zlen t /\ (forall i, (Z.of_nat i < first) -> nth i t 1 <> 0).
Proof.
  intros t. cbv zeta. destruct (has_bom t) eqn:B.
  - destruct (starts_app _ _ B) as (r & ->). split; [rewrite zlen_app; change (zlen [239; 187; 191]) with 3; pose proof (zlen_nonneg _ r); lia|].
    intros i I. destruct i as [|[|[|i]]]; cbn [app nth]; lia.
  - split; [pose proof (zlen_nonneg _ t); lia|]. lia.
Qed.

Theorem parse_logger_ok : forall e fuel shm t, env_ok e -> 0 <= x_maxch e -> 0 <= x_maxdev e ->
  okx (has_bom t = false /\ ~ In 0 t /\ t <> [] /\ 3 * zlen t + 5 < Z.of_nat fuel /\ forall s', reaches e (start shm t) s' -> ~ self_line s') e
      (fun r => ginv e (snd r) /\ length (s_text (snd r)) = length t /\ (fst r = 0 -> s_cur (snd r) = zlen t /\ has_bom t = false))
      (parse_logger fuel e shm t).
Proof.
  intros e fuel shm t E MC MD. unfold parse_logger. cbv zeta. destruct (bom_first t) as [B1 B2].
  set (first := if has_bom t then 3 else 0) in *.
  eapply okx_mono; [apply (logger_loop_ok e fuel _ E MD (start_ginv e t first shm B1 B2 MC))| |].
  - intros (H1 & H2 & H3 & H4 & H5). subst first. rewrite H1 in *. split; [|split].
    + split; [exact H2|]. split; [reflexivity|]. cbn [s_text s_cur]. lia.
    + cbn [s_cur s_end]. destruct t; [contradiction|]. rewrite zlen_cons. pose proof (zlen_nonneg _ t). lia.
    + intros s' R. apply H5. exact R.
  - intros [code s'] (P1 & (P2 & P3 & P4 & P5) & P6). cbn [fst snd s_text s_end s_cur] in *. split; [exact P1|]. split; [exact P2|].
    intros C. specialize (P6 C). pose proof (ws_cur _ (gi_wfs _ _ P1)) as WC. unfold zlen in *. rewrite P2 in WC. subst first. destruct (has_bom t); [lia|]. split; [lia|reflexivity].
Qed.
