(* Properties of the configuration parser. *)
From Coq Require Import String ZArith List Bool Lia ZifyBool ZifyNat ZifyN.
From Verif Require Import Base BaseFacts LoggerState FileName Filter FilterSpec ParseVal Lexer ParseCfg
  ParseSpec TextSpec ValSpec LexProofs ParseSafe ParseInv ValProofs ParseRefute ParseDet ParseMono.
Import ListNotations.
Open Scope Z_scope.

(* a sample configuration *)
Definition ex_lines (l : list string) : text := concat (map (fun s => s2z s ++ [10]) l).
Definition ex_cfg : text := ex_lines
  ["hot_update: false"; "- channel: 0"; "    sync: async"; "    category_wlist: 1,3-5"; "    - device: 0"; "        out_type: file";
   "        disable: false"; "        priority: warn"; "        file: ""app"""; "        limit_size: 100 # MB";
   "    - device: 1"; "        out_type: virtual"; "- channel: 1"; "    sync: sync"]%string.
Example ex_cfg_parsed : exists s, parse_logger 2000 std_env 0 ex_cfg = Ret (0, s) /\ zlen (s_chs s) = 2.
Proof. eexists. split; [vm_compute; reflexivity|reflexivity]. Qed.

(* ---- C42: parsing terminates ---- *)
(* Missing: texts with a NUL or a byte order mark, and macros or variables that are defined
   as themselves: NAME NAME, x=$x and x=${x}. *)
Theorem C42_terminates_partial : forall e fuel shm t,
  x_arith e = Ub \/ (exists z, x_arith e = Ret z /\ LLONG_MIN <= z <= LLONG_MAX) -> dns_wf e -> 0 <= x_maxch e -> 0 <= x_maxdev e ->
  has_bom t = false -> ~ In 0 t -> (forall s, reaches e (start shm t) s -> ~ self_line s) ->
  3 * zlen t + 5 < Z.of_nat fuel -> parse_logger fuel e shm t <> Fuel.
Proof.
  intros e fuel shm t A D MC MD B N S F H. destruct (list_eq_dec Z.eq_dec t []) as [->|NE].
  - change (zlen (@nil Z)) with 0 in F. destruct fuel as [|[|fuel]]; [lia|lia|]. vm_compute in H. discriminate H.
  - assert (E : env_ok e). { split; [|exact D]. unfold arith_ok. destruct A as [-> |(z & -> & Z)]; auto. }
    pose proof (parse_logger_ok e fuel shm t E MC MD) as P. rewrite H in P. apply P. auto.
Qed.
Print Assumptions C42_terminates_partial.
Definition ex_macro : text := ex_lines ["define: NUM 0"; "channel: NUM"]%string.
Example C42_ex : has_bom ex_macro = false /\ ~ In 0 ex_macro /\ (forall s, reaches std_env (start 0 ex_macro) s -> ~ self_line s) /\
  exists s, parse_logger 100 std_env 0 ex_macro = Ret (0, s) /\ s_text s = ex_lines ["define: NUM 0"; "channel: 0  "]%string.
Proof.
  split; [reflexivity|]. split; [intros H; vm_compute in H; repeat (destruct H as [H|H]; [discriminate H|]); exact H|]. split; [|eexists; split; vm_compute; reflexivity].
  intros s R. eapply reaches_from in R; [|instantiate (2 := 60%nat); vm_compute; reflexivity]. destruct R as [->|R].
  - eapply (not_self_macro 60); [vm_compute; reflexivity|vm_compute; reflexivity|reflexivity|].
    intros (name & bl & NV & NS & _). destruct name as [|a [|b [|c [|d name]]]]; cbn in NV; try discriminate NV.
    + injection NV as _ _ _ NV. destruct bl as [|x bl]; cbn in NV; [discriminate NV|]. injection NV as _ NV. destruct bl; discriminate NV.
    + injection NV as <- <- <- <- NV. apply NS. cbn. auto.
  - eapply reaches_stop in R; [|instantiate (3 := 60%nat); vm_compute; reflexivity]. subst s.
    eapply not_self; [instantiate (3 := 60%nat); vm_compute; reflexivity|discriminate|discriminate].
Qed.
(* a variable whose value names another one *)
Definition ex_var : text := ex_lines ["var: abc=$x"; "channel: 0"]%string.
Example C42_ex_var : has_bom ex_var = false /\ ~ In 0 ex_var /\ (forall s, reaches std_env (start 0 ex_var) s -> ~ self_line s) /\
  exists s, parse_logger 100 std_env 0 ex_var = Ret (0, s).
Proof.
  split; [reflexivity|]. split; [intros H; vm_compute in H; repeat (destruct H as [H|H]; [discriminate H|]); exact H|]. split; [|eexists; vm_compute; reflexivity].
  intros s R. eapply reaches_from in R; [|instantiate (2 := 60%nat); vm_compute; reflexivity]. destruct R as [->|R].
  - eapply (not_self_var 60); [vm_compute; reflexivity|vm_compute; reflexivity|reflexivity|].
    intros (before & x & bl & y & bl' & after & E & XN & _ & Y & _). replace (before ++ x ++ bl ++ 61 :: y ++ bl' ++ after) with ((before ++ x ++ bl) ++ 61 :: y ++ bl' ++ after) in E by (rewrite <- !app_assoc; reflexivity).
    remember (before ++ x ++ bl) as A eqn:EA.
    assert (A = [97; 98; 99] /\ y ++ bl' ++ after = [36; 120]) as [-> YE].
    { clear - E. remember (y ++ bl' ++ after) as B. clear HeqB. destruct A as [|a [|b [|c [|d [|f [|g A]]]]]]; cbn in E; try discriminate E; injection E; intros; subst; auto; try discriminate. destruct A; discriminate. }
    assert (In 120 x).
    { destruct Y as [-> | ->]; [|discriminate YE]. destruct x as [|c x]; [contradiction|]. injection YE as -> _. left. reflexivity. }
    assert (I : In 120 [97; 98; 99]) by (rewrite EA; apply in_or_app; right; apply in_or_app; left; assumption). cbn in I. lia.
  - eapply reaches_stop in R; [|instantiate (3 := 60%nat); vm_compute; reflexivity]. subst s.
    eapply not_self; [instantiate (3 := 60%nat); vm_compute; reflexivity|discriminate|discriminate].
Qed.
Theorem C42_nul_refuted : forall fuel e shm, parse_logger fuel e shm [0] = Fuel.
Proof. intros fuel e shm. unfold parse_logger. change (has_bom [0]) with false. cbv zeta iota. apply nul_loops; [reflexivity|]. change (zlen [0]) with 1. lia. Qed.
Print Assumptions C42_nul_refuted.
(* every text with an embedded NUL at the start of a line, and every file that starts with a byte order mark *)
Theorem C42_bom_refuted : forall fuel e shm, parse_logger fuel e shm [239; 187; 191] = Fuel.
Proof. intros fuel e shm. unfold parse_logger. change (has_bom [239; 187; 191]) with true. cbv zeta iota. apply nul_loops; [reflexivity|]. change (zlen [239; 187; 191]) with 3. lia. Qed.
Print Assumptions C42_bom_refuted.
Theorem C42_macro_refuted : exists t, ~ In 0 t /\ has_bom t = false /\ forall fuel e shm, parse_logger fuel e shm t = Fuel.
Proof.
  exists self_text. split; [|split; [reflexivity|intros; apply self_macro_loops]]. intros H. vm_compute in H.
  repeat (destruct H as [H|H]; [discriminate H|]). exact H.
Qed.
Print Assumptions C42_macro_refuted.

(* ---- C43: the lexer stays inside the text ---- *)
(* A read outside the text and its NUL is Ub in the model. *)
Theorem C43_lexer_inside : forall t fuel cur end_, 0 <= cur <= zlen t ->
  lex fuel (t ++ [0]) cur end_ <> Ub /\
  (forall code cur' l n, lex fuel (t ++ [0]) cur end_ = Ret (code, cur', l, n) ->
     cur <= cur' <= zlen t + 1 /\
     (code = PEC_NONE -> cur' <= zlen t /\
        (l_kb l = -1 /\ l_ke l = -1 /\ l_vb l = -1 /\ l_ve l = -1 \/
         cur <= l_kb l < l_ke l /\ l_ke l < l_vb l <= l_ve l /\ l_ve l <= cur'))).
Proof.
  intros t fuel cur end_ C. pose proof (lex_inside t fuel cur end_ C) as H. split.
  - intros E. rewrite E in H. exact H.
  - intros code cur' l n E. rewrite E in H. destruct H as [H1 H2]. split; [exact H1|]. intros CO. destruct (H2 CO) as (A & B & _). split; [exact A|exact B].
Qed.
Print Assumptions C43_lexer_inside.
(* Neither does the whole parser, for any text whatsoever: the only undefined
   behaviour left is arithmetic on numbers that are too large (C69). *)
Theorem C43_parser_inside : forall e fuel shm t z, x_arith e = Ret z -> LLONG_MIN <= z <= LLONG_MAX -> dns_wf e -> 0 <= x_maxch e -> 0 <= x_maxdev e ->
  parse_logger fuel e shm t <> Ub.
Proof.
  intros e fuel shm t z A Z D MC MD H. assert (E : env_ok e). { split; [|exact D]. unfold arith_ok. rewrite A. exact Z. }
  pose proof (parse_logger_ok e fuel shm t E MC MD) as P. rewrite H in P. cbn [okx] in P. congruence.
Qed.
Print Assumptions C43_parser_inside.
Example C43_ex : exists l, lex 100 (s2z "  file: x" ++ [0]) 0 9 = Ret (0, 9, l, 1) /\ l_kb l = 2 /\ l_ke l = 6 /\ l_vb l = 8 /\ l_ve l = 9.
Proof. eexists. split; [vm_compute; reflexivity|]. repeat split. Qed.

(* ---- C69: numbers in a configuration never overflow ---- *)
Theorem C69_limit_size_refuted : exists t, parse_logger 500 std_env 0 t = Ub.
Proof. exists (ex_lines ["- channel: 0"; " - device: 0"; "  limit_size: 99999999999999999"]%string). vm_compute. reflexivity. Qed.
Print Assumptions C69_limit_size_refuted.
Theorem C69_wlist_refuted : exists t, parse_logger 500 std_env 0 t = Ub.
Proof. exists (ex_lines ["- channel: 0"; " category_wlist: 64"]%string). vm_compute. reflexivity. Qed.
Print Assumptions C69_wlist_refuted.

(* ---- C44: an accepted configuration is well formed ---- *)
Theorem C44_wellformed : forall e fuel shm t s,
  x_arith e = Ub \/ (exists z, x_arith e = Ret z /\ LLONG_MIN <= z <= LLONG_MAX) -> dns_wf e -> 0 <= x_maxch e -> 0 <= x_maxdev e ->
  parse_logger fuel e shm t = Ret (0, s) ->
  cfg_wf (x_maxch e) (x_maxdev e) (s_chs s) /\
  zlen (s_name s) <= 249 /\ ~ In 0 (s_name s) /\ zlen (s_desc s) <= 49 /\ ~ In 0 (s_desc s) /\
  s_cur s = zlen t.
Proof.
  intros e fuel shm t s A D MC MD H. assert (E : env_ok e). { split; [|exact D]. unfold arith_ok. destruct A as [-> |(z & -> & Z)]; auto. }
  pose proof (parse_logger_ok e fuel shm t E MC MD) as P. rewrite H in P. cbn [okx fst snd] in P. destruct P as (G & _ & C). destruct (C eq_refl) as [C1 _].
  destruct G as [_ G2 [G3 G4] [G5 G6]]. auto 10.
Qed.
Print Assumptions C44_wellformed.
Example C44_ex : exists s c0 c1 d0 d1, parse_logger 2000 std_env 0 ex_cfg = Ret (0, s) /\ s_chs s = [c0; c1] /\ pc_id c1 = 1 /\ pc_type c1 = CHANNEL_SYNC /\
  pc_devs c0 = [d0; d1] /\ pc_virtual c0 = 1 /\ pd_file d0 = s2z "app" /\ fld (pd_cfg d0) DEVICE_CFG_PRIORITY = PRIORITY_WARN /\
  fld (pd_cfg d0) DEVICE_CFG_FILE_LIMIT_SIZE = 100000000 /\ fld (pc_cfg c0) CHANNEL_CFG_CATEGORY_MASK = 2 + 8 + 16 + 32.
Proof. eexists. eexists. eexists. eexists. eexists. split; [vm_compute; reflexivity|]. split; [reflexivity|]. split; [reflexivity|]. split; [reflexivity|]. split; [reflexivity|]. repeat split. Qed.

(* ---- C70: an accepted configuration has a channel ---- *)
Theorem C70_has_channel_refuted : exists t s, parse_logger 100 std_env 0 t = Ret (0, s) /\ s_chs s = [].
Proof. exists (s2z "# nothing"). eexists. split; [vm_compute; reflexivity|reflexivity]. Qed.
Print Assumptions C70_has_channel_refuted.

(* ---- C46: bit lists ---- *)
Theorem C46_bit_list : forall l t rest e, list_text l t -> Forall bits_ok l -> ends_number rest ->
  exists m, parse_bit_array e t rest = Ret m /\ 0 <= m < 2 ^ 64 /\ forall i, 0 <= i -> (Z.testbit m i = true <-> listed l i).
Proof. exact bit_list. Qed.
Print Assumptions C46_bit_list.
Example C46_ex : list_text [Bit 1; Bits 5 3; Bit 63] (s2z " 1, 5 -3,63") /\ Forall bits_ok [Bit 1; Bits 5 3; Bit 63] /\ ends_number [10; 0].
Proof.
  assert (D : forall a, 48 <= a <= 57 -> digits [a]) by (intros a A; split; [discriminate|constructor; [exact A|constructor]]).
  split; [|split].
  - change (s2z " 1, 5 -3,63") with (([32] ++ [49] ++ []) ++ 44 :: (([32] ++ [53] ++ [32] ++ 45 :: [] ++ [51] ++ []) ++ 44 :: ([] ++ [54; 51] ++ []))).
    apply lt_cons; [|apply lt_cons; [|apply lt_one]].
    + apply bt_bit; [apply D; lia|reflexivity|constructor; [left; reflexivity|constructor]|constructor].
    + apply bt_bits; try (apply D; lia); try reflexivity; repeat constructor.
    + apply bt_bit; [split; [discriminate|repeat constructor; discriminate]|reflexivity|constructor|constructor].
  - repeat constructor; cbn; lia.
  - exists 10, [0]. split; [reflexivity|unfold digit; lia].
Qed.

(* ---- C47: black lists ---- *)
(* Missing: the list of all 64 values. *)
Definition black (set : text -> text -> text -> outcome (Z * list Z)) (field : Z) : Prop :=
  forall l v w rest, list_text l v -> Forall bits_ok l -> ends_number rest -> (exists i, 0 <= i <= 63 /\ ~ listed l i) ->
  exists cfg, set v w rest = Ret (0, cfg) /\
    forall i, 0 <= i <= 63 -> (in_mask (fld cfg field) i <-> ~ listed l i) /\ exists r, mask_reject (fld cfg field) i = Ret r /\ (r = true <-> listed l i).
Definition dev_set (e : penv) (d : pdev) (key : Z) (v w rest : text) : outcome (Z * list Z) :=
  let! r := device_key e d key v w rest in Ret (fst r, pd_cfg (snd r)).
Definition chan_set (e : penv) (c : pchan) (key : Z) (v w rest : text) : outcome (Z * list Z) :=
  let! r := channel_key e c key v w rest in Ret (fst r, pc_cfg (snd r)).
Lemma black_from_mask : forall set field, (forall m l v w rest e, flip (parse_bit_array e v rest) = Ret m -> list_text l v -> Forall bits_ok l -> ends_number rest ->
    exists cfg, set v w rest = Ret (0, cfg) /\ fld cfg field = m) -> black set field.
Proof.
  intros set field H l v w rest L OK ER NA. destruct (black_mask l v rest std_env L OK ER NA) as (m & M1 & M2 & M3).
  destruct (H m l v w rest std_env M1 L OK ER) as (cfg & C1 & C2). exists cfg. split; [exact C1|]. intros i I. rewrite C2. split.
  - unfold in_mask. rewrite <- (M3 i I). split; [intros [Z0|[_ T]]; [contradiction|exact T]|intros T; right; split; [exact I|exact T]].
  - rewrite (mask_reject_spec m i M2 I). exists (negb (Z.testbit m i)). split; [reflexivity|]. specialize (M3 i I).
    destruct (Z.testbit m i); cbn [negb]; split; intros X; try discriminate X; try reflexivity.
    + exfalso. apply (proj1 M3); auto.
    + destruct (bit_list l v rest std_env L OK ER) as (m' & N1 & _ & N3). destruct (Z.testbit m' i) eqn:B; [apply (N3 i); [lia|exact B]|].
      exfalso. assert (~ listed l i) by (intros Y; apply (N3 i) in Y; [congruence|lia]). apply M3 in H0. discriminate H0.
Qed.
Lemma bit_list_env : forall l t rest e e' m, list_text l t -> Forall bits_ok l -> ends_number rest -> parse_bit_array e t rest = Ret m -> parse_bit_array e' t rest = Ret m.
Proof.
  intros l t rest e e' m L OK ER P. destruct (bit_list l t rest e L OK ER) as (m1 & M1 & MR & M2). destruct (bit_list l t rest e' L OK ER) as (m2 & N1 & NR & N2).
  rewrite N1. rewrite P in M1. injection M1 as ->. f_equal. apply Z.bits_inj'. intros k K. specialize (M2 k K). specialize (N2 k K).
  destruct (Z.testbit m1 k), (Z.testbit m2 k); try reflexivity; exfalso; intuition discriminate.
Qed.
Lemma fld_cput : forall l i v, 0 <= i -> (Z.to_nat i < length l)%nat -> fld (cput l i v) i = v.
Proof.
  intros l i v I L. unfold fld, cput. rewrite app_nth2; rewrite firstn_length_le by lia; [|lia]. rewrite Nat.sub_diag. reflexivity.
Qed.
Lemma flip_env : forall l v rest e e' m, list_text l v -> Forall bits_ok l -> ends_number rest -> flip (parse_bit_array e v rest) = Ret m -> flip (parse_bit_array e' v rest) = Ret m.
Proof.
  intros l v rest e e' m L OK ER H. unfold flip in *. destruct (parse_bit_array e v rest) as [x| |] eqn:P; cbn [bind] in H; try discriminate H.
  rewrite (bit_list_env l v rest e e' x L OK ER P). exact H.
Qed.
Theorem C47_black_list_partial :
  (forall e d, length (pd_cfg d) = 15%nat ->
     black (dev_set e d RK_CATEGORY_BLIST) DEVICE_CFG_CATEGORY_MASK /\ black (dev_set e d RK_IDENTIFY_BLIST) DEVICE_CFG_IDENTIFY_MASK) /\
  (forall e c, length (pc_cfg c) = 7%nat ->
     black (chan_set e c RK_CATEGORY_BLIST) CHANNEL_CFG_CATEGORY_MASK /\ black (chan_set e c RK_IDENTIFY_BLIST) CHANNEL_CFG_IDENTIFY_MASK).
Proof.
  split.
  - intros e d LD. split; apply black_from_mask; intros m l v w rest e0 FM L OK ER; pose proof (flip_env l v rest e0 e m L OK ER FM) as FE;
      unfold dev_set, device_key; cbn -[flip parse_bit_array cput dput]; unfold put; rewrite FE; cbn [bind fst snd dput pd_cfg]; (eexists; split; [reflexivity|]); apply fld_cput; [discriminate|rewrite LD; cbv; lia|discriminate|rewrite LD; cbv; lia].
  - intros e c LC. split; apply black_from_mask; intros m l v w rest e0 FM L OK ER; pose proof (flip_env l v rest e0 e m L OK ER FM) as FE;
      unfold chan_set, channel_key; cbn -[flip parse_bit_array cput cputc]; unfold putc; rewrite FE; cbn [bind fst snd cputc pc_cfg]; (eexists; split; [reflexivity|]); apply fld_cput; [discriminate|rewrite LC; cbv; lia|discriminate|rewrite LC; cbv; lia].
Qed.
Print Assumptions C47_black_list_partial.
Theorem C47_black_list_refuted : exists l v cfg, list_text l v /\ Forall bits_ok l /\ (forall i, 0 <= i <= 63 -> listed l i) /\
  (forall e, dev_set e (dev0 0) RK_CATEGORY_BLIST v (v ++ [10; 0]) [10; 0] = Ret (0, cfg)) /\
  forall i, 0 <= i <= 63 -> mask_reject (fld cfg DEVICE_CFG_CATEGORY_MASK) i = Ret false.
Proof.
  exists [Bits 0 63], (s2z "0-63"). eexists. split; [|split; [|split; [|split]]].
  - apply lt_one. change (s2z "0-63") with ([] ++ [48] ++ [] ++ 45 :: [] ++ [54; 51] ++ []). apply bt_bits; try reflexivity; try constructor; try discriminate; repeat constructor; discriminate.
  - repeat constructor; cbn; lia.
  - intros i I. exists (Bits 0 63). split; [left; reflexivity|]. cbn [bits_in]. lia.
  - intros e. vm_compute. reflexivity.
  - intros i I. reflexivity.
Qed.
Print Assumptions C47_black_list_refuted.

(* ---- C48: keys ---- *)
Theorem C48_keys : (forall k, exists r, parse_reserve k = Ret r) /\
  (forall k r, In (k, r) documented -> parse_reserve k = Ret r) /\ NoDup (map snd documented).
Proof.
  split; [|split].
  - intros k. destruct (parse_reserve_ret k) as (r & H). exists r. exact H.
  - intros k r I. unfold documented in I. cbn [map] in I. repeat (destruct I as [I|I]; [injection I as <- <-; vm_compute; reflexivity|]). destruct I.
  - unfold documented. cbn [map snd]. repeat (constructor; [cbn [In]; intros H; repeat (destruct H as [H|H]; [discriminate H|]); exact H|]). constructor.
Qed.
Print Assumptions C48_keys.

(* ---- C71: a misspelt key is reported ---- *)
(* Keys are told apart by a few letters only. *)
Theorem C71_misspelt_refuted : exists k r, ~ In k (map fst documented) /\ parse_reserve k = Ret r /\ r <> RK_NULL.
Proof.
  exists (s2z "fiel"). eexists. split; [|split; [reflexivity|discriminate]]. intros H. vm_compute in H. repeat (destruct H as [H|H]; [discriminate H|]). exact H.
Qed.
Print Assumptions C71_misspelt_refuted.
Theorem C71_misspelt_config_refuted : exists t s d, parse_logger 500 std_env 0 t = Ret (0, s) /\
  t = ex_lines ["- channel: 0"; " - device: 0"; "  fiel: x"]%string /\ map pc_devs (s_chs s) = [[d]] /\ pd_file d = s2z "x".
Proof. eexists. eexists. eexists. split; [|split; [reflexivity|split]]; vm_compute; reflexivity. Qed.
Print Assumptions C71_misspelt_config_refuted.

(* ---- C50: the text alone decides ---- *)
(* Missing: the shm_key of a text that sets none is what the memory held before. *)
Theorem C50_text_decides_partial : forall fuel e z1 z2 t c s1, parse_logger fuel e z1 t = Ret (c, s1) ->
  exists s2, parse_logger fuel e z2 t = Ret (c, s2) /\
    s_chs s2 = s_chs s1 /\ s_hot s2 = s_hot s1 /\ s_name s2 = s_name s1 /\ s_desc s2 = s_desc s1 /\
    s_text s2 = s_text s1 /\ s_cur s2 = s_cur s1 /\ s_no s2 = s_no s1 /\
    (s_shm s2 = s_shm s1 \/ s_shm s1 = z1 /\ s_shm s2 = z2).
Proof.
  intros fuel e z1 z2 t c s1 H. destruct (parse_logger_same fuel e z1 z2 t c s1 H) as (s2 & H2 & E & SH). exists s2. split; [exact H2|].
  rewrite E. cbn [with_shm s_chs s_hot s_name s_desc s_text s_cur s_no s_shm]. repeat (split; [reflexivity|]). exact SH.
Qed.
Print Assumptions C50_text_decides_partial.
Theorem C50_shm_refuted : exists t s1 s2, parse_logger 100 std_env 0 t = Ret (0, s1) /\ parse_logger 100 std_env 77 t = Ret (0, s2) /\
  zlen (s_chs s1) = 1 /\ s_shm s1 = 0 /\ s_shm s2 = 77.
Proof. exists (s2z "channel: 0"). eexists. eexists. repeat split; vm_compute; reflexivity. Qed.
Print Assumptions C50_shm_refuted.

(* ---- C59: addresses ---- *)
(* ip holds the bytes a, b, c, d in memory order (little-endian), port its two bytes swapped. *)
Theorem C59_address : forall e a b c d port s dn, address_text a b c d port s ->
  0 <= a <= 255 -> 0 <= b <= 255 -> 0 <= c <= 255 -> 0 <= d <= 255 -> 1 <= port <= 65535 ->
  parse_address e s dn = Ret (a + 256 * (b + 256 * (c + 256 * d)), port mod 256 * 256 + port / 256).
Proof. exact address_read. Qed.
Print Assumptions C59_address.
Example C59_ex : address_text 192 168 0 7 8080 (s2z "192.168.0.7:8080") /\ parse_address std_env (s2z "192.168.0.7:8080") true = Ret (117483712, 36895).
Proof.
  split; [|vm_compute; reflexivity]. exists (s2z "192.168.0.7"), (s2z "8080"). split; [reflexivity|].
  assert (P : forall n s, s <> [] -> Forall digit s -> num s = n -> hd 0 s <> 48 \/ s = [48] -> part n s).
  { intros n s N F E Z0. split; [split; assumption|]. split; [exact E|]. intros H. destruct Z0; [contradiction|assumption]. }
  split; [exists (s2z "192"), (s2z "168"), (s2z "0"), (s2z "7"); split; [reflexivity|]; repeat split|];
    try (apply P; [discriminate|repeat constructor; discriminate|reflexivity|first [left; discriminate|right; reflexivity]]);
    try discriminate; try (repeat constructor; discriminate); try (intros; discriminate); try reflexivity.
Qed.
(* Every host made of digits and dots: the address it denotes as inet_addr reads
   it (one to four numbers, octal after a leading zero), or 255.255.255.255 when
   it denotes none. *)
Theorem C59_forms : forall e q p port dn, q <> [] -> Forall (fun x => digit x \/ x = 46) q -> part port p -> 1 <= port <= 65535 ->
  exists ip, parse_address e (q ++ 58 :: p) dn = Ret (ip, port mod 256 * 256 + port / 256) /\
    (forall a b c d, ip_text q [a; b; c; d] -> ip = a + 256 * (b + 256 * (c + 256 * d))) /\
    ((forall bs, ~ ip_text q bs) -> ip = 255 + 256 * (255 + 256 * (255 + 256 * 255))).
Proof.
  intros e q p port dn N F P PT. exists (inet_addr q). split; [exact (address_gen e q p port dn N F P PT)|].
  split; [intros a b c d; apply ip_text_read|intros H; apply (ip_none q F H)].
Qed.
Print Assumptions C59_forms.
Example C59_forms_hypotheses : ip_text (s2z "10.258") [10; 0; 1; 2].
Proof.
  split; [reflexivity|]. split; [repeat (constructor; [lia|]); constructor|].
  exists [s2z "10"; s2z "258"], 1%nat. split; [reflexivity|]. split; [lia|].
  constructor; [|constructor; [|constructor]]; (split; [split; [discriminate|repeat constructor; discriminate]|left; split; [discriminate|reflexivity]]).
Qed.
Example C59_forms_ex : parse_address std_env (s2z "10.258:80") true = Ret (10 + 256 * (0 + 256 * (1 + 256 * 2)), 20480) /\
  parse_address std_env (s2z "010.0.0.1:80") true = Ret (8 + 256 * (0 + 256 * (0 + 256 * 1)), 20480) /\
  parse_address std_env (s2z "1.2.3.256:80") true = Ret (4294967295, 20480).
Proof. repeat split; vm_compute; reflexivity. Qed.
