(* A configuration that is written down is read back. *)
From Coq Require Import String ZArith List Bool Lia ZifyBool ZifyNat ZifyN.
From Verif Require Import Base BaseFacts LoggerState ParseVal Lexer ParseCfg TextSpec ValSpec CfgSpec CfgProofs PropsParse.
Import ListNotations.
Open Scope Z_scope.

(* ---- C45: the settings read are those written ---- *)
(* Every number of channels and devices within the maxima, every order of the
   options, any line end, indentation, quotes, blank lines and comments. *)
Theorem C45_read_back : forall eol m e shm is t fuel,
  line_end eol -> x_maxdev e < 2 ^ 31 -> x_maxch e < 2 ^ 31 ->
  log_text eol m 0 is t -> Forall (gitem_ok (x_maxdev e)) is -> want_chans 0 is <> [] -> zlen (want_chans 0 is) <= x_maxch e ->
  zlen t + 1 < Z.of_nat fuel ->
  exists s, parse_logger fuel e shm t = Ret (0, s) /\ s_chs s = want_chans 0 is /\
    s_hot s = pick (fun i => match i with GHot b => Some b | _ => None end) is false /\
    s_name s = pick (fun i => match i with GName v => Some v | _ => None end) is [] /\
    s_desc s = pick (fun i => match i with GDesc v => Some v | _ => None end) is [] /\
    s_shm s = pick (fun i => match i with GShm n => Some n | _ => None end) is shm.
Proof. exact config_read. Qed.
Print Assumptions C45_read_back.

(* a sample text with its derivation *)
Definition ex_line (n : nat) (k : string) (v : text) (tail : string) : text := repeat 32 n ++ s2z k ++ s2z ": " ++ v ++ s2z tail ++ [10].
Definition plainb (c : Z) : bool := negb (existsb (Z.eqb c) [0; 13; 10; 35]).
Definition blankb (c : Z) : bool := existsb (Z.eqb c) [32; 9; 11; 12].
Definition wordb (k : text) : bool :=
  match k with [] => false | c :: r => (97 <=? c) && (c <=? 122) && forallb (fun c => (97 <=? c) && (c <=? 122) || (48 <=? c) && (c <=? 57) || (c =? 95)) r end.
Definition bareb (v : text) : bool :=
  forallb plainb v && match v with [] => true | c :: _ => negb (existsb (Z.eqb c) [32; 9; 11; 12; 34; 91; 123]) end && negb (blankb (last v 1)).
Lemma in_eqb : forall l c, existsb (Z.eqb c) l = false -> ~ In c l.
Proof. intros l c H I. assert (existsb (Z.eqb c) l = true) by (apply existsb_exists; exists c; split; [exact I|apply Z.eqb_refl]). congruence. Qed.
Lemma ex_is_line : forall n k v tail, wordb (s2z k) = true -> bareb v = true -> (tail = ""%string \/ tail = "# x"%string) -> is_line [10] (Z.of_nat n) (s2z k) v (ex_line n k v tail).
Proof.
  intros n k v tail K V T. exists (repeat 32 n), [], [], [32], (v ++ s2z tail). split; [unfold ex_line; cbn [app]; change (s2z ": ") with [58; 32]; rewrite <- !app_assoc; reflexivity|].
  split; [apply Forall_forall; intros x H; apply repeat_spec in H; subst x; cbn; auto|]. split; [unfold zlen; rewrite repeat_length; reflexivity|]. split; [left; reflexivity|].
  split; [|split; [constructor|split; [constructor; [cbn; auto|constructor]|]]].
  - destruct (s2z k) as [|c r]; [discriminate|]. exists c, r. cbn [wordb] in K. apply andb_prop in K. destruct K as [K1 K2]. split; [reflexivity|]. split; [unfold lower; lia|].
    apply Forall_forall. intros x I. rewrite forallb_forall in K2. specialize (K2 x I). unfold lower, digit. lia.
  - unfold bareb in V. apply andb_prop in V. destruct V as [V V3]. apply andb_prop in V. destruct V as [V1 V2].
    replace (v ++ s2z tail) with (v ++ [] ++ s2z tail) by reflexivity. apply written_bare.
    + split; [|split].
      * apply Forall_forall. intros x I. rewrite forallb_forall in V1. specialize (V1 x I). unfold plainb in V1. apply negb_true_iff in V1. apply in_eqb in V1. cbn [In] in V1. unfold plain, in_line. lia.
      * intros c r ->. apply negb_true_iff in V2. apply in_eqb in V2. unfold blank. cbn [In] in *. tauto.
      * intros c r ->. rewrite last_last in V3. apply negb_true_iff in V3. apply in_eqb in V3. exact V3.
    + intros c r ->. apply negb_true_iff in V2. apply in_eqb in V2. cbn [In] in *. tauto.
    + constructor.
    + destruct T as [-> | ->]; [left; reflexivity|]. right. exists (s2z " x"). split; [reflexivity|]. repeat constructor; discriminate.
Qed.
Definition ex_items : list gitem :=
  [GHot true; GName (s2z "app"); GShm 255;
   GChan [COpt (CSync true); COpt (CFilter (FPriority PRIORITY_INFO)); CDev [DOut DEVICE_OUT_FILE; DDisable false; DFile (s2z "$PNAME"); DLimit 100];
          COpt (CFilter (FBlist Category [Bit 3; Bits 7 5])); CDev [DOut DEVICE_OUT_UDP; DUdp 127 0 0 1 8080]];
   GChan []].
Definition ex_written : text := ex_lines
  ["hot_update: true"; "logger_name: app# x"; "#"; "shm_key: 0xff"; "channel: 0"; "  sync: sync"; ""; "  priority: info"; "  device: 0"; "    out_type: file"; "     disable: false"; "    file: $PNAME";
   "    limit_size: 100 m"; "  category_blist: 3, 7-5"; "  device: 1"; "   out_type: udp"; "   udp_addr: 127.0.0.1:8080"; "channel: 1"]%string.
Ltac exl n k := apply (ex_is_line n k _ ""); [vm_compute; reflexivity|vm_compute; reflexivity|left; reflexivity].
Ltac dig := split; [discriminate|repeat constructor; vm_compute; discriminate].
Example C45_ex : log_text [10] 0 0 ex_items ex_written /\ Forall (gitem_ok 20) ex_items /\ zlen (want_chans 0 ex_items) = 2 /\
  map (fun c => zlen (pc_devs c)) (want_chans 0 ex_items) = [2; 0].
Proof.
  assert (GAP : forall r, r = [] \/ r = [35] -> gaps [10] ((r ++ [10]) ++ [])).
  { intros r R. apply gaps_cons; [|constructor]. exists [], [], r. cbn [app]. split; [reflexivity|]. split; [constructor|]. split; [left; reflexivity|]. destruct R as [-> | ->]; [left; reflexivity|right; exists []; split; [reflexivity|constructor]]. }
  split; [|split; [|split; vm_compute; reflexivity]].
  - assert (W : exists t, log_text [10] 0 0 ex_items t /\ t = ex_written); [|destruct W as (t & W & ->); exact W]. eexists. split; cycle 1.
    2: {
    eapply (lt_hot [10] 0 0 [] (s2z "true")); [constructor|exists "true"%string; split; [cbn; tauto|reflexivity]|exl 0%nat "hot_update"%string|]. eapply (lt_name [10] 0 0 [] (s2z "app")); [constructor|apply (ex_is_line 0 "logger_name" _ "# x"); [vm_compute; reflexivity|vm_compute; reflexivity|right; reflexivity]|].
    eapply (lt_shm [10] 0 0 ([35; 10] ++ []) (s2z "0xff")); [apply (GAP [35]); auto| |exl 0%nat "shm_key"%string|].
    { split; [left|vm_compute; discriminate]. exists (s2z "ff"). split; [|reflexivity]. apply (ht_more 15 [102] 102 15); [apply (ht_one 102 15)|]; right; left; lia. }
    eapply (lt_chan [10] 0 0 [] (s2z "0") _ 2); [constructor|apply dec_pos; [dig|reflexivity]|exl 0%nat "channel"%string|lia| |].
    + eapply (ct_opt [10] 2 0 [] (s2z "sync") (s2z "sync")); [constructor|split; reflexivity|exl 2%nat "sync"%string|]. eapply (ct_opt [10] 2 0 ([10] ++ []) (s2z "priority") (s2z "info")); [apply (GAP []); auto| |exl 2%nat "priority"%string|].
      { split; [reflexivity|]. exists "info"%string. split; [cbn; tauto|reflexivity]. }
      eapply (ct_dev [10] 2 0 [] (s2z "0")); [constructor|apply dec_pos; [dig|reflexivity]|exl 2%nat "device"%string| |].
      { eapply (dt_cons [10] 2 [] 4 (s2z "out_type") (s2z "file")); [constructor|split; [reflexivity|]; exists "file"%string; split; [cbn; tauto|reflexivity]|exl 4%nat "out_type"%string|lia|].
        eapply (dt_cons [10] 2 [] 5 (s2z "disable") (s2z "false")); [constructor|split; [reflexivity|]; exists "false"%string; split; [cbn; tauto|reflexivity]|exl 5%nat "disable"%string|lia|].
        eapply (dt_cons [10] 2 [] 4 (s2z "file") (s2z "$PNAME")); [constructor|split; reflexivity|exl 4%nat "file"%string|lia|].
        eapply (dt_cons [10] 2 [] 4 (s2z "limit_size") (s2z "100 m")); [constructor| |exl 4%nat "limit_size"%string|lia|constructor].
        split; [reflexivity|]. exists (s2z "100"), (s2z " m"). split; [reflexivity|]. split; [apply dec_pos; [dig|reflexivity]|]. intros c r E. vm_compute in E. injection E as <- _. unfold digit. lia. }
      eapply (ct_opt [10] 2 1 [] (s2z "category_blist") (s2z "3, 7-5")); [constructor| |exl 2%nat "category_blist"%string|].
      { split; [reflexivity|]. apply (ValSpec.lt_cons (Bit 3) [51] (Bits 7 5) [] [32; 55; 45; 53]); [apply (bt_bit 3 [] [51] []); [dig|reflexivity|constructor|constructor]|]. apply ValSpec.lt_one.
        apply (bt_bits 7 5 [32] [55] [] [] [53] []); try reflexivity; try dig; repeat constructor. }
      eapply (ct_dev [10] 2 1 [] (s2z "1")); [constructor|apply dec_pos; [dig|reflexivity]|exl 2%nat "device"%string| |constructor].
      eapply (dt_cons [10] 2 [] 3 (s2z "out_type") (s2z "udp")); [constructor|split; [reflexivity|]; exists "udp"%string; split; [cbn; tauto|reflexivity]|exl 3%nat "out_type"%string|lia|].
      eapply (dt_cons [10] 2 [] 3 (s2z "udp_addr") (s2z "127.0.0.1:8080")); [constructor| |exl 3%nat "udp_addr"%string|lia|constructor].
      split; [reflexivity|]. exists (s2z "127.0.0.1"), (s2z "8080"). split; [reflexivity|]. split; [|split; [dig|split; [reflexivity|discriminate]]].
      exists (s2z "127"), (s2z "0"), (s2z "0"), (s2z "1"). split; [reflexivity|]. repeat (split; [dig|split; [reflexivity|]]). all: try discriminate; try reflexivity.
      all: try (split; [dig|split; [reflexivity|]]; try discriminate; reflexivity).
      all: repeat split; try discriminate; try reflexivity; repeat constructor; try (vm_compute; discriminate).
    + eapply (lt_chan [10] 0 1 [] (s2z "1") _ 1); [constructor|apply dec_pos; [dig|reflexivity]|exl 0%nat "channel"%string|lia|constructor|]. constructor. constructor. }
    vm_compute. reflexivity.
  - repeat constructor; cbn [gitem_ok]; try (vm_compute; split; discriminate); try (vm_compute; discriminate); try lia.
Qed.

(* ---- C75: the documented output type null ---- *)
(* A value is taken as the kind its first letter stands for, in either case; any
   other value, null among them, is reported.  Missing: null. *)
Theorem C75_types_partial : forall e d v w rest,
  (exists t l c r, In (t, l) [(DEVICE_OUT_EMPTY, s2z "eE"); (DEVICE_OUT_FILE, s2z "fF"); (DEVICE_OUT_UDP, s2z "uU"); (DEVICE_OUT_SCREEN, s2z "sS"); (DEVICE_OUT_VIRTUAL, s2z "vV")] /\
     In c l /\ v = c :: r /\ device_key e d RK_OUT_TYPE v w rest = Ret (PEC_NONE, mkPdev (pd_id d) (pd_in d) t (pd_cfg d) (pd_file d) (pd_path d))) \/
  ((forall c r, v = c :: r -> ~ In c (s2z "eEfFuUsSvV")) /\ exists d', device_key e d RK_OUT_TYPE v w rest = Ret (PEC_UNDEFINED_DEVICE_TYPE, d')).
Proof.
  intros e d v w rest.
  change (device_key e d RK_OUT_TYPE v w rest) with (Ret (if parse_out_type v =? DEVICE_OUT_NULL then PEC_UNDEFINED_DEVICE_TYPE else PEC_NONE, mkPdev (pd_id d) (pd_in d) (parse_out_type v) (pd_cfg d) (pd_file d) (pd_path d))).
  destruct v as [|c r]; [right; split; [discriminate|eexists; reflexivity]|]. unfold parse_out_type.
  destruct ((c =? 101) || (c =? 69)) eqn:E1. { left. exists DEVICE_OUT_EMPTY, (s2z "eE"), c, r. split; [cbn; tauto|]. split; [cbn; lia|]. split; reflexivity. }
  destruct ((c =? 102) || (c =? 70)) eqn:E2. { left. exists DEVICE_OUT_FILE, (s2z "fF"), c, r. split; [cbn; tauto|]. split; [cbn; lia|]. split; reflexivity. }
  destruct ((c =? 110) || (c =? 78)) eqn:E3. { right. split; [|eexists; reflexivity]. intros c' r' H. injection H as <- <-. cbn. lia. }
  destruct ((c =? 117) || (c =? 85)) eqn:E4. { left. exists DEVICE_OUT_UDP, (s2z "uU"), c, r. split; [cbn; tauto|]. split; [cbn; lia|]. split; reflexivity. }
  destruct ((c =? 115) || (c =? 83)) eqn:E5. { left. exists DEVICE_OUT_SCREEN, (s2z "sS"), c, r. split; [cbn; tauto|]. split; [cbn; lia|]. split; reflexivity. }
  destruct ((c =? 118) || (c =? 86)) eqn:E6. { left. exists DEVICE_OUT_VIRTUAL, (s2z "vV"), c, r. split; [cbn; tauto|]. split; [cbn; lia|]. split; reflexivity. }
  right. split; [|eexists; reflexivity]. intros c' r' H. injection H as <- <-. cbn. lia.
Qed.
Print Assumptions C75_types_partial.
Example C75_types_ex : parse_out_type (s2z "Screen") = DEVICE_OUT_SCREEN /\ parse_out_type (s2z "null") = DEVICE_OUT_NULL.
Proof. split; reflexivity. Qed.
Definition ex_null : text := ex_lines ["- channel: 0"; "   - device: 0"; "       out_type: null"]%string.
Theorem C75_null_refuted : exists t s, t = ex_null /\ parse_logger 500 std_env 0 t = Ret (PEC_UNDEFINED_DEVICE_TYPE, s).
Proof. eexists. eexists. split; [reflexivity|]. vm_compute. reflexivity. Qed.
Print Assumptions C75_null_refuted.

(* ---- C76: masks of 64 bits ---- *)
(* the mask with all 64 bits, written in decimal *)
Definition ex_mask : text := ex_lines ["- channel: 0"; "   category_wmask: 18446744073709551615"]%string.
Theorem C76_mask_refuted : exists s c, parse_logger 500 std_env 0 ex_mask = Ret (0, s) /\ s_chs s = [c] /\
  fld (pc_cfg c) CHANNEL_CFG_CATEGORY_MASK mod 2 ^ 64 <> 18446744073709551615.
Proof. eexists. eexists. split; [vm_compute; reflexivity|]. split; [reflexivity|]. vm_compute. discriminate. Qed.
Print Assumptions C76_mask_refuted.
