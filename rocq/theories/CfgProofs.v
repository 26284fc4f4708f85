(* A written configuration is read back. *)
From Coq Require Import String ZArith List Bool Lia ZifyBool ZifyNat ZifyN.
From Verif Require Import Base BaseFacts LoggerState FileName ParseVal Lexer ParseCfg LexProofs TextSpec LexLine ValSpec ValProofs CfgSpec CfgVals.
Import ListNotations.
Open Scope Z_scope.

(* ---- how lines begin ---- *)
Definition begins (eol t : text) : Prop := exists c r, t = c :: r /\ (blank c \/ c = 45 \/ c = 35 \/ lower c \/ c = hd 0 eol).
Definition starts_ok (eol t : text) : Prop := t = [] \/ begins eol t.
Lemma begins_app : forall eol t x, begins eol t -> begins eol (t ++ x).
Proof. intros eol t x (c & r & -> & H). exists c, (r ++ x). split; [reflexivity|exact H]. Qed.
Lemma begins_lead : forall eol lead t, Forall blank lead -> begins eol t -> begins eol (lead ++ t).
Proof. intros eol lead t F H. destruct lead as [|c r]; [exact H|]. exists c, (r ++ t). split; [reflexivity|]. left. exact (Forall_inv F). Qed.
Lemma begins_dash : forall eol d t, dashes d -> begins eol t -> begins eol (d ++ t).
Proof. intros eol d t [->|(r & -> & _)] H; [exact H|]. exists 45, (r ++ t). split; [reflexivity|]. auto. Qed.
Lemma begins_eol : forall eol, line_end eol -> begins eol eol.
Proof. intros eol [-> | [-> | ->]]; eexists; eexists; (split; [reflexivity|]); auto 10. Qed.
Lemma gap_begins : forall eol g, line_end eol -> is_gap eol g -> begins eol g.
Proof.
  intros eol g LE (lead & dash & tail & -> & L & D & T). apply begins_lead; [exact L|]. apply begins_dash; [exact D|]. destruct T as [->|(r & -> & _)]; [apply begins_eol, LE|].
  eexists. eexists. split; [reflexivity|]. auto.
Qed.
Lemma line_begins : forall eol n k v t, is_line eol n k v t -> begins eol t.
Proof.
  intros eol n k v t (lead & dash & b1 & b2 & w & -> & L & _ & D & (c & r & -> & C & _) & _). apply begins_lead; [exact L|]. apply begins_dash; [exact D|].
  eexists. eexists. split; [reflexivity|]. auto.
Qed.
Lemma gaps_ok : forall eol g x, line_end eol -> gaps eol g -> starts_ok eol x -> starts_ok eol (g ++ x).
Proof.
  intros eol g x LE G X. destruct G as [|g t G GS]; [exact X|]. right. rewrite <- app_assoc. apply begins_app, gap_begins; assumption.
Qed.
Lemma line_ok : forall eol n k v t x, is_line eol n k v t -> starts_ok eol (t ++ x).
Proof. intros eol n k v t x L. right. apply begins_app. exact (line_begins _ _ _ _ _ L). Qed.
Lemma ok_follows : forall eol x, line_end eol -> starts_ok eol x -> follows eol (x ++ [0]).
Proof.
  intros eol x LE [->|(c & r & -> & H)]; split; intros ->; cbn [app hd]; try discriminate; unfold blank, lower in H; cbn [In hd] in H; lia.
Qed.
Lemma ok_bom : forall eol x, line_end eol -> starts_ok eol x -> has_bom x = false.
Proof.
  intros eol x LE [->|(c & r & -> & H)]; [reflexivity|]. unfold has_bom. cbn [starts]. replace (239 =? c) with false; [reflexivity|].
  symmetry. apply Z.eqb_neq. intros <-. unfold blank, lower in H. cbn [In] in H. destruct LE as [-> | [-> | ->]]; cbn [hd] in H; lia.
Qed.
Lemma dev_ok : forall eol n os t x, line_end eol -> dev_text eol n os t -> starts_ok eol x -> starts_ok eol (t ++ x).
Proof.
  intros eol n os t x LE T X. destruct T as [|g n' k v l o os t G W L LT T]; [exact X|]. rewrite <- app_assoc. apply gaps_ok; [exact LE|exact G|]. rewrite <- app_assoc. apply (line_ok _ _ _ _ _ _ L).
Qed.
Lemma chan_ok : forall eol n i is t x, line_end eol -> chan_text eol n i is t -> starts_ok eol x -> starts_ok eol (t ++ x).
Proof.
  intros eol n i is t x LE T X. destruct T as [i|i g k v l o is t G W L T|i g v l os u is t G D L U T]; [exact X|..]; rewrite <- app_assoc; (apply gaps_ok; [exact LE|exact G|]); rewrite <- app_assoc; apply (line_ok _ _ _ _ _ _ L).
Qed.
Lemma log_ok : forall eol m i is t, line_end eol -> log_text eol m i is t -> starts_ok eol t.
Proof.
  intros eol m i is t LE T. destruct T as [i g G| | | | |];
    [rewrite <- (app_nil_r g); apply gaps_ok; [exact LE|exact G|left; reflexivity]|..];
    (apply gaps_ok; [exact LE|assumption|]); match goal with L : is_line _ _ _ _ _ |- _ => apply (line_ok _ _ _ _ _ _ L) end.
Qed.

(* ---- the state in front of a text ---- *)
Definition here (s : lstate) (x : text) : Prop := at_ (buf s) (s_cur s) (x ++ [0]) /\ s_end s = zlen (s_text s).
Lemma here_end : forall s x, here s x -> s_cur s + zlen x = s_end s.
Proof.
  intros s x [(pre & E & L) EN]. unfold buf in E. apply (f_equal zlen) in E. rewrite !zlen_app in E. change (zlen [0]) with 1 in E. lia.
Qed.
Lemma here_next : forall s x y no, here s (x ++ y) -> here (set_cur s (s_cur s + zlen x) no) y.
Proof. intros s x y no [A E]. split; [|exact E]. rewrite <- app_assoc in A. apply at_app in A. exact A. Qed.
Lemma set_set : forall s a b c d, set_cur (set_cur s a b) c d = set_cur s c d.
Proof. reflexivity. Qed.
Lemma set_same : forall s, set_cur s (s_cur s) (s_no s + 0) = s.
Proof. intros s. rewrite Z.add_0_r. destruct s. reflexivity. Qed.
Lemma eol_pos : forall eol, line_end eol -> 1 <= zlen eol.
Proof. intros eol [-> | [-> | ->]]; vm_compute; discriminate. Qed.
Lemma gap_pos : forall eol g, line_end eol -> is_gap eol g -> 1 <= zlen g.
Proof. intros eol g LE (a & b & c & -> & _). rewrite !zlen_app. pose proof (eol_pos eol LE). pose proof (zlen_nonneg _ a). pose proof (zlen_nonneg _ b). pose proof (zlen_nonneg _ c). lia. Qed.
Lemma line_pos : forall eol n k v t, is_line eol n k v t -> 1 <= zlen t.
Proof.
  intros eol n k v t (a & b & c & d & w & -> & _). rewrite !zlen_app, zlen_cons, !zlen_app. pose proof (zlen_nonneg _ a). pose proof (zlen_nonneg _ b). pose proof (zlen_nonneg _ c). pose proof (zlen_nonneg _ d).
  pose proof (zlen_nonneg _ w). pose proof (zlen_nonneg _ k). pose proof (zlen_nonneg _ eol). lia.
Qed.
Lemma lex_at_end : forall fuel s, s_end s <= s_cur s -> lex_at fuel s = Ret (PEC_NONE, s, line0).
Proof. intros fuel s E. unfold lex_at, lex. replace (s_end s <=? s_cur s) with true by lia. cbn [bind]. rewrite set_same. reflexivity. Qed.
Lemma lex_at_gap : forall fuel eol s g x, line_end eol -> is_gap eol g -> starts_ok eol x -> here s (g ++ x) -> zlen g < Z.of_nat fuel ->
  exists l, lex_at fuel s = Ret (0, set_cur s (s_cur s + zlen g) (s_no s + 1), l) /\ l_ke l - l_kb l = 0.
Proof.
  intros fuel eol s g x LE G X H F. pose proof (here_end s _ H) as HE. rewrite zlen_app in HE. pose proof (gap_pos eol g LE G). pose proof (zlen_nonneg _ x). destruct H as [A E]. rewrite <- app_assoc in A.
  destruct (lex_gap eol g (buf s) (s_cur s) (s_end s) (x ++ [0]) G LE (ok_follows eol x LE X)) with (fuel := fuel) as (l & L & K); [destruct x; discriminate|exact A|lia|exact F|].
  exists l. split; [|exact K]. unfold lex_at. rewrite L. reflexivity.
Qed.
Lemma lex_at_line : forall fuel eol s n k v t x key, line_end eol -> is_line eol n k v t -> starts_ok eol x -> parse_reserve k = Ret key -> key <> RK_NULL -> here s (t ++ x) -> zlen t < Z.of_nat fuel ->
  exists l r, lex_at fuel s = Ret (0, set_cur s (s_cur s + zlen t) (s_no s + 1), l) /\ l_ke l - l_kb l =? 0 = false /\ l_blank l = n /\ l_key l = key /\ line_val (buf s) l = Ret (v, v ++ r, r) /\ ends_number r.
Proof.
  intros fuel eol s n k v t x key LE L X PR KN H F. pose proof (here_end s _ H) as HE. rewrite zlen_app in HE. pose proof (line_pos _ _ _ _ _ L). pose proof (zlen_nonneg _ x). destruct H as [A E]. rewrite <- app_assoc in A.
  destruct (lex_line eol n k v t (buf s) (s_cur s) (s_end s) (x ++ [0]) key L LE (ok_follows eol x LE X)) with (fuel := fuel) as (l & r & L1 & L2 & L3 & L4 & L5 & L6 & L7 & L8 & L9);
    [destruct x; discriminate|exact PR|exact KN|exact A|lia|exact F|].
  exists l, r. split; [unfold lex_at; rewrite L1; reflexivity|]. split; [lia|]. split; [exact L2|]. split; [exact L3|]. split; [|exact L8].
  unfold line_val. rewrite L5, L6, L7. reflexivity.
Qed.

(* where a block ends: behind some gaps, at the end of the text or at a line that is not further in *)
Definition stops (eol : text) (in_ : Z) (q : text) : Prop :=
  q = [] \/ exists n k v l x key, q = l ++ x /\ is_line eol n k v l /\ n <= in_ /\ parse_reserve k = Ret key /\ key <> RK_NULL /\ starts_ok eol x.
Lemma stops_ok : forall eol in_ q, stops eol in_ q -> starts_ok eol q.
Proof. intros eol in_ q [->|(n & k & v & l & x & key & -> & L & _)]; [left; reflexivity|exact (line_ok _ _ _ _ _ _ L)]. Qed.

(* ---- devices ---- *)
Lemma dev_again : forall fuel e s d n, (if s_cur s <? s_end s then parse_device (S fuel) e s d n else Ret (0, s, d)) = parse_device (S fuel) e s d n.
Proof.
  intros fuel e s d n. destruct (s_cur s <? s_end s) eqn:C; [reflexivity|]. cbn [parse_device]. rewrite lex_at_end by lia. cbn [bind]. change (negb (PEC_NONE =? PEC_NONE)) with false. cbv iota.
  change (l_ke line0 - l_kb line0 =? 0) with true. cbv iota. replace (s_end s <=? s_cur s) with true by lia. reflexivity.
Qed.
Lemma dev_gap : forall fuel e eol s d n g x, line_end eol -> is_gap eol g -> starts_ok eol x -> here s (g ++ x) -> zlen (g ++ x) < Z.of_nat fuel ->
  exists no, parse_device (S fuel) e s d n = parse_device fuel e (set_cur s (s_cur s + zlen g) no) d n.
Proof.
  intros fuel e eol s d n g x LE G X H F. rewrite zlen_app in F. pose proof (zlen_nonneg _ x). pose proof (gap_pos eol g LE G).
  destruct (lex_at_gap fuel eol s g x LE G X H ltac:(lia)) as (l & L & K). exists (s_no s + 1). set (s1 := set_cur s (s_cur s + zlen g) (s_no s + 1)) in *.
  cbn [parse_device]. rewrite L. cbn [bind]. change (negb (0 =? PEC_NONE)) with false. cbv iota. replace (l_ke l - l_kb l =? 0) with true by lia.
  destruct fuel as [|fuel]; [lia|]. destruct (s_end s1 <=? s_cur s1) eqn:C.
  - rewrite <- dev_again. replace (s_cur s1 <? s_end s1) with false by lia. reflexivity.
  - rewrite dev_again. reflexivity.
Qed.
Lemma dev_gaps : forall eol g, gaps eol g -> line_end eol -> forall fuel e s d n x, starts_ok eol x -> here s (g ++ x) -> zlen (g ++ x) + 1 < Z.of_nat fuel ->
  exists no fuel', zlen x + 1 < Z.of_nat fuel' /\ parse_device fuel e s d n = parse_device fuel' e (set_cur s (s_cur s + zlen g) no) d n.
Proof.
  intros eol g G LE. induction G as [|g t G GS IH]; intros fuel e s d n x X H F.
  - exists (s_no s + 0), fuel. split; [exact F|]. change (zlen (@nil Z)) with 0. rewrite Z.add_0_r at 1. rewrite set_same. reflexivity.
  - rewrite <- app_assoc in H, F. destruct fuel as [|fuel]; [pose proof (zlen_nonneg _ (g ++ t ++ x)); lia|].
    destruct (dev_gap fuel e eol s d n g (t ++ x) LE G (gaps_ok eol t x LE GS X) H ltac:(lia)) as (no1 & E1). rewrite E1.
    rewrite zlen_app in F. pose proof (gap_pos eol g LE G).
    destruct (IH fuel e (set_cur s (s_cur s + zlen g) no1) d n x X (here_next s g (t ++ x) no1 H) ltac:(lia)) as (no2 & fuel' & F2 & E2). exists no2, fuel'. split; [exact F2|]. rewrite E2.
    rewrite set_set. cbn [set_cur s_cur]. rewrite zlen_app. replace (s_cur s + zlen g + zlen t) with (s_cur s + (zlen g + zlen t)) by lia. reflexivity.
Qed.
Lemma dev_stop : forall fuel e eol s d n q, line_end eol -> stops eol n q -> here s q -> zlen q < Z.of_nat fuel ->
  exists no, parse_device (S fuel) e s d n = Ret (0, set_cur s (s_cur s) no, d).
Proof.
  intros fuel e eol s d n q LE [->|(n' & k & v & l & x & key & -> & L & N & PR & KN & X)] H F.
  - pose proof (here_end s [] H) as HE. change (zlen (@nil Z)) with 0 in HE. exists (s_no s + 0). rewrite <- dev_again. replace (s_cur s <? s_end s) with false by lia. rewrite set_same. reflexivity.
  - rewrite zlen_app in F. pose proof (zlen_nonneg _ x). destruct (lex_at_line fuel eol s n' k v l x key LE L X PR KN H ltac:(lia)) as (li & r & L1 & L2 & L3 & L4 & L5 & L6).
    cbn [parse_device]. rewrite L1. cbn [bind]. change (negb (0 =? PEC_NONE)) with false. cbv iota. rewrite L2, L3. replace (n' <=? n) with true by lia. eexists. rewrite set_set. reflexivity.
Qed.
Lemma dev_parse : forall eol n os t, dev_text eol n os t -> line_end eol -> Forall dopt_ok os -> forall e id os0 fuel s g q, gaps eol g -> stops eol n q -> here s (t ++ g ++ q) ->
  zlen (t ++ g ++ q) + 1 < Z.of_nat fuel ->
  exists no, parse_device fuel e s (want_dev id os0) n = Ret (0, set_cur s (s_cur s + zlen (t ++ g)) no, want_dev id (os0 ++ os)).
Proof.
  intros eol n os t T LE. induction T as [|g0 n' k v l o os t G0 W L LT T IH]; intros OK e id os0 fuel s g q G Q H F.
  - cbn [app] in *. destruct (dev_gaps eol g G LE fuel e s (want_dev id os0) n q (stops_ok _ _ _ Q) H F) as (no1 & f1 & F1 & E1). rewrite E1.
    destruct f1 as [|f1]; [pose proof (zlen_nonneg _ q); lia|].
    destruct (dev_stop f1 e eol _ (want_dev id os0) n q LE Q (here_next s g q no1 H) ltac:(lia)) as (no2 & E2). exists no2. rewrite E2, app_nil_r. reflexivity.
  - assert (X : starts_ok eol (t ++ g ++ q)) by (apply (dev_ok eol n os); [exact LE|exact T|]; apply gaps_ok; [exact LE|exact G|exact (stops_ok _ _ _ Q)]).
    rewrite <- !app_assoc in H, F. pose proof (line_pos _ _ _ _ _ L).
    destruct (dev_gaps eol g0 G0 LE fuel e s (want_dev id os0) n (l ++ t ++ g ++ q) (line_ok _ _ _ _ _ _ L) H F) as (no1 & f1 & F1 & E1). rewrite E1.
    rewrite zlen_app in F1. pose proof (zlen_nonneg _ (t ++ g ++ q)). destruct f1 as [|f1]; [lia|]. pose proof (here_next s g0 (l ++ t ++ g ++ q) no1 H) as HA. set (s1 := set_cur s (s_cur s + zlen g0) no1) in *.
    destruct (dkey_spec o k v W) as [PR KN]. destruct (lex_at_line f1 eol s1 n' k v l (t ++ g ++ q) (dkey o) LE L X PR KN HA ltac:(lia)) as (li & r & L1 & L2 & L3 & L4 & L5 & L6).
    cbn [parse_device]. rewrite L1. cbn [bind]. change (negb (0 =? PEC_NONE)) with false. cbv iota. rewrite L2, L3. replace (n' <=? n) with false by lia. cbv iota.
    change (buf (set_cur s1 (s_cur s1 + zlen l) (s_no s1 + 1))) with (buf s1). rewrite L5. cbn [bind]. rewrite L4, (dev_opt e id os0 o k v r W (Forall_inv OK) L6). cbn [bind].
    change (PEC_NONE =? PEC_NONE) with true. cbv iota. destruct f1 as [|f1]; [lia|]. rewrite dev_again.
    destruct (IH (Forall_inv_tail OK) e id (os0 ++ [o]) (S f1) (set_cur s1 (s_cur s1 + zlen l) (s_no s1 + 1)) g q G Q (here_next s1 l (t ++ g ++ q) (s_no s1 + 1) HA) ltac:(lia)) as (no2 & E2).
    exists no2. rewrite E2. rewrite <- app_assoc. unfold s1. rewrite !set_set. cbn [set_cur s_cur app]. rewrite <- !app_assoc, !zlen_app.
    replace (s_cur s + zlen g0 + zlen l + (zlen t + zlen g)) with (s_cur s + (zlen g0 + (zlen l + (zlen t + zlen g)))) by lia. reflexivity.
Qed.

(* ---- channels ---- *)
Lemma chan_again : forall fuel e s c n, (if s_cur s <? s_end s then parse_channel (S fuel) e s c n else Ret (0, s, c)) = parse_channel (S fuel) e s c n.
Proof.
  intros fuel e s d n. destruct (s_cur s <? s_end s) eqn:C; [reflexivity|]. cbn [parse_channel]. rewrite lex_at_end by lia. cbn [bind]. change (negb (PEC_NONE =? PEC_NONE)) with false. cbv iota.
  change (l_ke line0 - l_kb line0 =? 0) with true. cbv iota. replace (s_end s <=? s_cur s) with true by lia. reflexivity.
Qed.
Lemma chan_gap : forall fuel e eol s d n g x, line_end eol -> is_gap eol g -> starts_ok eol x -> here s (g ++ x) -> zlen (g ++ x) < Z.of_nat fuel ->
  exists no, parse_channel (S fuel) e s d n = parse_channel fuel e (set_cur s (s_cur s + zlen g) no) d n.
Proof.
  intros fuel e eol s d n g x LE G X H F. rewrite zlen_app in F. pose proof (zlen_nonneg _ x). pose proof (gap_pos eol g LE G).
  destruct (lex_at_gap fuel eol s g x LE G X H ltac:(lia)) as (l & L & K). exists (s_no s + 1). set (s1 := set_cur s (s_cur s + zlen g) (s_no s + 1)) in *.
  cbn [parse_channel]. rewrite L. cbn [bind]. change (negb (0 =? PEC_NONE)) with false. cbv iota. replace (l_ke l - l_kb l =? 0) with true by lia.
  destruct fuel as [|fuel]; [lia|]. destruct (s_end s1 <=? s_cur s1) eqn:C.
  - rewrite <- chan_again. replace (s_cur s1 <? s_end s1) with false by lia. reflexivity.
  - rewrite chan_again. reflexivity.
Qed.
Lemma chan_gaps : forall eol g, gaps eol g -> line_end eol -> forall fuel e s d n x, starts_ok eol x -> here s (g ++ x) -> zlen (g ++ x) + 1 < Z.of_nat fuel ->
  exists no fuel', zlen x + 1 < Z.of_nat fuel' /\ parse_channel fuel e s d n = parse_channel fuel' e (set_cur s (s_cur s + zlen g) no) d n.
Proof.
  intros eol g G LE. induction G as [|g t G GS IH]; intros fuel e s d n x X H F.
  - exists (s_no s + 0), fuel. split; [exact F|]. change (zlen (@nil Z)) with 0. rewrite Z.add_0_r at 1. rewrite set_same. reflexivity.
  - rewrite <- app_assoc in H, F. destruct fuel as [|fuel]; [pose proof (zlen_nonneg _ (g ++ t ++ x)); lia|].
    destruct (chan_gap fuel e eol s d n g (t ++ x) LE G (gaps_ok eol t x LE GS X) H ltac:(lia)) as (no1 & E1). rewrite E1.
    rewrite zlen_app in F. pose proof (gap_pos eol g LE G).
    destruct (IH fuel e (set_cur s (s_cur s + zlen g) no1) d n x X (here_next s g (t ++ x) no1 H) ltac:(lia)) as (no2 & fuel' & F2 & E2). exists no2, fuel'. split; [exact F2|]. rewrite E2.
    rewrite set_set. cbn [set_cur s_cur]. rewrite zlen_app. replace (s_cur s + zlen g + zlen t) with (s_cur s + (zlen g + zlen t)) by lia. reflexivity.
Qed.
Lemma chan_stop : forall fuel e eol s d n q, line_end eol -> stops eol n q -> here s q -> zlen q < Z.of_nat fuel ->
  exists no, parse_channel (S fuel) e s d n = Ret (0, set_cur s (s_cur s) no, d).
Proof.
  intros fuel e eol s d n q LE [->|(n' & k & v & l & x & key & -> & L & N & PR & KN & X)] H F.
  - pose proof (here_end s [] H) as HE. change (zlen (@nil Z)) with 0 in HE. exists (s_no s + 0). rewrite <- chan_again. replace (s_cur s <? s_end s) with false by lia. rewrite set_same. reflexivity.
  - rewrite zlen_app in F. pose proof (zlen_nonneg _ x). destruct (lex_at_line fuel eol s n' k v l x key LE L X PR KN H ltac:(lia)) as (li & r & L1 & L2 & L3 & L4 & L5 & L6).
    cbn [parse_channel]. rewrite L1. cbn [bind]. change (negb (0 =? PEC_NONE)) with false. cbv iota. rewrite L2, L3. replace (n' <=? n) with true by lia. eexists. rewrite set_set. reflexivity.
Qed.
Lemma device_reserved : parse_reserve (s2z "device") = Ret RK_DEVICE /\ RK_DEVICE <> RK_NULL.
Proof. split; [vm_compute; reflexivity|discriminate]. Qed.
(* the members that are left start, behind gaps, with a line of the channel or not at all *)
Lemma chan_split : forall eol n m i is t g q, m < n -> line_end eol -> chan_text eol n i is t -> gaps eol g -> stops eol m q ->
  exists g' t', gaps eol g' /\ t ++ g ++ q = g' ++ t' /\ stops eol n t' /\
    exists g1 t1, chan_text eol n i is t1 /\ gaps eol g1 /\ t' = t1 ++ g1 ++ q.
Proof.
  intros eol n m i is t g q MN LE T G Q. destruct T as [i|i g0 k v l o is t G0 W L T|i g0 v l os u is t G0 D L U T].
  - exists g, q. split; [exact G|]. split; [reflexivity|]. split.
    + destruct Q as [->|(n' & k & v & l & x & key & -> & L & N & PR & KN & X)]; [left; reflexivity|]. right. exists n', k, v, l, x, key. repeat (split; [assumption || reflexivity || lia|]). assumption.
    + exists [], []. split; [constructor|]. split; [constructor|reflexivity].
  - assert (X : starts_ok eol (t ++ g ++ q)) by (apply (chan_ok eol n i is); [exact LE|exact T|]; apply gaps_ok; [exact LE|exact G|exact (stops_ok _ _ _ Q)]).
    exists g0, (l ++ t ++ g ++ q). split; [exact G0|]. split; [rewrite <- !app_assoc; reflexivity|]. split.
    + right. destruct (ckey_spec o k v W) as (PR & KN & _). exists n, k, v, l, (t ++ g ++ q), (ckey o). repeat (split; [assumption || reflexivity || lia|]). assumption.
    + exists g, ([] ++ l ++ t). split; [apply (ct_opt eol n i [] k v l o is t); try assumption; constructor|]. split; [exact G|]. cbn [app]. rewrite <- app_assoc. reflexivity.
  - assert (X : starts_ok eol (u ++ t ++ g ++ q)).
    { apply (dev_ok eol n os); [exact LE|exact U|]. apply (chan_ok eol n (i + 1) is); [exact LE|exact T|]. apply gaps_ok; [exact LE|exact G|exact (stops_ok _ _ _ Q)]. }
    exists g0, (l ++ u ++ t ++ g ++ q). split; [exact G0|]. split; [rewrite <- !app_assoc; reflexivity|]. split.
    + right. destruct device_reserved as [PR KN]. exists n, (s2z "device"), v, l, (u ++ t ++ g ++ q), RK_DEVICE. repeat (split; [assumption || reflexivity || lia|]). assumption.
    + exists g, ([] ++ l ++ u ++ t). split; [apply (ct_dev eol n i [] v l os u is t); try assumption; constructor|]. split; [exact G|]. cbn [app]. rewrite <- !app_assoc. reflexivity.
Qed.
Lemma chan_parse : forall eol n m e id, line_end eol -> m < n -> x_maxdev e < 2 ^ 31 -> forall is is0 t fuel s g q, chan_text eol n (zlen (want_devs 0 is0)) is t -> Forall citem_ok is ->
  zlen (want_devs 0 (is0 ++ is)) <= x_maxdev e -> gaps eol g -> stops eol m q -> here s (t ++ g ++ q) -> zlen (t ++ g ++ q) + 1 < Z.of_nat fuel ->
  exists no, parse_channel fuel e s (want_chan id is0) m = Ret (0, set_cur s (s_cur s + zlen (t ++ g)) no, want_chan id (is0 ++ is)).
Proof.
  intros eol n m e id LE MN MX. induction is as [|i is IH]; intros is0 t fuel s g q T OK MD G Q H F.
  - inversion T; subst. cbn [app] in *. destruct (chan_gaps eol g G LE fuel e s (want_chan id is0) m q (stops_ok _ _ _ Q) H F) as (no1 & f1 & F1 & E1). rewrite E1.
    destruct f1 as [|f1]; [pose proof (zlen_nonneg _ q); lia|].
    destruct (chan_stop f1 e eol _ (want_chan id is0) m q LE Q (here_next s g q no1 H) ltac:(lia)) as (no2 & E2). exists no2. rewrite E2, app_nil_r. reflexivity.
  - inversion T as [|? g0 k v l o ? t0 G0 W L T0|? g0 v l os u ? t0 G0 D L U T0]; subst.
    + (* an option *)
      assert (X : starts_ok eol (t0 ++ g ++ q)) by (eapply (chan_ok eol n); [exact LE|exact T0|]; apply gaps_ok; [exact LE|exact G|exact (stops_ok _ _ _ Q)]).
      rewrite <- !app_assoc in H, F. pose proof (line_pos _ _ _ _ _ L).
      destruct (chan_gaps eol g0 G0 LE fuel e s (want_chan id is0) m (l ++ t0 ++ g ++ q) (line_ok _ _ _ _ _ _ L) H F) as (no1 & f1 & F1 & E1). rewrite E1.
      rewrite zlen_app in F1. pose proof (zlen_nonneg _ (t0 ++ g ++ q)). destruct f1 as [|f1]; [lia|]. pose proof (here_next s g0 (l ++ t0 ++ g ++ q) no1 H) as HA. set (s1 := set_cur s (s_cur s + zlen g0) no1) in *.
      destruct (ckey_spec o k v W) as (PR & KN & KD). destruct (lex_at_line f1 eol s1 n k v l (t0 ++ g ++ q) (ckey o) LE L X PR KN HA ltac:(lia)) as (li & r & L1 & L2 & L3 & L4 & L5 & L6).
      cbn [parse_channel]. rewrite L1. cbn [bind]. change (negb (0 =? PEC_NONE)) with false. cbv iota. rewrite L2, L3. replace (n <=? m) with false by lia. cbv iota.
      change (buf (set_cur s1 (s_cur s1 + zlen l) (s_no s1 + 1))) with (buf s1). rewrite L5. cbn [bind]. rewrite L4. replace (ckey o =? RK_DEVICE) with false by (symmetry; apply Z.eqb_neq; exact KD).
      pose proof (Forall_inv OK) as OK0. cbn [citem_ok] in OK0. rewrite (chan_opt e id is0 o k v r W OK0 L6). cbn [bind].
      change (PEC_NONE =? PEC_NONE) with true. cbv iota. destruct f1 as [|f1]; [lia|]. rewrite chan_again.
      destruct (IH (is0 ++ [COpt o]) t0 (S f1) (set_cur s1 (s_cur s1 + zlen l) (s_no s1 + 1)) g q) as (no2 & E2).
      * rewrite want_devs_app. cbn [want_devs]. rewrite app_nil_r. exact T0.
      * exact (Forall_inv_tail OK).
      * rewrite <- app_assoc. exact MD.
      * exact G.
      * exact Q.
      * exact (here_next s1 l (t0 ++ g ++ q) (s_no s1 + 1) HA).
      * lia.
      * exists no2. rewrite E2. rewrite <- app_assoc. unfold s1. rewrite !set_set. cbn [set_cur s_cur app]. rewrite <- !app_assoc, !zlen_app.
        replace (s_cur s + zlen g0 + zlen l + (zlen t0 + zlen g)) with (s_cur s + (zlen g0 + (zlen l + (zlen t0 + zlen g)))) by lia. reflexivity.
    + (* a device *)
      destruct (chan_split eol n m _ is t0 g q MN LE T0 G Q) as (g' & t' & G' & EQ & ST & g1 & t1 & T1 & G1 & E1).
      assert (X : starts_ok eol (u ++ t0 ++ g ++ q)).
      { apply (dev_ok eol n os); [exact LE|exact U|]. eapply (chan_ok eol n); [exact LE|exact T0|]. apply gaps_ok; [exact LE|exact G|exact (stops_ok _ _ _ Q)]. }
      rewrite <- !app_assoc in H, F. pose proof (line_pos _ _ _ _ _ L).
      destruct (chan_gaps eol g0 G0 LE fuel e s (want_chan id is0) m (l ++ u ++ t0 ++ g ++ q) (line_ok _ _ _ _ _ _ L) H F) as (no1 & f1 & F1 & EE1). rewrite EE1.
      rewrite zlen_app in F1. pose proof (zlen_nonneg _ (u ++ t0 ++ g ++ q)). destruct f1 as [|f1]; [lia|]. pose proof (here_next s g0 (l ++ u ++ t0 ++ g ++ q) no1 H) as HA. set (s1 := set_cur s (s_cur s + zlen g0) no1) in *.
      destruct device_reserved as [PR KN]. destruct (lex_at_line f1 eol s1 n (s2z "device") v l (u ++ t0 ++ g ++ q) RK_DEVICE LE L X PR KN HA ltac:(lia)) as (li & r & L1 & L2 & L3 & L4 & L5 & L6).
      cbn [parse_channel]. rewrite L1. cbn [bind]. change (negb (0 =? PEC_NONE)) with false. cbv iota. rewrite L2, L3. replace (n <=? m) with false by lia. cbv iota.
      change (buf (set_cur s1 (s_cur s1 + zlen l) (s_no s1 + 1))) with (buf s1). rewrite L5. cbn [bind]. rewrite L4. change (RK_DEVICE =? RK_DEVICE) with true. cbv iota.
      assert (MD1 : zlen (want_devs 0 is0) < x_maxdev e).
      { rewrite want_devs_app in MD. rewrite zlen_app in MD. cbn [want_devs] in MD. rewrite zlen_cons in MD. match type of MD with context [1 + zlen ?y] => pose proof (zlen_nonneg _ y) end. lia. }
      pose proof (zlen_nonneg _ (want_devs 0 is0)).
      rewrite (atoi_read (zlen (want_devs 0 is0)) v r D L6) by (change (2 ^ 31) with 2147483648 in *; lia). cbn [bind]. change (pc_devs (want_chan id is0)) with (want_devs 0 is0).
      replace (x_maxdev e <=? zlen (want_devs 0 is0)) with false by lia. rewrite Z.eqb_refl. cbn [negb].
      change (dev0 (zlen (want_devs 0 is0))) with (want_dev (zlen (want_devs 0 is0)) []).
      pose proof (here_next s1 l (u ++ t0 ++ g ++ q) (s_no s1 + 1) HA) as HB. set (s2 := set_cur s1 (s_cur s1 + zlen l) (s_no s1 + 1)) in *. rewrite EQ in HB.
      pose proof (Forall_inv OK) as OK0. cbn [citem_ok] in OK0.
      destruct (dev_parse eol n os u U LE OK0 e (zlen (want_devs 0 is0)) [] f1 s2 g' t' G' ST HB ltac:(rewrite <- EQ; lia)) as (no2 & E2). rewrite E2. cbn [bind]. change (negb (0 =? PEC_NONE)) with false. cbv iota.
      cbn [app]. rewrite <- want_chan_dev. destruct f1 as [|f1]; [lia|]. rewrite chan_again.
      replace (u ++ g' ++ t') with ((u ++ g') ++ t') in HB by (rewrite <- app_assoc; reflexivity). pose proof (here_next s2 (u ++ g') t' no2 HB) as HC. rewrite E1 in HC.
      destruct (IH (is0 ++ [CDev os]) t1 (S f1) (set_cur s2 (s_cur s2 + zlen (u ++ g')) no2) g1 q) as (no3 & E3).
      * rewrite want_devs_app. cbn [want_devs]. rewrite zlen_app, Z.add_0_l. change (zlen [want_dev (zlen (want_devs 0 is0)) os]) with 1. exact T1.
      * exact (Forall_inv_tail OK).
      * rewrite <- app_assoc. exact MD.
      * exact G1.
      * exact Q.
      * exact HC.
      * rewrite <- E1. apply (f_equal zlen) in EQ. rewrite !zlen_app in *. pose proof (zlen_nonneg _ g'). pose proof (zlen_nonneg _ u). lia.
      * exists no3. rewrite E3. rewrite <- app_assoc. unfold s2, s1. rewrite !set_set. cbn [set_cur s_cur app]. rewrite <- !app_assoc.
        replace (s_cur s + zlen g0 + zlen l + zlen (u ++ g') + zlen (t1 ++ g1)) with (s_cur s + zlen (g0 ++ l ++ u ++ t0 ++ g)); [reflexivity|].
        apply (f_equal zlen) in EQ. apply (f_equal zlen) in E1. rewrite !zlen_app in *. lia.
Qed.

(* ---- the whole text ---- *)
Definition cont (fuel : nat) (e : penv) (s : lstate) : outcome (Z * lstate) :=
  match again s with Next s => logger_loop fuel e s | Stop c s => Ret (c, s) end.
Lemma loop_next : forall fuel e s s2, logger_line fuel e s = Ret (again s2) -> logger_loop (S fuel) e s = cont fuel e s2.
Proof. intros fuel e s s2 H. cbn [logger_loop]. rewrite H. reflexivity. Qed.
Lemma cont_loop : forall fuel e s, s_cur s < s_end s -> cont fuel e s = logger_loop fuel e s.
Proof. intros fuel e s H. unfold cont, again. replace (s_cur s <? s_end s) with true by lia. reflexivity. Qed.
Lemma cont_done : forall fuel e s, s_end s <= s_cur s -> s_chs s <> [] -> cont fuel e s = Ret (PEC_NONE, s).
Proof.
  intros fuel e s H N. unfold cont, again. replace (s_cur s <? s_end s) with false by lia. destruct (s_chs s) as [|c l]; [congruence|]. rewrite zlen_cons. pose proof (zlen_nonneg _ l).
  replace (1 + zlen l =? 0) with false by lia. reflexivity.
Qed.
Lemma log_gap : forall fuel e eol s g x, line_end eol -> is_gap eol g -> starts_ok eol x -> (x = [] -> s_chs s <> []) -> here s (g ++ x) -> zlen (g ++ x) < Z.of_nat fuel ->
  exists no, cont (S fuel) e s = cont fuel e (set_cur s (s_cur s + zlen g) no).
Proof.
  intros fuel e eol s g x LE G X N H F. pose proof (here_end s _ H) as HE. rewrite zlen_app in F, HE. pose proof (zlen_nonneg _ x). pose proof (gap_pos eol g LE G).
  rewrite cont_loop by lia. destruct (lex_at_gap fuel eol s g x LE G X H ltac:(lia)) as (l & L & K). exists (s_no s + 1). set (s1 := set_cur s (s_cur s + zlen g) (s_no s + 1)) in *.
  assert (C1 : s_end s1 = s_cur s1 + zlen x) by (unfold s1; cbn [set_cur s_cur s_end]; lia).
  destruct (s_end s1 <=? s_cur s1) eqn:C.
  - assert (x = []) by (destruct x as [|c x]; [reflexivity|rewrite zlen_cons in *; pose proof (zlen_nonneg _ x); lia]).
    rewrite (cont_done fuel e s1) by (lia || (apply N; assumption)). cbn [logger_loop]. unfold logger_line. rewrite L. cbn [bind]. change (negb (0 =? PEC_NONE)) with false. cbv iota.
    replace (l_ke l - l_kb l =? 0) with true by lia. rewrite C. reflexivity.
  - apply loop_next. unfold logger_line. rewrite L. cbn [bind]. change (negb (0 =? PEC_NONE)) with false. cbv iota. replace (l_ke l - l_kb l =? 0) with true by lia. rewrite C. reflexivity.
Qed.
Lemma log_gaps : forall eol g, gaps eol g -> line_end eol -> forall fuel e s x, starts_ok eol x -> (x = [] -> s_chs s <> []) -> here s (g ++ x) -> zlen (g ++ x) + 1 < Z.of_nat fuel ->
  exists no fuel', zlen x + 1 < Z.of_nat fuel' /\ cont fuel e s = cont fuel' e (set_cur s (s_cur s + zlen g) no).
Proof.
  intros eol g G LE. induction G as [|g t G GS IH]; intros fuel e s x X N H F.
  - exists (s_no s + 0), fuel. split; [exact F|]. change (zlen (@nil Z)) with 0. rewrite Z.add_0_r at 1. rewrite set_same. reflexivity.
  - rewrite <- app_assoc in H, F. destruct fuel as [|fuel]; [pose proof (zlen_nonneg _ (g ++ t ++ x)); lia|].
    assert (N1 : t ++ x = [] -> s_chs s <> []) by (intros E; apply app_eq_nil in E; apply N, E).
    destruct (log_gap fuel e eol s g (t ++ x) LE G (gaps_ok eol t x LE GS X) N1 H ltac:(lia)) as (no1 & E1). rewrite E1.
    rewrite zlen_app in F. pose proof (gap_pos eol g LE G).
    destruct (IH fuel e (set_cur s (s_cur s + zlen g) no1) x X N (here_next s g (t ++ x) no1 H) ltac:(lia)) as (no2 & fuel' & F2 & E2). exists no2, fuel'. split; [exact F2|]. rewrite E2.
    rewrite set_set. cbn [set_cur s_cur]. rewrite zlen_app. replace (s_cur s + zlen g + zlen t) with (s_cur s + (zlen g + zlen t)) by lia. reflexivity.
Qed.
Lemma log_split : forall eol m i is t, line_end eol -> log_text eol m i is t ->
  exists g' t', gaps eol g' /\ t = g' ++ t' /\ stops eol m t' /\ log_text eol m i is t'.
Proof.
  intros eol m i is t LE T. destruct T as [i g G|i g v l b is t G Y L T|i g v l is t G L T|i g v l is t G L T|i g v l n is t G Y L T|i g v l n cs u is t G D L MN U T].
  1: { exists g, []. rewrite app_nil_r. split; [exact G|]. split; [reflexivity|]. split; [left; reflexivity|]. constructor. constructor. }
  all: exists g; eexists; (split; [exact G|]); (split; [reflexivity|]); split.
  - right. exists m, (s2z "hot_update"), v, l, t, RK_HOT_UPDATE. repeat (split; [assumption || reflexivity || lia || discriminate|]). exact (log_ok _ _ _ _ _ LE T).
  - exact (lt_hot eol m i [] v l b is t (gaps_nil eol) Y L T).
  - right. exists m, (s2z "logger_name"), v, l, t, RK_LOGGER_NAME. repeat (split; [assumption || reflexivity || lia || discriminate|]). exact (log_ok _ _ _ _ _ LE T).
  - exact (lt_name eol m i [] v l is t (gaps_nil eol) L T).
  - right. exists m, (s2z "logger_desc"), v, l, t, PK_LOGGER_DESC. repeat (split; [assumption || reflexivity || lia || discriminate|]). exact (log_ok _ _ _ _ _ LE T).
  - exact (lt_desc eol m i [] v l is t (gaps_nil eol) L T).
  - right. exists m, (s2z "shm_key"), v, l, t, RK_SHM_KEY. repeat (split; [assumption || reflexivity || lia || discriminate|]). exact (log_ok _ _ _ _ _ LE T).
  - exact (lt_shm eol m i [] v l n is t (gaps_nil eol) Y L T).
  - right. exists m, (s2z "channel"), v, l, (u ++ t), RK_CHANNEL. repeat (split; [assumption || reflexivity || lia || discriminate|]). apply (chan_ok eol n 0 cs); [exact LE|exact U|exact (log_ok _ _ _ _ _ LE T)].
  - exact (lt_chan eol m i [] v l n cs u is t (gaps_nil eol) D L MN U T).
Qed.

Definition reads (is : list gitem) (s : lstate) (r : outcome (Z * lstate)) : Prop :=
  exists s', r = Ret (0, s') /\ s_chs s' = s_chs s ++ want_chans (zlen (s_chs s)) is /\
    s_hot s' = pick (fun i => match i with GHot b => Some b | _ => None end) is (s_hot s) /\
    s_name s' = pick (fun i => match i with GName v => Some v | _ => None end) is (s_name s) /\
    s_desc s' = pick (fun i => match i with GDesc v => Some v | _ => None end) is (s_desc s) /\
    s_shm s' = pick (fun i => match i with GShm n => Some n | _ => None end) is (s_shm s).
Lemma parse_string_id : forall v n, 1 <= zlen v < n -> parse_string v n = Some v.
Proof.
  intros v n H. unfold parse_string. destruct v as [|c v]; [rewrite zlen_nil in H; lia|]. rewrite firstn_all2; [reflexivity|]. unfold zlen in *. lia.
Qed.
Ltac at_key L1 L2 L3 L4 L5 s1 :=
  unfold logger_line; rewrite L1; cbn [bind]; change (negb (0 =? PEC_NONE)) with false; cbv iota; rewrite L2;
  try change (buf (set_cur s1 _ _)) with (buf s1); rewrite L5; cbn [bind]; rewrite L4.
Lemma log_item : forall eol g l t s fuel e n k v key, line_end eol -> gaps eol g -> is_line eol n k v l -> parse_reserve k = Ret key -> key <> RK_NULL -> starts_ok eol t -> here s (g ++ l ++ t) ->
  zlen (g ++ l ++ t) + 1 < Z.of_nat fuel ->
  exists no f r li, let s1 := set_cur s (s_cur s + zlen g) no in
    cont fuel e s = logger_loop (S f) e s1 /\ zlen t + 1 < Z.of_nat f /\ here s1 (l ++ t) /\
    lex_at f s1 = Ret (0, set_cur s1 (s_cur s1 + zlen l) (s_no s1 + 1), li) /\ l_ke li - l_kb li =? 0 = false /\ l_blank li = n /\ l_key li = key /\ line_val (buf s1) li = Ret (v, v ++ r, r) /\ ends_number r.
Proof.
  intros eol g l t s fuel e n k v key LE G L PR KN X H F. pose proof (line_pos _ _ _ _ _ L) as LP.
  assert (NE : l ++ t = [] -> s_chs s <> []) by (intros E; apply (f_equal zlen) in E; rewrite zlen_app, zlen_nil in E; pose proof (zlen_nonneg _ t); lia).
  destruct (log_gaps eol g G LE fuel e s (l ++ t) (line_ok _ _ _ _ _ _ L) NE H F) as (no & f1 & F1 & E1).
  rewrite zlen_app in F1. pose proof (zlen_nonneg _ t). destruct f1 as [|f]; [lia|]. pose proof (here_next s g (l ++ t) no H) as HA. set (s1 := set_cur s (s_cur s + zlen g) no) in *.
  destruct (lex_at_line f eol s1 n k v l t key LE L X PR KN HA ltac:(lia)) as (li & r & L1 & L2 & L3 & L4 & L5 & L6).
  exists no, f, r, li. cbv zeta. fold s1. split; [|split; [lia|auto 10]]. rewrite E1. apply cont_loop. pose proof (here_end s1 _ HA) as HE. rewrite zlen_app in HE. lia.
Qed.
Lemma log_parse : forall eol m e, line_end eol -> x_maxdev e < 2 ^ 31 -> x_maxch e < 2 ^ 31 -> forall is t fuel s, log_text eol m (zlen (s_chs s)) is t -> Forall (gitem_ok (x_maxdev e)) is ->
  s_chs s ++ want_chans (zlen (s_chs s)) is <> [] -> zlen (s_chs s ++ want_chans (zlen (s_chs s)) is) <= x_maxch e -> here s t -> zlen t + 1 < Z.of_nat fuel ->
  reads is s (cont fuel e s).
Proof.
  intros eol m e LE MX MC. induction is as [|i is IH]; intros t fuel s T OK NE MH H F.
  - inversion T as [? ? G| | | | |]; subst. cbn [want_chans] in *. rewrite app_nil_r in *.
    replace t with (t ++ []) in H, F by apply app_nil_r. destruct (log_gaps eol t G LE fuel e s [] (or_introl eq_refl) (fun _ => NE) H F) as (no & f1 & F1 & E1). rewrite E1.
    pose proof (here_next s t [] no H) as HA. pose proof (here_end _ _ HA) as HE. rewrite zlen_nil in HE. rewrite cont_done by (lia || exact NE).
    eexists. split; [reflexivity|]. cbn [want_chans]. rewrite app_nil_r. repeat (split; [reflexivity|]). reflexivity.
  - pose proof (Forall_inv OK) as OK0. pose proof (Forall_inv_tail OK) as OKT.
    inversion T as [|? g v l b ? t0 G Y L T0|? g v l ? t0 G L T0|? g v l ? t0 G L T0|? g v l n ? t0 G Y L T0|? g v l n cs u ? t0 G D L MN U T0]; subst.
    + destruct (log_item eol g l t0 s fuel e m (s2z "hot_update") v RK_HOT_UPDATE LE G L eq_refl ltac:(discriminate) (log_ok _ _ _ _ _ LE T0) H F) as (no & f & r & li & E1 & F1 & HA & L1 & L2 & L3 & L4 & L5 & L6).
      set (s1 := set_cur s (s_cur s + zlen g) no) in *. cbn [want_chans] in NE, MH.
      set (s2 := mkLs (s_text s1) (s_cur s1 + zlen l) (s_end s1) (s_no s1 + 1) (s_chs s1) (s_shm s1) b (s_name s1) (s_desc s1)).
      destruct (IH t0 f s2 T0 OKT NE MH (here_next s1 l t0 (s_no s1 + 1) HA) F1) as (s' & E2 & R). exists s'. split.
      * rewrite E1, <- E2. apply loop_next. at_key L1 L2 L3 L4 L5 s1. change (RK_HOT_UPDATE =? RK_HOT_UPDATE) with true. cbv iota. rewrite (yes_no_read b v Y). reflexivity.
      * exact R.
    + destruct (log_item eol g l t0 s fuel e m (s2z "logger_name") v RK_LOGGER_NAME LE G L eq_refl ltac:(discriminate) (log_ok _ _ _ _ _ LE T0) H F) as (no & f & r & li & E1 & F1 & HA & L1 & L2 & L3 & L4 & L5 & L6).
      set (s1 := set_cur s (s_cur s + zlen g) no) in *. cbn [want_chans] in NE, MH. cbn [gitem_ok] in OK0.
      set (s2 := mkLs (s_text s1) (s_cur s1 + zlen l) (s_end s1) (s_no s1 + 1) (s_chs s1) (s_shm s1) (s_hot s1) v (s_desc s1)).
      destruct (IH t0 f s2 T0 OKT NE MH (here_next s1 l t0 (s_no s1 + 1) HA) F1) as (s' & E2 & R). exists s'. split.
      * rewrite E1, <- E2. apply loop_next. at_key L1 L2 L3 L4 L5 s1. rewrite (parse_string_id v 250) by lia. reflexivity.
      * exact R.
    + destruct (log_item eol g l t0 s fuel e m (s2z "logger_desc") v PK_LOGGER_DESC LE G L eq_refl ltac:(discriminate) (log_ok _ _ _ _ _ LE T0) H F) as (no & f & r & li & E1 & F1 & HA & L1 & L2 & L3 & L4 & L5 & L6).
      set (s1 := set_cur s (s_cur s + zlen g) no) in *. cbn [want_chans] in NE, MH. cbn [gitem_ok] in OK0.
      set (s2 := mkLs (s_text s1) (s_cur s1 + zlen l) (s_end s1) (s_no s1 + 1) (s_chs s1) (s_shm s1) (s_hot s1) (s_name s1) v).
      destruct (IH t0 f s2 T0 OKT NE MH (here_next s1 l t0 (s_no s1 + 1) HA) F1) as (s' & E2 & R). exists s'. split.
      * rewrite E1, <- E2. apply loop_next. at_key L1 L2 L3 L4 L5 s1. rewrite (parse_string_id v 50) by lia. reflexivity.
      * exact R.
    + destruct (log_item eol g l t0 s fuel e m (s2z "shm_key") v RK_SHM_KEY LE G L eq_refl ltac:(discriminate) (log_ok _ _ _ _ _ LE T0) H F) as (no & f & r & li & E1 & F1 & HA & L1 & L2 & L3 & L4 & L5 & L6).
      set (s1 := set_cur s (s_cur s + zlen g) no) in *. cbn [want_chans] in NE, MH. cbn [gitem_ok] in OK0.
      set (s2 := mkLs (s_text s1) (s_cur s1 + zlen l) (s_end s1) (s_no s1 + 1) (s_chs s1) n (s_hot s1) (s_name s1) (s_desc s1)).
      destruct (IH t0 f s2 T0 OKT NE MH (here_next s1 l t0 (s_no s1 + 1) HA) F1) as (s' & E2 & R). exists s'. split.
      * rewrite E1, <- E2. apply loop_next. at_key L1 L2 L3 L4 L5 s1. rewrite (number_read n v Y OK0). reflexivity.
      * exact R.
    + destruct (log_split eol m _ is t0 LE T0) as (g' & t' & G' & EQ & ST & T').
      assert (X : starts_ok eol (u ++ t0)) by (apply (chan_ok eol n 0 cs); [exact LE|exact U|exact (log_ok _ _ _ _ _ LE T0)]).
      destruct (log_item eol g l (u ++ t0) s fuel e m (s2z "channel") v RK_CHANNEL LE G L eq_refl ltac:(discriminate) X H F) as (no & f & r & li & E1 & F1 & HA & L1 & L2 & L3 & L4 & L5 & L6).
      set (s1 := set_cur s (s_cur s + zlen g) no) in *. cbn [want_chans] in NE, MH. cbn [gitem_ok] in OK0. destruct OK0 as [OKC OKD].
      assert (MH1 : zlen (s_chs s) < x_maxch e).
      { rewrite zlen_app, zlen_cons in MH. match type of MH with context [1 + zlen ?y] => pose proof (zlen_nonneg _ y) end. lia. }
      pose proof (zlen_nonneg _ (s_chs s)).
      pose proof (here_next s1 l (u ++ t0) (s_no s1 + 1) HA) as HB. set (s2 := set_cur s1 (s_cur s1 + zlen l) (s_no s1 + 1)) in *. rewrite EQ in HB, F1.
      destruct (chan_parse eol n m e (zlen (s_chs s)) LE MN MX cs [] u f s2 g' t' U OKC OKD G' ST HB F1) as (no2 & E2). cbn [app] in E2.
      set (s3 := set_chs (set_cur s2 (s_cur s2 + zlen (u ++ g')) no2) (s_chs s ++ [want_chan (zlen (s_chs s)) cs])).
      assert (LZ : zlen (s_chs s3) = zlen (s_chs s) + 1) by (unfold s3; cbn [set_chs s_chs]; rewrite zlen_app; reflexivity).
      destruct (IH t' f s3) as (s' & E3 & R).
      * rewrite LZ. exact T'.
      * exact OKT.
      * rewrite LZ. unfold s3. cbn [set_chs s_chs]. rewrite <- app_assoc. exact NE.
      * rewrite LZ. unfold s3. cbn [set_chs s_chs]. rewrite <- app_assoc. exact MH.
      * replace (u ++ g' ++ t') with ((u ++ g') ++ t') in HB by (rewrite <- app_assoc; reflexivity). exact (here_next s2 (u ++ g') t' no2 HB).
      * rewrite !zlen_app in F1. pose proof (zlen_nonneg _ u). pose proof (zlen_nonneg _ g'). lia.
      * exists s'. split.
        -- rewrite E1, <- E3. apply loop_next. change (buf s1) with (buf s2) in L5. at_key L1 L2 L3 L4 L5 s1. change (RK_CHANNEL =? RK_HOT_UPDATE) with false. change ((RK_CHANNEL =? RK_DEFINE) || (RK_CHANNEL =? RK_VARIABLE)) with false.
           change (RK_CHANNEL =? RK_LOGGER_NAME) with false. change (RK_CHANNEL =? PK_LOGGER_DESC) with false. change (RK_CHANNEL =? RK_SHM_KEY) with false. change (RK_CHANNEL =? RK_CHANNEL) with true. cbv iota.
           rewrite (atoi_read (zlen (s_chs s)) v r D L6) by (change (2 ^ 31) with 2147483648 in *; lia). cbn [bind]. fold s2. change (s_chs s2) with (s_chs s).
           replace (x_maxch e <=? zlen (s_chs s)) with false by lia. rewrite Z.eqb_refl. cbn [negb]. change (chan0 (zlen (s_chs s))) with (want_chan (zlen (s_chs s)) []). rewrite L3, E2. cbn [bind]. reflexivity.
        -- rewrite LZ in R. unfold s3 in R. cbn [set_chs s_chs] in R. rewrite <- app_assoc in R. exact R.
Qed.
Theorem config_read : forall eol m e shm is t fuel, line_end eol -> x_maxdev e < 2 ^ 31 -> x_maxch e < 2 ^ 31 -> log_text eol m 0 is t -> Forall (gitem_ok (x_maxdev e)) is ->
  want_chans 0 is <> [] -> zlen (want_chans 0 is) <= x_maxch e -> zlen t + 1 < Z.of_nat fuel ->
  exists s, parse_logger fuel e shm t = Ret (0, s) /\ s_chs s = want_chans 0 is /\
    s_hot s = pick (fun i => match i with GHot b => Some b | _ => None end) is false /\
    s_name s = pick (fun i => match i with GName v => Some v | _ => None end) is [] /\
    s_desc s = pick (fun i => match i with GDesc v => Some v | _ => None end) is [] /\
    s_shm s = pick (fun i => match i with GShm n => Some n | _ => None end) is shm.
Proof.
  intros eol m e shm is t fuel LE MX MC T OK NE MH F. unfold parse_logger. rewrite (ok_bom eol t LE (log_ok _ _ _ _ _ LE T)). rewrite Z.add_0_l.
  set (s0 := mkLs t 0 (zlen t) 1 [] shm false [] []). assert (H : here s0 t) by (split; [exists []; split; reflexivity|reflexivity]).
  assert (C : s_cur s0 < s_end s0).
  { cbn [s0 s_cur s_end]. destruct t as [|c t]; [|rewrite zlen_cons; pose proof (zlen_nonneg _ t); lia]. exfalso. destruct (log_split _ _ _ _ _ LE T) as (g' & t' & _ & E & ST & T'). symmetry in E. apply app_eq_nil in E. destruct E as [-> ->].
    inversion T'; subst; cbn [want_chans] in NE; try congruence;
      match goal with E : _ ++ ?l ++ _ = [], L : is_line _ _ _ _ ?l |- _ => apply line_pos in L; apply (f_equal zlen) in E; rewrite !zlen_app, zlen_nil in E;
        repeat match type of E with context [zlen ?y] => lazymatch goal with K : 0 <= zlen y |- _ => fail | _ => pose proof (zlen_nonneg _ y) end end; lia end. }
  rewrite <- cont_loop by exact C. exact (log_parse eol m e LE MX MC is t fuel s0 T OK NE MH H F).
Qed.
