(* The result of the parser does not depend on the initial content of shm_key_, except for that field. *)
From Coq Require Import String ZArith List Bool Lia ZifyBool ZifyNat ZifyN.
From Verif Require Import Base BaseFacts LoggerState FileName ParseVal Lexer ParseCfg.
Import ListNotations.
Open Scope Z_scope.

Definition with_shm (z : Z) (s : lstate) : lstate :=
  mkLs (s_text s) (s_cur s) (s_end s) (s_no s) (s_chs s) z (s_hot s) (s_name s) (s_desc s).
Definition omap {A B} (f : A -> B) (o : outcome A) : outcome B := bind o (fun x => Ret (f x)).

Lemma lex_at_shm : forall fuel z s, lex_at fuel (with_shm z s) = omap (fun r => (fst (fst r), with_shm z (snd (fst r)), snd r)) (lex_at fuel s).
Proof.
  intros fuel z s. unfold lex_at, buf, omap. cbn [with_shm s_text s_cur s_end s_no]. destruct (lex _ _ _ _) as [[[[c cur] l] n]| |]; reflexivity.
Qed.
Ltac both := repeat match goal with
  | |- context [if ?b then _ else _] => destruct b
  | |- context [bind ?m _] => match m with bind _ _ => fail 1 | _ => destruct m as [?x| |]; cbn [bind] end
  | |- context [let '(_, _) := ?x in _] => destruct x
  end; try reflexivity.
Lemma parse_device_shm : forall e indent z fuel s d,
  parse_device fuel e (with_shm z s) d indent = omap (fun r => (fst (fst r), with_shm z (snd (fst r)), snd r)) (parse_device fuel e s d indent).
Proof.
  intros e indent z. induction fuel as [|fuel IH]; intros s d; [reflexivity|]. cbn [parse_device]. cbv zeta. rewrite lex_at_shm.
  destruct (lex_at fuel s) as [[[ret s1] l]| |]; unfold omap; cbn [bind fst snd]; try reflexivity.
  destruct (negb (ret =? PEC_NONE)); [reflexivity|]. cbn [with_shm s_end s_cur s_text buf].
  assert (AG : forall d', (if s_cur s1 <? s_end s1 then parse_device fuel e (with_shm z s1) d' indent else Ret (0, with_shm z s1, d')) =
    omap (fun r => (fst (fst r), with_shm z (snd (fst r)), snd r)) (if s_cur s1 <? s_end s1 then parse_device fuel e s1 d' indent else Ret (0, s1, d'))).
  { intros d'. destruct (s_cur s1 <? s_end s1); [apply IH|reflexivity]. }
  destruct (l_ke l - l_kb l =? 0). { destruct (s_end s1 <=? s_cur s1); [reflexivity|apply AG]. }
  destruct (l_blank l <=? indent); [reflexivity|].
  change (buf (with_shm z s1)) with (buf s1). destruct (line_val (buf s1) l) as [[[v w] rest]| |]; cbn [bind]; try reflexivity.
  destruct (device_key e d (l_key l) v w rest) as [[r d']| |]; cbn [bind]; try reflexivity.
  destruct (r =? PEC_NONE); [apply AG|]. destruct (r =? PEC_UNDEFINED_DEVICE_KEY); reflexivity.
Qed.
Lemma parse_channel_shm : forall e indent z fuel s c,
  parse_channel fuel e (with_shm z s) c indent = omap (fun r => (fst (fst r), with_shm z (snd (fst r)), snd r)) (parse_channel fuel e s c indent).
Proof.
  intros e indent z. induction fuel as [|fuel IH]; intros s c; [reflexivity|]. cbn [parse_channel]. cbv zeta. rewrite lex_at_shm.
  destruct (lex_at fuel s) as [[[ret s1] l]| |]; unfold omap; cbn [bind fst snd]; try reflexivity.
  destruct (negb (ret =? PEC_NONE)); [reflexivity|]. cbn [with_shm s_end s_cur s_text buf].
  assert (AG : forall s1 c', (if s_cur s1 <? s_end s1 then parse_channel fuel e (with_shm z s1) c' indent else Ret (0, with_shm z s1, c')) =
    omap (fun r => (fst (fst r), with_shm z (snd (fst r)), snd r)) (if s_cur s1 <? s_end s1 then parse_channel fuel e s1 c' indent else Ret (0, s1, c'))).
  { intros s' c'. destruct (s_cur s' <? s_end s'); [apply IH|reflexivity]. }
  destruct (l_ke l - l_kb l =? 0). { destruct (s_end s1 <=? s_cur s1); [reflexivity|apply AG]. }
  destruct (l_blank l <=? indent); [reflexivity|].
  change (buf (with_shm z s1)) with (buf s1). destruct (line_val (buf s1) l) as [[[v w] rest]| |]; cbn [bind]; try reflexivity.
  destruct (l_key l =? RK_DEVICE).
  - destruct (atoi w) as [id| |]; cbn [bind]; try reflexivity. destruct (x_maxdev e <=? zlen (pc_devs c)); [reflexivity|]. destruct (negb (id =? zlen (pc_devs c))); [reflexivity|].
    rewrite parse_device_shm. unfold omap. destruct (parse_device fuel e s1 (dev0 id) (l_blank l)) as [[[r s2] d]| |]; cbn [bind fst snd]; try reflexivity.
    destruct (negb (r =? PEC_NONE)); [reflexivity|]. cbn [with_shm s_cur s_end]. apply AG.
  - destruct (channel_key e c (l_key l) v w rest) as [[r c']| |]; cbn [bind]; try reflexivity. destruct (r =? PEC_NONE); [apply AG|reflexivity].
Qed.

(* the same state up to shm_key_, which is the same too or still the initial one *)
Definition same (z1 z2 : Z) (s1 s2 : lstate) : Prop :=
  s2 = with_shm (s_shm s2) s1 /\ (s_shm s2 = s_shm s1 \/ s_shm s1 = z1 /\ s_shm s2 = z2).
Definition same_next (z1 z2 : Z) (a b : outcome lnext) : Prop :=
  match a, b with
  | Ret (Next s1), Ret (Next s2) => same z1 z2 s1 s2
  | Ret (Stop c1 s1), Ret (Stop c2 s2) => c1 = c2 /\ same z1 z2 s1 s2
  | Ub, Ub => True
  | Fuel, Fuel => True
  | _, _ => False
  end.
Lemma again_same : forall z1 z2 s1 s2, same z1 z2 s1 s2 -> same_next z1 z2 (Ret (again s1)) (Ret (again s2)).
Proof.
  intros z1 z2 s1 s2 H. pose proof (proj1 H) as E. unfold again. rewrite E. cbn [with_shm s_cur s_end s_chs]. rewrite <- E.
  destruct (s_cur s1 <? s_end s1); cbn [same_next]; auto.
Qed.
Lemma logger_line_same : forall fuel e z1 z2 s1 s2, same z1 z2 s1 s2 -> same_next z1 z2 (logger_line fuel e s1) (logger_line fuel e s2).
Proof.
  intros fuel e z1 z2 s1 s2 [E SH]. set (z := s_shm s2) in *. clearbody z. subst s2. unfold logger_line. cbv zeta. rewrite lex_at_shm. unfold omap.
  assert (EQ : forall r s' l, lex_at fuel s1 = Ret (r, s', l) -> s_shm s' = s_shm s1).
  { intros r s' l H. unfold lex_at in H. destruct (lex _ _ _ _) as [[[[c cur] l'] n]| |]; cbn [bind] in H; try discriminate H. injection H as _ <- _. reflexivity. }
  destruct (lex_at fuel s1) as [[[ret s'] l]| |]; cbn [bind fst snd]; try exact Logic.I. specialize (EQ _ _ _ eq_refl). rewrite <- EQ in SH. clear EQ.
  assert (SM : forall s, s_shm s = s_shm s' -> same z1 z2 s (with_shm z s)). { intros s H. split; [reflexivity|]. cbn [with_shm s_shm]. rewrite H. exact SH. }
  destruct (negb (ret =? PEC_NONE)); [split; [reflexivity|]; apply (SM (set_cur s' _ _)); reflexivity|].
  destruct (l_ke l - l_kb l =? 0). { cbn [with_shm s_end s_cur]. destruct (s_end s' <=? s_cur s'); [split; [reflexivity|apply SM; reflexivity]|apply again_same, SM; reflexivity]. }
  change (buf (with_shm z s')) with (buf s'). destruct (line_val (buf s') l) as [[[v w] rest]| |]; cbn [bind]; try exact Logic.I.
  cbn [with_shm s_text s_cur s_end s_no s_chs s_shm s_hot s_name s_desc].
  destruct (l_key l =? RK_HOT_UPDATE). { apply again_same. apply (SM (mkLs _ _ _ _ _ (s_shm s') _ _ _)). reflexivity. }
  destruct ((l_key l =? RK_DEFINE) || (l_key l =? RK_VARIABLE)).
  { destruct (if l_key l =? RK_DEFINE then _ else _) as [[r t]| |]; cbn [bind]; try exact Logic.I.
    destruct (negb (r =? PEC_NONE)); [split; [reflexivity|]; apply (SM (set_cur (set_text s' t) _ _)); reflexivity|]. apply again_same. apply (SM (set_text s' t)). reflexivity. }
  destruct (l_key l =? RK_LOGGER_NAME). { apply again_same. apply (SM (mkLs _ _ _ _ _ (s_shm s') _ _ _)). reflexivity. }
  destruct (l_key l =? PK_LOGGER_DESC). { apply again_same. apply (SM (mkLs _ _ _ _ _ (s_shm s') _ _ _)). reflexivity. }
  destruct (l_key l =? RK_SHM_KEY).
  { destruct (parse_number v) as [n| |]; cbn [bind]; try exact Logic.I. apply again_same. split; [reflexivity|left; reflexivity]. }
  destruct (l_key l =? RK_CHANNEL); [|split; [reflexivity|apply SM; reflexivity]].
  destruct (atoi w) as [id| |]; cbn [bind]; try exact Logic.I.
  destruct (x_maxch e <=? zlen (s_chs s')); [split; [reflexivity|]; apply (SM (set_cur s' _ _)); reflexivity|].
  destruct (negb (zlen (s_chs s') =? id)); [split; [reflexivity|]; apply (SM (set_cur s' _ _)); reflexivity|].
  change (mkLs (s_text s') (s_cur s') (s_end s') (s_no s') (s_chs s') z (s_hot s') (s_name s') (s_desc s')) with (with_shm z s').
  rewrite parse_channel_shm. unfold omap.
  assert (EQ2 : forall r s2 c, parse_channel fuel e s' (chan0 id) (l_blank l) = Ret (r, s2, c) -> s_shm s2 = s_shm s').
  { intros r s2 c H. pose proof (parse_channel_shm e (l_blank l) (s_shm s') fuel s' (chan0 id)) as P. unfold omap in P. rewrite H in P. cbn [bind fst snd] in P.
    replace (with_shm (s_shm s') s') with s' in P by (destruct s'; reflexivity). rewrite H in P. injection P as P. rewrite P. reflexivity. }
  destruct (parse_channel fuel e s' (chan0 id) (l_blank l)) as [[[r s2] c]| |]; cbn [bind fst snd]; try exact Logic.I. specialize (EQ2 _ _ _ eq_refl).
  assert (S2 : same z1 z2 (set_chs s2 (s_chs s2 ++ [c])) (set_chs (with_shm z s2) (s_chs (with_shm z s2) ++ [c]))). { apply (SM (set_chs s2 _)). exact EQ2. }
  destruct (negb (r =? 0)); [split; [reflexivity|exact S2]|apply again_same, S2].
Qed.
Lemma logger_loop_same : forall fuel e z1 z2 s1 s2 c s1', same z1 z2 s1 s2 -> logger_loop fuel e s1 = Ret (c, s1') ->
  exists s2', logger_loop fuel e s2 = Ret (c, s2') /\ same z1 z2 s1' s2'.
Proof.
  induction fuel as [|fuel IH]; intros e z1 z2 s1 s2 c s1' S H; [discriminate H|]. cbn [logger_loop] in *. pose proof (logger_line_same fuel e z1 z2 s1 s2 S) as L.
  destruct (logger_line fuel e s1) as [[n1|c1 n1]| |]; cbn [bind] in H; try discriminate H; destruct (logger_line fuel e s2) as [[n2|c2 n2]| |]; cbn [same_next] in L; try contradiction; cbn [bind].
  - eapply IH; eassumption.
  - destruct L as [<- L]. injection H as <- <-. eauto.
Qed.
Theorem parse_logger_same : forall fuel e z1 z2 t c s1, parse_logger fuel e z1 t = Ret (c, s1) ->
  exists s2, parse_logger fuel e z2 t = Ret (c, s2) /\ same z1 z2 s1 s2.
Proof. intros fuel e z1 z2 t c s1 H. unfold parse_logger in *. eapply logger_loop_same; [|exact H]. split; [reflexivity|]. right. split; reflexivity. Qed.
