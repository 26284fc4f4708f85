(* The parser and the built-in maxima of channels and devices (C122). *)
From Coq Require Import String ZArith List Bool Lia ZifyBool ZifyNat ZifyN.
From Verif Require Import Base BaseFacts LoggerState FileName ParseVal Lexer ParseCfg.
Import ListNotations.
Open Scope Z_scope.

(* the same library built with other maxima, fn_data.h:47-53 *)
Definition with_limits (e : penv) (c d : Z) : penv := mkPenv (x_dns e) (x_arith e) c d.
(* a configuration within the maxima *)
Definition fits (c d : Z) (chs : list pchan) : Prop := zlen chs <= c /\ Forall (fun ch => zlen (pc_devs ch) <= d) chs.

Lemma bit_loop_lim : forall e c d c' d' n s rest b,
  bit_loop n (with_limits e c d) s rest b = bit_loop n (with_limits e c' d') s rest b.
Proof.
  intros e c d c' d'. induction n as [|n IH]; intros s rest b; [reflexivity|]. cbn [bit_loop].
  destruct (drop_while _ s); [reflexivity|]. destruct (atoi _) as [i| |]; try reflexivity. cbn [bind]. cbv zeta.
  change (set_bit (with_limits e c d)) with (set_bit (with_limits e c' d')).
  change (set_range (with_limits e c d)) with (set_range (with_limits e c' d')).
  destruct (negb _). { destruct (set_bit _ b i); try reflexivity. cbn [bind]. apply IH. }
  destruct (negb _). { destruct (set_bit _ b i); try reflexivity. cbn [bind]. apply IH. }
  destruct (atoi _) as [j| |]; try reflexivity. cbn [bind].
  destruct (set_range _ b i j); try reflexivity. cbn [bind]. apply IH.
Qed.
Lemma bit_array_lim : forall e c d c' d' v rest,
  parse_bit_array (with_limits e c d) v rest = parse_bit_array (with_limits e c' d') v rest.
Proof. intros. apply bit_loop_lim. Qed.
Lemma device_key_lim : forall e c d c' d' dv k v w rest,
  device_key (with_limits e c d) dv k v w rest = device_key (with_limits e c' d') dv k v w rest.
Proof. intros. unfold device_key. rewrite (bit_array_lim e c d c' d'). reflexivity. Qed.
Lemma channel_key_lim : forall e c d c' d' ch k v w rest,
  channel_key (with_limits e c d) ch k v w rest = channel_key (with_limits e c' d') ch k v w rest.
Proof. intros. unfold channel_key. rewrite (bit_array_lim e c d c' d'). reflexivity. Qed.
Lemma device_lim : forall e c d c' d' ind n s dv,
  parse_device n (with_limits e c d) s dv ind = parse_device n (with_limits e c' d') s dv ind.
Proof.
  intros e c d c' d' ind. induction n as [|n IH]; intros s dv; [reflexivity|]. cbn [parse_device].
  destruct (lex_at n s) as [[[ret s1] l]| |]; try reflexivity. cbn [bind].
  destruct (negb _); [reflexivity|]. destruct (_ =? 0). { destruct (_ <=? _); [reflexivity|]. rewrite IH. reflexivity. }
  destruct (_ <=? _); [reflexivity|]. destruct (line_val (buf s1) l) as [[[v w] rest]| |]; try reflexivity. cbn [bind].
  rewrite (device_key_lim e c d c' d').
  destruct (device_key _ dv (l_key l) v w rest) as [[r dv']| |]; try reflexivity. cbn [bind]. rewrite IH. reflexivity.
Qed.
Lemma device_chs : forall e ind n s dv r s' dv', parse_device n e s dv ind = Ret (r, s', dv') -> s_chs s' = s_chs s.
Proof.
  intros e ind. induction n as [|n IH]; intros s dv r s' dv' H; [discriminate|]. cbn [parse_device] in H.
  destruct (lex_at n s) as [[[ret s1] l]| |] eqn:LX; try discriminate. cbn [bind] in H.
  assert (C1 : s_chs s1 = s_chs s).
  { unfold lex_at in LX. destruct (lex n (buf s) (s_cur s) (s_end s)) as [[[[a b] x] y]| |]; try discriminate.
    cbn [bind] in LX. injection LX as <- <- <-. reflexivity. }
  destruct (negb _). { injection H as <- <- <-. exact C1. }
  destruct (_ =? 0). { destruct (_ <=? _). { injection H as <- <- <-. exact C1. }
    destruct (_ <? _). { rewrite (IH _ _ _ _ _ H). exact C1. } injection H as <- <- <-. exact C1. }
  destruct (_ <=? _). { injection H as <- <- <-. exact C1. }
  destruct (line_val (buf s1) l) as [[[v w] rest]| |]; try discriminate. cbn [bind] in H.
  destruct (device_key e dv (l_key l) v w rest) as [[r0 dv0]| |]; try discriminate. cbn [bind] in H.
  destruct (_ =? PEC_NONE).
  { destruct (_ <? _). { rewrite (IH _ _ _ _ _ H). exact C1. } injection H as <- <- <-. exact C1. }
  destruct (_ =? _); injection H as <- <- <-; exact C1.
Qed.
Lemma lex_at_chs : forall n s r s1 l, lex_at n s = Ret (r, s1, l) -> s_chs s1 = s_chs s.
Proof.
  intros n s r s1 l LX. unfold lex_at in LX. destruct (lex n (buf s) (s_cur s) (s_end s)) as [[[[a b] x] y]| |]; try discriminate.
  cbn [bind] in LX. injection LX as <- <- <-. reflexivity.
Qed.
Lemma channel_key_devs : forall e c k v w rest r c', channel_key e c k v w rest = Ret (r, c') -> pc_devs c' = pc_devs c.
Proof.
  intros e c k v w rest r c' H. unfold channel_key, putc, flip, as_ll in H.
  repeat (destruct (k =? _); [
    repeat match goal with H : bind ?o _ = Ret _ |- _ => destruct o; try discriminate; cbn [bind] in H end; injection H as <- <-; reflexivity
  | ]).
  injection H as <- <-. reflexivity.
Qed.
(* the channel: devices are only added, never more than the maximum *)
Lemma channel_grows : forall e ind n s c r s' c', parse_channel n e s c ind = Ret (r, s', c') ->
  s_chs s' = s_chs s /\ zlen (pc_devs c) <= zlen (pc_devs c') /\ zlen (pc_devs c') <= Z.max (zlen (pc_devs c)) (x_maxdev e).
Proof.
  intros e ind. induction n as [|n IH]; intros s c r s' c' H; [discriminate|]. cbn [parse_channel] in H.
  destruct (lex_at n s) as [[[ret s1] l]| |] eqn:LX; try discriminate. cbn [bind] in H.
  pose proof (lex_at_chs _ _ _ _ _ LX) as C1.
  destruct (negb _). { injection H as <- <- <-. split; [exact C1|lia]. }
  destruct (_ =? 0). { destruct (_ <=? _). { injection H as <- <- <-. split; [exact C1|lia]. }
    destruct (_ <? _). { destruct (IH _ _ _ _ _ H). split; [congruence|assumption]. } injection H as <- <- <-. split; [exact C1|lia]. }
  destruct (_ <=? _). { injection H as <- <- <-. split; [exact C1|lia]. }
  destruct (line_val (buf s1) l) as [[[v w] rest]| |]; try discriminate. cbn [bind] in H.
  destruct (_ =? RK_DEVICE).
  - destruct (atoi w) as [id| |]; try discriminate. cbn [bind] in H.
    destruct (x_maxdev e <=? zlen (pc_devs c)) eqn:MX. { injection H as <- <- <-. split; [exact C1|lia]. }
    destruct (negb _). { injection H as <- <- <-. split; [exact C1|lia]. }
    destruct (parse_device n e s1 (dev0 id) (l_blank l)) as [[[r2 s2] dv]| |] eqn:PD; try discriminate. cbn [bind] in H.
    pose proof (device_chs _ _ _ _ _ _ _ _ PD) as C2.
    assert (L : zlen (pc_devs (add_dev c dv)) = zlen (pc_devs c) + 1)
      by (unfold add_dev, zlen; cbn [pc_devs]; rewrite app_length; cbn [length]; lia).
    destruct (negb _). { injection H as <- <- <-. split; [congruence|lia]. }
    destruct (_ <? _). { destruct (IH _ _ _ _ _ H) as [A B]. split; [congruence|lia]. }
    injection H as <- <- <-. split; [congruence|lia].
  - destruct (channel_key e c (l_key l) v w rest) as [[r0 c0]| |] eqn:CK; try discriminate. cbn [bind] in H.
    pose proof (channel_key_devs _ _ _ _ _ _ _ _ CK) as D0.
    destruct (_ =? PEC_NONE). { destruct (_ <? _). { destruct (IH _ _ _ _ _ H) as [A B]. rewrite D0 in B. split; [congruence|lia]. }
      injection H as <- <- <-. rewrite D0. split; [congruence|lia]. }
    injection H as <- <- <-. rewrite D0. split; [congruence|lia].
Qed.

(* with the smaller maximum the same happens, or it is reached *)
Lemma channel_lim : forall e c d c' d' ind, d <= d' -> forall n s ch,
  parse_channel n (with_limits e c d) s ch ind = parse_channel n (with_limits e c' d') s ch ind \/
  ((exists s1 ch1, parse_channel n (with_limits e c d) s ch ind = Ret (E_OUT_OF_DEVICE_SIZE, s1, ch1)) /\
   forall s2 ch2, parse_channel n (with_limits e c' d') s ch ind = Ret (0, s2, ch2) -> d < zlen (pc_devs ch2)).
Proof.
  intros e c d c' d' ind LE. induction n as [|n IH]; intros s ch; [left; reflexivity|]. cbn [parse_channel].
  destruct (lex_at n s) as [[[ret s1] l]| |]; try (left; reflexivity). cbn [bind].
  destruct (negb _); [left; reflexivity|].
  destruct (_ =? 0). { destruct (_ <=? _); [left; reflexivity|]. destruct (_ <? _); [apply IH|left; reflexivity]. }
  destruct (_ <=? _); [left; reflexivity|].
  destruct (line_val (buf s1) l) as [[[v w] rest]| |]; try (left; reflexivity). cbn [bind].
  destruct (_ =? RK_DEVICE).
  - destruct (atoi w) as [id| |]; try (left; reflexivity). cbn [bind with_limits x_maxdev].
    destruct (d <=? zlen (pc_devs ch)) eqn:A; destruct (d' <=? zlen (pc_devs ch)) eqn:B; try lia.
    + left. reflexivity.
    + right. split; [do 2 eexists; reflexivity|]. intros s2 ch2 H.
      destruct (negb _). { discriminate. }
      destruct (parse_device n _ s1 (dev0 id) (l_blank l)) as [[[r2 s3] dv]| |]; try discriminate. cbn [bind] in H.
      assert (L : zlen (pc_devs (add_dev ch dv)) = zlen (pc_devs ch) + 1)
        by (unfold add_dev, zlen; cbn [pc_devs]; rewrite app_length; cbn [length]; lia).
      destruct (negb (r2 =? PEC_NONE)) eqn:R2. { injection H as -> _ _. discriminate. }
      destruct (_ <? _). { destruct (channel_grows _ _ _ _ _ _ _ _ H). lia. }
      injection H as _ <-. lia.
    + destruct (negb _); [left; reflexivity|].
      fold (with_limits e c d). fold (with_limits e c' d').
      rewrite (device_lim e c d c' d'). destruct (parse_device n _ s1 (dev0 id) (l_blank l)) as [[[r2 s2] dv]| |]; try (left; reflexivity).
      cbn [bind]. destruct (negb _); [left; reflexivity|]. destruct (_ <? _); [apply IH|left; reflexivity].
  - rewrite (channel_key_lim e c d c' d').
    destruct (channel_key _ ch (l_key l) v w rest) as [[r0 c0]| |]; try (left; reflexivity). cbn [bind].
    destruct (_ =? PEC_NONE); [|left; reflexivity]. destruct (_ <? _); [apply IH|left; reflexivity].
Qed.

Definition state_of (r : lnext) : lstate := match r with Next s => s | Stop _ s => s end.
Lemma again_state : forall s, state_of (again s) = s.
Proof. intros s. unfold again. destruct (_ <? _); reflexivity. Qed.

(* channels are only added, within the maxima *)
Lemma line_grows : forall e n s r, logger_line n e s = Ret r ->
  exists l, s_chs (state_of r) = s_chs s ++ l /\
    (0 <= x_maxdev e -> fits (x_maxch e) (x_maxdev e) (s_chs s) -> fits (x_maxch e) (x_maxdev e) (s_chs (state_of r))).
Proof.
  intros e n s r H. unfold logger_line in H.
  assert (SAME : s_chs (state_of r) = s_chs s -> exists l, s_chs (state_of r) = s_chs s ++ l /\
    (0 <= x_maxdev e -> fits (x_maxch e) (x_maxdev e) (s_chs s) -> fits (x_maxch e) (x_maxdev e) (s_chs (state_of r)))).
  { intros E. exists []. rewrite E, app_nil_r. auto. }
  destruct (lex_at n s) as [[[ret s1] l]| |] eqn:LX; try discriminate. cbn [bind] in H.
  pose proof (lex_at_chs _ _ _ _ _ LX) as C1.
  destruct (negb _). { injection H as <-. apply SAME. exact C1. }
  destruct (_ =? 0). { destruct (_ <=? _); injection H as <-; apply SAME; [exact C1|rewrite again_state; exact C1]. }
  destruct (line_val (buf s1) l) as [[[v w] rest]| |]; try discriminate. cbn [bind] in H.
  destruct (_ =? RK_HOT_UPDATE). { injection H as <-. apply SAME. rewrite again_state. exact C1. }
  destruct (_ || _).
  { destruct (if l_key l =? RK_DEFINE then _ else _) as [[r0 t]| |]; try discriminate. cbn [bind] in H.
    destruct (negb _); injection H as <-; apply SAME; [exact C1|rewrite again_state; exact C1]. }
  destruct (_ =? RK_LOGGER_NAME). { injection H as <-. apply SAME. rewrite again_state. exact C1. }
  destruct (_ =? PK_LOGGER_DESC). { injection H as <-. apply SAME. rewrite again_state. exact C1. }
  destruct (_ =? RK_SHM_KEY).
  { destruct (parse_number v); try discriminate. cbn [bind] in H. injection H as <-. apply SAME. rewrite again_state. exact C1. }
  destruct (_ =? RK_CHANNEL). 2:{ injection H as <-. apply SAME. exact C1. }
  destruct (atoi w) as [id| |]; try discriminate. cbn [bind] in H.
  destruct (x_maxch e <=? zlen (s_chs s1)) eqn:MX. { injection H as <-. apply SAME. exact C1. }
  destruct (negb _). { injection H as <-. apply SAME. exact C1. }
  destruct (parse_channel n e s1 (chan0 id) (l_blank l)) as [[[r2 s2] ch]| |] eqn:PC; try discriminate. cbn [bind] in H.
  destruct (channel_grows _ _ _ _ _ _ _ _ PC) as (C2 & _ & D2).
  assert (E : s_chs (state_of r) = s_chs s ++ [ch]).
  { destruct (negb _); injection H as <-; [|rewrite again_state]; cbn [state_of set_chs s_chs]; congruence. }
  exists [ch]. split; [exact E|]. intros MD [F1 F2]. rewrite E. split.
  - unfold zlen in *. rewrite app_length. cbn [length]. rewrite C1 in MX. lia.
  - apply Forall_app. split; [exact F2|]. constructor; [|constructor]. change (zlen (pc_devs (chan0 id))) with 0 in D2. lia.
Qed.
Lemma loop_grows : forall e n s code s', logger_loop n e s = Ret (code, s') ->
  exists l, s_chs s' = s_chs s ++ l /\
    (0 <= x_maxdev e -> fits (x_maxch e) (x_maxdev e) (s_chs s) -> fits (x_maxch e) (x_maxdev e) (s_chs s')).
Proof.
  intros e. induction n as [|n IH]; intros s code s' H; [discriminate|]. cbn [logger_loop] in H.
  destruct (logger_line n e s) as [r| |] eqn:LL; try discriminate. cbn [bind] in H.
  destruct (line_grows _ _ _ _ LL) as (l1 & E1 & F1). destruct r as [s1|c1 s1]; cbn [state_of] in *.
  - destruct (IH _ _ _ H) as (l2 & E2 & F2). exists (l1 ++ l2). split; [rewrite E2, E1, app_assoc; reflexivity|auto].
  - injection H as <- <-. exists l1. auto.
Qed.
Lemma fits_app : forall c d a b, fits c d (a ++ b) -> fits c d a.
Proof.
  intros c d a b [F1 F2]. split; [unfold zlen in *; rewrite app_length in F1; lia|]. apply Forall_app in F2. apply F2.
Qed.

Definition limit_code (code : Z) : Prop := code = E_INVALID_CHANNEL_SIZE \/ code = E_OUT_OF_DEVICE_SIZE.
Lemma line_lim : forall e c d c' d' n s, c <= c' -> d <= d' ->
  logger_line n (with_limits e c d) s = logger_line n (with_limits e c' d') s \/
  ((exists code s1, logger_line n (with_limits e c d) s = Ret (Stop code s1) /\ limit_code code) /\
   (forall s2, logger_line n (with_limits e c' d') s = Ret (Next s2) -> ~ fits c d (s_chs s2)) /\
   forall s2, logger_line n (with_limits e c' d') s = Ret (Stop 0 s2) -> ~ fits c d (s_chs s2)).
Proof.
  intros e c d c' d' n s LC LD. unfold logger_line.
  destruct (lex_at n s) as [[[ret s1] l]| |]; try (left; reflexivity). cbn [bind].
  destruct (negb _); [left; reflexivity|]. destruct (_ =? 0); [left; reflexivity|].
  destruct (line_val (buf s1) l) as [[[v w] rest]| |]; try (left; reflexivity). cbn [bind].
  destruct (_ =? RK_HOT_UPDATE); [left; reflexivity|]. destruct (_ || _); [left; reflexivity|].
  destruct (_ =? RK_LOGGER_NAME); [left; reflexivity|]. destruct (_ =? PK_LOGGER_DESC); [left; reflexivity|].
  destruct (_ =? RK_SHM_KEY); [left; reflexivity|]. destruct (_ =? RK_CHANNEL); [|left; reflexivity].
  destruct (atoi w) as [id| |]; try (left; reflexivity). cbn [bind].
  change (x_maxch (with_limits e c d)) with c. change (x_maxch (with_limits e c' d')) with c'.
  assert (BIG : forall s2 ch, s_chs s2 = s_chs s1 -> c <= zlen (s_chs s1) \/ d < zlen (pc_devs ch) ->
    ~ fits c d (s_chs (set_chs s2 (s_chs s2 ++ [ch])))).
  { intros s2 ch E H [F1 F2]. cbn [set_chs s_chs] in *. rewrite E in *. unfold zlen in *. rewrite app_length in F1. cbn [length] in F1.
    destruct H as [H|H]; [lia|]. apply Forall_app in F2. destruct F2 as [_ F2]. inversion F2. lia. }
  destruct (c <=? zlen (s_chs s1)) eqn:A; destruct (c' <=? zlen (s_chs s1)) eqn:B; try lia.
  - left. reflexivity.
  - right. split; [do 2 eexists; split; [reflexivity|left; reflexivity]|].
    destruct (negb _); [split; intros; discriminate|].
    destruct (parse_channel n (with_limits e c' d') s1 (chan0 id) (l_blank l)) as [[[r2 s2] ch]| |] eqn:PC;
      try (split; intros; discriminate). cbn [bind].
    destruct (channel_grows _ _ _ _ _ _ _ _ PC) as (C2 & _ & _). specialize (BIG s2 ch C2 ltac:(lia)).
    destruct (negb (r2 =? 0)) eqn:R2.
    + split; intros s3 H; [discriminate|]. injection H as -> <-. discriminate.
    + split; intros s3 H; injection H as H; pose proof (again_state (set_chs s2 (s_chs s2 ++ [ch]))) as AG;
        rewrite H in AG; cbn [state_of] in AG; subst s3; exact BIG.
  - destruct (negb _); [left; reflexivity|].
    destruct (channel_lim e c d c' d' (l_blank l) LD n s1 (chan0 id)) as [E|((s2 & ch2 & E) & BG)].
    + rewrite E. left. reflexivity.
    + right. rewrite E. cbn [bind]. split; [do 2 eexists; split; [reflexivity|right; reflexivity]|].
      destruct (parse_channel n (with_limits e c' d') s1 (chan0 id) (l_blank l)) as [[[r2 s3] ch]| |] eqn:PC;
        try (split; intros; discriminate). cbn [bind].
      destruct (channel_grows _ _ _ _ _ _ _ _ PC) as (C2 & _ & _).
      destruct (negb (r2 =? 0)) eqn:R2.
      * split; intros s4 H; [discriminate|]. injection H as -> <-. discriminate.
      * assert (r2 = 0) as -> by lia. specialize (BIG s3 ch C2 (or_intror (BG _ _ eq_refl))).
        split; intros s4 H; injection H as H; pose proof (again_state (set_chs s3 (s_chs s3 ++ [ch]))) as AG;
          rewrite H in AG; cbn [state_of] in AG; subst s4; exact BIG.
Qed.
Lemma loop_lim : forall e c d c' d', c <= c' -> d <= d' -> forall n s,
  logger_loop n (with_limits e c d) s = logger_loop n (with_limits e c' d') s \/
  ((exists code s1, logger_loop n (with_limits e c d) s = Ret (code, s1) /\ limit_code code) /\
   forall s2, logger_loop n (with_limits e c' d') s = Ret (0, s2) -> ~ fits c d (s_chs s2)).
Proof.
  intros e c d c' d' LC LD. induction n as [|n IH]; intros s; [left; reflexivity|]. cbn [logger_loop].
  destruct (line_lim e c d c' d' n s LC LD) as [E|((code & s1 & E & LM) & BN & BS)].
  - rewrite E. destruct (logger_line n (with_limits e c' d') s) as [[s1|code s1]| |]; try (left; reflexivity). cbn [bind]. apply IH.
  - right. rewrite E. cbn [bind]. split; [eauto|]. intros s2 H.
    destruct (logger_line n (with_limits e c' d') s) as [[s3|code3 s3]| |]; try discriminate; cbn [bind] in H.
    + destruct (loop_grows _ _ _ _ _ H) as (l & EQ & _). intros F. rewrite EQ in F. exact (BN s3 eq_refl (fits_app _ _ _ _ F)).
    + injection H as -> <-. exact (BS s3 eq_refl).
Qed.

Lemma parse_lim : forall e c d c' d' n shm t, c <= c' -> d <= d' ->
  parse_logger n (with_limits e c d) shm t = parse_logger n (with_limits e c' d') shm t \/
  ((exists code s1, parse_logger n (with_limits e c d) shm t = Ret (code, s1) /\ limit_code code) /\
   forall s2, parse_logger n (with_limits e c' d') shm t = Ret (0, s2) -> ~ fits c d (s_chs s2)).
Proof. intros. unfold parse_logger. apply loop_lim; assumption. Qed.
Lemma parse_fits : forall e c d n shm t code s, 0 <= c -> 0 <= d ->
  parse_logger n (with_limits e c d) shm t = Ret (code, s) -> fits c d (s_chs s).
Proof.
  intros e c d n shm t code s C D H. destruct (loop_grows _ _ _ _ _ H) as (l & _ & F). apply F; [exact D|].
  split; [unfold zlen; cbn; lia|constructor].
Qed.
Lemma accept_iff : forall e c d c' d' n shm t s, 0 <= c <= c' -> 0 <= d <= d' ->
  parse_logger n (with_limits e c' d') shm t = Ret (0, s) ->
  (parse_logger n (with_limits e c d) shm t = Ret (0, s) <-> fits c d (s_chs s)).
Proof.
  intros e c d c' d' n shm t s C D H. split.
  - intros E. apply (parse_fits e c d n shm t 0 s); lia || assumption.
  - intros F. destruct (parse_lim e c d c' d' n shm t) as [E|(_ & B)]; [lia|lia|congruence|]. exfalso. exact (B s H F).
Qed.
