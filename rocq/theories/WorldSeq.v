(* Sequences of log statements. *)
From Coq Require Import String ZArith List Bool Lia ZifyBool ZifyNat ZifyN.
From Verif Require Import Base BaseFacts LoggerState Filter FilterSpec FilterProofs Stream StreamSpec StreamProofs RenderProofs PrefixProofs World WorldSpec WorldProofs.
Import ListNotations.
Open Scope Z_scope.

Lemma filed_app : forall k j a b, filed k j (a ++ b) = filed k j a ++ filed k j b.
Proof.
  intros k j a b. induction a as [|e a IH]; [reflexivity|]. destruct e; cbn [app filed]; rewrite ?IH; try reflexivity. apply app_assoc.
Qed.
Lemma filed_out : forall i evs k j d p t a b, io_file i evs k j = true ->
  filed a b (outputs i evs k j d p t) = if (d_out d =? 2) && (k =? a) && (j =? b) then t else [].
Proof.
  intros i evs k j d p t a b F. unfold outputs. destruct (d_out d =? 2) eqn:E.
  - assert (d_out d = 2) as -> by lia. rewrite F. cbn [filed andb]. destruct ((k =? a) && (j =? b)); apply app_nil_r.
  - cbn [andb]. destruct (d_out d) as [|q|q]; try reflexivity. destruct q as [q|q|]; [destruct q; try reflexivity|destruct q; try reflexivity; lia|reflexivity].
    destruct (io_sock i evs k j && (0 <? io_sent i evs k j)); reflexivity.
Qed.

(* what one delivery adds to the files *)
Lemma delivered_filed : forall i k p c n t j ds evs evs' f, (forall e a b, io_file i e a b = true) -> delivered i k p c n t j ds evs evs' f -> 0 <= j ->
  forall a b, (a = k /\ (exists d, j <= b /\ nth_error ds (Z.to_nat (b - j)) = Some d /\ device_on d /\ device_accepts d p c n /\ d_out d = 2) /\ filed a b evs' = filed a b evs ++ t) \/
              (~ (a = k /\ exists d, j <= b /\ nth_error ds (Z.to_nat (b - j)) = Some d /\ device_on d /\ device_accepts d p c n /\ d_out d = 2) /\ filed a b evs' = filed a b evs).
Proof.
  intros i k p c n t j ds evs evs' f IO H. induction H as [j evs|j d ds evs evs' f N H IH|j d ds evs evs' f O1 O2 H IH]; intros J a b.
  - right. split; [|reflexivity]. intros (_ & d & _ & D & _). destruct (Z.to_nat (b - j)); discriminate.
  - destruct (IH ltac:(lia) a b) as [(A1 & (e & A2 & A3 & A4) & A5)|(A1 & A2)].
    + left. split; [exact A1|]. split; [|exact A5]. exists e. split; [lia|]. split; [|exact A4]. replace (Z.to_nat (b - j)) with (S (Z.to_nat (b - (j + 1)))) by lia. exact A3.
    + right. split; [|exact A2]. intros (B1 & e & B2 & B3 & B4 & B5 & B6). destruct (Z.eq_dec b j) as [-> |NE].
      * rewrite Z.sub_diag in B3. cbn in B3. injection B3 as <-. tauto.
      * apply A1. split; [exact B1|]. exists e. split; [lia|]. split; [|tauto]. replace (Z.to_nat (b - j)) with (S (Z.to_nat (b - (j + 1)))) in B3 by lia. exact B3.
  - destruct (IH ltac:(lia) a b) as [(A1 & (e & A2 & A3 & A4) & A5)|(A1 & A2)].
    + left. split; [exact A1|]. rewrite filed_app, (filed_out i evs k j d p t a b (IO _ _ _)) in A5.
      assert (j =? b = false) as JB by lia. rewrite JB, andb_false_r, app_nil_r in A5. split; [|exact A5].
      exists e. split; [lia|]. split; [|exact A4]. replace (Z.to_nat (b - j)) with (S (Z.to_nat (b - (j + 1)))) by lia. exact A3.
    + rewrite filed_app, (filed_out i evs k j d p t a b (IO _ _ _)) in A2. destruct ((d_out d =? 2) && (k =? a) && (j =? b)) eqn:E.
      * left. assert (a = k /\ b = j /\ d_out d = 2) as (-> & -> & D2) by lia. split; [reflexivity|]. split; [|exact A2]. exists d. split; [lia|]. rewrite Z.sub_diag. split; [reflexivity|]. tauto.
      * right. rewrite app_nil_r in A2. split; [|exact A2]. intros (B1 & e & B2 & B3 & B4 & B5 & B6). destruct (Z.eq_dec b j) as [-> |NE].
        -- rewrite Z.sub_diag in B3. cbn in B3. injection B3 as <-. lia.
        -- apply A1. split; [exact B1|]. exists e. split; [lia|]. split; [|tauto]. replace (Z.to_nat (b - j)) with (S (Z.to_nat (b - (j + 1)))) in B3 by lia. exact B3.
Qed.

(* the same channels up to counters *)
Definition alike (w w' : world) : Prop :=
  g_shm (w_lg w') = g_shm (w_lg w) /\ g_state (w_lg w') = g_state (w_lg w) /\ g_size (w_lg w') = g_size (w_lg w) /\
  (forall k ch, nth_error (g_chs (w_lg w)) k = Some ch -> exists ch', nth_error (g_chs (w_lg w')) k = Some ch' /\ same_setup ch ch') /\
  (forall k ch', nth_error (g_chs (w_lg w')) k = Some ch' -> exists ch, nth_error (g_chs (w_lg w)) k = Some ch /\ same_setup ch ch').
Lemma same_setup_sym : forall a b, same_setup a b -> same_setup b a.
Proof. intros a b (A1 & A2 & A3 & A4 & A5 & A6). unfold same_setup. repeat split; congruence. Qed.
Lemma alike_sym : forall a b, alike a b -> alike b a.
Proof.
  intros a b (A1 & A2 & A3 & A4 & A5). unfold alike. repeat (split; [congruence|]). split.
  - intros k ch H. destruct (A5 k ch H) as (x & X & S). exists x. split; [exact X|apply same_setup_sym, S].
  - intros k ch H. destruct (A4 k ch H) as (x & X & S). exists x. split; [exact X|apply same_setup_sym, S].
Qed.
Lemma alike_refl : forall w, alike w w.
Proof. intros w. unfold alike. repeat (split; [reflexivity|]). split; intros k ch H; exists ch; (split; [exact H|apply same_setup_refl]). Qed.
Lemma alike_trans : forall a b c, alike a b -> alike b c -> alike a c.
Proof.
  intros a b c (A1 & A2 & A3 & A4 & A5) (B1 & B2 & B3 & B4 & B5). unfold alike. repeat (split; [congruence|]). split; intros k ch H.
  - destruct (A4 k ch H) as (x & X & S). destruct (B4 k x X) as (y & Y & T). exists y. split; [exact Y|eapply same_setup_trans; eassumption].
  - destruct (B5 k ch H) as (x & X & S). destruct (A5 k x X) as (y & Y & T). exists y. split; [exact Y|eapply same_setup_trans; eassumption].
Qed.
Lemma admitted_alike : forall a b k p c n, alike a b -> admitted (w_lg a) k p c n -> admitted (w_lg b) k p c n.
Proof.
  intros a b k p c n (A1 & A2 & A3 & A4 & A5) (B1 & B2 & B3 & ch & B4 & B5 & B6 & B7). unfold admitted. rewrite A1, A2, A3. repeat (split; [assumption|]).
  destruct (A4 _ _ B4) as (ch' & C & S1 & S2 & S3 & S4 & S5 & S6). exists ch'. split; [exact C|]. split; [congruence|]. unfold channel_accepts, has_device in *. rewrite S3, S5, S6. tauto.
Qed.
Lemma sense_alike : forall a b k c n, alike a b -> in_sense a k c n -> in_sense b k c n.
Proof.
  intros a b k c n (A1 & A2 & A3 & A4 & A5) M ch H. destruct (A5 _ _ H) as (x & X & S1 & S2 & S3 & S4 & S5 & S6). specialize (M x X). unfold meant, channel_scope, devices_scope, has_device in *. rewrite S3, S5, S6. exact M.
Qed.
Lemma chan_alike : forall a b k ch, alike a b -> chan_at b k ch -> exists ch0, chan_at a k ch0 /\ same_setup ch0 ch.
Proof.
  intros a b k ch (A1 & A2 & A3 & A4 & A5) (K & C). destruct (A5 _ _ C) as (x & X & S). exists x. split; [|exact S]. split; [lia|exact X].
Qed.
Lemma goes_to_alike : forall a b k j s, alike a b -> goes_to a k j s -> goes_to b k j s.
Proof.
  intros a b k j s AL (G1 & G2 & ch & d & G3 & G4 & G5 & G6 & G7). split; [exact G1|]. split; [eapply admitted_alike; eassumption|].
  destruct (chan_alike b a k ch (alike_sym _ _ AL) G3) as (ch' & C & S1 & S2 & S3 & S4 & S5 & S6). exists ch', d. split; [exact C|]. unfold has_device in *. rewrite S3, S6 in G4. tauto.
Qed.

Lemma written_alike : forall W i k p c n t w w', written_through W i k p c n t w w' -> alike w w'.
Proof.
  intros W i k p c n t w w' ((O1 & O2 & O3 & O4 & O5) & SH & ch & ch' & r & r' & f & CA & CA' & SS & _). unfold alike. repeat (split; [assumption|]).
  assert (K: 0 <= k) by (destruct CA as ((? & _) & _); lia). split; intros a x H; (destruct (Z.eq_dec (Z.of_nat a) k) as [E|E]; [|exists x; split; [|apply same_setup_refl]]).
  - destruct CA as (_ & C), CA' as (_ & C'). rewrite <- E, Nat2Z.id in C, C'. exists ch'. split; [exact C'|]. congruence.
  - destruct (O4 (Z.of_nat a) E ltac:(lia)) as (X & _). rewrite Nat2Z.id in X. congruence.
  - destruct CA as (_ & C), CA' as (_ & C'). rewrite <- E, Nat2Z.id in C, C'. exists ch. split; [exact C|]. congruence.
  - destruct (O4 (Z.of_nat a) E ltac:(lia)) as (X & _). rewrite Nat2Z.id in X. congruence.
Qed.
Lemma written_calm : forall W i k p c n t w w', written_through W i k p c n t w w' -> calm W w -> calm W w'.
Proof.
  intros W i k p c n t w w' WT CM a x y CX RY. pose proof (written_alike _ _ _ _ _ _ _ _ _ WT) as AL.
  destruct WT as ((O1 & O2 & O3 & O4 & O5) & SH & ch & ch' & r & r' & f & CA & CA' & SS & _ & _ & _ & RA & RA' & EM & _).
  destruct (Z.eq_dec a k) as [-> |NE].
  - rewrite (chan_at_fun _ _ _ _ CX CA') in *. destruct (CM k ch r CA RA) as (A1 & A2 & A3 & A4). destruct SS as (S1 & S2 & _). rewrite S1, S2. split; [exact A1|].
    split; [destruct RA' as (_ & R'), RY as (_ & R''); congruence|]. split; [|exact A4]. intros d. rewrite O5. apply A3.
  - pose proof CX as (KX & C). pose proof RY as (_ & R). destruct (O4 a NE ltac:(lia)) as (E1 & E2). rewrite E1 in C. rewrite E2 in R. rewrite O3 in KX.
    destruct (CM a x y (conj KX C) (conj KX R)) as (A1 & A2 & A3 & A4). repeat (split; [assumption|]). split; [|exact A4]. intros d. rewrite O5. apply A3.
Qed.

Lemma text_exists : forall W o i s, 2 <= e_cap (W_env W) -> well_formed W o i s -> exists T, statement_text W o i s T.
Proof.
  intros W o i s C WF. destruct (well_formed_fills W o i s C WF (mkLd 0 0 0 0 0 0 0 None None 0 0 0 0 0 (repeat 0 (Z.to_nat (e_cap (W_env W)))))) as (T & log & Q & _).
  { unfold log_ok. cbn [ld_buf]. unfold zlen. rewrite repeat_length. lia. }
  eauto.
Qed.

Lemma seq_filed : forall W o l w, shape W w -> calm W w ->
  Forall (fun a => in_sense w (t_chan (fst a)) (t_cat (fst a)) (t_ident (fst a)) /\ well_formed W o (snd a) (fst a) /\ -3 <= t_prio (fst a) <= 10 /\
                   forall e x y, io_file (snd a) e x y = true) l ->
  exists w' Ts, acts W w (map (fun a => ALog (fst a) (snd a)) l) = Ret w' /\ shape W w' /\ calm W w' /\ alike w w' /\
    Forall2 (fun a T => statement_text W o (snd a) (fst a) T) l Ts /\
    forall k j, exists us, picked (fun a => goes_to w k j (fst a)) l (map (line W) Ts) us /\ filed k j (w_ev w') = filed k j (w_ev w) ++ concat us.
Proof.
  intros W o l. induction l as [|(s & i) l IH]; intros w SH CM FA.
  { exists w, []. cbn [map acts]. split; [reflexivity|]. split; [exact SH|]. split; [exact CM|]. split; [apply alike_refl|]. split; [constructor|]. intros k j. exists []. split; [constructor|]. cbn [concat]. rewrite app_nil_r. reflexivity. }
  inversion FA as [|? ? (M & WF & P & IO) FA']; subst. cbn [fst snd] in *. pose proof SH as (CAP & S2 & S3 & S4 & S5 & S6).
  assert (DEC: admitted (w_lg w) (t_chan s) (t_prio s) (t_cat s) (t_ident s) \/ ~ admitted (w_lg w) (t_chan s) (t_prio s) (t_cat s) (t_ident s)).
  { destruct (block_input_correct (w_lg w) (t_chan s) (t_prio s) (t_cat s) (t_ident s)) as (b & _ & B); [|exact S3|].
    { intros ch H. rewrite Forall_forall in S5. destruct (M ch H). split; [|tauto]. specialize (S5 ch (nth_error_In _ _ H)). unfold chan_ok in S5. unfold sound_channel. tauto. }
    destruct b; [right; intros A; apply B in A; discriminate|left; apply B; reflexivity]. }
  cbn [map acts act fst snd]. destruct DEC as [AD|NA].
  - destruct (admitted_chan _ _ _ _ _ AD) as (ch & CA & _). assert (exists r, ring_at w (t_chan s) r) as (r & RA).
    { destruct CA as (K & C). destruct (nth_error (w_rings w) (Z.to_nat (t_chan s))) as [r|] eqn:E; [exists r; split; assumption|]. apply nth_error_None in E. unfold zlen in S4, S3. lia. }
    destruct (CM _ ch r CA RA) as (TY & EM & ND & U).
    destruct (log_sync W o i w s ch r SH M CA RA EM U AD WF P TY ND) as (w1 & T & -> & TX & WT). cbn [bind].
    pose proof (written_alike _ _ _ _ _ _ _ _ _ WT) as AL. pose proof (written_calm _ _ _ _ _ _ _ _ _ WT CM) as CM1. pose proof WT as (_ & SH1 & ch0 & ch1 & r0 & r1 & f & CA0 & _ & _ & DL & _).
    rewrite (chan_at_fun _ _ _ _ CA0 CA) in DL.
    destruct (IH w1 SH1 CM1) as (w2 & Ts & RUN & SH2 & CM2 & AL2 & F2 & FI).
    { eapply Forall_impl; [|exact FA']. intros (s' & i') (X1 & X2). split; [eapply sense_alike; eassumption|exact X2]. }
    exists w2, (T :: Ts). split; [exact RUN|]. split; [exact SH2|]. split; [exact CM2|]. split; [eapply alike_trans; eassumption|]. split; [constructor; assumption|].
    intros k j. destruct (FI k j) as (us & PK & EQ). cbn [map].
    assert (PK': picked (fun a : stmt * io => goes_to w k j (fst a)) l (map (line W) Ts) us).
    { clear -PK AL. induction PK; constructor; try assumption; [eapply goes_to_alike; [apply alike_sym; exact AL|assumption]|]. intros G. apply H. eapply goes_to_alike; eassumption. }
    destruct (delivered_filed i _ _ _ _ _ 0 _ _ _ _ IO DL ltac:(lia) k j) as [(A1 & (d & A2 & A3 & A4 & A5 & A6) & A7)|(A1 & A2)].
    + exists (line W T :: us). split; [apply pk_yes; [|exact PK']|rewrite EQ, A7; cbn [concat]; rewrite app_assoc; reflexivity].
      cbn [fst]. split; [congruence|]. rewrite A1. split; [exact AD|]. exists ch, d. split; [exact CA|]. split; [|tauto]. rewrite Z.sub_0_r in A3.
      destruct (shape_at _ _ _ _ _ SH CA RA) as (CO & _). unfold chan_ok in CO. assert (Z.to_nat j < length (firstn (Z.to_nat (c_size ch)) (c_devs ch)))%nat as LT by (apply nth_error_Some; congruence).
      rewrite firstn_length in LT. split; [lia|]. clear -A3. revert A3. generalize (Z.to_nat (c_size ch)) (c_devs ch) (Z.to_nat j). intros n l. revert n. induction l as [|x l IHl]; intros [|n] [|m] H; cbn in *; try discriminate; [exact H|]. eapply IHl, H.
    + exists us. split; [apply pk_no; [|exact PK']|rewrite EQ, A2; reflexivity]. cbn [fst]. intros (G1 & G2 & ch2 & d & G3 & G4 & G5 & G6 & G7). apply A1. split; [congruence|]. exists d.
      subst k. rewrite (chan_at_fun _ _ _ _ G3 CA) in G4. destruct G4 as (G4 & G8). split; [lia|]. rewrite Z.sub_0_r. split; [|tauto].
      assert (Z.to_nat j < Z.to_nat (c_size ch))%nat as LT by lia. clear -G8 LT. revert G8 LT. generalize (Z.to_nat (c_size ch)) (c_devs ch) (Z.to_nat j). intros n l. revert n. induction l as [|x l IHl]; intros [|n] [|m] H LT; cbn in *; try discriminate; try lia; [exact H|]. apply IHl; [exact H|lia].
  - rewrite (log_blocked W i w s SH M NA). cbn [bind]. destruct (text_exists W o i s CAP WF) as (T & TX).
    destruct (IH w SH CM FA') as (w2 & Ts & RUN & SH2 & CM2 & AL2 & F2 & FI). exists w2, (T :: Ts). split; [exact RUN|]. split; [exact SH2|]. split; [exact CM2|]. split; [exact AL2|]. split; [constructor; assumption|].
    intros k j. destruct (FI k j) as (us & PK & EQ). exists us. split; [|exact EQ]. cbn [map]. apply pk_no; [|exact PK]. cbn [fst]. intros (G1 & G2 & _). subst k. contradiction.
Qed.

(* ---- counters ---- *)
Lemma delivered_before : forall i k p c n t j ds evs evs' f, delivered i k p c n t j ds evs evs' f -> forall a x, a < j -> f a x = 0.
Proof.
  intros i k p c n t j ds evs evs' f H. induction H as [j evs|j d ds evs evs' f N H IH|j d ds evs evs' f O1 O2 H IH]; intros a x A; [reflexivity|apply IH; lia|].
  rewrite IH by lia. destruct (a =? j) eqn:E; lia.
Qed.
(* each device counts the line at most once, and only in its own counters *)
Lemma delivered_counts : forall i k p c n t j ds evs evs' f, delivered i k p c n t j ds evs evs' f -> 0 <= p <= 6 -> forall a,
  (f a 15 = 0 \/ f a 15 = 1) /\ f a 16 = f a 15 * zlen t /\ f a (7 + p) = f a 15 * zlen t /\ (f a 0 = 0 \/ f a 0 = zlen t) /\ (f a 17 = 0 \/ f a 17 = 1) /\
  forall x, x <> 0 -> x <> 15 -> x <> 16 -> x <> 17 -> x <> 7 + p -> f a x = 0.
Proof.
  intros i k p c n t j ds evs evs' f H P. induction H as [j evs|j d ds evs evs' f N H IH|j d ds evs evs' f O1 O2 H IH]; intros a.
  - repeat split; try lia.
  - exact (IH a).
  - destruct (a =? j) eqn:E.
    + pose proof (delivered_before _ _ _ _ _ _ _ _ _ _ _ H a) as Z0. assert (AJ: a < j + 1) by lia. rewrite !(Z0 _ AJ), !Z.add_0_l.
      assert (D: let g := device_delta i evs k j d p (zlen t) in (g 15 = 0 \/ g 15 = 1) /\ g 16 = g 15 * zlen t /\ g (7 + p) = g 15 * zlen t /\ (g 0 = 0 \/ g 0 = zlen t) /\ (g 17 = 0 \/ g 17 = 1) /\
        forall x, x <> 0 -> x <> 15 -> x <> 16 -> x <> 17 -> x <> 7 + p -> g x = 0).
      { cbv zeta. assert (WR: let g := written p (zlen t) in g 15 = 1 /\ g 16 = zlen t /\ g (7 + p) = zlen t /\ g 0 = 0 /\ g 17 = 0 /\ forall x, x <> 15 -> x <> 16 -> x <> 7 + p -> g x = 0).
        { cbv zeta. unfold written, hit. repeat split; intros; repeat match goal with |- context [?a =? ?b] => destruct (a =? b) eqn:? end; lia. }
        cbv zeta in WR. destruct WR as (W1 & W2 & W3 & W4 & W5 & W6).
        assert (HT: forall x y v, hit x y v = if x =? y then v else 0) by reflexivity.
        unfold device_delta. destruct (d_out d) as [|q|q]; try (repeat split; intros; lia).
        destruct q as [q|q|]; [destruct q as [q|q|]|destruct q as [q|q|]|]; try destruct q; try (repeat split; intros; lia).
        all: try destruct (io_file i evs k j); try destruct (io_sock i evs k j); try destruct (0 <? io_sent i evs k j); rewrite ?W1, ?W2, ?W3, ?W4, ?W5, ?HT; repeat split; intros; rewrite ?W6 by assumption; rewrite ?HT;
          repeat match goal with |- context [?a =? ?b] => destruct (a =? b) eqn:? end; lia. }
      cbv zeta in D. destruct D as (D1 & D2 & D3 & D4 & D5 & D6). repeat (split; [assumption|]). intros x X1 X2 X3 X4 X5. rewrite (Z0 _ AJ). rewrite D6 by assumption. reflexivity.
    + destruct (IH a) as (D1 & D2 & D3 & D4 & D5 & D6). rewrite !Z.add_0_r. repeat (split; [assumption|]). intros x X1 X2 X3 X4 X5. rewrite D6 by assumption. reflexivity.
Qed.

(* ---- datagrams that reach a file ---- *)
Lemma forward_filed : forall W i k j d a b, (forall e x y, io_file i e x y = true) -> forall ms evs,
  filed a b (forward W i k j d ms evs) = filed a b evs ++ (if (d_out d =? 2) && (k =? a) && (j =? b) then concat (map (kept W) ms) else []).
Proof.
  intros W i k j d a b IO ms. induction ms as [|m ms IH]; intros evs; cbn [forward map concat]; [destruct (_ && _); symmetry; apply app_nil_r|].
  rewrite IH, filed_app, (filed_out i evs k j d 2 (kept W m) a b (IO _ _ _)). destruct ((d_out d =? 2) && (k =? a) && (j =? b)); rewrite <- app_assoc; reflexivity.
Qed.
Lemma receive_before : forall W i k b, (forall e x y, io_file i e x y = true) -> forall ds j ins evs, b < j ->
  filed k b (snd (receive W i k j ds ins evs)) = filed k b evs /\ fst (receive W i k j ds ins evs) b = ins b.
Proof.
  intros W i k b IO ds. induction ds as [|d ds IH]; intros j ins evs J; cbn [receive]; [split; reflexivity|].
  destruct (receives i evs k j d); [|apply IH; lia].
  edestruct (IH (j + 1)) as (A1 & A2); [|rewrite A1, A2]; [lia|]. rewrite forward_filed by exact IO. destruct (b =? j) eqn:E1; [lia|]. destruct (j =? b) eqn:E2; [lia|]. rewrite andb_false_r, app_nil_r. split; reflexivity.
Qed.
Lemma receive_filed : forall W i k b d, (forall e x y, io_file i e x y = true) -> (forall e x y, io_sock i e x y = true) ->
  d_in d = 1 -> d_out d = 2 -> nth 0 (d_cfg d) 0 <> 0 -> forall ds j ins evs, j <= b -> nth_error ds (Z.to_nat (b - j)) = Some d ->
  filed k b (snd (receive W i k j ds ins evs)) = filed k b evs ++ concat (map (kept W) (fst (round 1000 (ins b)))) /\
  fst (receive W i k j ds ins evs) b = snd (round 1000 (ins b)).
Proof.
  intros W i k b d IO SO DI DO AB ds. induction ds as [|d0 ds IH]; intros j ins evs J N; cbn [receive]; [destruct (Z.to_nat (b - j)); discriminate|].
  destruct (Z.eq_dec b j) as [-> |NE].
  - rewrite Z.sub_diag in N. injection N as ->. unfold receives. rewrite DI, SO. destruct (nth 0 (d_cfg d) 0 =? 0) eqn:E; [lia|]. cbn [Z.eqb Pos.eqb negb andb].
    edestruct (receive_before W i k j IO ds (j + 1)) as (A1 & A2); [|rewrite A1, A2]; [lia|]. rewrite forward_filed by exact IO. rewrite DO, !Z.eqb_refl. cbn [andb]. split; reflexivity.
  - replace (Z.to_nat (b - j)) with (S (Z.to_nat (b - (j + 1)))) in N by lia. cbn [nth_error] in N. destruct (receives i evs k j d0).
    + edestruct (IH (j + 1)) as (A1 & A2); [| |rewrite A1, A2]; [lia|exact N|]. rewrite forward_filed by exact IO. destruct (b =? j) eqn:E1; [lia|]. destruct (j =? b) eqn:E2; [lia|]. rewrite andb_false_r, app_nil_r. split; reflexivity.
    + apply IH; [lia|exact N].
Qed.
Lemma round_all : forall n ms, (length ms <= n)%nat -> Forall (fun m => m <> []) ms -> round n ms = (ms, []).
Proof.
  intros n. induction n as [|n IH]; intros ms L F; [destruct ms; [reflexivity|cbn in L; lia]|]. destruct ms as [|m ms]; [reflexivity|]. inversion F; subst. cbn [round].
  destruct m; [congruence|]. rewrite IH; [reflexivity|cbn in L; lia|assumption].
Qed.
Lemma kept_short : forall W ms, Forall (fun m => zlen m < e_cap (W_env W)) ms -> map (kept W) ms = ms.
Proof. intros W ms F. induction F as [|m ms M F IH]; [reflexivity|]. cbn [map]. rewrite IH. unfold kept. destruct (zlen m <? e_cap (W_env W)) eqn:E; [reflexivity|lia]. Qed.
Lemma nth_error_firstn_lt : forall A (l : list A) n m, (m < n)%nat -> nth_error (firstn n l) m = nth_error l m.
Proof. intros A l. induction l as [|x l IH]; intros n m L; [rewrite firstn_nil; reflexivity|]. destruct n; [lia|]. destruct m; [reflexivity|]. cbn [firstn nth_error]. apply IH. lia. Qed.
