(* Statements and rounds of the writer threads in any order: proofs. *)
From Coq Require Import String ZArith List Bool Lia ZifyBool ZifyNat ZifyN.
From Verif Require Import Base BaseFacts LoggerState Filter FilterSpec FilterProofs Stream StreamSpec StreamProofs RenderProofs PrefixProofs
  World WorldSpec WorldProofs WorldSeq MixSpec.
Import ListNotations.
Open Scope Z_scope.

(* ---- whether a device takes a line is decided ---- *)
Lemma window_dec : forall b n x, in_window b n x \/ ~ in_window b n x.
Proof. intros. unfold in_window. lia. Qed.
Lemma mask_dec : forall m x, in_mask m x \/ ~ in_mask m x.
Proof. intros. unfold in_mask. destruct (Z.testbit m x) eqn:E; [lia|]. destruct (Z.eq_dec (m mod 2 ^ 64) 0); [tauto|]. right. intros [X|(_ & X)]; congruence. Qed.
Lemma accepts_dec : forall d p c n, device_accepts d p c n \/ ~ device_accepts d p c n.
Proof.
  intros d p c n. unfold device_accepts, accepts. cbv zeta.
  destruct (window_dec (nth 2 (d_cfg d) 0) (nth 3 (d_cfg d) 0) c); [|tauto]. destruct (window_dec (nth 5 (d_cfg d) 0) (nth 6 (d_cfg d) 0) n); [|tauto].
  destruct (mask_dec (nth 4 (d_cfg d) 0) c); [|tauto]. destruct (mask_dec (nth 7 (d_cfg d) 0) n); [|tauto].
  destruct (Z_le_dec (nth 1 (d_cfg d) 0) p); [left; tauto|right; tauto].
Qed.
Lemma takes_dec : forall w k j l, takes w k j l \/ ~ takes w k j l.
Proof.
  intros w k j l. unfold takes. destruct (Z_le_dec 0 k); [|right; intros (ch & d & ((K & _) & _) & _); lia]. destruct (Z_lt_dec k (g_size (w_lg w))); [|right; intros (ch & d & ((_ & K) & _) & _); lia].
  destruct (nth_error (g_chs (w_lg w)) (Z.to_nat k)) as [ch|] eqn:C; [|right; intros (ch & d & (_ & X) & _); congruence].
  destruct (Z_le_dec 0 j); [|right; intros (x & d & (_ & X) & (((J & _) & _) & _)); lia]. destruct (Z_lt_dec j (c_size ch)); [|right; intros (x & d & (_ & X) & ((J & _) & _)); assert (x = ch) by congruence; subst; lia].
  destruct (nth_error (c_devs ch) (Z.to_nat j)) as [d|] eqn:D; [|right; intros (x & d & (_ & X) & (_ & Y) & _); assert (x = ch) by congruence; subst; congruence].
  assert (U : forall x y, chan_at w k x -> has_device x j y -> y = d) by (intros x y (_ & X) (_ & Y); assert (x = ch) by congruence; subst; congruence).
  destruct (accepts_dec d (i_prio l) (i_cat l) (i_ident l)) as [A|A]; [|right; intros (x & y & X & Y & _ & Z0 & _); rewrite (U x y X Y) in Z0; contradiction].
  destruct (Z.eq_dec (nth 0 (d_cfg d) 0) 0); [right; intros (x & y & X & Y & (Z0 & _) & _); rewrite (U x y X Y) in Z0; contradiction|].
  destruct (Z.eq_dec (d_in d) 0); [|right; intros (x & y & X & Y & (_ & Z0) & _); rewrite (U x y X Y) in Z0; contradiction].
  destruct (Z.eq_dec (d_out d) 2); [|right; intros (x & y & X & Y & _ & _ & Z0); rewrite (U x y X Y) in Z0; contradiction].
  left. exists ch, d. split; [split; [lia|exact C]|]. split; [split; [lia|exact D]|]. split; [split; assumption|]. split; assumption.
Qed.

(* ---- the same settings ---- *)
Lemma only_alike : forall k w w' ch ch', only_at k w w' -> chan_at w k ch -> chan_at w' k ch' -> same_setup ch ch' -> alike w w'.
Proof.
  intros k w w' ch ch' (O1 & O2 & O3 & O4 & O5) CA CA' SS. unfold alike. repeat (split; [assumption|]).
  assert (K: 0 <= k) by (destruct CA as ((? & _) & _); lia). split; intros a x H; (destruct (Z.eq_dec (Z.of_nat a) k) as [E|E]; [|exists x; split; [|apply same_setup_refl]]).
  - destruct CA as (_ & C), CA' as (_ & C'). rewrite <- E, Nat2Z.id in C, C'. exists ch'. split; [exact C'|]. congruence.
  - destruct (O4 (Z.of_nat a) E ltac:(lia)) as (X & _). rewrite Nat2Z.id in X. congruence.
  - destruct CA as (_ & C), CA' as (_ & C'). rewrite <- E, Nat2Z.id in C, C'. exists ch. split; [exact C|]. congruence.
  - destruct (O4 (Z.of_nat a) E ltac:(lia)) as (X & _). rewrite Nat2Z.id in X. congruence.
Qed.
Lemma takes_alike : forall a b k j l, alike a b -> takes a k j l -> takes b k j l.
Proof.
  intros a b k j l AL (ch & d & G3 & G4 & G5 & G6 & G7).
  destruct (chan_alike b a k ch (alike_sym _ _ AL) G3) as (ch' & C & S1 & S2 & S3 & S4 & S5 & S6). exists ch', d. split; [exact C|]. unfold has_device in *. rewrite S3, S6 in G4. tauto.
Qed.
Lemma picked_iff : forall A (P Q : A -> Prop) l ts us, (forall x, P x <-> Q x) -> picked P l ts us -> picked Q l ts us.
Proof. intros A P Q l ts us E H. induction H; constructor; try assumption; [apply E; assumption|]. intros X. apply E in X. contradiction. Qed.
Lemma pending_alike : forall a b k j q us, alike a b -> pending a k j q us -> pending b k j q us.
Proof. intros a b k j q us AL. apply picked_iff. intros x. split; apply takes_alike; [exact AL|apply alike_sym, AL]. Qed.
Lemma picked_app : forall A (P : A -> Prop) l ts us, picked P l ts us -> forall l' ts' us', picked P l' ts' us' -> picked P (l ++ l') (ts ++ ts') (us ++ us').
Proof. intros A P l ts us H. induction H; intros l' ts' us' H'; cbn [app]; [exact H'|apply pk_yes; auto|apply pk_no; auto]. Qed.

Lemma only_relaxed : forall W k w w' qs ch ch' r' q, relaxed W w qs -> only_at k w w' -> chan_at w k ch -> (exists r, ring_at w k r) -> chan_at w' k ch' -> same_setup ch ch' -> ring_at w' k r' ->
  settled_ring r' -> waiting W r' q -> (c_type ch = 1 -> q = []) -> Forall (fun l => -7 <= i_prio l <= 10 /\ devices_scope ch (i_cat l) (i_ident l)) q ->
  relaxed W w' (fun a => if a =? k then q else qs a).
Proof.
  intros W k w w' qs ch ch' r' q RX (O1 & O2 & O3 & O4 & O5) CA (r & RA) CA' SS RA' ST WT TY FA a x y CX RY. destruct (Z.eq_dec a k) as [-> |NE].
  - rewrite Z.eqb_refl. rewrite (chan_at_fun _ _ _ _ CX CA'). assert (y = r') as -> by (destruct RA' as (_ & R'), RY as (_ & R''); congruence).
    destruct (RX k ch r CA RA) as (_ & _ & _ & ND & U & _). destruct SS as (S1 & S2 & S3 & S4 & S5 & S6). rewrite S1, S2. split; [exact ST|]. split; [exact WT|]. split; [exact TY|].
    split; [intros d; rewrite O5; apply ND|]. split; [exact U|]. eapply Forall_impl; [|exact FA]. intros l (L1 & L2). split; [exact L1|].
    unfold devices_scope, has_device in *. rewrite S3, S6. exact L2.
  - destruct (a =? k) eqn:E; [lia|]. pose proof CX as (KX & C). pose proof RY as (_ & R). destruct (O4 a NE ltac:(lia)) as (E1 & E2). rewrite E1 in C. rewrite E2 in R. rewrite O3 in KX.
    destruct (RX a x y (conj KX C) (conj KX R)) as (A1 & A2 & A3 & A4 & A5). repeat (split; [assumption|]). split; [|exact A5]. intros d. rewrite O5. apply A4.
Qed.
Lemma ring_exists : forall W w k ch, shape W w -> chan_at w k ch -> exists r, ring_at w k r.
Proof.
  intros W w k ch (_ & _ & S3 & S4 & _) (K & C). destruct (nth_error (w_rings w) (Z.to_nat k)) as [r|] eqn:E; [exists r; split; assumption|]. apply nth_error_None in E. unfold zlen in S4, S3. lia.
Qed.

(* ---- a full queue makes the statement wait ---- *)
Lemma log_full : forall W i w s ch r q, shape W w -> in_sense w (t_chan s) (t_cat s) (t_ident s) -> chan_at w (t_chan s) ch -> ring_at w (t_chan s) r ->
  admitted (w_lg w) (t_chan s) (t_prio s) (t_cat s) (t_ident s) -> settled_ring r -> waiting W r q -> zlen q + 1 = W_ring W -> log_stmt W i w s = Fuel.
Proof.
  intros W i w s ch r q SH M CA RA AD ST WT L. pose proof SH as (CAP & S2 & S3 & S4 & S5 & S6).
  destruct (block_input_correct (w_lg w) (t_chan s) (t_prio s) (t_cat s) (t_ident s)) as (b & BI & B); [|exact S3|].
  { intros x H. rewrite Forall_forall in S5. destruct (M x H). split; [|tauto]. specialize (S5 x (nth_error_In _ _ H)). unfold chan_ok in S5. unfold sound_channel. tauto. }
  apply B in AD. subst b. unfold log_stmt, hold. rewrite BI. cbn [bind]. destruct CA as (K & C), RA as (_ & R).
  rewrite (rd_of _ _ _ _ (proj1 K) C). cbn [bind]. rewrite (rd_of _ _ _ _ (proj1 K) R). cbn [bind].
  destruct WT as (_ & _ & WR & _). unfold settled_ring in ST. rewrite ST, WR, (nxt_mod W (rg_read r) (zlen q) S2), L.
  assert (RO : ring_ok W r) by (rewrite Forall_forall in S6; apply S6, (nth_error_In _ _ R)).
  assert (0 <= rg_read r < W_ring W) as RB by (unfold ring_ok in RO; tauto).
  replace ((rg_read r + W_ring W) mod W_ring W) with (rg_read r). { rewrite Z.eqb_refl. reflexivity. }
  replace (rg_read r + W_ring W) with (rg_read r + 1 * W_ring W) by lia. rewrite Z.mod_add by lia. rewrite Z.mod_small; lia.
Qed.

(* ---- lines of a whole queue in the files ---- *)
Lemma delivered_all_filed : forall i k ds q evs evs' f, (forall e a b, io_file i e a b = true) -> delivered_all i k ds q evs evs' f ->
  forall a b, a <> k -> filed a b evs' = filed a b evs.
Proof.
  intros i k ds q evs evs' f IO H. induction H as [evs|l ls e0 e1 e2 f g DL H IH]; intros a b N; [reflexivity|]. rewrite (IH a b N).
  destruct (delivered_filed i k _ _ _ _ 0 _ _ _ _ IO DL ltac:(lia) a b) as [(A1 & _)|(_ & A2)]; [contradiction|exact A2].
Qed.
Lemma firstn_has : forall ch j d, chan_ok ch -> 0 <= j -> (nth_error (firstn (Z.to_nat (c_size ch)) (c_devs ch)) (Z.to_nat j) = Some d <-> has_device ch j d).
Proof.
  intros ch j d CO J. unfold has_device. assert (LE : (Z.to_nat (c_size ch) <= length (c_devs ch))%nat) by (unfold chan_ok, zlen in CO; lia). split.
  - intros H. assert (Z.to_nat j < length (firstn (Z.to_nat (c_size ch)) (c_devs ch)))%nat as LT by (apply nth_error_Some; congruence). rewrite firstn_length in LT. split; [lia|]. rewrite nth_error_firstn_lt in H by lia. exact H.
  - intros (JJ & H). rewrite nth_error_firstn_lt by lia. exact H.
Qed.
Lemma delivered_all_pending : forall W w i k ch r q evs evs' f, shape W w -> chan_at w k ch -> ring_at w k r -> (forall e a b, io_file i e a b = true) ->
  delivered_all i k (firstn (Z.to_nat (c_size ch)) (c_devs ch)) q evs evs' f ->
  forall j us, pending w k j q us -> filed k j evs' = filed k j evs ++ concat us.
Proof.
  intros W w i k ch r q evs evs' f SH CA RA IO H. destruct (shape_at _ _ _ _ _ SH CA RA) as (CO & _).
  induction H as [evs|l ls e0 e1 e2 f g DL H IH]; intros j us PE; unfold pending in PE; cbn [map] in PE.
  - inversion PE; subst. cbn [concat]. rewrite app_nil_r. reflexivity.
  - assert (IFF : (exists d, 0 <= j /\ nth_error (firstn (Z.to_nat (c_size ch)) (c_devs ch)) (Z.to_nat (j - 0)) = Some d /\ device_on d /\ device_accepts d (i_prio l) (i_cat l) (i_ident l) /\ d_out d = 2) <-> takes w k j l).
    { rewrite Z.sub_0_r. split.
      - intros (d & J & N & X). apply (firstn_has ch j d CO J) in N. exists ch, d. tauto.
      - intros (x & d & CX & HD & X). rewrite (chan_at_fun _ _ _ _ CX CA) in HD. assert (J : 0 <= j) by (unfold has_device in HD; lia). exists d. split; [exact J|]. split; [apply (firstn_has ch j d CO J), HD|exact X]. }
    inversion PE as [|? ? ? ? us' P PE'|? ? ? ? ? P PE']; subst; rewrite (IH _ _ PE');
      (destruct (delivered_filed i k _ _ _ _ 0 _ _ _ _ IO DL ltac:(lia) k j) as [(_ & A1 & A2)|(A1 & A2)]; rewrite A2).
    + cbn [concat]. rewrite app_assoc. reflexivity.
    + exfalso. apply A1. split; [reflexivity|]. apply IFF, P.
    + exfalso. apply P, IFF, A1.
    + reflexivity.
Qed.

(* ---- one statement ---- *)
Lemma mix_log : forall W o i w s qs w' r, shape W w -> relaxed W w qs -> in_sense w (t_chan s) (t_cat s) (t_ident s) -> well_formed W o i s -> -3 <= t_prio s <= 10 ->
  (forall e x y, io_file i e x y = true) -> log_stmt W i w s = Ret (w', r) ->
  exists T qs', statement_text W o i s T /\ shape W w' /\ alike w w' /\ relaxed W w' qs' /\ (forall k, k <> t_chan s -> qs' k = qs k) /\ zlen (qs' (t_chan s)) <= zlen (qs (t_chan s)) + 1 /\
    forall k j us, pending w k j (qs k) us -> exists us', pending w k j (qs' k) us' /\
      ((goes_to w k j s /\ filed k j (w_ev w') ++ concat us' = filed k j (w_ev w) ++ concat us ++ line W T) \/
       (~ goes_to w k j s /\ filed k j (w_ev w') ++ concat us' = filed k j (w_ev w) ++ concat us)).
Proof.
  intros W o i w s qs w' r SH RX M WF P IO RUN. pose proof SH as (CAP & S2 & S3 & S4 & S5 & S6).
  assert (DEC: admitted (w_lg w) (t_chan s) (t_prio s) (t_cat s) (t_ident s) \/ ~ admitted (w_lg w) (t_chan s) (t_prio s) (t_cat s) (t_ident s)).
  { destruct (block_input_correct (w_lg w) (t_chan s) (t_prio s) (t_cat s) (t_ident s)) as (b & _ & B); [|exact S3|].
    { intros ch H. rewrite Forall_forall in S5. destruct (M ch H). split; [|tauto]. specialize (S5 ch (nth_error_In _ _ H)). unfold chan_ok in S5. unfold sound_channel. tauto. }
    destruct b; [right; intros A; apply B in A; discriminate|left; apply B; reflexivity]. }
  destruct DEC as [AD|NA].
  2: { rewrite (log_blocked W i w s SH M NA) in RUN. injection RUN as <- <-. destruct (text_exists W o i s CAP WF) as (T & TX). exists T, qs.
       split; [exact TX|]. split; [exact SH|]. split; [apply alike_refl|]. split; [exact RX|]. split; [reflexivity|]. split; [lia|]. intros k j us PE. exists us. split; [exact PE|]. right. split; [|reflexivity].
       intros (G1 & G2 & _). subst k. contradiction. }
  destruct (admitted_chan _ _ _ _ _ AD) as (ch & CA & _). destruct (ring_exists W w _ _ SH CA) as (rg & RA).
  destruct (shape_at _ _ _ _ _ SH CA RA) as (CO & RO).
  destruct (RX _ ch rg CA RA) as (ST & WT & TY & ND & U & FQ).
  assert (GT : forall k j, goes_to w k j s <-> k = t_chan s /\ takes w k j (mkItem (t_prio s) (t_cat s) (t_ident s) [])).
  { intros k j. unfold goes_to, takes. cbn [i_prio i_cat i_ident]. split; [intros (<- & _ & X); tauto|intros (-> & X); tauto]. }
  destruct (Z.eq_dec (c_type ch) 1) as [T1|T1].
  - rewrite (TY T1) in *. destruct (log_sync W o i w s ch rg SH M CA RA (rest_empty W rg RO ST WT) U AD WF P T1 ND) as (w1 & T & R & TX & WR). rewrite R in RUN. injection RUN as <- <-.
    pose proof WR as (ON & SH1 & ch0 & ch1 & r0 & r1 & f & CA0 & CA1 & SS & DL & _ & _ & _ & RA1 & EM & _). rewrite (chan_at_fun _ _ _ _ CA0 CA) in *.
    destruct (shape_at _ _ _ _ _ SH1 CA1 RA1) as (CO1 & RO1). exists T, qs. split; [exact TX|]. split; [exact SH1|]. split; [apply (written_alike _ _ _ _ _ _ _ _ _ WR)|]. split.
    { assert (RX1 : relaxed W w1 (fun a => if a =? t_chan s then [] else qs a)).
      { destruct (empty_rest W w1 _ _ _ SH1 CA1 RA1 EM) as (_ & _ & X1 & X2 & _). apply (only_relaxed W (t_chan s) w w1 qs ch ch1 r1 []); try assumption; try solve [exists rg; exact RA|intros; reflexivity|constructor]. }
      intros a x y CX RY. specialize (RX1 a x y CX RY). cbv beta in RX1. destruct (a =? t_chan s) eqn:E; [|exact RX1]. assert (a = t_chan s) as -> by lia. rewrite (TY T1). exact RX1. }
    split; [reflexivity|]. split; [rewrite ?(TY T1); lia|]. intros k j us PE. exists us. split; [exact PE|].
    destruct (Z.eq_dec k (t_chan s)) as [-> |NE].
    + rewrite (TY T1) in PE. inversion PE; subst. cbn [concat app]. rewrite !app_nil_r.
      destruct (delivered_filed i _ _ _ _ _ 0 _ _ _ _ IO DL ltac:(lia) (t_chan s) j) as [(_ & (d & A2 & A3 & A4) & A5)|(A1 & A2)].
      * left. split; [|exact A5]. apply GT. split; [reflexivity|]. exists ch, d. rewrite Z.sub_0_r in A3. split; [exact CA|]. split; [apply (firstn_has ch j d CO A2), A3|exact A4].
      * right. split; [|exact A2]. intros G. apply GT in G as (_ & x & d & CX & HD & G). rewrite (chan_at_fun _ _ _ _ CX CA) in HD. apply A1. split; [reflexivity|]. assert (J : 0 <= j) by (unfold has_device in HD; lia).
        exists d. rewrite Z.sub_0_r. split; [exact J|]. split; [apply (firstn_has ch j d CO J), HD|exact G].
    + right. split; [intros G; apply GT in G; tauto|]. destruct (delivered_filed i _ _ _ _ _ 0 _ _ _ _ IO DL ltac:(lia) k j) as [(A1 & _)|(_ & A2)]; [contradiction|]. rewrite A2. reflexivity.
  - assert (ROOM : zlen (qs (t_chan s)) + 1 < W_ring W).
    { destruct (Z_lt_dec (zlen (qs (t_chan s)) + 1) (W_ring W)); [assumption|]. exfalso. pose proof WT as (WL & _).
      rewrite (log_full W i w s ch rg _ SH M CA RA AD ST WT ltac:(lia)) in RUN. discriminate. }
    assert (P22 : -3 <= t_prio s < 22) by lia.
    destruct (log_async W o i w s ch rg (qs (t_chan s)) SH M (conj CA (conj RA (conj ST (conj WT ROOM)))) U AD WF P22 T1) as (w1 & T & R & TX & QU). rewrite R in RUN. injection RUN as <- <-.
    destruct QU as (ON & SH1 & EV & ch0 & ch1 & r0 & r1 & CA0 & CA1 & SS & _ & _ & _ & RA1 & ST1 & _ & WT1). rewrite (chan_at_fun _ _ _ _ CA0 CA) in *.
    set (it := mkItem (t_prio s) (t_cat s) (t_ident s) (line W T)) in *.
    exists T, (fun a => if a =? t_chan s then qs (t_chan s) ++ [it] else qs a). split; [exact TX|]. split; [exact SH1|]. split; [exact (only_alike _ _ _ _ _ ON CA CA1 SS)|]. split.
    { apply (only_relaxed W (t_chan s) w w1 qs ch ch1 r1); try assumption; [exists rg; exact RA|intros; contradiction|]. apply Forall_app. split; [exact FQ|]. constructor; [|constructor]. cbn [it i_prio i_cat i_ident]. split; [lia|]. apply (M ch (proj2 CA)). }
    split; [intros k NE; destruct (k =? t_chan s) eqn:E; [lia|reflexivity]|]. split; [rewrite Z.eqb_refl; unfold zlen; rewrite app_length; cbn [length]; lia|].
    intros k j us PE. rewrite EV. destruct (Z.eq_dec k (t_chan s)) as [-> |NE].
    + rewrite Z.eqb_refl. destruct (takes_dec w (t_chan s) j it) as [TK|TK].
      * exists (us ++ [line W T]). split; [unfold pending; rewrite map_app; apply picked_app; [exact PE|apply pk_yes; [exact TK|constructor]]|].
        left. split; [apply GT; split; [reflexivity|exact TK]|]. rewrite concat_app. cbn [concat]. rewrite app_nil_r. reflexivity.
      * exists us. split; [unfold pending; rewrite map_app; rewrite <- (app_nil_r us); apply picked_app; [exact PE|apply pk_no; [exact TK|constructor]]|].
        right. split; [intros G; apply GT in G as (_ & G); contradiction|reflexivity].
    + destruct (k =? t_chan s) eqn:E; [lia|]. exists us. split; [exact PE|]. right. split; [intros G; apply GT in G; tauto|reflexivity].
Qed.

(* ---- one round ---- *)
Lemma mix_proc : forall W i w k qs ch w', shape W w -> relaxed W w qs -> chan_at w k ch -> c_state ch <> 0 -> (forall e x y, io_file i e x y = true) -> enter_proc W i w k = Ret w' ->
  shape W w' /\ alike w w' /\ relaxed W w' (fun a => if a =? k then [] else qs a) /\
  forall a j us, pending w a j (qs a) us -> filed a j (w_ev w') = filed a j (w_ev w) ++ (if a =? k then concat us else []).
Proof.
  intros W i w k qs ch w' SH RX CA CS IO RUN. destruct (ring_exists W w _ _ SH CA) as (rg & RA). destruct (RX _ ch rg CA RA) as (ST & WT & TY & ND & U & FQ).
  destruct (enter_proc_ok W i w k ch rg (qs k) SH CA RA CS WT FQ ND) as (w1 & ch1 & r1 & f & R & BE & SH1 & (G1 & _) & DA & E1 & E2 & E3 & E4). rewrite R in RUN. injection RUN as <-.
  destruct (becomes_at _ _ _ _ _ _ _ SH CA BE) as (CA1 & RA1). assert (ON : only_at k w w1) by apply BE.
  assert (EM : empty r1) by (unfold empty, settled_ring in *; repeat split; congruence).
  split; [exact SH1|]. split; [exact (only_alike _ _ _ _ _ ON CA CA1 G1)|]. split.
  - destruct (empty_rest W w1 _ _ _ SH1 CA1 RA1 EM) as (_ & _ & X1 & X2 & _). apply (only_relaxed W k w w1 qs ch ch1 r1 []); try assumption; try solve [exists rg; exact RA|intros; reflexivity|constructor].
  - intros a j us PE. destruct (a =? k) eqn:E.
    + assert (a = k) as -> by lia. exact (delivered_all_pending W w i k ch rg (qs k) _ _ f SH CA RA IO DA j us PE).
    + rewrite app_nil_r. eapply delivered_all_filed; [exact IO|exact DA|lia].
Qed.

Definition fine (W : wcfg) (o : Z) (w : world) (a : action) : Prop :=
  match a with
  | ALog s i => in_sense w (t_chan s) (t_cat s) (t_ident s) /\ well_formed W o i s /\ -3 <= t_prio s <= 10 /\ forall e x y, io_file i e x y = true
  | AProc k i => (exists ch, chan_at w k ch /\ c_state ch <> 0) /\ forall e x y, io_file i e x y = true
  | AArrive _ _ _ => False
  end.
Lemma fine_alike : forall W o a b x, alike a b -> fine W o a x -> fine W o b x.
Proof.
  intros W o a b [s i|k i|k d m] AL F; cbn [fine] in *; [|destruct F as ((ch & CA & CS) & F); split; [|exact F]|exact F].
  - destruct F as (F1 & F2). split; [eapply sense_alike; eassumption|exact F2].
  - destruct (chan_alike b a k ch (alike_sym _ _ AL) CA) as (ch' & C & S1 & S2 & S3 & S4 & _). exists ch'. split; [exact C|congruence].
Qed.

Lemma mix_run : forall W o l w qs w', shape W w -> relaxed W w qs -> Forall (fine W o w) l -> acts W w l = Ret w' ->
  exists qs' Ts, shape W w' /\ alike w w' /\ relaxed W w' qs' /\ Forall2 (fun a T => statement_text W o (snd a) (fst a) T) (said l) Ts /\
    (forall k, qs k = [] /\ (forall s x, In (ALog s x) l -> t_chan s <> k) \/ drained k l -> qs' k = []) /\
    forall k j us, pending w k j (qs k) us -> exists us' ns, pending w k j (qs' k) us' /\ picked (fun a => goes_to w k j (fst a)) (said l) (map (line W) Ts) ns /\
      filed k j (w_ev w') ++ concat us' = filed k j (w_ev w) ++ concat us ++ concat ns.
Proof.
  intros W o l. induction l as [|a l IH]; intros w qs w' SH RX FA RUN; cbn [acts] in RUN.
  { injection RUN as <-. exists qs, []. split; [exact SH|]. split; [apply alike_refl|]. split; [exact RX|]. split; [constructor|]. split.
    - intros k [(E & _)|(a & b & i & E & _)]; [exact E|]. destruct a; discriminate.
    - intros k j us PE. exists us, []. split; [exact PE|]. split; [constructor|]. cbn [concat]. rewrite app_nil_r. reflexivity. }
  inversion FA as [|? ? F FA']; subst. destruct (act W w a) as [w1| |] eqn:AC; try discriminate. cbn [bind] in RUN.
  destruct a as [s i|k i|k d m]; cbn [act fine] in *; [| |contradiction].
  - destruct F as (M & WF & P & IO). destruct (log_stmt W i w s) as [[w2 rr]| |] eqn:LS; try discriminate. cbn [bind] in AC. injection AC as ->.
    destruct (mix_log W o i w s qs w1 rr SH RX M WF P IO LS) as (T & qs1 & TX & SH1 & AL & RX1 & QO & _ & GA).
    destruct (IH w1 qs1 w' SH1 RX1) as (qs2 & Ts & SH2 & AL2 & RX2 & F2 & DR & FI); [eapply Forall_impl; [|exact FA']; intros x; apply fine_alike, AL|exact RUN|].
    exists qs2, (T :: Ts). split; [exact SH2|]. split; [eapply alike_trans; eassumption|]. split; [exact RX2|]. cbn [said]. split; [constructor; assumption|]. split.
    { intros k [(E & N)|(a & b & x & E & N)]; apply DR.
      - left. split; [rewrite QO; [exact E|]|intros s' x' X; apply (N s' x'); right; exact X]. intros ->. apply (N s i); [left; reflexivity|reflexivity].
      - right. destruct a as [|y a]; [discriminate|]. injection E as <- E. exists a, b, x. split; assumption. }
    intros k j us PE. destruct (GA k j us PE) as (us1 & PE1 & G). destruct (FI k j us1 (pending_alike _ _ _ _ _ _ AL PE1)) as (us2 & ns & PE2 & PK & EQ).
    exists us2. assert (PK' : picked (fun a : stmt * io => goes_to w k j (fst a)) (said l) (map (line W) Ts) ns).
    { eapply picked_iff; [|exact PK]. intros x. split; apply goes_to_alike; [apply alike_sym, AL|exact AL]. }
    destruct G as [(G & E)|(G & E)].
    + exists (line W T :: ns). split; [eapply pending_alike; [apply alike_sym, AL|exact PE2]|]. split; [apply pk_yes; assumption|]. rewrite EQ, app_assoc, E. cbn [concat]. rewrite <- !app_assoc. reflexivity.
    + exists ns. split; [eapply pending_alike; [apply alike_sym, AL|exact PE2]|]. split; [apply pk_no; assumption|]. rewrite EQ, app_assoc, E. rewrite <- !app_assoc. reflexivity.
  - destruct F as ((ch & CA & CS) & IO). destruct (mix_proc W i w k qs ch w1 SH RX CA CS IO AC) as (SH1 & AL & RX1 & GA).
    destruct (IH w1 _ w' SH1 RX1) as (qs2 & Ts & SH2 & AL2 & RX2 & F2 & DR & FI); [eapply Forall_impl; [|exact FA']; intros x; apply fine_alike, AL|exact RUN|].
    exists qs2, Ts. split; [exact SH2|]. split; [eapply alike_trans; eassumption|]. split; [exact RX2|]. cbn [said]. split; [exact F2|]. split.
    { intros a [(E & N)|(x & b & y & E & N)]; apply DR.
      - left. split; [destruct (a =? k); [reflexivity|exact E]|]. intros s' x' X. apply (N s' x'). right. exact X.
      - destruct x as [|z x].
        + injection E as -> -> ->. left. rewrite Z.eqb_refl. split; [reflexivity|]. exact N.
        + right. injection E as <- E. exists x, b, y. split; assumption. }
    intros a j us PE. specialize (GA a j us PE). assert (PE1 : pending w1 a j (if a =? k then [] else qs a) (if a =? k then [] else us)).
    { destruct (a =? k); [constructor|eapply pending_alike; eassumption]. }
    destruct (FI a j _ PE1) as (us2 & ns & PE2 & PK & EQ). exists us2, ns. split; [eapply pending_alike; [apply alike_sym, AL|exact PE2]|]. split.
    { eapply picked_iff; [|exact PK]. intros x. split; apply goes_to_alike; [apply alike_sym, AL|exact AL]. }
    rewrite EQ, GA. destruct (a =? k); cbn [concat app]; rewrite ?app_nil_r, <- ?app_assoc; reflexivity.
Qed.

Lemma log_returns : forall W o i w s qs, shape W w -> relaxed W w qs -> in_sense w (t_chan s) (t_cat s) (t_ident s) -> well_formed W o i s -> -3 <= t_prio s <= 10 ->
  (exists ch, chan_at w (t_chan s) ch /\ c_type ch = 1) \/ zlen (qs (t_chan s)) + 1 < W_ring W -> exists w' r, log_stmt W i w s = Ret (w', r).
Proof.
  intros W o i w s qs SH RX M WF P RM. pose proof SH as (CAP & S2 & S3 & S4 & S5 & S6).
  destruct (block_input_correct (w_lg w) (t_chan s) (t_prio s) (t_cat s) (t_ident s)) as (b & _ & B); [|exact S3|].
  { intros ch H. rewrite Forall_forall in S5. destruct (M ch H). split; [|tauto]. specialize (S5 ch (nth_error_In _ _ H)). unfold chan_ok in S5. unfold sound_channel. tauto. }
  assert (AD : admitted (w_lg w) (t_chan s) (t_prio s) (t_cat s) (t_ident s) \/ ~ admitted (w_lg w) (t_chan s) (t_prio s) (t_cat s) (t_ident s)).
  { destruct b; [right; intros A; apply B in A; discriminate|left; apply B; reflexivity]. }
  destruct AD as [AD|AD]. 2: { rewrite (log_blocked W i w s SH M AD). eauto. }
  destruct (admitted_chan _ _ _ _ _ AD) as (ch & CA & _). destruct (ring_exists W w _ _ SH CA) as (rg & RA).
  destruct (shape_at _ _ _ _ _ SH CA RA) as (CO & RO). destruct (RX _ ch rg CA RA) as (ST & WT & TY & ND & U & FQ).
  destruct (Z.eq_dec (c_type ch) 1) as [T1|T1].
  - rewrite (TY T1) in *. destruct (log_sync W o i w s ch rg SH M CA RA (rest_empty W rg RO ST WT) U AD WF P T1 ND) as (w1 & T & R & _). eauto.
  - assert (ROOM : zlen (qs (t_chan s)) + 1 < W_ring W).
    { destruct RM as [(x & CX & X)|RM]; [|exact RM]. rewrite (chan_at_fun _ _ _ _ CX CA) in X. contradiction. }
    assert (P22 : -3 <= t_prio s < 22) by lia.
    destruct (log_async W o i w s ch rg (qs (t_chan s)) SH M (conj CA (conj RA (conj ST (conj WT ROOM)))) U AD WF P22 T1) as (w1 & T & R & _). eauto.
Qed.
Lemma roomy_alike : forall W l w w' n n', alike w w' -> (forall k, n' k <= n k) -> roomy W w n l -> roomy W w' n' l.
Proof.
  intros W. induction l as [|[s i|k i|k d m] l IH]; intros w w' n n' AL N; cbn [roomy]; [trivial| | |].
  - intros (R & RM). split.
    + destruct R as [(ch & CA & TY)|R]; [left|right; specialize (N (t_chan s)); lia]. destruct (chan_alike w' w _ ch (alike_sym _ _ AL) CA) as (ch' & C & S1 & _). exists ch'. split; [exact C|congruence].
    + eapply IH; [exact AL| |exact RM]. intros a. specialize (N a). cbv beta. destruct (a =? t_chan s); lia.
  - apply IH; [exact AL|]. intros a. specialize (N a). destruct (a =? k); lia.
  - apply IH; [exact AL|exact N].
Qed.
Lemma mix_returns : forall W o l w qs, shape W w -> relaxed W w qs -> Forall (fine W o w) l -> roomy W w (fun k => zlen (qs k)) l -> exists w', acts W w l = Ret w'.
Proof.
  intros W o l. induction l as [|a l IH]; intros w qs SH RX FA RM; cbn [acts]; [eauto|]. inversion FA as [|? ? F FA']; subst.
  destruct a as [s i|k i|k d m]; cbn [act fine roomy] in *; [| |contradiction].
  - destruct F as (M & WF & P & IO). destruct RM as (RM & RM'). destruct (log_returns W o i w s qs SH RX M WF P RM) as (w1 & r & R). rewrite R. cbn [bind].
    destruct (mix_log W o i w s qs w1 r SH RX M WF P IO R) as (T & qs1 & _ & SH1 & AL & RX1 & QO & QL & _).
    apply (IH w1 qs1 SH1 RX1); [eapply Forall_impl; [|exact FA']; intros x; apply fine_alike, AL|].
    eapply roomy_alike; [exact AL| |exact RM']. intros k. cbv beta. destruct (k =? t_chan s) eqn:E; [assert (k = t_chan s) as -> by lia; exact QL|]. rewrite QO by lia. lia.
  - destruct F as ((ch & CA & CS) & IO). destruct (ring_exists W w _ _ SH CA) as (rg & RA). destruct (RX _ ch rg CA RA) as (ST & WT & TY & ND & U & FQ).
    destruct (enter_proc_ok W i w k ch rg (qs k) SH CA RA CS WT FQ ND) as (w1 & ch1 & r1 & f & R & _). rewrite R. cbn [bind].
    destruct (mix_proc W i w k qs ch w1 SH RX CA CS IO R) as (SH1 & AL & RX1 & _).
    apply (IH w1 _ SH1 RX1); [eapply Forall_impl; [|exact FA']; intros x; apply fine_alike, AL|].
    eapply roomy_alike; [exact AL| |exact RM]. intros a. cbv beta. destruct (a =? k); [change (zlen (@nil item)) with 0|]; lia.
Qed.
