(* Recovery on the queue: what the new process finds and what its writer
   thread delivers. *)
From Coq Require Import String ZArith List Bool Lia ZifyBool ZifyNat ZifyN.
From Verif Require Import Base BaseFacts LoggerState Ring RingSpec RingInv RingProofs RingLive RingRun RingQuiet
  RingStop Recover RecoverSpec RecoverProofs.
Import ListNotations.
Open Scope Z_scope.

(* ---- Ring.v's slots are the records' marks and texts ---- *)
Definition abs_slot (d : rdata) : slot := mkSlot (d_mark d) (shown d).
Definition abs_ring (c : rcfg) (K : rlim) (q : rring) (s : shared) : Prop :=
  k_ring K = n_ring c /\ k_log K = log_size c /\
  q_write q = x_write s /\ q_hold q = x_hold s /\ q_read q = x_read s /\ x_slots s = map abs_slot (q_slots q).

Lemma map_upd : forall {A B} (f : A -> B) l n x, map f (upd l n x) = upd (map f l) n (f x).
Proof.
  intros A B f l n x. unfold upd. rewrite map_app, firstn_map, skipn_map.
  destruct (skipn n l); reflexivity.
Qed.

Lemma wr_upd : forall {A} (l : list A) i v l', wr l i v = Ret l' -> l' = upd l (Z.to_nat i) v.
Proof.
  intros A l i v l' H. unfold wr in H. apply blit_inv in H. change (zlen [v]) with 1 in H.
  destruct H as (H1 & H2 & ->). unfold upd. replace (Z.to_nat (i + 1)) with (S (Z.to_nat i)) by lia. f_equal.
  destruct (split_at _ l i ltac:(lia)) as (a & r & -> & A1). rewrite zlen_app in H2.
  destruct r as [|x r]; [rewrite zlen_nil in H2; lia|].
  assert (L : Z.to_nat i = length a) by (unfold zlen in *; lia). rewrite L.
  rewrite !skipn_app. rewrite (skipn_all2 a) by lia. rewrite (skipn_all2 a) by lia.
  replace (length a - length a)%nat with 0%nat by lia. replace (S (length a) - length a)%nat with 1%nat by lia. reflexivity.
Qed.

Lemma rec_slot_abs : forall c K d d', k_log K = log_size c -> flagged K d d' -> rec_slot c (abs_slot d) = abs_slot d'.
Proof.
  intros c K d d' E (A1 & A2 & A3 & _). unfold rec_slot, abs_slot. cbn [s_text]. rewrite A1, A3, E, core_len.
  replace (log_size c - 18 - 2) with (log_size c - 20) by ring. reflexivity.
Qed.

Lemma revive_abs : forall c K fuel q s q', 20 <= k_log K -> (forall j d, rd (q_slots q) j = Ret d -> sane K d) ->
  abs_ring c K q s -> recover_loop fuel K q = Ret q' -> abs_ring c K q' (revive fuel c s).
Proof.
  intros c K fuel. induction fuel as [|fuel IH]; intros q s q' L SA AB H; pose proof AB as (A0 & A1 & A2 & A3 & A4 & A5);
    cbn [recover_loop] in H; cbn [revive]; rewrite <- A2, <- A3; destruct (q_write q =? q_hold q);
    try (injection H as <-; exact AB); try discriminate.
  apply bind_ret_inv in H. destruct H as (d & D & H).
  destruct (recover_slot_ok K d L (SA _ _ D)) as (d' & RS & FL & SD). rewrite RS in H. cbn [bind] in H.
  apply bind_ret_inv in H. destruct H as (l & W & H).
  destruct (wr_rd _ _ _ _ _ W) as [_ RW].
  refine (IH _ _ _ L _ _ H).
  - cbn [q_slots]. intros j e J. rewrite RW in J. destruct (j =? q_write q); [injection J as <-; assumption|eauto].
  - unfold abs_ring. cbn [q_write q_hold q_read q_slots put_idx put x_write x_hold x_read x_slots].
    split; [assumption|]. split; [assumption|]. split; [unfold nxt; rewrite A0, A2; reflexivity|].
    split; [assumption|]. split; [assumption|].
    rewrite (wr_upd _ _ _ _ W), map_upd, A5. f_equal.
    rewrite <- (rec_slot_abs c K d d' A1 FL). f_equal. unfold get. rewrite A5.
    apply rd_inv in D. destruct D as [_ D]. apply nth_of_error. rewrite nth_error_map, D. reflexivity.
Qed.

(* ---- what recovery does to positions ---- *)
Lemma revive_ok : forall c, 0 < n_ring c -> forall fuel s w h, x_write s = ix c w -> x_hold s = ix c h ->
  0 <= h - w < n_ring c -> h - w <= Z.of_nat fuel -> zlen (x_slots s) = n_ring c ->
  let s' := revive fuel c s in
  x_write s' = ix c h /\ x_hold s' = ix c h /\ x_read s' = x_read s /\ zlen (x_slots s') = n_ring c /\
  (forall a, w <= a < h -> at_ c s' a = rec_slot c (at_ c s a)) /\
  (forall a, h <= a < w + n_ring c -> at_ c s' a = at_ c s a).
Proof.
  intros c N fuel. induction fuel as [|fuel IH]; intros s w h W H D F L; cbn [revive]; rewrite W, H.
  - assert (E : w = h) by lia. rewrite E, Z.eqb_refl. cbn. rewrite W, H, E. repeat split; try assumption; intros; lia.
  - destruct (ix c w =? ix c h) eqn:Q.
    + apply Z.eqb_eq in Q. apply ix_eq in Q; [|assumption|lia]. cbn. subst h. repeat split; try assumption; intros; lia.
    + apply Z.eqb_neq in Q. assert (w <> h) by congruence.
      match goal with |- context [revive fuel c ?x] => set (s1 := x) end.
      assert (AT : forall a, at_ c s1 a = at_ c (put s (ix c w) (rec_slot c (get s (ix c w)))) a) by reflexivity.
      destruct (IH s1 (w + 1) h) as (A1 & A2 & A3 & A4 & A5 & A6).
      * cbn. rewrite W. apply nxt_ix.
      * cbn. assumption.
      * lia.
      * lia.
      * unfold zlen, s1, put_idx, put. cbn [x_slots]. rewrite upd_len. exact L.
      * split; [assumption|]. split; [assumption|]. split; [assumption|]. split; [assumption|]. split.
        -- intros a A. destruct (Z.eq_dec a w) as [->|ND].
           ++ assert (X : at_ c (revive fuel c s1) (w + n_ring c) = at_ c (revive fuel c s1) w)
                by (unfold at_; rewrite ix_lap; reflexivity).
              rewrite <- X, A6 by lia. rewrite AT. unfold at_ at 1. rewrite !ix_lap.
              rewrite get_put_same; [reflexivity|]. rewrite L. apply ix_bound. assumption.
           ++ rewrite A5 by lia. f_equal. rewrite AT. apply at_put_other; lia.
        -- intros a A. rewrite A6 by lia. rewrite AT. apply at_put_other; lia.
Qed.

(* ---- the texts of records not yet released ---- *)
Definition q_txt (c : rcfg) (s : shared) (g : ghost) : Prop :=
  forall a, gR g <= a < gP g -> exists i m, held_at g a = Some (i, m) /\ s_text (at_ c s a) = line c m.

Lemma held_at_app : forall g g' e a x, g_held g' = g_held g ++ [e] -> held_at g a = Some x -> held_at g' a = Some x.
Proof.
  intros g g' e a x E H. unfold held_at in *. destruct (a <? 0); [discriminate|]. rewrite E.
  rewrite nth_error_app1; [assumption|]. apply nth_error_Some. congruence.
Qed.

Lemma q_txt_tstep : forall c s g l i t s' g' t', 0 < n_ring c -> inv c s g l -> nth_error l i = Some t ->
  fresh_thr c g t -> tstep c i s g t = Some (s', g', t') -> q_txt c s g -> q_txt c s' g'.
Proof.
  intros c s g l i t s' g' t' N IV T F E Q.
  pose proof (i_thr _ _ _ _ IV i t T) as K. pose proof (i_ord _ _ _ _ IV) as OR. pose proof (i_len _ _ _ _ IV) as LN.
  destruct t as [p m b]. unfold tstep in E. unfold thr_ok, owned, fresh_thr in *.
  assert (PUT : forall v, gW g <= b < gH g -> q_txt c (put s (ix c b) v) g).
  { intros v L a A. rewrite at_put_other; [apply Q; assumption|assumption|lia|lia]. }
  destruct p; tpc; try discriminate; try (solve [brk E ltac:(exact Q)]).
  - (* HCas *) destruct (x_hold s =? old); injection E as <- <- <-; [|exact Q].
    intros a A. destruct (Q a A) as (j & m' & H1 & H2). exists j, m'. split; [|exact H2].
    eapply held_at_app; [reflexivity|exact H1].
  - destruct K as (-> & K & _). injection E as <- <- <-. apply PUT. assumption.
  - destruct K as (-> & K & _). injection E as <- <- <-. apply PUT. assumption.
  - destruct K as (-> & (K & _) & _). destruct rest; injection E as <- <- <-; [exact Q|]. apply PUT. assumption.
  - destruct K as (-> & (K & _) & _). injection E as <- <- <-. apply PUT. assumption.
  - destruct K as (-> & (K & _) & _). injection E as <- <- <-. apply PUT. assumption.
  - (* CCas *) destruct (x_proc s =? old) eqn:X; injection E as <- <- <-; [|exact Q].
    intros a A. cbn [put_g gR gP] in A. destruct (Z.eq_dec a (gP g)) as [->|D].
    + destruct K as (-> & K1 & K2). apply Z.eqb_eq in X. rewrite (i_proc _ _ _ _ IV) in X.
      apply ix_eq in X; [|assumption|lia].
      destruct (i_pub _ _ _ _ IV (gP g) ltac:(lia)) as (_ & H). exact H.
    + apply Q. lia.
  - (* CMark *) destruct K as (-> & K & (_ & KR)). injection E as <- <- <-.
    intros a A. destruct (Z.eq_dec a b) as [->|D].
    + rewrite at_put_same by assumption. exact KR.
    + rewrite at_put_other; [apply Q; assumption|assumption|lia|lia].
  - (* RCas *) destruct (x_read s =? old); injection E as <- <- <-; [|exact Q].
    intros a A. cbn [put_g gR gP] in A. apply Q. lia.
Qed.

Lemma reach_txt : forall c slots k ls s, cfg_ok c -> blank c slots ->
  reaches c slots k ls s -> no_lap c (start c slots k) ls -> no_restart ls -> q_txt c (sh s) (gh s).
Proof.
  intros c slots k ls s C B R NL NR.
  destruct (run_ind c any_but_clean (fun s => q_txt c (sh s) (gh s)) ltac:(destruct C; lia) ltac:(intros X; apply X; reflexivity))
    with (ls := ls) (s := start c slots k) (s' := s) as (_ & _ & D); auto.
  - intros s0 l s1 IV C3 Q F NC E _. destruct l as [tid msg|tid| | | |].
    + destruct (step_log_inv _ _ _ _ _ E) as (t & T & P & ->). exact Q.
    + destruct (step_run_inv _ _ _ _ E) as (t & x & g & t' & T & TS & ->). cbn [sh gh].
      eapply q_txt_tstep; try eassumption; [destruct C; lia|apply F; assumption].
    + destruct (ctl_step_inv c s0 LStop s1 (or_introl eq_refl) E) as (-> & _ & S & _). intros a A.
      rewrite (at_same c (sh s0) (sh s1) a S). apply Q. assumption.
    + destruct (ctl_step_inv c s0 LJoin s1 (or_intror eq_refl) E) as (-> & _ & S & _). intros a A.
      rewrite (at_same c (sh s0) (sh s1) a S). apply Q. assumption.
    + congruence.
    + cbn [step] in E. destruct (x_ctl (sh s0) =? 3) eqn:Q3; [lia|discriminate].
  - apply inv_start; assumption.
  - cbn. discriminate.
  - intros a A. cbn in A. lia.
  - apply no_restart_forall. assumption.
Qed.

(* ---- the writer thread alone ---- *)
Lemma run_w : forall c x g t l x' g' t' n, tstep c 0 x g t = Some (x', g', t') ->
  run c (mkSt x g (t :: l)) (repeat (LRun 0) (S n)) = run c (mkSt x' g' (t' :: l)) (repeat (LRun 0) n).
Proof. intros c x g t l x' g' t' n E. cbn [repeat run step ths nth_error sh gh]. rewrite E. reflexivity. Qed.

Lemma w_read : forall c x i l m a, forall rem k acc g, (k = length (s_text (get x i)) - rem)%nat ->
  (rem <= length (s_text (get x i)))%nat ->
  run c (mkSt x g (mkThr (CRead i (Z.of_nat k) acc) m a :: l)) (repeat (LRun 0) (S rem)) =
  Some (mkSt x (add_out g (a, acc ++ skipn k (s_text (get x i)))) (mkThr (CMark i) m a :: l)).
Proof.
  intros c x i l m a. induction rem as [|rem IH]; intros k acc g K L.
  - erewrite run_w by (unfold tstep, zlen; cbn [t_pc]; replace (Z.of_nat k <? Z.of_nat (length (s_text (get x i)))) with false by lia; reflexivity).
    cbn [repeat run t_snap go t_msg]. rewrite skipn_all2 by lia. rewrite app_nil_r. reflexivity.
  - erewrite run_w by (unfold tstep, zlen; cbn [t_pc]; replace (Z.of_nat k <? Z.of_nat (length (s_text (get x i)))) with true by lia; reflexivity).
    unfold go. cbn [t_msg t_snap]. replace (Z.of_nat k + 1) with (Z.of_nat (S k)) by lia. rewrite IH by lia.
    do 4 f_equal. rewrite Nat2Z.id, <- app_assoc. f_equal.
    destruct (nth_error (s_text (get x i)) k) as [y|] eqn:E.
    + rewrite (nth_error_nth _ _ 0 E). clear - E. revert k E. induction (s_text (get x i)) as [|z r IHr]; intros [|k] E; cbn in *; try discriminate.
      * injection E as ->. reflexivity.
      * apply IHr. assumption.
    + apply nth_error_None in E. lia.
Qed.

Lemma run_split : forall c a b s s', run c s (repeat (LRun 0) a) = Some s' ->
  run c s (repeat (LRun 0) (a + b)) = run c s' (repeat (LRun 0) b).
Proof. intros c a b s s' H. rewrite repeat_app, run_app, H. reflexivity. Qed.

(* a cleared slot is released *)
Lemma w_release : forall c y g l m a p, 0 < n_ring c -> 1 < n_ring c ->
  x_read y = ix c p -> x_proc y = ix c (p + 1) -> s_mark (get y (ix c p)) = MARK_INVALID ->
  exists g' a', run c (mkSt y g (mkThr RLoad m a :: l)) (repeat (LRun 0) 6) =
    Some (mkSt (put_idx y (x_hold y) (x_write y) (x_proc y) (ix c (p + 1))) g' (mkThr CLoad m a' :: l)) /\
    g_out g' = g_out g.
Proof.
  intros c y g l m a p N N1 R P M.
  assert (NE2 : (ix c p =? ix c (p + 1)) = false) by (apply Z.eqb_neq; intros X; apply ix_eq in X; lia).
  do 2 eexists.
  erewrite run_w by reflexivity. unfold go_at. cbn [t_msg t_snap]. rewrite R.
  erewrite run_w by (unfold tstep; cbn [t_pc]; rewrite P, NE2; reflexivity). unfold go. cbn [t_msg t_snap].
  erewrite run_w by (unfold tstep; cbn [t_pc]; rewrite M; change (MARK_INVALID =? MARK_INVALID) with true; reflexivity). unfold go. cbn [t_msg t_snap].
  erewrite run_w by (unfold tstep; cbn [t_pc]; rewrite R, (Z.eqb_refl (ix c p)); reflexivity). unfold go. cbn [t_msg t_snap].
  rewrite nxt_ix.
  erewrite run_w by reflexivity. unfold go_at. cbn [t_msg t_snap put_idx x_read].
  erewrite run_w by (unfold tstep; cbn [t_pc put_idx x_proc]; rewrite P, (Z.eqb_refl (ix c (p + 1))); reflexivity).
  cbn [repeat run]. rewrite P. split; [reflexivity|]. reflexivity.
Qed.

(* one record: claimed, dispatched, released *)
Lemma w_record : forall c x g l m a p w, 0 < n_ring c -> zlen (x_slots x) = n_ring c ->
  x_proc x = ix c p -> x_read x = ix c p -> x_write x = ix c w -> p < w < p + n_ring c ->
  exists n x' g' a', run c (mkSt x g (mkThr CLoad m a :: l)) (repeat (LRun 0) n) = Some (mkSt x' g' (mkThr CLoad m a' :: l)) /\
    x_proc x' = ix c (p + 1) /\ x_read x' = ix c (p + 1) /\ x_write x' = ix c w /\ x_hold x' = x_hold x /\
    x_state x' = x_state x /\ zlen (x_slots x') = n_ring c /\
    map snd (g_out g') = map snd (g_out g) ++ [s_text (at_ c x p)] /\
    s_mark (at_ c x' p) = MARK_INVALID /\
    (forall b, b <> p -> - n_ring c < b - p < n_ring c -> at_ c x' b = at_ c x b).
Proof.
  intros c x g l m a p w N L P R W D.
  assert (NE : (ix c p =? ix c w) = false) by (apply Z.eqb_neq; intros X; apply ix_eq in X; lia).
  assert (NE2 : (ix c p =? ix c (p + 1)) = false) by (apply Z.eqb_neq; intros X; apply ix_eq in X; lia).
  set (len := length (s_text (at_ c x p))).
  exists (3 + (S len + 9))%nat.
  assert (R1 : forall n, run c (mkSt x g (mkThr CLoad m a :: l)) (repeat (LRun 0) (S (S (S n)))) =
    run c (mkSt (put_idx x (x_hold x) (x_write x) (ix c (p + 1)) (x_read x))
                (put_g g (gH g) (gW g) (gP g + 1) (gR g)) (mkThr (CRead (ix c p) (Z.of_nat 0) []) m (gP g) :: l))
          (repeat (LRun 0) n)).
  { intros n. erewrite run_w by reflexivity. unfold go_at, go. cbn [t_msg t_snap]. rewrite P.
    erewrite run_w by (unfold tstep; cbn [t_pc]; rewrite W, NE; reflexivity). unfold go. cbn [t_msg t_snap].
    erewrite run_w by (unfold tstep; cbn [t_pc]; rewrite P, (Z.eqb_refl (ix c p)); reflexivity).
    unfold go_at. cbn [t_msg t_snap]. rewrite nxt_ix. reflexivity. }
  change (3 + (S len + 9))%nat with (S (S (S (S len + 9)))). rewrite R1. clear R1.
  set (x1 := put_idx x (x_hold x) (x_write x) (ix c (p + 1)) (x_read x)).
  erewrite run_split; [|apply (w_read c x1 (ix c p) l m (gP g) len 0%nat []); [change (0 = len - len)%nat; lia|apply le_n]].
  set (g2 := add_out _ _).
  set (x2 := put x1 (ix c p) (mkSlot MARK_INVALID (s_text (get x1 (ix c p))))).
  assert (G2 : get x2 (ix c p) = mkSlot MARK_INVALID (s_text (get x1 (ix c p)))).
  { apply get_put_same. change (x_slots x1) with (x_slots x). rewrite L. apply ix_bound. assumption. }
  erewrite run_w by reflexivity. unfold go. cbn [t_msg t_snap]. fold x2.
  erewrite run_w by reflexivity. unfold go. cbn [t_msg t_snap].
  erewrite run_w by reflexivity. unfold go. cbn [t_msg t_snap].
  match goal with |- context [run c (mkSt ?y ?g' (mkThr RLoad ?m' ?a' :: _)) _] =>
    destruct (w_release c y g' l m' a' p N ltac:(lia)) as (g3 & a3 & E3 & O3) end.
  - exact R.
  - reflexivity.
  - change (s_mark (get x2 (ix c p)) = MARK_INVALID). rewrite G2. reflexivity.
  - do 3 eexists. split; [exact E3|].
    cbn [put_idx put_n put x_proc x_read x_write x_hold x_state x_slots x1 x2].
    split; [reflexivity|]. split; [reflexivity|]. split; [exact W|]. split; [reflexivity|]. split; [reflexivity|].
    split; [unfold zlen; rewrite upd_len; exact L|].
    split; [rewrite O3; unfold g2; cbn [add_out g_out put_g]; rewrite map_app; reflexivity|].
    split.
    + change (s_mark (get x2 (ix c p)) = MARK_INVALID). rewrite G2. reflexivity.
    + intros b ND B. change (at_ c x2 b = at_ c x1 b). unfold x2. apply at_put_other; lia.
Qed.

(* everything between proc_idx_ and write_idx_ *)
Lemma w_all : forall c, 0 < n_ring c -> forall d x g l m a p w, Z.of_nat d = w - p -> 0 <= w - p < n_ring c ->
  zlen (x_slots x) = n_ring c -> x_proc x = ix c p -> x_read x = ix c p -> x_write x = ix c w ->
  exists n x' g' a', run c (mkSt x g (mkThr CLoad m a :: l)) (repeat (LRun 0) n) = Some (mkSt x' g' (mkThr CLoad m a' :: l)) /\
    x_proc x' = ix c w /\ x_read x' = ix c w /\ x_write x' = ix c w /\ x_hold x' = x_hold x /\
    x_state x' = x_state x /\ zlen (x_slots x') = n_ring c /\
    map snd (g_out g') = map snd (g_out g) ++ map (fun b => s_text (at_ c x (p + Z.of_nat b))) (seq 0 d) /\
    (forall b, p <= b < w -> s_mark (at_ c x' b) = MARK_INVALID) /\
    (forall b, w <= b < p + n_ring c -> at_ c x' b = at_ c x b).
Proof.
  intros c N d. induction d as [|d IH]; intros x g l m a p w D B L P R W.
  - exists 0%nat, x, g, a. replace w with p in * by lia. split; [reflexivity|].
    split; [assumption|]. split; [assumption|]. split; [assumption|]. split; [reflexivity|]. split; [reflexivity|].
    split; [assumption|]. split; [symmetry; apply app_nil_r|]. split; [intros; lia|reflexivity].
  - destruct (w_record c x g l m a p w N L P R W ltac:(lia)) as (n1 & x1 & g1 & a1 & E1 & P1 & R1 & W1 & H1 & S1 & L1 & O1 & M1 & K1).
    destruct (IH x1 g1 l m a1 (p + 1) w ltac:(lia) ltac:(lia) L1 P1 R1 W1)
      as (n2 & x2 & g2 & a2 & E2 & P2 & R2 & W2 & H2 & S2 & L2 & O2 & M2 & K2).
    exists (n1 + n2)%nat, x2, g2, a2. split; [rewrite (run_split c n1 n2 _ _ E1); exact E2|].
    split; [assumption|]. split; [assumption|]. split; [assumption|]. split; [congruence|]. split; [congruence|].
    split; [assumption|]. split; [|split].
    + rewrite O2, O1, <- app_assoc. f_equal. cbn [seq map app]. f_equal; [f_equal; f_equal; lia|].
      rewrite <- seq_shift, map_map. apply map_ext_in. intros b Bb. apply in_seq in Bb.
      rewrite K1; [f_equal; f_equal; lia|lia|lia].
    + intros b Bb. destruct (Z.eq_dec b p) as [->|ND]; [|apply M2; lia].
      assert (X : at_ c x2 p = at_ c x2 (p + n_ring c)) by (unfold at_; rewrite ix_lap; reflexivity).
      rewrite X, K2 by lia. unfold at_. rewrite ix_lap. exact M1.
    + intros b Bb. rewrite K2 by lia. apply K1; lia.
Qed.

(* and then the channel is set running *)
Lemma w_started : forall c x g l m a w, x_proc x = ix c w -> x_write x = ix c w -> x_state x = CHANNEL_STATE_NULL ->
  exists g' a', run c (mkSt x g (mkThr CLoad m a :: l)) (repeat (LRun 0) 3) =
    Some (mkSt (put_state x CHANNEL_STATE_RUNNING) g' (mkThr CLoop m a' :: l)) /\ g_out g' = g_out g.
Proof.
  intros c x g l m a w P W S. do 2 eexists.
  erewrite run_w by reflexivity. unfold go_at. cbn [t_msg t_snap]. rewrite P.
  erewrite run_w by (unfold tstep; cbn [t_pc]; rewrite W, (Z.eqb_refl (ix c w)); reflexivity). unfold go. cbn [t_msg t_snap].
  erewrite run_w by (unfold tstep; cbn [t_pc]; rewrite S, (Z.eqb_refl CHANNEL_STATE_NULL); reflexivity). unfold go. cbn [t_msg t_snap].
  cbn [repeat run]. split; reflexivity.
Qed.

(* ---- crash, recovery and what the new writer thread delivers ---- *)
(* a reserved record is being written, or written in full, with or without its
   end of line *)
Definition q_part (c : rcfg) (s : shared) (g : ghost) (l : list thr) : Prop :=
  forall a, gW g <= a < gH g ->
    (exists i t, nth_error l i = Some t /\ own t = Some a) \/
    exists i m, held_at g a = Some (i, m) /\ (s_text (at_ c s a) = line c m \/ s_text (at_ c s a) = m).

Lemma q_part_keep : forall c s g l i t s' g' t', q_part c s g l -> nth_error l i = Some t ->
  gW g <= gW g' -> gH g' = gH g -> g_held g' = g_held g ->
  (forall a, gW g <= a < gH g -> own t <> Some a -> at_ c s' a = at_ c s a) ->
  (forall a, gW g' <= a < gH g -> own t = Some a -> own t' = Some a \/ exists m, held_at g a = Some (i, m) /\ (s_text (at_ c s' a) = line c m \/ s_text (at_ c s' a) = m)) ->
  q_part c s' g' (upd l i t').
Proof.
  intros c s g l i t s' g' t' Q T W H HE K O a A. rewrite H in A.
  assert (HA : held_at g' a = held_at g a) by (unfold held_at; rewrite HE; reflexivity). rewrite HA.
  destruct (own_dec t a) as [X|X].
  - destruct (O a A X) as [Y|(m & Y)]; [left; exists i, t'; split; [apply upd_hit with t; assumption|assumption]|right; exists i, m; exact Y].
  - rewrite (K a ltac:(lia) X). destruct (Q a ltac:(lia)) as [(j & u & J & OU)|Y]; [|right; exact Y].
    assert (j <> i) by (intros ->; rewrite T in J; injection J as ->; contradiction).
    left. exists j, u. split; [rewrite upd_other by lia; assumption|assumption].
Qed.

Lemma q_part_tstep : forall c s g l i t s' g' t', 0 < n_ring c -> inv c s g l -> nth_error l i = Some t ->
  fresh_thr c g t -> tstep c i s g t = Some (s', g', t') -> q_part c s g l -> q_part c s' g' (upd l i t').
Proof.
  intros c s g l i t s' g' t' N IV T F E Q.
  pose proof (i_thr _ _ _ _ IV i t T) as K. pose proof (i_ord _ _ _ _ IV) as OR. pose proof (i_len _ _ _ _ IV) as LN.
  destruct t as [p m b]. unfold tstep in E. unfold thr_ok, owned, fresh_thr in *.
  assert (PUT : forall v a, gW g <= b < gH g -> gW g <= a < gH g -> Some b <> Some a -> at_ c (put s (ix c b) v) a = at_ c s a).
  { intros v a L A D. apply at_put_other; [assumption|congruence|lia]. }
  destruct p; tpc; try discriminate;
    try (solve [brk E ltac:(apply (q_part_keep c s g l i _ _ _ _ Q T); cbn [put_g gW gH g_held add_out]; try lia; try reflexivity; intros; try discriminate; reflexivity)]).
  - (* HCas *) destruct (x_hold s =? old) eqn:X; injection E as <- <- <-;
      [|apply (q_part_keep c s g l i _ _ _ _ Q T); try lia; try reflexivity; intros; discriminate].
    intros a A. cbn [add_held put_g gW gH] in A. destruct (Z.eq_dec a (gH g)) as [->|D].
    + left. exists i. eexists. split; [apply upd_hit with (mkThr (HCas old) m b); exact T|reflexivity].
    + destruct (Q a ltac:(lia)) as [(j & u & J & OU)|(j & m' & Y1 & Y2)].
      * left. exists j, u. assert (j <> i) by (intros ->; rewrite T in J; injection J as <-; discriminate OU). split; [rewrite upd_other by lia; assumption|assumption].
      * right. exists j, m'. split; [eapply held_at_app; [reflexivity|exact Y1]|exact Y2].
  - (* HCount *) injection E as <- <- <-. apply (q_part_keep c s g l i _ _ _ _ Q T); try lia; try reflexivity; intros; left; assumption.
  - (* HMark *) destruct K as (-> & K & _). injection E as <- <- <-. apply (q_part_keep c s g l i _ _ _ _ Q T); [lia|reflexivity|reflexivity|intros a A D; apply PUT; assumption|intros; left; assumption].
  - (* FInit *) destruct K as (-> & K & _). injection E as <- <- <-. apply (q_part_keep c s g l i _ _ _ _ Q T); [lia|reflexivity|reflexivity|intros a A D; apply PUT; assumption|intros; left; assumption].
  - (* Fill *) destruct K as (-> & (K & _) & _). destruct rest; injection E as <- <- <-; (apply (q_part_keep c s g l i _ _ _ _ Q T); [lia|reflexivity|reflexivity|intros a A D; first [reflexivity|apply PUT; assumption]|intros; left; assumption]).
  - (* PState *) destruct K as (-> & (K & K2 & _) & K3). injection E as <- <- <-. apply (q_part_keep c s g l i _ _ _ _ Q T); [lia|reflexivity|reflexivity|intros; reflexivity|].
    intros a A O. injection O as <-. right. exists m. split; [exact K2|right; exact K3].
  - (* PTerm *) destruct K as (-> & (K & _) & _). injection E as <- <- <-. apply (q_part_keep c s g l i _ _ _ _ Q T); [lia|reflexivity|reflexivity|intros a A D; apply PUT; assumption|intros; left; assumption].
  - (* PMark *) destruct K as (-> & (K & K2 & _) & K3). injection E as <- <- <-. apply (q_part_keep c s g l i _ _ _ _ Q T); [lia|reflexivity|reflexivity|intros a A D; apply PUT; assumption|].
    intros a A O. injection O as <-. right. exists m. split; [exact K2|left]. rewrite at_put_same by assumption. exact K3.
  - (* CMark *) destruct K as (-> & K & _). injection E as <- <- <-. apply (q_part_keep c s g l i _ _ _ _ Q T); [lia|reflexivity|reflexivity| |intros; discriminate].
    intros a A D. apply at_put_other; [assumption|lia|lia].
Qed.

Lemma reach_part : forall c slots k ls s, cfg_ok c -> blank c slots ->
  reaches c slots k ls s -> no_lap c (start c slots k) ls -> no_restart ls -> q_part c (sh s) (gh s) (ths s).
Proof.
  intros c slots k ls s C B R NL NR.
  destruct (run_ind c any_but_clean (fun s => q_part c (sh s) (gh s) (ths s)) ltac:(destruct C; lia) ltac:(intros X; apply X; reflexivity))
    with (ls := ls) (s := start c slots k) (s' := s) as (_ & _ & D); auto.
  - intros s0 l s1 IV C3 Q F NC E _. destruct l as [tid msg|tid| | | |].
    + destruct (step_log_inv _ _ _ _ _ E) as (t & T & P & ->). cbn [sh gh ths].
      apply (q_part_keep c (sh s0) (gh s0) (ths s0) tid t); try lia; try reflexivity; [exact Q|exact T|].
      intros a A O. unfold own in O. rewrite P in O. discriminate.
    + destruct (step_run_inv _ _ _ _ E) as (t & x & g & t' & T & TS & ->). cbn [sh gh ths].
      eapply q_part_tstep; try eassumption; [destruct C; lia|apply F; assumption].
    + destruct (ctl_step_inv c s0 LStop s1 (or_introl eq_refl) E) as (-> & -> & S & _). intros a A.
      rewrite (at_same c (sh s0) (sh s1) a S). apply Q. assumption.
    + destruct (ctl_step_inv c s0 LJoin s1 (or_intror eq_refl) E) as (-> & -> & S & _). intros a A.
      rewrite (at_same c (sh s0) (sh s1) a S). apply Q. assumption.
    + congruence.
    + cbn [step] in E. destruct (x_ctl (sh s0) =? 3) eqn:Q3; [lia|discriminate].
  - apply inv_start; assumption.
  - cbn. discriminate.
  - intros a A. cbn in A. lia.
  - apply no_restart_forall. assumption.
Qed.

Lemma unfinished_at : forall c s a i m, inv_st c s -> q_part c (sh s) (gh s) (ths s) -> gW (gh s) <= a < gH (gh s) ->
  held_at (gh s) a = Some (i, m) -> unfinished c (nth_error (ths s) i) m (s_text (at_ c (sh s) a)).
Proof.
  intros c s a i m IV QP A H. unfold unfinished.
  destruct (QP a A) as [(j & t & T & O)|(j & m' & H' & [X|X])].
  2: { right. left. congruence. }
  2: { left. exists []. rewrite app_nil_r. congruence. }
  pose proof (i_thr _ _ _ _ IV j t T) as K. unfold thr_ok, own, owned in *.
  destruct t as [p m' b]. cbn [t_pc t_snap t_msg] in *.
  destruct p; try discriminate; injection O as ->.
  - destruct K as (_ & _ & K & _). right. right. assert (i = j) by congruence. subst j. eexists. split; [exact T|exact I].
  - destruct K as (_ & _ & K & _). right. right. assert (i = j) by congruence. subst j. eexists. split; [exact T|exact I].
  - destruct K as (_ & _ & K & _). right. right. assert (i = j) by congruence. subst j. eexists. split; [exact T|exact I].
  - destruct K as (_ & (_ & K & _) & X). left. exists rest. congruence.
  - destruct K as (_ & (_ & K & _) & X). left. exists []. rewrite app_nil_r. congruence.
  - destruct K as (_ & (_ & K & _) & X). left. exists []. rewrite app_nil_r. congruence.
  - destruct K as (_ & (_ & K & _) & X). right. left. congruence.
Qed.

Lemma map_skip : forall {A B} (f : A -> B) (l : list A) (h : nat -> B) p n, (p + n <= length l)%nat ->
  (forall b x, (b < n)%nat -> nth_error l (p + b) = Some x -> h b = f x) ->
  map h (seq 0 n) = map f (firstn n (skipn p l)).
Proof.
  intros A B f l h p n. revert p h. induction n as [|n IH]; intros p h L H; [reflexivity|].
  destruct (nth_error l p) as [x|] eqn:E; [|apply nth_error_None in E; lia].
  assert (SK : skipn p l = x :: skipn (S p) l).
  { clear - E. revert p E. induction l as [|y l IH]; intros [|p] E; try discriminate; cbn in *; [congruence|apply IH; assumption]. }
  rewrite SK. cbn [firstn map seq]. f_equal.
  - apply H; [lia|]. rewrite Nat.add_0_r. exact E.
  - rewrite <- seq_shift, map_map. apply IH; [lia|]. intros b y Bn Y. apply H; [lia|]. rewrite <- Y. f_equal. lia.
Qed.

Lemma crash_recover : forall c slots k ls s k', cfg_ok c -> 20 <= log_size c -> blank c slots -> is_sync c = false ->
  reaches c slots k ls s -> no_lap c (start c slots k) ls -> no_restart ls ->
  exists n s' rec, run c (reborn c (sh s) k') (repeat (LRun 0) n) = Some s' /\
    x_state (sh s') = CHANNEL_STATE_RUNNING /\
    x_hold (sh s') = x_hold (sh s) /\ x_write (sh s') = x_hold (sh s) /\
    x_proc (sh s') = x_hold (sh s) /\ x_read (sh s') = x_hold (sh s) /\
    Forall (fun x => s_mark x = 0) (x_slots (sh s')) /\
    map snd (g_out (gh s')) =
      map (fun e => line c (snd e)) (firstn (Z.to_nat (gW (gh s) - gR (gh s))) (skipn (Z.to_nat (gR (gh s))) (g_held (gh s)))) ++
      map (flag_text c) rec /\
    zlen rec = zlen (g_held (gh s)) - gW (gh s) /\
    (forall j i m x, nth_error (skipn (Z.to_nat (gW (gh s))) (g_held (gh s))) j = Some (i, m) -> nth_error rec j = Some x ->
       unfinished c (nth_error (ths s) i) m x).
Proof.
  intros c slots k ls s k' C L20 B SY RE NL NR.
  pose proof (reach_inv _ _ _ _ _ C B RE NL NR) as IV.
  pose proof (reach_part _ _ _ _ _ C B RE NL NR) as LV.
  pose proof (reach_txt _ _ _ _ _ C B RE NL NR) as QT.
  assert (N : 0 < n_ring c) by (destruct C; lia).
  pose proof (i_ord _ _ _ _ IV) as OR. pose proof (i_held _ _ _ _ IV) as HL.
  set (g := gh s) in *. set (x := sh s) in *.
  destruct (revive_ok c N (Z.to_nat (n_ring c)) x (gW g) (gH g) (i_write _ _ _ _ IV) (i_hold _ _ _ _ IV)
    ltac:(lia) ltac:(lia) (i_len _ _ _ _ IV)) as (V1 & V2 & V3 & V4 & V5 & V6).
  unfold reborn. rewrite SY. set (v := revive (Z.to_nat (n_ring c)) c x) in *.
  set (v1 := put_ctl _ 0). set (g0 := mkGhost 0 0 0 0 [] [] []).
  assert (R1 : x_read v1 = ix c (gR g)) by (cbn; rewrite V3; apply (i_read _ _ _ _ IV)).
  assert (AT1 : forall a, at_ c v1 a = at_ c v a) by reflexivity.
  destruct (w_all c N (Z.to_nat (gH g - gR g)) v1 g0 (repeat (mkThr Idle [] 0) k') [] 0 (gR g) (gH g))
    as (n1 & x2 & g2 & a2 & E2 & P2 & R2 & W2 & H2 & S2 & L2 & O2 & M2 & K2).
  - lia.
  - lia.
  - exact V4.
  - cbn. rewrite V3. apply (i_read _ _ _ _ IV).
  - exact R1.
  - cbn. exact V1.
  - assert (S2' : x_state x2 = CHANNEL_STATE_NULL) by (rewrite S2; reflexivity).
    destruct (w_started c x2 g2 (repeat (mkThr Idle [] 0) k') [] a2 (gH g) P2 W2 S2') as (g3 & a3 & E3 & O3).
    exists (n1 + 3)%nat. eexists.
    exists (map (fun b => s_text (at_ c x (gW g + Z.of_nat b))) (seq 0 (Z.to_nat (gH g - gW g)))).
    split; [rewrite (run_split c n1 3 _ _ E2); exact E3|]. cbn [sh gh put_state x_state x_hold x_write x_proc x_read x_slots].
    rewrite (i_hold _ _ _ _ IV : x_hold x = ix c (gH g)).
    split; [reflexivity|]. split; [rewrite H2; exact V1|]. split; [assumption|]. split; [assumption|]. split; [assumption|].
    split; [|split; [|split]].
    + apply Forall_forall. intros y Y. apply In_nth_error in Y. destruct Y as [q Y].
      assert (q < length (x_slots x2))%nat by (apply nth_error_Some; congruence).
      assert (GQ : get x2 (Z.of_nat q) = y) by (unfold get; rewrite Nat2Z.id; apply nth_of_error; exact Y).
      (* the position in [gR, gR + n) that uses slot q *)
      set (a := gR g + (Z.of_nat q - gR g) mod n_ring c).
      pose proof (Z.mod_pos_bound (Z.of_nat q - gR g) (n_ring c) N) as MB.
      assert (IA : ix c a = Z.of_nat q).
      { unfold a, ix. rewrite Zplus_mod_idemp_r. replace (gR g + (Z.of_nat q - gR g)) with (Z.of_nat q) by ring.
        apply Z.mod_small. unfold zlen in L2. lia. }
      assert (AQ : at_ c x2 a = y) by (unfold at_; rewrite IA; exact GQ). rewrite <- AQ.
      destruct (Z_lt_dec a (gH g)) as [LT|GE]; [apply M2; unfold a in *; lia|].
      rewrite K2 by (unfold a in *; lia). rewrite AT1.
      rewrite V6 by (unfold a in *; lia). apply (i_free _ _ _ _ IV). fold g. unfold a in *; lia.
    + rewrite O3, O2. cbn [g0 g_out map app].
      replace (Z.to_nat (gH g - gR g)) with (Z.to_nat (gW g - gR g) + Z.to_nat (gH g - gW g))%nat by lia.
      rewrite seq_app, map_app. f_equal.
      * apply map_skip; [unfold zlen in HL; lia|]. intros b e Bb E. cbn beta. rewrite AT1.
        set (a := gR g + Z.of_nat b). assert (A : gR g <= a < gW g) by (unfold a; lia).
        assert (HA : held_at g a = Some e).
        { unfold held_at. replace (a <? 0) with false by (unfold a in *; lia). rewrite <- E. f_equal. unfold a. lia. }
        replace (at_ c v a) with (at_ c x a).
        2:{ symmetry. replace a with ((a + n_ring c) - n_ring c) by ring.
            assert (LAP : forall y z, at_ c y (z - n_ring c) = at_ c y z).
            { intros y z. unfold at_. rewrite <- (ix_lap c (z - n_ring c)). f_equal. f_equal. ring. }
            rewrite !LAP. apply V6. lia. }
        destruct (Z_lt_dec a (gP g)) as [LT|GE].
        -- destruct (QT a ltac:(lia)) as (i & m & H1 & H3). rewrite H3. rewrite HA in H1. injection H1 as ->. reflexivity.
        -- destruct (i_pub _ _ _ _ IV a ltac:(fold g; lia)) as (_ & i & m & H1 & H3).
           fold g in H1. fold x in H3. rewrite H3. rewrite HA in H1. injection H1 as ->. reflexivity.
      * rewrite map_map. rewrite Nat.add_0_l.
        rewrite <- (Nat.add_0_r (Z.to_nat (gW g - gR g))).
        assert (SS : forall p n, seq (p + 0) n = map (fun b => (p + b)%nat) (seq 0 n)).
        { intros p n. clear. rewrite Nat.add_0_r. revert p. induction n as [|n IH]; intros p; [reflexivity|].
          cbn [seq map]. f_equal; [lia|]. rewrite IH, <- seq_shift, map_map. apply map_ext. intros; lia. }
        rewrite SS, map_map. apply map_ext_in. intros b Bb. apply in_seq in Bb. rewrite AT1.
        replace (gR g + Z.of_nat (Z.to_nat (gW g - gR g) + b)) with (gW g + Z.of_nat b) by lia.
        rewrite V5 by lia. unfold rec_slot, flag_text. cbn [s_text]. rewrite core_len.
        replace (log_size c - 18 - 2) with (log_size c - 20) by ring. reflexivity.
    + unfold zlen. rewrite map_length, seq_length. unfold zlen in HL. lia.
    + intros j i m y HJ YJ.
      assert (J : (j < Z.to_nat (gH g - gW g))%nat).
      { assert (X : nth_error (map (fun b => s_text (at_ c x (gW g + Z.of_nat b))) (seq 0 (Z.to_nat (gH g - gW g)))) j <> None) by congruence.
        apply nth_error_Some in X. rewrite map_length, seq_length in X. exact X. }
      rewrite nth_error_map in YJ.
      rewrite (nth_error_nth' _ 0%nat) in YJ by (rewrite seq_length; exact J). rewrite seq_nth in YJ by exact J.
      cbn [option_map Nat.add] in YJ. injection YJ as <-.
      apply unfinished_at; [assumption|assumption|fold g; lia|].
      unfold held_at. fold g. replace (gW g + Z.of_nat j <? 0) with false by lia.
      rewrite <- HJ. clear - HL OR. replace (Z.to_nat (gW g + Z.of_nat j)) with (Z.to_nat (gW g) + j)%nat by lia.
      generalize (Z.to_nat (gW g)). clear. intros p. revert p. induction (g_held g) as [|e l IH]; intros [|p]; cbn; try reflexivity.
      * destruct j; reflexivity.
      * apply IH.
Qed.
