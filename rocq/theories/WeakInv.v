(* Every step of the queue in weak memory keeps the invariant of WeakProofs.v. *)
From Coq Require Import String ZArith List Bool Lia ZifyBool ZifyNat ZifyN.
From Verif Require Import Base BaseFacts LoggerState Ring RingInv WeakRing WeakSpec WeakProofs.
Import ListNotations.
Open Scope Z_scope.
Ltac Zify.zify_post_hook ::= idtac.

(* ---- threads that do not move ---- *)
Record grows (G G' : gts) (held held' : list (nat * text)) : Prop := mkGrows {
  gr_held : exists h, held' = held ++ h;
  gr_w : hW G <= hW G'; gr_p : hP G <= hP G'; gr_r : hR G <= hR G';
  gr_m : forall p k x, mts G p k = Some x -> mts G' p k = Some x;
  gr_d : forall p x, dts G p = Some x -> dts G' p = Some x
}.
Lemma knows_stable : forall c G G' mem mem' held held' n t, minv c G mem held -> grows G G' held held' -> knows c G mem held n t ->
  good (n_ring c) G' (w_view t) -> bounded mem' (w_view t) ->
  (fills t -> (forall k, mts G' (w_snap t) k = mts G (w_snap t) k) /\ dts G' (w_snap t) = dts G (w_snap t)) ->
  (reads t -> mts G' (w_snap t) 3 = mts G (w_snap t) 3) ->
  knows c G' mem' held' n t.
Proof.
  intros c G G' mem mem' held held' n t M [[h ->] GW GP GR GM GD] (GV & BV & OK) GV' BV' F R.
  split; [exact GV'|]. split; [exact BV'|]. unfold thr_ok in *. unfold fills, reads in F, R.
  assert (FO : forall i, fill_ok c G held n t i -> mts G' (w_snap t) 2 = mts G (w_snap t) 2 -> fill_ok c G' (held ++ h) n t i).
  { intros i (A1 & A2 & A3 & A4 & A5) E. split; [exact A1|]. split; [exact A2|]. split; [|split; [exact A4|rewrite E; exact A5]].
    rewrite nth_error_app1; [exact A3|]. apply nth_error_Some. rewrite A3. discriminate. }
  destruct (w_pc t) as [| |old|old|i|i|i| |old|old|old| |old|old|i|i| |old|old|old]; try exact OK.
  - destruct (F Logic.I) as (F1 & F2). destruct OK as (O1 & O2 & O3). rewrite F1, F2. split; [apply FO; [exact O1|apply F1]|auto].
  - destruct (F Logic.I) as (F1 & F2). destruct OK as (O1 & O2 & O3). rewrite F1, F2. split; [apply FO; [exact O1|apply F1]|auto].
  - destruct (F Logic.I) as (F1 & F2). destruct OK as (O1 & O2 & O3). rewrite F1, F2. split; [apply FO; [exact O1|apply F1]|auto].
  - destruct OK as (O1 & O2 & O3). split; [exact O1|]. split; [exact O2|]. intros E.
    pose proof (view_le c G mem held _ LWrite _ M BV eq_refl). destruct (O3 ltac:(lia)) as (x & X & L). exists x. split; [exact (GM _ _ _ X)|exact L].
  - destruct OK as (O1 & O2 & O3 & O4). rewrite (R Logic.I). split; [exact O1|]. split; [lia|auto].
  - destruct OK as (O1 & O2 & O3 & O4). rewrite (R Logic.I). split; [exact O1|]. split; [lia|auto].
  - destruct OK as (O1 & O2 & O3). split; [exact O1|]. split; [exact O2|]. intros E.
    pose proof (view_le c G mem held _ LRead _ M BV eq_refl). destruct (O3 ltac:(lia)) as (x & X & L). exists x. split; [exact (GM _ _ _ X)|exact L].
Qed.

Lemma fills_facts : forall c G mem held n t, minv c G mem held -> knows c G mem held n t -> fills t ->
  exists i, fill_ok c G held n t i /\ w_filling t = Some i.
Proof.
  intros c G mem held n t M (_ & _ & OK) F. unfold thr_ok, fills, w_filling in *. destruct (w_pc t); try contradiction; destruct OK as (O1 & _); eauto.
Qed.
Lemma fills_late : forall c G mem held n t, minv c G mem held -> knows c G mem held n t -> fills t -> hW G <= w_snap t < zlen held.
Proof.
  intros c G mem held n t M K F. destruct (fills_facts _ _ _ _ _ _ M K F) as (i & (O1 & O2 & O3 & O4 & O5) & _).
  destruct (Z_lt_ge_dec (w_snap t) (hW G)) as [L|L].
  - destruct (i_rdy _ _ _ _ M (w_snap t) ltac:(lia)) as (x & X). rewrite X in O5. discriminate.
  - split; [lia|]. assert (Z.to_nat (w_snap t) < length held)%nat by (apply nth_error_Some; rewrite O3; discriminate). unfold zlen. lia.
Qed.
Lemma reads_facts : forall c G mem held n t, knows c G mem held n t -> reads t ->
  0 <= w_snap t < hP G /\ w_snap t + 1 <= w_view t LProc /\ mts G (w_snap t) 3 = None /\ w_reading t = Some (w_snap t mod n_ring c).
Proof.
  intros c G mem held n t (_ & _ & OK) F. unfold thr_ok, reads, w_reading in *. destruct (w_pc t); try contradiction; destruct OK as (O1 & O2 & O3 & O4); subst; auto.
Qed.

(* ---- one thread moves ---- *)
Definition moved (s : wst) (n : nat) (mem : list msg) (t' : wthr) (held : list (nat * text)) (out : list (Z * text)) : wst :=
  mkWst mem (upd (w_ths s) n t') held out (w_started s).
Lemma apart_upd : forall ths n t t', nth_error ths n = Some t -> apart ths ->
  (fills t' -> forall m u, m <> n -> nth_error ths m = Some u -> fills u -> w_snap t' <> w_snap u) ->
  (reads t' -> forall m u, m <> n -> nth_error ths m = Some u -> reads u -> w_snap t' <> w_snap u) ->
  apart (upd ths n t').
Proof.
  intros ths n t t' N A F R m k u w U W D. apply upd_inv in U. apply upd_inv in W. destruct U as [(-> & ->)|(MN & U)], W as [(-> & ->)|(KN & W)].
  - contradiction.
  - split; intros X Y; [exact (F X k w KN W Y)|exact (R X k w KN W Y)].
  - split; intros X Y E; [exact (F Y m u MN U X (eq_sym E))|exact (R Y m u MN U X (eq_sym E))].
  - exact (A m k u w U W D).
Qed.
(* nothing but the thread changes *)
Lemma local_ok : forall c G s n t t' out, winv c G s -> nth_error (w_ths s) n = Some t -> knows c G (w_mem s) (w_held s) n t' ->
  (fills t' -> fills t /\ w_snap t' = w_snap t) -> (reads t' -> reads t /\ w_snap t' = w_snap t) ->
  winv c G (moved s n (w_mem s) t' (w_held s) out).
Proof.
  intros c G s n t t' out I N K F R. constructor; cbn [moved w_mem w_held w_ths].
  - exact (i_mem _ _ _ I).
  - intros m u U. apply upd_inv in U. destruct U as [(-> & ->)|(_ & U)]; [exact K|exact (i_thr _ _ _ I m u U)].
  - apply (apart_upd _ n t t' N (i_apart _ _ _ I)).
    + intros X m u D U Y. destruct (F X) as (X' & ->). exact (proj1 (i_apart _ _ _ I n m t u N U ltac:(congruence)) X' Y).
    + intros X m u D U Y. destruct (R X) as (X' & ->). exact (proj2 (i_apart _ _ _ I n m t u N U ltac:(congruence)) X' Y).
Qed.
(* memory and ghosts change *)
Lemma global_ok : forall c G G' s n t t' mem' held' out, winv c G s -> nth_error (w_ths s) n = Some t -> minv c G' mem' held' ->
  grows G G' (w_held s) held' -> (forall w, good (n_ring c) G w -> bounded (w_mem s) w -> good (n_ring c) G' w) ->
  (exists m, mem' = m :: w_mem s) -> knows c G' mem' held' n t' ->
  (forall m u, m <> n -> nth_error (w_ths s) m = Some u -> fills u ->
     (fills t' -> w_snap t' <> w_snap u) /\ (forall k, mts G' (w_snap u) k = mts G (w_snap u) k) /\ dts G' (w_snap u) = dts G (w_snap u)) ->
  (forall m u, m <> n -> nth_error (w_ths s) m = Some u -> reads u ->
     (reads t' -> w_snap t' <> w_snap u) /\ mts G' (w_snap u) 3 = mts G (w_snap u) 3) ->
  winv c G' (moved s n mem' t' held' out).
Proof.
  intros c G G' s n t t' mem' held' out I N M' GR GG (m0 & ->) K F R. constructor; cbn [moved w_mem w_held w_ths].
  - exact M'.
  - intros m u U. apply upd_inv in U. destruct U as [(-> & ->)|(D & U)]; [exact K|].
    pose proof (i_thr _ _ _ I m u U) as KU. pose proof KU as (GU & BU & _).
    apply (knows_stable c G G' (w_mem s) _ (w_held s) held' m u (i_mem _ _ _ I) GR KU (GG _ GU BU) (bounded_cons _ _ _ BU)).
    + intros X. destruct (F m u D U X) as (_ & A & B). split; assumption.
    + intros X. exact (proj2 (R m u D U X)).
  - apply (apart_upd _ n t t' N (i_apart _ _ _ I)).
    + intros X m u D U Y. exact (proj1 (F m u D U Y) X).
    + intros X m u D U Y. exact (proj1 (R m u D U Y) X).
Qed.

(* ---- the memory operations ---- *)
Lemma load_inv : forall c G mem held v l t m v', minv c G mem held -> good (n_ring c) G v -> bounded mem v -> w_load mem v l t = Some (m, v') ->
  In m mem /\ m_loc m = l /\ m_ts m = t /\ v l <= t <= v' l /\ (forall k, v k <= v' k) /\ good (n_ring c) G v' /\ bounded mem v'.
Proof.
  intros c G mem held v l t m v' M GD B H. unfold w_load in H. destruct (at_ts mem l t) as [x|] eqn:E; [|discriminate].
  destruct (v l <=? t) eqn:L; [|discriminate]. injection H as -> <-. apply at_in in E. destruct E as (I & E1 & E2).
  destruct (i_msg _ _ _ _ M m I) as (X & Y & Z). rewrite E1 in Z. split; [exact I|]. split; [exact E1|]. split; [exact E2|].
  split; [unfold vjoin; lia|]. split; [intros k; unfold vjoin; lia|]. split; [apply good_join; assumption|apply bounded_join; assumption].
Qed.
Lemma store_inv : forall mem v l t n x mem' v', w_store mem v l t n x = Some (mem', v') ->
  at_ts mem l t = None /\ v l < t /\ v' = vset v l t /\ mem' = mkMsg l t n x v' :: mem.
Proof.
  intros mem v l t n x mem' v' H. unfold w_store in H. destruct (at_ts mem l t); [discriminate|]. destruct (v l <? t) eqn:L; [|discriminate].
  injection H as <- <-. split; [reflexivity|]. split; [lia|auto].
Qed.
(* a compare-exchange that succeeds reads the latest store *)
Lemma cas_inv : forall c G mem held v l t old new mem' v2 g a, 0 < n_ring c -> minv c G mem held -> good (n_ring c) G v -> bounded mem v ->
  idx G held l = Some g -> w_cas mem v l t old new = Some (true, mem', v2) -> old = a mod n_ring c -> a <= v l ->
  (t mod n_ring c = old -> t - a < n_ring c) ->
  t = g /\ a = g /\ exists v', (forall k, v k <= v' k) /\ g <= v' l /\ good (n_ring c) G v' /\ bounded mem v' /\
    v2 = vset v' l (g + 1) /\ mem' = mkMsg l (g + 1) new [] v2 :: mem.
Proof.
  intros c G mem held v l t old new mem' v2 g a NP M GD B E H EO LA FR. unfold w_cas in H.
  destruct (w_load mem v l t) as [[m v']|] eqn:L; [|discriminate]. destruct (m_val m =? old) eqn:V; [|discriminate].
  destruct (w_store mem v' l (t + 1) new []) as [[mem2 v3]|] eqn:ST; [|discriminate]. injection H as -> ->.
  destruct (load_inv _ _ _ _ _ _ _ _ _ M GD B L) as (I & ML & MT & LV & UP & GV & BV).
  destruct (store_inv _ _ _ _ _ _ _ _ ST) as (FREE & LT & E2 & EM).
  rewrite <- ML in E. destruct (i_idx _ _ _ _ M m g I E) as (R & VAL). rewrite ML in E.
  assert (TG : t = g).
  { destruct (Z.eq_dec t g) as [|D]; [assumption|]. destruct (i_all _ _ _ _ M l g (t + 1) E ltac:(lia)) as (y & Y). rewrite Y in FREE. discriminate. }
  assert (AG : a = t). { apply (mod_close (n_ring c)); [exact NP| |]; [|split; [lia|]]; rewrite ?MT in *; [lia|]. specialize (FR ltac:(lia)). lia. }
  split; [exact TG|]. split; [lia|]. exists v'. rewrite TG in *. split; [exact UP|]. split; [lia|]. split; [exact GV|]. split; [exact BV|]. split; [exact E2|exact EM].
Qed.
Lemma cas_fail : forall c G mem held v l t old new mem' v2, minv c G mem held -> good (n_ring c) G v -> bounded mem v ->
  w_cas mem v l t old new = Some (false, mem', v2) -> mem' = mem /\ (forall k, v k <= v2 k) /\ good (n_ring c) G v2 /\ bounded mem v2.
Proof.
  intros c G mem held v l t old new mem' v2 M GD B H. unfold w_cas in H.
  destruct (w_load mem v l t) as [[m v']|] eqn:L; [|discriminate].
  destruct (load_inv _ _ _ _ _ _ _ _ _ M GD B L) as (_ & _ & _ & _ & UP & GV & BV).
  destruct (m_val m =? old); [destruct (w_store mem v' l (t + 1) new []) as [[? ?]|]; discriminate|]. injection H as <- <-. auto.
Qed.

Lemma nxt_mod : forall c g, 0 < n_ring c -> nxt c (g mod n_ring c) = (g + 1) mod n_ring c.
Proof. intros c g H. unfold nxt. apply Zplus_mod_idemp_l. Qed.

(* what one step does besides *)
Record moves (c : rcfg) (G G' : gts) (held : list (nat * text)) (t t' : wthr) (h : list text) (o : list (Z * text)) : Prop := mkMoves {
  mv_grows : hW G <= hW G' /\ hP G <= hP G' /\ hR G <= hR G';
  mv_marks : forall p k x, mts G p k = Some x -> mts G' p k = Some x;
  mv_claim : (exists i, w_pc t' = WCRead i) -> w_snap t' = hP G /\ hP G' = hP G + 1 /\ o = [] /\ exists i, w_pc t = WCCas i;
  mv_noclaim : (forall i, w_pc t' <> WCRead i) -> hP G' = hP G;
  mv_out : o = [] /\ (forall i, w_pc t <> WCRead i) \/ exists i x nd, w_pc t = WCRead i /\ w_pc t' = WCMark i /\ w_snap t' = w_snap t /\ o = [(w_snap t, x)] /\
    nth_error held (Z.to_nat (w_snap t)) = Some (nd, x);
  mv_mark : (exists i, w_pc t' = WCMark i) -> exists i, w_pc t = WCRead i;
  mv_clear : forall p x, mts G' p 3 = Some x -> mts G p 3 = Some x \/ p = w_snap t /\ exists i, w_pc t = WCMark i
}.

Lemma moves_local : forall c G held t t' , (forall i, w_pc t <> WCRead i) -> (forall i, w_pc t' <> WCRead i) -> (forall i, w_pc t' <> WCMark i) -> moves c G G held t t' [] [].
Proof.
  intros c G held t t' A B C. constructor.
  - lia.
  - auto.
  - intros (i & E). destruct (B i E).
  - reflexivity.
  - left. split; [reflexivity|exact A].
  - intros (i & E). destruct (C i E).
  - auto.
Qed.

Lemma w_ms : forall t p v, w_snap (w_go t p v) = w_snap t. Proof. reflexivity. Qed.

(* the threads that are not touched by a store to position [a] *)
Lemma run_ok : forall c G s n t rt wt mem' t' h o, 1 < n_ring c -> winv c G s -> nth_error (w_ths s) n = Some t -> w_fresh c s (XRun n rt wt) ->
  wstep c (w_mem s) t rt wt = Some (mem', t', h, o) ->
  exists G', winv c G' (moved s n mem' t' (w_held s ++ map (pair n) h) (w_out s ++ o)) /\ moves c G G' (w_held s) t t' h o.
Proof.
  intros c G s n t rt wt mem' t' h o NP I N FR H. pose proof (FR t N) as FT. clear FR. pose proof (i_mem _ _ _ I) as M. pose proof (i_thr _ _ _ I n t N) as K.
  pose proof K as (GD & B & OK). pose proof (i_order _ _ _ _ M) as ORD. assert (NP0 : 0 < n_ring c) by lia.
  assert (OF : forall m u, m <> n -> nth_error (w_ths s) m = Some u -> fills u -> hW G <= w_snap u < zlen (w_held s) /\ (fills t -> w_snap t <> w_snap u)).
  { intros m u D U F. split; [exact (fills_late _ _ _ _ _ _ M (i_thr _ _ _ I m u U) F)|]. intros X. exact (proj1 (i_apart _ _ _ I n m t u N U ltac:(congruence)) X F). }
  assert (OR : forall m u, m <> n -> nth_error (w_ths s) m = Some u -> reads u -> 0 <= w_snap u < hP G /\ (reads t -> w_snap t <> w_snap u)).
  { intros m u D U F. split; [exact (proj1 (reads_facts _ _ _ _ _ _ (i_thr _ _ _ I m u U) F))|]. intros X. exact (proj2 (i_apart _ _ _ I n m t u N U ltac:(congruence)) X F). }
  unfold wstep in H. unfold thr_ok in OK.
  destruct (w_pc t) as [| |old|old|i|i|i| |old|old|old| |old|old|i|i| |old|old|old] eqn:PC; try discriminate.
  - (* WHLoad *)
    destruct (w_load (w_mem s) (w_view t) LHold rt) as [[m v']|] eqn:L; [|discriminate]. injection H as <- <- <- <-.
    destruct (load_inv _ _ _ _ _ _ _ _ _ M GD B L) as (IM & ML & MT & LV & UP & GV & BV). exists G. rewrite !app_nil_r. split.
    + apply (local_ok c G s n t); [exact I|exact N| |contradiction|contradiction]. split; [exact GV|]. split; [exact BV|]. cbn.
      destruct (i_idx _ _ _ _ M m (zlen (w_held s)) IM ltac:(rewrite ML; reflexivity)) as (R1 & R2). split; [rewrite R2, MT; reflexivity|lia].
    + apply moves_local; intros i; try rewrite PC; discriminate.
  - (* WHRead *)
    destruct (w_load (w_mem s) (w_view t) LRead rt) as [[m v']|] eqn:L; [|discriminate]. injection H as <- <- <- <-.
    destruct (load_inv _ _ _ _ _ _ _ _ _ M GD B L) as (IM & ML & MT & LV & UP & GV & BV). exists G. rewrite !app_nil_r.
    destruct OK as (EO & LH). pose proof (i_idx _ _ _ _ M m (hR G) IM ltac:(rewrite ML; reflexivity)) as (R1 & R2).
    split; [|apply moves_local; intros i; cbn; rewrite ?PC; try destruct (nxt c old =? m_val m); discriminate].
    apply (local_ok c G s n t); [exact I|exact N| | |]; [|unfold fills; cbn; destruct (nxt c old =? m_val m); contradiction|unfold reads; cbn; destruct (nxt c old =? m_val m); contradiction].
    split; [exact GV|]. split; [exact BV|]. unfold thr_ok. cbn. destruct (nxt c old =? m_val m) eqn:FULL; [exact Logic.I|].
    split; [exact EO|]. pose proof (UP LHold). split; [lia|].
    pose proof (GD _ _ _ _ (r_hold _ _ (w_snap t)) LH) as RD. rewrite EO, (nxt_mod c _ ltac:(lia)), R2, MT in FULL.
    assert (rt <> w_snap t + 1 - n_ring c).
    { intros ->. apply Z.eqb_neq in FULL. apply FULL. replace (w_snap t + 1) with (w_snap t + 1 - n_ring c + 1 * n_ring c) at 1 by lia. apply Z.mod_add. lia. }
    lia.
  - (* WHCas *)
    destruct (w_cas (w_mem s) (w_view t) LHold rt old (nxt c old)) as [[[[|] mem2] v2]|] eqn:CS; try discriminate; injection H as <- <- <- <-.
    + destruct OK as (EO & LH & LR).
      destruct (cas_inv c G (w_mem s) (w_held s) (w_view t) LHold _ _ _ _ _ (zlen (w_held s)) (w_snap t) NP0 M GD B eq_refl CS EO LH FT) as (TG & AG & v' & UP & GL & GV & BV & E2 & EM).
      rewrite EO, AG, (nxt_mod c _ ltac:(lia)) in EM. pose proof (UP LRead) as UR. pose proof (view_le c G _ _ v' LRead _ M BV eq_refl) as RB.
      assert (GV2 : good (n_ring c) G (vset v' LHold (zlen (w_held s) + 1))).
      { intros l a l' b R Q. destruct (loc_eqb l LHold) eqn:EL.
        - apply loc_eqb_eq in EL. subst l. rewrite vset_same in Q. inversion R; subst. rewrite vset_other by discriminate. lia.
        - unfold vset in Q. rewrite EL in Q. pose proof (GV _ _ _ _ R Q). pose proof (vset_le v' LHold (zlen (w_held s) + 1) l' ltac:(pose proof (view_le c G (w_mem s) (w_held s) v' LHold _ M BV eq_refl); lia)). lia. }
      assert (ZL : zlen (w_held s ++ [(n, w_msg t)]) = zlen (w_held s) + 1) by (rewrite zlen_app; reflexivity).
      destruct (minv_idx c G (w_mem s) (w_held s) v' LHold (zlen (w_held s)) (hW G) (hP G) (hR G) [(n, w_msg t)] ltac:(lia) M GV BV eq_refl GL) as (M' & GV' & BV' & GO).
      { cbn [idx]. rewrite ZL. reflexivity. } { intros k D. destruct k; try reflexivity. contradiction. } { lia. } { lia. } { lia. } { lia. }
      { exact (i_rdy _ _ _ _ M). } { exact (i_clr _ _ _ _ M). } { exact GV2. }
      exists (put_i G (hW G) (hP G) (hR G)). cbn [map]. rewrite app_nil_r. rewrite <- E2 in M', GV', BV'. rewrite <- EM in M', BV'. split.
      * assert (KT : knows c (put_i G (hW G) (hP G) (hR G)) mem2 (w_held s ++ [(n, w_msg t)]) n (w_go_at t (WHMark old) rt v2)).
        { split; [exact GV'|]. split; [exact BV'|]. cbn. rewrite TG.
          assert (NM : forall k, mts G (zlen (w_held s)) k = None). { intros k. destruct (mts G (zlen (w_held s)) k) as [x|] eqn:X; [|reflexivity]. pose proof (i_dom _ _ _ _ M _ _ _ X). lia. }
          split; [|split; [apply NM|]].
          - unfold fill_ok. cbn. split; [congruence|]. split; [pose proof (zlen_nonneg _ (w_held s)); lia|]. split; [|split; [rewrite E2, vset_same; lia|apply NM]].
            unfold zlen. rewrite Nat2Z.id, nth_error_app2, Nat.sub_diag by lia. reflexivity.
          - destruct (dts G (zlen (w_held s))) as [x|] eqn:X; [|reflexivity]. pose proof (i_ddom _ _ _ _ M _ _ X). lia. }
        apply (global_ok c G (put_i G (hW G) (hP G) (hR G)) s n t); [exact I|exact N|exact M'| |intros w X _; exact (GO w X)|eexists; exact EM|exact KT| |].
        -- constructor; cbn; try lia; eauto.
        -- intros m u D U F. destruct (OF m u D U F). split; [|split; reflexivity]. intros _. cbn. lia.
        -- intros m u D U F. split; [contradiction|reflexivity].
      * constructor; cbn; try lia; auto; try (intros (j & E); discriminate). left. split; [reflexivity|]. intros j. rewrite PC. discriminate.
    + destruct (cas_fail _ _ _ _ _ _ _ _ _ _ _ M GD B CS) as (-> & UP & GV & BV). exists G. rewrite !app_nil_r. split; [|apply moves_local; intros i; cbn; rewrite ?PC; discriminate].
      apply (local_ok c G s n t); [exact I|exact N| |contradiction|contradiction]. split; [exact GV|]. split; [exact BV|]. exact Logic.I.
  - (* WHMark *)
    destruct (w_store (w_mem s) (w_view t) (LMark i) wt MARK_HOLD []) as [[mem2 v2]|] eqn:ST; [|discriminate]. injection H as <- <- <- <-.
    destruct (store_inv _ _ _ _ _ _ _ _ ST) as (FREE & LT & E2 & EM). destruct OK as ((O1 & O2 & O3 & O4 & O5) & O6 & O7). rewrite !app_nil_r.
    destruct (fill_seen c G (w_mem s) (w_held s) (w_view t) (w_snap t) i NP M GD B O1 O2 O4 O5) as (S1 & S2 & S3 & S4 & S5 & S6); [intros x X; rewrite O6 in X; discriminate|intros d X; rewrite O7 in X; discriminate|].
    pose proof (fills_late c G (w_mem s) (w_held s) n t M K ltac:(unfold fills; rewrite PC; exact Logic.I)) as LATE.
    rewrite O1 in *.
    destruct (minv_mark c G (w_mem s) (w_held s) (w_view t) (w_snap t) 1 wt MARK_HOLD M GD B ltac:(lia) ltac:(lia) O6 LT eq_refl S1 S5) as (M' & GV' & BV' & GO).
    { intros q j x QE QX. destruct (S3 q j x QE QX) as [(-> & ->)|]; [rewrite O6 in QX; discriminate|lia]. }
    { discriminate. } { discriminate. } { discriminate. }
    rewrite <- E2 in M', GV', BV'. rewrite <- EM in M', BV'. exists (put_m G (w_snap t) 1 wt). split.
    + assert (KT : knows c (put_m G (w_snap t) 1 wt) mem2 (w_held s) n (w_go t (WFill (w_snap t mod n_ring c)) v2)).
      { split; [exact GV'|]. split; [exact BV'|]. cbn [thr_ok w_pc w_go w_snap w_view w_msg]. split; [|split; [|exact O7]].
        - unfold fill_ok. cbn [w_go w_snap w_view w_msg]. split; [reflexivity|]. split; [exact O2|]. split; [exact O3|]. split; [rewrite E2, vset_other by discriminate; exact O4|].
          cbn. rewrite Z.eqb_refl. exact O5.
        - exists wt. split; [apply put_m_new|]. rewrite E2, vset_same. lia. }
      apply (global_ok c G _ s n t); [exact I|exact N|exact M'| |exact GO|eexists; exact EM|exact KT| |].
      * constructor; cbn [put_m hW hP hR dts]; try lia; eauto; [exists []; symmetry; apply app_nil_r|intros; apply put_m_old; assumption].
      * intros m u D U F. destruct (OF m u D U F) as (_ & NE). specialize (NE ltac:(unfold fills; rewrite PC; exact Logic.I)). split; [intros _; exact NE|].
        split; [|reflexivity]. intros k. cbn. replace (w_snap u =? w_snap t) with false by lia. reflexivity.
      * intros m u D U F. split; [contradiction|]. cbn. replace (3 =? 1) with false by lia. rewrite andb_false_r. reflexivity.
    + constructor; cbn [put_m hW hP hR]; try lia; auto; try (intros (j & E); discriminate).
      * intros; apply put_m_old; assumption.
      * left. split; [reflexivity|]. intros j. rewrite PC. discriminate.
      * intros p x X. apply put_m_inv in X. destruct X as [(_ & E & _)|X]; [discriminate|left; exact X].
  - (* WFill *)
    destruct (w_store (w_mem s) (w_view t) (LRec i) wt 0 (w_msg t)) as [[mem2 v2]|] eqn:ST; [|discriminate]. injection H as <- <- <- <-.
    destruct (store_inv _ _ _ _ _ _ _ _ ST) as (FREE & LT & E2 & EM). destruct OK as ((O1 & O2 & O3 & O4 & O5) & (x1 & O6 & O6') & O7). rewrite !app_nil_r.
    destruct (fill_seen c G (w_mem s) (w_held s) (w_view t) (w_snap t) i NP M GD B O1 O2 O4 O5) as (S1 & S2 & S3 & S4 & S5 & S6); [intros x X; rewrite O6 in X; injection X as <-; exact O6'|intros d X; rewrite O7 in X; discriminate|].
    pose proof (fills_late c G (w_mem s) (w_held s) n t M K ltac:(unfold fills; rewrite PC; exact Logic.I)) as LATE.
    rewrite O1 in *.
    destruct (minv_rec c G (w_mem s) (w_held s) (w_view t) (w_snap t) wt (w_msg t) n M GD B ltac:(lia) O7 O5 LT O3 S6 S4) as (M' & GV' & BV' & GO).
    rewrite <- E2 in M', GV', BV'. rewrite <- EM in M', BV'. exists (put_d G (w_snap t) wt). split.
    + assert (KT : knows c (put_d G (w_snap t) wt) mem2 (w_held s) n (w_go t (WPMark (w_snap t mod n_ring c)) v2)).
      { split; [exact GV'|]. split; [exact BV'|]. cbn [thr_ok w_pc w_go w_snap w_view w_msg]. split; [|split].
        - unfold fill_ok. cbn [w_go w_snap w_view w_msg]. split; [reflexivity|]. split; [exact O2|]. split; [exact O3|]. split; [rewrite E2, vset_other by discriminate; exact O4|exact O5].
        - exists x1. split; [exact O6|]. rewrite E2, vset_other by discriminate. exact O6'.
        - exists wt. split; [cbn; rewrite Z.eqb_refl; reflexivity|]. rewrite E2, vset_same. lia. }
      apply (global_ok c G _ s n t); [exact I|exact N|exact M'| |intros w X _; exact (GO w X)|eexists; exact EM|exact KT| |].
      * constructor; cbn [put_d hW hP hR mts dts]; try lia; eauto; [exists []; symmetry; apply app_nil_r|].
        intros p x X. destruct (Z.eqb_spec p (w_snap t)) as [->|]; [rewrite O7 in X; discriminate|exact X].
      * intros m u D U F. destruct (OF m u D U F) as (_ & NE). specialize (NE ltac:(unfold fills; rewrite PC; exact Logic.I)). split; [intros _; exact NE|].
        split; [reflexivity|]. cbn. replace (w_snap u =? w_snap t) with false by lia. reflexivity.
      * intros m u D U F. split; [contradiction|reflexivity].
    + constructor; cbn [put_d hW hP hR]; try lia; auto; try (intros (j & E); discriminate). left. split; [reflexivity|]. intros j. rewrite PC. discriminate.
  - (* WPMark *)
    destruct (w_store (w_mem s) (w_view t) (LMark i) wt MARK_READY []) as [[mem2 v2]|] eqn:ST; [|discriminate]. injection H as <- <- <- <-.
    destruct (store_inv _ _ _ _ _ _ _ _ ST) as (FREE & LT & E2 & EM). destruct OK as ((O1 & O2 & O3 & O4 & O5) & (x1 & O6 & O6') & (d1 & O7 & O7')). rewrite !app_nil_r.
    destruct (fill_seen c G (w_mem s) (w_held s) (w_view t) (w_snap t) i NP M GD B O1 O2 O4 O5) as (S1 & S2 & S3 & S4 & S5 & S6); [intros x X; rewrite O6 in X; injection X as <-; exact O6'|intros d X; rewrite O7 in X; injection X as <-; exact O7'|].
    pose proof (fills_late c G (w_mem s) (w_held s) n t M K ltac:(unfold fills; rewrite PC; exact Logic.I)) as LATE.
    rewrite O1 in *.
    destruct (minv_mark c G (w_mem s) (w_held s) (w_view t) (w_snap t) 2 wt MARK_READY M GD B ltac:(lia) ltac:(lia) O5 LT eq_refl S1 S5) as (M' & GV' & BV' & GO).
    { intros q j x QE QX. destruct (S3 q j x QE QX) as [(-> & ->)|]; lia. }
    { intros _. exists d1. split; [exact O7|exact O7']. } { intros _. exact O4. } { discriminate. }
    rewrite <- E2 in M', GV', BV'. rewrite <- EM in M', BV'. exists (put_m G (w_snap t) 2 wt). split.
    + apply (global_ok c G _ s n t); [exact I|exact N|exact M'| |exact GO|eexists; exact EM|split; [exact GV'|split; [exact BV'|exact Logic.I]]| |].
      * constructor; cbn [put_m hW hP hR dts]; try lia; eauto; [exists []; symmetry; apply app_nil_r|intros; apply put_m_old; assumption].
      * intros m u D U F. destruct (OF m u D U F) as (_ & NE). specialize (NE ltac:(unfold fills; rewrite PC; exact Logic.I)). split; [contradiction|].
        split; [|reflexivity]. intros k. cbn. replace (w_snap u =? w_snap t) with false by lia. reflexivity.
      * intros m u D U F. split; [contradiction|]. cbn. replace (3 =? 2) with false by lia. rewrite andb_false_r. reflexivity.
    + constructor; cbn [put_m hW hP hR]; try lia; auto; try (intros (j & E); discriminate).
      * intros; apply put_m_old; assumption.
      * left. split; [reflexivity|]. intros j. rewrite PC. discriminate.
      * intros p x X. apply put_m_inv in X. destruct X as [(_ & E & _)|X]; [discriminate|left; exact X].
  - (* WPLoad *)
    destruct (w_load (w_mem s) (w_view t) LWrite rt) as [[m v']|] eqn:L; [|discriminate]. injection H as <- <- <- <-.
    destruct (load_inv _ _ _ _ _ _ _ _ _ M GD B L) as (IM & ML & MT & LV & UP & GV & BV). exists G. rewrite !app_nil_r. split.
    + apply (local_ok c G s n t); [exact I|exact N| |contradiction|contradiction]. split; [exact GV|]. split; [exact BV|]. cbn.
      destruct (i_idx _ _ _ _ M m (hW G) IM ltac:(rewrite ML; reflexivity)) as (R1 & R2). split; [rewrite R2, MT; reflexivity|lia].
    + apply moves_local; intros i; try rewrite PC; discriminate.
  - (* WPHold *)
    destruct (w_load (w_mem s) (w_view t) LHold rt) as [[m v']|] eqn:L; [|discriminate]. injection H as <- <- <- <-.
    destruct (load_inv _ _ _ _ _ _ _ _ _ M GD B L) as (IM & ML & MT & LV & UP & GV & BV). exists G. rewrite !app_nil_r. destruct OK as (EO & LW).
    split; [|apply moves_local; intros i; cbn; rewrite ?PC; try destruct (old =? m_val m); try destruct (is_sync c); discriminate].
    apply (local_ok c G s n t); [exact I|exact N| | |].
    + split; [exact GV|]. split; [exact BV|]. unfold thr_ok. cbn. destruct (old =? m_val m); [destruct (is_sync c); exact Logic.I|]. split; [exact EO|]. pose proof (UP LWrite). lia.
    + unfold fills. cbn. destruct (old =? m_val m); [destruct (is_sync c)|]; contradiction.
    + unfold reads. cbn. destruct (old =? m_val m); [destruct (is_sync c)|]; contradiction.
  - (* WPReady *)
    destruct (w_load (w_mem s) (w_view t) (LMark old) rt) as [[m v']|] eqn:L; [|discriminate]. injection H as <- <- <- <-.
    destruct (load_inv _ _ _ _ _ _ _ _ _ M GD B L) as (IM & ML & MT & LV & UP & GV & BV). exists G. rewrite !app_nil_r. destruct OK as (EO & LW).
    split; [|apply moves_local; intros i; cbn; rewrite ?PC; try destruct (m_val m =? MARK_READY); try destruct (is_sync c); discriminate].
    apply (local_ok c G s n t); [exact I|exact N| | |].
    + split; [exact GV|]. split; [exact BV|]. unfold thr_ok. cbn. destruct (m_val m =? MARK_READY) eqn:V; [|destruct (is_sync c); exact Logic.I]. split; [exact EO|].
      pose proof (UP LWrite). split; [lia|]. intros HW. destruct (i_mark _ _ _ _ M m old IM ML) as [(_ & Z)|(p & k & PE & PX & PV)]; [rewrite Z in V; discriminate|].
      pose proof (i_dom _ _ _ _ M p k _ PX) as (PD & KD & _ & _).
      assert (KE : k = 2). { unfold stage in PV. destruct (Z.eqb_spec k 1); [rewrite PV in V; discriminate|]. destruct (Z.eqb_spec k 2); [assumption|]. rewrite PV in V. discriminate. }
      subst k. rewrite MT in PX. destruct (Z.lt_trichotomy p (w_snap t)) as [PL|[->|PL]].
      * exfalso. pose proof (mod_gap (n_ring c) p (w_snap t) ltac:(lia) ltac:(congruence) PL) as GAP.
        pose proof (GD _ _ _ _ (r_write _ _ (w_snap t)) LW) as HH. pose proof (GD _ _ _ _ (r_hold _ _ (w_snap t)) HH) as RD.
        pose proof (view_le c G _ _ (w_view t) LRead _ M B eq_refl) as RB.
        destruct (i_clr _ _ _ _ M p ltac:(lia)) as (y & Y). pose proof (GD _ _ _ _ (r_clr _ _ (w_view t LRead) p y ltac:(lia) Y) ltac:(lia)) as CV.
        pose proof (i_mono _ _ _ _ M p 2 rt p 3 y eq_refl PX Y ltac:(lia)). rewrite PE in CV. lia.
      * exists rt. split; [exact PX|lia].
      * exfalso. pose proof (mod_gap (n_ring c) (w_snap t) p ltac:(lia) ltac:(congruence) PL) as GAP. lia.
    + unfold fills. cbn. destruct (m_val m =? MARK_READY); [|destruct (is_sync c)]; contradiction.
    + unfold reads. cbn. destruct (m_val m =? MARK_READY); [|destruct (is_sync c)]; contradiction.
  - (* WPCas *)
    destruct (w_cas (w_mem s) (w_view t) LWrite rt old (nxt c old)) as [[[[|] mem2] v2]|] eqn:CS; try discriminate; injection H as <- <- <- <-.
    + destruct OK as (EO & LW & RDY).
      destruct (cas_inv c G (w_mem s) (w_held s) (w_view t) LWrite _ _ _ _ _ (hW G) (w_snap t) NP0 M GD B eq_refl CS EO LW FT) as (TG & AG & v' & UP & GL & GV & BV & E2 & EM).
      rewrite EO, AG, (nxt_mod c _ ltac:(lia)) in EM. destruct (RDY (eq_sym AG)) as (x & X & XL). rewrite AG in X. rewrite EO, AG in XL.
      pose proof (UP (LMark (hW G mod n_ring c))) as UM.
      assert (HH : hW G + 1 <= v' LHold) by exact (GV _ _ _ _ (r_own _ _ (hW G) x X) ltac:(lia)).
      pose proof (view_le c G _ _ v' LHold _ M BV eq_refl) as HB. cbn in HB.
      assert (GV2 : good (n_ring c) G (vset v' LWrite (hW G + 1))).
      { intros l a l' b R Q. destruct (loc_eqb l LWrite) eqn:EL.
        - apply loc_eqb_eq in EL. subst l. rewrite vset_same in Q. inversion R; subst; rewrite vset_other by discriminate; [lia|].
          match goal with X2 : mts G ?q 2 = Some b |- _ => destruct (Z.eq_dec q (hW G)) as [->|D]; [rewrite X in X2; injection X2 as <-; lia|exact (GV _ _ _ _ (r_rdy _ _ (hW G) q b ltac:(lia) X2) GL)] end.
        - unfold vset in Q. rewrite EL in Q. pose proof (GV _ _ _ _ R Q). pose proof (vset_le v' LWrite (hW G + 1) l' ltac:(pose proof (view_le c G (w_mem s) (w_held s) v' LWrite _ M BV eq_refl); lia)). lia. }
      destruct (minv_idx c G (w_mem s) (w_held s) v' LWrite (hW G) (hW G + 1) (hP G) (hR G) [] ltac:(lia) M GV BV eq_refl GL) as (M' & GV' & BV' & GO).
      { reflexivity. } { intros k D. rewrite app_nil_r. destruct k; try reflexivity. contradiction. } { rewrite app_nil_r. lia. } { lia. } { lia. } { lia. }
      { intros p P. destruct (Z.eq_dec p (hW G)) as [->|]; [eauto|]. apply (i_rdy _ _ _ _ M). lia. } { exact (i_clr _ _ _ _ M). } { exact GV2. }
      exists (put_i G (hW G + 1) (hP G) (hR G)). cbn [map]. rewrite <- E2 in M', GV', BV'. rewrite <- EM in M', BV'. rewrite app_nil_r in *. split.
      * apply (global_ok c G _ s n t); [exact I|exact N|exact M'| |intros w Y _; exact (GO w Y)|eexists; exact EM|split; [exact GV'|split; [exact BV'|exact Logic.I]]| |].
        -- constructor; cbn; try lia; eauto. exists []. symmetry. apply app_nil_r.
        -- intros m u D U F. split; [contradiction|split; reflexivity].
        -- intros m u D U F. split; [contradiction|reflexivity].
      * constructor; cbn; try lia; auto; try (intros (j & E); discriminate). left. split; [reflexivity|]. intros j. rewrite PC. discriminate.
    + destruct (cas_fail _ _ _ _ _ _ _ _ _ _ _ M GD B CS) as (-> & UP & GV & BV). exists G. rewrite !app_nil_r. split; [|apply moves_local; intros i; cbn; rewrite ?PC; discriminate].
      apply (local_ok c G s n t); [exact I|exact N| |contradiction|contradiction]. split; [exact GV|]. split; [exact BV|]. exact Logic.I.
  - (* WCLoad *)
    destruct (w_load (w_mem s) (w_view t) LProc rt) as [[m v']|] eqn:L; [|discriminate]. injection H as <- <- <- <-.
    destruct (load_inv _ _ _ _ _ _ _ _ _ M GD B L) as (IM & ML & MT & LV & UP & GV & BV). exists G. rewrite !app_nil_r. split.
    + apply (local_ok c G s n t); [exact I|exact N| |contradiction|contradiction]. split; [exact GV|]. split; [exact BV|]. cbn.
      destruct (i_idx _ _ _ _ M m (hP G) IM ltac:(rewrite ML; reflexivity)) as (R1 & R2). split; [rewrite R2, MT; reflexivity|lia].
    + apply moves_local; intros i; try rewrite PC; discriminate.
  - (* WCWrite *)
    destruct (w_load (w_mem s) (w_view t) LWrite rt) as [[m v']|] eqn:L; [|discriminate]. injection H as <- <- <- <-.
    destruct (load_inv _ _ _ _ _ _ _ _ _ M GD B L) as (IM & ML & MT & LV & UP & GV & BV). exists G. rewrite !app_nil_r. destruct OK as (EO & LP).
    pose proof (i_idx _ _ _ _ M m (hW G) IM ltac:(rewrite ML; reflexivity)) as (R1 & R2).
    split; [|apply moves_local; intros i; cbn; rewrite ?PC; try destruct (old =? m_val m); try destruct (is_sync c); discriminate].
    apply (local_ok c G s n t); [exact I|exact N| | |].
    + split; [exact GV|]. split; [exact BV|]. unfold thr_ok. cbn. destruct (old =? m_val m) eqn:V; [destruct (is_sync c); exact Logic.I|]. split; [exact EO|].
      pose proof (UP LProc). pose proof (UP LWrite). split; [lia|]. pose proof (GD _ _ _ _ (r_proc _ _ (w_snap t)) LP) as WV.
      assert (rt <> w_snap t). { intros ->. rewrite EO, R2, MT in V. lia. } lia.
    + unfold fills. cbn. destruct (old =? m_val m); [destruct (is_sync c)|]; contradiction.
    + unfold reads. cbn. destruct (old =? m_val m); [destruct (is_sync c)|]; contradiction.
  - (* WCCas *)
    destruct (w_cas (w_mem s) (w_view t) LProc rt old (nxt c old)) as [[[[|] mem2] v2]|] eqn:CS; try discriminate; injection H as <- <- <- <-.
    + destruct OK as (EO & LP & LW).
      destruct (cas_inv c G (w_mem s) (w_held s) (w_view t) LProc _ _ _ _ _ (hP G) (w_snap t) NP0 M GD B eq_refl CS EO LP FT) as (TG & AG & v' & UP & GL & GV & BV & E2 & EM).
      rewrite EO, AG, (nxt_mod c _ ltac:(lia)) in EM. pose proof (UP LWrite) as UW.
      pose proof (view_le c G _ _ v' LWrite _ M BV eq_refl) as WB. cbn in WB.
      assert (GV2 : good (n_ring c) G (vset v' LProc (hP G + 1))).
      { intros l a l' b R Q. destruct (loc_eqb l LProc) eqn:EL.
        - apply loc_eqb_eq in EL. subst l. rewrite vset_same in Q. inversion R; subst; rewrite vset_other by discriminate. lia.
        - unfold vset in Q. rewrite EL in Q. pose proof (GV _ _ _ _ R Q). pose proof (vset_le v' LProc (hP G + 1) l' ltac:(pose proof (view_le c G (w_mem s) (w_held s) v' LProc _ M BV eq_refl); lia)). lia. }
      destruct (minv_idx c G (w_mem s) (w_held s) v' LProc (hP G) (hW G) (hP G + 1) (hR G) [] ltac:(lia) M GV BV eq_refl GL) as (M' & GV' & BV' & GO).
      { reflexivity. } { intros k D. rewrite app_nil_r. destruct k; try reflexivity. contradiction. } { rewrite app_nil_r. lia. } { lia. } { lia. } { lia. }
      { exact (i_rdy _ _ _ _ M). } { exact (i_clr _ _ _ _ M). } { exact GV2. }
      exists (put_i G (hW G) (hP G + 1) (hR G)). cbn [map]. rewrite <- E2 in M', GV', BV'. rewrite <- EM in M', BV'. rewrite app_nil_r in *. split.
      * assert (KT : knows c (put_i G (hW G) (hP G + 1) (hR G)) mem2 (w_held s) n (w_go_at t (WCRead old) rt v2)).
        { split; [exact GV'|]. split; [exact BV'|]. cbn. rewrite TG. split; [congruence|]. split; [lia|]. split; [rewrite E2, vset_same; lia|].
          destruct (mts G (hP G) 3) as [x|] eqn:X; [|reflexivity]. pose proof (i_dom _ _ _ _ M _ _ _ X) as (_ & _ & _ & Y). specialize (Y eq_refl). lia. }
        apply (global_ok c G _ s n t); [exact I|exact N|exact M'| |intros w Y _; exact (GO w Y)|eexists; exact EM|exact KT| |].
        -- constructor; cbn; try lia; eauto. exists []. symmetry. apply app_nil_r.
        -- intros m u D U F. split; [contradiction|split; reflexivity].
        -- intros m u D U F. destruct (OR m u D U F). split; [|reflexivity]. intros _. cbn. lia.
      * constructor; cbn; try lia; auto.
        -- intros _. split; [exact TG|]. split; [reflexivity|]. split; [reflexivity|eauto].
        -- intros Q. destruct (Q old eq_refl).
        -- left. split; [reflexivity|]. intros j. rewrite PC. discriminate.
        -- intros (j & E); discriminate.
    + destruct (cas_fail _ _ _ _ _ _ _ _ _ _ _ M GD B CS) as (-> & UP & GV & BV). exists G. rewrite !app_nil_r.
      split; [|apply moves_local; intros i; cbn; rewrite ?PC; try destruct (is_sync c); discriminate].
      apply (local_ok c G s n t); [exact I|exact N| | |]; unfold fills, reads; cbn; destruct (is_sync c); try contradiction; (split; [exact GV|]; split; [exact BV|]; exact Logic.I).
  - (* WCRead *)
    destruct OK as (O1 & O2 & O3 & O4). unfold w_plain in H. destruct (at_ts (w_mem s) (LRec i) rt) as [m|] eqn:A; [|discriminate].
    destruct (w_view t (LRec i) <=? rt) eqn:L; [|discriminate]. injection H as <- <- <- <-. apply at_in in A. destruct A as (IM & ML & MT).
    destruct (read_seen c G (w_mem s) (w_held s) (w_view t) (w_snap t) NP M GD B O2 O3 O4) as (S1 & S2 & (d & D & DL) & _ & S5 & S6 & _). rewrite <- O1 in *.
    pose proof (S2 m IM ML) as LE. assert (RT : rt = w_view t (LRec i)) by lia.
    destruct (i_rec _ _ _ _ M m i IM ML) as [Z|(p & nd & PE & PX & PH)]; [pose proof (i_ddom _ _ _ _ M _ _ D); lia|].
    assert (PA : p = w_snap t).
    { pose proof (S6 p _ PE PX) as PL. destruct (Z.eq_dec p (w_snap t)) as [|NE]; [assumption|]. pose proof (i_dmono _ _ _ _ M p _ (w_snap t) d ltac:(congruence) PX D ltac:(lia)). lia. }
    subst p. exists G. cbn [map]. rewrite !app_nil_r. split.
    + apply (local_ok c G s n t); [exact I|exact N| |contradiction|intros _; split; [unfold reads; rewrite PC; exact Logic.I|reflexivity]].
      assert (VS : forall k, vset (w_view t) (LRec i) rt k = w_view t k).
      { intros k. unfold vset. destruct (loc_eqb k (LRec i)) eqn:EK; [apply loc_eqb_eq in EK; subst k; exact RT|reflexivity]. }
      split; [intros l a l' b R Q; cbn [w_go w_view] in *; rewrite VS in *; exact (GD _ _ _ _ R Q)|]. split; [intros k; cbn [w_go w_view]; rewrite VS; exact (B k)|].
      unfold thr_ok. cbn [w_pc w_go w_snap w_view]. rewrite VS. auto.
    + constructor; auto; try lia.
      * intros (j & E). discriminate E.
      * right. exists i, (m_txt m), nd. split; [exact PC|]. split; [reflexivity|]. split; [reflexivity|]. split; [reflexivity|exact PH].
      * intros _. exists i. exact PC.
  - (* WCMark *)
    destruct (w_store (w_mem s) (w_view t) (LMark i) wt MARK_INVALID []) as [[mem2 v2]|] eqn:ST; [|discriminate]. injection H as <- <- <- <-.
    destruct (store_inv _ _ _ _ _ _ _ _ ST) as (FREE & LT & E2 & EM). destruct OK as (O1 & O2 & O3 & O4). rewrite !app_nil_r.
    destruct (read_seen c G (w_mem s) (w_held s) (w_view t) (w_snap t) NP M GD B O2 O3 O4) as (S1 & S2 & _ & _ & S5 & S6 & S7). rewrite O1 in *.
    destruct (minv_mark c G (w_mem s) (w_held s) (w_view t) (w_snap t) 3 wt MARK_INVALID M GD B ltac:(lia) ltac:(lia) O4 LT eq_refl S1 S7 S5) as (M' & GV' & BV' & GO).
    { discriminate. } { discriminate. } { intros _. exact O3. }
    rewrite <- E2 in M', GV', BV'. rewrite <- EM in M', BV'. exists (put_m G (w_snap t) 3 wt). split.
    + apply (global_ok c G _ s n t); [exact I|exact N|exact M'| |exact GO|eexists; exact EM|split; [exact GV'|split; [exact BV'|exact Logic.I]]| |].
      * constructor; cbn [put_m hW hP hR dts]; try lia; eauto; [exists []; symmetry; apply app_nil_r|intros; apply put_m_old; assumption].
      * intros m u D U F. destruct (OF m u D U F) as (LU & _). split; [contradiction|].
        split; [|reflexivity]. intros k. cbn. replace (w_snap u =? w_snap t) with false by lia. reflexivity.
      * intros m u D U F. destruct (OR m u D U F) as (_ & NE). specialize (NE ltac:(unfold reads; rewrite PC; exact Logic.I)). split; [contradiction|].
        cbn. replace (w_snap u =? w_snap t) with false by lia. reflexivity.
    + constructor; cbn [put_m hW hP hR]; try lia; auto; try (intros (j & E); discriminate).
      * intros; apply put_m_old; assumption.
      * left. split; [reflexivity|]. intros j. rewrite PC. discriminate.
      * intros p x X. apply put_m_inv in X. destruct X as [(-> & _ & _)|X]; [right; eauto|left; exact X].
  - (* WRLoad *)
    destruct (w_load (w_mem s) (w_view t) LRead rt) as [[m v']|] eqn:L; [|discriminate]. injection H as <- <- <- <-.
    destruct (load_inv _ _ _ _ _ _ _ _ _ M GD B L) as (IM & ML & MT & LV & UP & GV & BV). exists G. rewrite !app_nil_r. split.
    + apply (local_ok c G s n t); [exact I|exact N| |contradiction|contradiction]. split; [exact GV|]. split; [exact BV|]. cbn.
      destruct (i_idx _ _ _ _ M m (hR G) IM ltac:(rewrite ML; reflexivity)) as (R1 & R2). split; [rewrite R2, MT; reflexivity|lia].
    + apply moves_local; intros i; try rewrite PC; discriminate.
  - (* WRProc *)
    destruct (w_load (w_mem s) (w_view t) LProc rt) as [[m v']|] eqn:L; [|discriminate]. injection H as <- <- <- <-.
    destruct (load_inv _ _ _ _ _ _ _ _ _ M GD B L) as (IM & ML & MT & LV & UP & GV & BV). exists G. rewrite !app_nil_r. destruct OK as (EO & LR).
    pose proof (i_idx _ _ _ _ M m (hP G) IM ltac:(rewrite ML; reflexivity)) as (R1 & R2).
    split; [|apply moves_local; intros i; cbn; rewrite ?PC; try destruct (old =? m_val m); discriminate].
    apply (local_ok c G s n t); [exact I|exact N| | |].
    + split; [exact GV|]. split; [exact BV|]. unfold thr_ok. cbn. destruct (old =? m_val m) eqn:V; [exact Logic.I|]. split; [exact EO|].
      pose proof (UP LProc). pose proof (UP LRead). split; [lia|]. pose proof (GD _ _ _ _ (r_read _ _ (w_snap t)) LR) as PV.
      assert (rt <> w_snap t). { intros ->. rewrite EO, R2, MT in V. lia. } lia.
    + unfold fills. cbn. destruct (old =? m_val m); contradiction.
    + unfold reads. cbn. destruct (old =? m_val m); contradiction.
  - (* WRMark *)
    destruct (w_load (w_mem s) (w_view t) (LMark old) rt) as [[m v']|] eqn:L; [|discriminate]. injection H as <- <- <- <-.
    destruct (load_inv _ _ _ _ _ _ _ _ _ M GD B L) as (IM & ML & MT & LV & UP & GV & BV). exists G. rewrite !app_nil_r. destruct OK as (EO & LR & LP).
    split; [|apply moves_local; intros i; cbn; rewrite ?PC; try destruct (m_val m =? MARK_INVALID); discriminate].
    apply (local_ok c G s n t); [exact I|exact N| | |].
    + split; [exact GV|]. split; [exact BV|]. unfold thr_ok. cbn. destruct (m_val m =? MARK_INVALID) eqn:V; [|exact Logic.I]. split; [exact EO|].
      pose proof (UP LRead). split; [lia|]. intros HR. pose proof (GD _ _ _ _ (r_proc _ _ (w_snap t + 1)) LP) as WV.
      pose proof (view_le c G _ _ (w_view t) LProc _ M B eq_refl) as PB. cbn in PB.
      destruct (i_rdy _ _ _ _ M (w_snap t) ltac:(lia)) as (y & Y). pose proof (GD _ _ _ _ (r_rdy _ _ (w_snap t + 1) (w_snap t) y ltac:(lia) Y) WV) as YV. rewrite <- EO in YV.
      pose proof (i_dom _ _ _ _ M _ _ _ Y) as (_ & _ & Y0 & _).
      destruct (i_mark _ _ _ _ M m old IM ML) as [(Z & _)|(p & k & PE & PX & PV)]; [lia|].
      pose proof (i_dom _ _ _ _ M p k _ PX) as (PD & KD & _ & _).
      assert (KE : k = 3). { unfold stage in PV. destruct (Z.eqb_spec k 1); [rewrite PV in V; discriminate|]. destruct (Z.eqb_spec k 2); [rewrite PV in V; discriminate|lia]. }
      subst k. rewrite MT in PX. destruct (Z.lt_trichotomy p (w_snap t)) as [PL|[->|PL]].
      * pose proof (i_mono _ _ _ _ M p 3 rt (w_snap t) 2 y ltac:(congruence) PX Y ltac:(lia)). lia.
      * exists rt. split; [exact PX|lia].
      * exfalso. pose proof (mod_gap (n_ring c) (w_snap t) p ltac:(lia) ltac:(congruence) PL) as GAP. lia.
    + unfold fills. cbn. destruct (m_val m =? MARK_INVALID); contradiction.
    + unfold reads. cbn. destruct (m_val m =? MARK_INVALID); contradiction.
  - (* WRCas *)
    destruct (w_cas (w_mem s) (w_view t) LRead rt old (nxt c old)) as [[[[|] mem2] v2]|] eqn:CS; try discriminate; injection H as <- <- <- <-.
    + destruct OK as (EO & LR & CLR).
      destruct (cas_inv c G (w_mem s) (w_held s) (w_view t) LRead _ _ _ _ _ (hR G) (w_snap t) NP0 M GD B eq_refl CS EO LR FT) as (TG & AG & v' & UP & GL & GV & BV & E2 & EM).
      rewrite EO, AG, (nxt_mod c _ ltac:(lia)) in EM. destruct (CLR (eq_sym AG)) as (x & X & XL). rewrite AG in X. rewrite EO, AG in XL.
      pose proof (UP (LMark (hR G mod n_ring c))) as UM. pose proof (i_dom _ _ _ _ M _ _ _ X) as (_ & _ & _ & PH). specialize (PH eq_refl).
      assert (PP : hR G + 1 <= v' LProc) by exact (GV _ _ _ _ (r_don _ _ (hR G) x X) ltac:(lia)).
      assert (GV2 : good (n_ring c) G (vset v' LRead (hR G + 1))).
      { intros l a l' b R Q. destruct (loc_eqb l LRead) eqn:EL.
        - apply loc_eqb_eq in EL. subst l. rewrite vset_same in Q. inversion R; subst; rewrite vset_other by discriminate; [lia|].
          match goal with X2 : mts G ?q 3 = Some b |- _ => destruct (Z.eq_dec q (hR G)) as [->|D]; [rewrite X in X2; injection X2 as <-; lia|exact (GV _ _ _ _ (r_clr _ _ (hR G) q b ltac:(lia) X2) GL)] end.
        - unfold vset in Q. rewrite EL in Q. pose proof (GV _ _ _ _ R Q). pose proof (vset_le v' LRead (hR G + 1) l' ltac:(pose proof (view_le c G (w_mem s) (w_held s) v' LRead _ M BV eq_refl); lia)). lia. }
      destruct (minv_idx c G (w_mem s) (w_held s) v' LRead (hR G) (hW G) (hP G) (hR G + 1) [] ltac:(lia) M GV BV eq_refl GL) as (M' & GV' & BV' & GO).
      { reflexivity. } { intros k D. rewrite app_nil_r. destruct k; try reflexivity. contradiction. } { rewrite app_nil_r. lia. } { lia. } { lia. } { lia. }
      { exact (i_rdy _ _ _ _ M). } { intros p P. destruct (Z.eq_dec p (hR G)) as [->|]; [eauto|]. apply (i_clr _ _ _ _ M). lia. } { exact GV2. }
      exists (put_i G (hW G) (hP G) (hR G + 1)). cbn [map]. rewrite <- E2 in M', GV', BV'. rewrite <- EM in M', BV'. rewrite app_nil_r in *. split.
      * apply (global_ok c G _ s n t); [exact I|exact N|exact M'| |intros w Y _; exact (GO w Y)|eexists; exact EM|split; [exact GV'|split; [exact BV'|exact Logic.I]]| |].
        -- constructor; cbn; try lia; eauto. exists []. symmetry. apply app_nil_r.
        -- intros m u D U F. split; [contradiction|split; reflexivity].
        -- intros m u D U F. split; [contradiction|reflexivity].
      * constructor; cbn; try lia; auto; try (intros (j & E); discriminate). left. split; [reflexivity|]. intros j. rewrite PC. discriminate.
    + destruct (cas_fail _ _ _ _ _ _ _ _ _ _ _ M GD B CS) as (-> & UP & GV & BV). exists G. rewrite !app_nil_r. split; [|apply moves_local; intros i; cbn; rewrite ?PC; discriminate].
      apply (local_ok c G s n t); [exact I|exact N| |contradiction|contradiction]. split; [exact GV|]. split; [exact BV|]. exact Logic.I.
Qed.
