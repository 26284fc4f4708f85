(* What is dispatched in weak memory. *)
From Coq Require Import String ZArith List Bool Lia ZifyBool ZifyNat ZifyN.
From Verif Require Import Base BaseFacts LoggerState Ring RingInv WeakRing WeakSpec WeakProofs WeakInv.
Import ListNotations.
Open Scope Z_scope.
Ltac Zify.zify_post_hook ::= idtac.

(* ---- the start ---- *)
Definition G0 : gts := mkG 0 0 0 (fun _ _ => None) (fun _ => None).
Lemma weak_mem_in : forall c m, In m (weak_mem c) -> m_ts m = 0 /\ m_val m = 0 /\ m_view m = bottom.
Proof. intros c m H. unfold weak_mem in H. apply in_map_iff in H. destruct H as (l & <- & _). auto. Qed.
Lemma at_zero : forall ls l, In l ls -> at_ts (map zero_at ls) l 0 = Some (zero_at l).
Proof.
  intros ls l H. induction ls as [|a ls IH]; [contradiction|]. unfold at_ts in *. cbn [map find zero_at m_loc m_ts]. destruct (loc_eqb a l) eqn:E.
  - apply loc_eqb_eq in E. subst a. reflexivity.
  - destruct H as [->|H]; [rewrite loc_eqb_refl in E; discriminate|]. cbn [andb]. exact (IH H).
Qed.
Lemma start_minv : forall c, 1 < n_ring c -> minv c G0 (weak_mem c) [].
Proof.
  intros c NP. constructor; try (intros; discriminate).
  - cbn. unfold zlen. cbn. lia.
  - intros m g I E. destruct (weak_mem_in c m I) as (-> & -> & _). split; [|rewrite Z.mod_0_l; lia]. destruct (m_loc m); cbn in E; try discriminate; injection E as <-; unfold zlen; cbn; lia.
  - intros l g t E T. assert (t = 0) by (destruct l; cbn in E; try discriminate; injection E as <-; unfold zlen in T; cbn in T; lia). subst t. exists (zero_at l).
    apply at_zero. destruct l; cbn in E; try discriminate; cbn; auto.
  - intros m i I E. destruct (weak_mem_in c m I) as (-> & -> & _). left. auto.
  - intros m i I E. destruct (weak_mem_in c m I) as (-> & _ & _). left. reflexivity.
  - intros p P. cbn in P. lia.
  - intros p P. cbn in P. lia.
  - intros m I. destruct (weak_mem_in c m I) as (-> & _ & ->). split; [|split; [|unfold bottom; lia]].
    + intros l a l' b R H. unfold bottom in *. inversion R; subst; try discriminate; lia.
    + intros l. unfold bottom. split; [lia|left; reflexivity].
Qed.
Lemma start_thr : forall c k n t, nth_error (w_ths (weak_start c k)) n = Some t -> w_view t = bottom /\ (w_pc t = WIdle \/ is_sync c = false /\ n = 0%nat /\ w_pc t = WCLoad).
Proof.
  intros c k n t H. cbn in H. destruct (is_sync c).
  - cbn in H. apply nth_error_In in H. apply repeat_spec in H. subst. auto.
  - destruct n as [|n]; cbn in H; [injection H as <-; auto|]. apply nth_error_In in H. apply repeat_spec in H. subst. auto.
Qed.
Lemma start_winv : forall c k, 1 < n_ring c -> winv c G0 (weak_start c k).
Proof.
  intros c k NP. pose proof (start_minv c NP) as M. constructor.
  - exact M.
  - intros n t H. destruct (start_thr c k n t H) as (V & P). split; [|split].
    + rewrite V. intros l a l' b R X. unfold bottom in *. inversion R; subst; try discriminate; lia.
    + rewrite V. intros l. unfold bottom. split; [lia|left; reflexivity].
    + unfold thr_ok. destruct P as [->|(_ & _ & ->)]; exact Logic.I.
  - intros n m t u T U _. destruct (start_thr c k n t T) as (_ & P). unfold fills, reads. split; intros X; destruct P as [P|(_ & _ & P)]; rewrite P in X; contradiction.
Qed.

(* ---- what was dispatched ---- *)
Record oinv (G : gts) (s : wst) : Prop := mkOinv {
  o_in : forall p x, In (p, x) (w_out s) -> 0 <= p < hP G /\ exists nd, nth_error (w_held s) (Z.to_nat p) = Some (nd, x);
  o_nd : NoDup (map fst (w_out s));
  o_rd : forall n t i, nth_error (w_ths s) n = Some t -> w_pc t = WCRead i -> ~ In (w_snap t) (map fst (w_out s));
  o_mk : forall n t i, nth_error (w_ths s) n = Some t -> w_pc t = WCMark i -> In (w_snap t) (map fst (w_out s));
  o_clr : forall p x, mts G p 3 = Some x -> In p (map fst (w_out s));
  o_cl : forall p, 0 <= p < hP G -> In p (map fst (w_out s)) \/ exists n t i, nth_error (w_ths s) n = Some t /\ w_pc t = WCRead i /\ w_snap t = p
}.
Definition allinv (c : rcfg) (G : gts) (s : wst) : Prop := winv c G s /\ oinv G s.

Lemma upd_here : forall {A} (l : list A) n x y, nth_error l n = Some y -> nth_error (upd l n x) n = Some x.
Proof. intros A l n x y H. apply upd_nth. apply nth_error_Some. rewrite H. discriminate. Qed.

Lemma oinv_step : forall c G G' s n t t' mem' h o, winv c G s -> oinv G s -> nth_error (w_ths s) n = Some t -> moves c G G' (w_held s) t t' h o ->
  oinv G' (moved s n mem' t' (w_held s ++ map (pair n) h) (w_out s ++ o)).
Proof.
  intros c G G' s n t t' mem' h o I O N MV. destruct MV as [(GW & GP & GR) MM MC MN MO MK ML].
  assert (HG : forall p nd (x : text), nth_error (w_held s) p = Some (nd, x) -> nth_error (w_held s ++ map (pair n) h) p = Some (nd, x)).
  { intros p nd x E. rewrite nth_error_app1; [exact E|]. apply nth_error_Some. rewrite E. discriminate. }
  assert (INC : forall p, In p (map fst (w_out s)) -> In p (map fst (w_out s ++ o))) by (intros p X; rewrite map_app; apply in_or_app; auto).
  assert (LT : forall p, In p (map fst (w_out s)) -> 0 <= p < hP G).
  { intros p X. apply in_map_iff in X. destruct X as ((q & x) & <- & X). exact (proj1 (o_in _ _ O q x X)). }
  constructor; cbn [moved w_out w_held w_ths].
  - intros p x X. apply in_app_or in X. destruct X as [X|X].
    + destruct (o_in _ _ O p x X) as (A & nd & B). split; [lia|exists nd; exact (HG _ _ _ B)].
    + destruct MO as [(-> & _)|(i & y & nd & P1 & P2 & P3 & -> & P4)]; [contradiction|]. destruct X as [X|[]]. injection X as <- <-.
      destruct (reads_facts _ _ _ _ _ _ (i_thr _ _ _ I n t N) ltac:(unfold reads; rewrite P1; exact Logic.I)) as (A & _). split; [lia|exists nd; exact (HG _ _ _ P4)].
  - rewrite map_app. destruct MO as [(-> & _)|(i & y & nd & P1 & P2 & P3 & -> & P4)]; [rewrite app_nil_r; exact (o_nd _ _ O)|].
    cbn [map fst]. rewrite <- (rev_involutive (map fst (w_out s) ++ [w_snap t])). apply NoDup_rev. rewrite rev_app_distr. cbn. constructor.
    + rewrite <- in_rev. exact (o_rd _ _ O n t i N P1).
    + apply NoDup_rev. exact (o_nd _ _ O).
  - intros m u j U P. apply upd_inv in U. destruct U as [(-> & ->)|(D & U)].
    + destruct (MC (ex_intro _ j P)) as (E1 & E2 & -> & _). rewrite app_nil_r, E1. intros X. apply LT in X. lia.
    + rewrite map_app. intros X. apply in_app_or in X. destruct X as [X|X]; [exact (o_rd _ _ O m u j U P X)|].
      destruct MO as [(-> & _)|(i & y & nd & P1 & P2 & P3 & -> & P4)]; [contradiction|]. destruct X as [X|[]]. cbn in X.
      apply (proj2 (i_apart _ _ _ I n m t u N U ltac:(congruence))); [unfold reads; rewrite P1; exact Logic.I|unfold reads; rewrite P; exact Logic.I|exact X].
  - intros m u j U P. apply upd_inv in U. destruct U as [(-> & ->)|(D & U)]; [|exact (INC _ (o_mk _ _ O m u j U P))].
    destruct (MK (ex_intro _ j P)) as (i & P0). destruct MO as [(_ & Q)|(i' & y & nd & P1 & P2 & P3 & -> & P4)]; [destruct (Q i P0)|].
    rewrite P3, map_app. apply in_or_app. right. left. reflexivity.
  - intros p x X. destruct (ML p x X) as [Y|(-> & i & P)]; [exact (INC _ (o_clr _ _ O p x Y))|exact (INC _ (o_mk _ _ O n t i N P))].
  - intros p P. destruct (Z_lt_ge_dec p (hP G)) as [L|L].
    + destruct (o_cl _ _ O p ltac:(lia)) as [X|(m & u & i & U & Q1 & Q2)]; [left; exact (INC _ X)|].
      destruct (Nat.eq_dec m n) as [->|D]; [|right; exists m, u, i; split; [rewrite upd_other by congruence; exact U|auto]].
      rewrite N in U. injection U as <-. left. destruct MO as [(_ & Q)|(i' & y & nd & P1 & P2 & P3 & -> & P4)]; [destruct (Q i Q1)|].
      rewrite map_app. apply in_or_app. right. left. exact Q2.
    + assert (RD : exists i, w_pc t' = WCRead i).
      { destruct (w_pc t') as [| |old|old|i|i|i| |old|old|old| |old|old|i|i| |old|old|old] eqn:E; try (exfalso; rewrite MN in P by (intros j; discriminate); lia). eauto. }
      destruct (MC RD) as (E1 & E2 & _). destruct RD as (i & E). right. exists n, t', i. split; [exact (upd_here _ _ _ _ N)|]. split; [exact E|lia].
Qed.

Lemma step_all : forall c G s a s', 1 < n_ring c -> allinv c G s -> w_fresh c s a -> weak_step c s a = Some s' -> exists G', allinv c G' s'.
Proof.
  intros c G s a s' NP (I & O) FR H. destruct a as [n x|n rt wt]; cbn [weak_step] in H; destruct (nth_error (w_ths s) n) as [t|] eqn:N; try discriminate.
  - destruct (w_pc t) eqn:P; try discriminate. injection H as <-. exists G. split.
    + destruct (i_thr _ _ _ I n t N) as (A & B & _).
      pose proof (local_ok c G s n t (mkW WHLoad x (w_snap t) (w_view t)) (w_out s) I N ltac:(split; [exact A|split; [exact B|exact Logic.I]]) ltac:(contradiction) ltac:(contradiction)) as [X Y Z].
      constructor; [exact X|exact Y|exact Z].
    + constructor; cbn [w_out w_held w_ths].
      * exact (o_in _ _ O).
      * exact (o_nd _ _ O).
      * intros m u j U Q. apply upd_inv in U. destruct U as [(-> & ->)|(D & U)]; [discriminate Q|exact (o_rd _ _ O m u j U Q)].
      * intros m u j U Q. apply upd_inv in U. destruct U as [(-> & ->)|(D & U)]; [discriminate Q|exact (o_mk _ _ O m u j U Q)].
      * exact (o_clr _ _ O).
      * intros p Q. destruct (o_cl _ _ O p Q) as [X|(m & u & i & U & Q1 & Q2)]; [left; exact X|right]. exists m, u, i. split; [|auto].
        rewrite upd_other; [exact U|]. intros ->. rewrite N in U. injection U as <-. rewrite P in Q1. discriminate.
  - destruct (wstep c (w_mem s) t rt wt) as [[[[mem' t'] h] o]|] eqn:W; [|discriminate]. injection H as <-.
    destruct (run_ok c G s n t rt wt mem' t' h o NP I N FR W) as (G' & I' & MV). exists G'. split; [exact I'|].
    exact (oinv_step c G G' s n t t' mem' h o I O N MV).
Qed.
Lemma start_all : forall c k, 1 < n_ring c -> allinv c G0 (weak_start c k).
Proof.
  intros c k NP. split; [exact (start_winv c k NP)|]. constructor; cbn [weak_start w_out w_held]; try (intros; contradiction).
  - constructor.
  - intros n t i H P. destruct (start_thr c k n t H) as (_ & [Q|(_ & _ & Q)]); rewrite Q in P; discriminate.
  - intros n t i H P. destruct (start_thr c k n t H) as (_ & [Q|(_ & _ & Q)]); rewrite Q in P; discriminate.
  - intros p x H. discriminate.
  - intros p P. cbn in P. lia.
Qed.
Lemma run_all : forall c ls G s s', 1 < n_ring c -> allinv c G s -> w_no_lap c s ls -> weak_run c s ls = Some s' -> exists G', allinv c G' s'.
Proof.
  intros c ls. induction ls as [|a ls IH]; intros G s s' NP A L H; cbn [weak_run] in H; [injection H as <-; eauto|].
  destruct (weak_step c s a) as [s1|] eqn:E; [|discriminate]. destruct L as (F & L). destruct (step_all c G s a s1 NP A F E) as (G1 & A1).
  exact (IH G1 s1 s' NP A1 (L s1 E) H).
Qed.
Lemma weakly_all : forall c k ls s, 1 < n_ring c -> weakly c k ls s -> exists G, allinv c G s.
Proof. intros c k ls s NP (H & L). exact (run_all c ls G0 _ s NP (start_all c k NP) L H). Qed.

(* ---- the last store to an index ---- *)
Lemma top_ge : forall l mem m, In m mem -> m_loc m = l -> m_ts m <= fold_right (fun m a => if loc_eqb (m_loc m) l then Z.max (m_ts m) a else a) 0 mem.
Proof.
  intros l mem m I E. induction mem as [|x mem IH]; [contradiction|]. cbn [fold_right]. destruct I as [->|I].
  - rewrite E, loc_eqb_refl. lia.
  - specialize (IH I). destruct (loc_eqb (m_loc x) l); lia.
Qed.
Lemma top_le : forall l mem g, 0 <= g -> (forall m, In m mem -> m_loc m = l -> m_ts m <= g) -> fold_right (fun m a => if loc_eqb (m_loc m) l then Z.max (m_ts m) a else a) 0 mem <= g.
Proof.
  intros l mem g G H. induction mem as [|x mem IH]; cbn [fold_right]; [lia|]. specialize (IH (fun m X => H m (or_intror X))).
  destruct (loc_eqb (m_loc x) l) eqn:E; [|exact IH]. apply loc_eqb_eq in E. pose proof (H x (or_introl eq_refl) E). lia.
Qed.
Lemma top_idx : forall c G s l g, minv c G (w_mem s) (w_held s) -> idx G (w_held s) l = Some g -> w_top s l = g.
Proof.
  intros c G s l g M E. assert (0 <= g) by (pose proof (i_order _ _ _ _ M); destruct l; cbn in E; try discriminate; injection E as <-; lia).
  unfold w_top. apply Z.le_antisymm.
  - apply top_le; [assumption|]. intros m I L. rewrite <- L in E. exact (proj2 (proj1 (i_idx _ _ _ _ M m g I E))).
  - destruct (i_all _ _ _ _ M l g g E ltac:(lia)) as (m & A). apply at_in in A. destruct A as (I & L & <-). exact (top_ge l _ m I L).
Qed.
