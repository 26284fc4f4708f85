(* One logging thread in weak memory, and the writer thread on its own. *)
From Coq Require Import String ZArith List Bool Lia ZifyBool ZifyNat ZifyN.
From Verif Require Import Base BaseFacts LoggerState Ring RingInv WeakRing WeakSpec WeakProofs WeakInv WeakOut WeakLaws.
Import ListNotations.
Open Scope Z_scope.
Ltac Zify.zify_post_hook ::= idtac.

(* ---- who runs what ---- *)
Lemma step_len : forall c s a s', weak_step c s a = Some s' -> length (w_ths s') = length (w_ths s).
Proof.
  intros c s a s' H. destruct a as [n x|n rt wt]; cbn [weak_step] in H; destruct (nth_error (w_ths s) n) as [t|] eqn:N; try discriminate.
  - destruct (w_pc t); try discriminate. injection H as <-. cbn [w_ths]. apply upd_len.
  - destruct (wstep c (w_mem s) t rt wt) as [[[[mem' t'] h] o]|]; [|discriminate]. injection H as <-. cbn [w_ths]. apply upd_len.
Qed.
Definition roles (c : rcfg) (s : wst) : Prop := is_sync c = false -> forall n t, nth_error (w_ths s) n = Some t -> consumer (w_pc t) = Nat.eqb n 0.
Lemma roles_step : forall c s a s', roles c s -> weak_step c s a = Some s' -> roles c s'.
Proof.
  intros c s a s' R H SY m u U. specialize (R SY). destruct a as [n x|n rt wt]; cbn [weak_step] in H; destruct (nth_error (w_ths s) n) as [t|] eqn:N; try discriminate.
  - destruct (w_pc t) eqn:P; try discriminate. injection H as <-. cbn [w_ths] in U. apply upd_inv in U. destruct U as [(-> & ->)|(D & U)]; [|exact (R m u U)].
    pose proof (R n t N) as E. rewrite P in E. exact E.
  - destruct (wstep c (w_mem s) t rt wt) as [[[[mem' t'] h] o]|] eqn:W; [|discriminate]. injection H as <-. cbn [w_ths] in U. apply upd_inv in U. destruct U as [(-> & ->)|(D & U)]; [|exact (R m u U)].
    rewrite (step_roles _ _ _ _ _ _ _ _ _ SY W). exact (R n t N).
Qed.
Lemma start_roles : forall c k, roles c (weak_start c k).
Proof. intros c k SY. exact (a_role _ _ (start_ainv c k SY)). Qed.

(* ---- what a step leaves in memory ---- *)
Lemma load_view : forall mem v l t m v', w_load mem v l t = Some (m, v') -> In m mem /\ m_loc m = l /\ m_ts m = t /\ v l <= t /\ forall k, v k <= v' k.
Proof.
  intros mem v l t m v' H. unfold w_load in H. destruct (at_ts mem l t) as [x|] eqn:E; [|discriminate]. destruct (v l <=? t) eqn:L; [|discriminate]. injection H as -> <-.
  apply at_in in E. destruct E as (A & B & C). repeat (split; [assumption || lia|]). intros k. unfold vjoin. lia.
Qed.
Lemma cas_view : forall mem v l t old new b mem' v', w_cas mem v l t old new = Some (b, mem', v') ->
  exists m, In m mem /\ m_loc m = l /\ m_ts m = t /\ v l <= t /\ (forall k, v k <= v' k) /\
  if b then m_val m = old /\ v' l = t + 1 /\ mem' = mkMsg l (t + 1) new [] v' :: mem else m_val m <> old /\ mem' = mem.
Proof.
  intros mem v l t old new b mem' v' H. unfold w_cas in H. destruct (w_load mem v l t) as [[m w]|] eqn:L; [|discriminate].
  apply load_view in L. destruct L as (A & B & C & D & E). exists m. destruct (m_val m =? old) eqn:V.
  - destruct (w_store mem w l (t + 1) new []) as [[m2 w2]|] eqn:S; [|discriminate]. injection H as <- <- <-. apply store_inv in S. destruct S as (S1 & S2 & S3 & ->). subst w2.
    repeat (split; [assumption|]). split; [|split; [lia|split; [apply vset_same|reflexivity]]]. intros k. pose proof (E k). pose proof (vset_le w l (t + 1) k ltac:(lia)). lia.
  - injection H as <- <- <-. repeat (split; [assumption|]). split; [lia|reflexivity].
Qed.
Lemma store_view : forall mem v l t n x mem' v', w_store mem v l t n x = Some (mem', v') ->
  v l < t /\ v' l = t /\ mem' = mkMsg l t n x v' :: mem /\ forall k, v k <= v' k.
Proof.
  intros mem v l t n x mem' v' H. apply store_inv in H. destruct H as (_ & A & -> & ->). split; [exact A|]. split; [apply vset_same|]. split; [reflexivity|].
  intros k. apply vset_le. lia.
Qed.
Lemma top_cons : forall m mem l, fold_right (fun m a => if loc_eqb (m_loc m) l then Z.max (m_ts m) a else a) 0 (m :: mem) =
  if loc_eqb (m_loc m) l then Z.max (m_ts m) (fold_right (fun m a => if loc_eqb (m_loc m) l then Z.max (m_ts m) a else a) 0 mem) else fold_right (fun m a => if loc_eqb (m_loc m) l then Z.max (m_ts m) a else a) 0 mem.
Proof. reflexivity. Qed.
Lemma same_hW : forall c G G' mem held mem' held' m, minv c G mem held -> minv c G' mem' held' ->
  mem' = mem \/ mem' = m :: mem /\ m_loc m <> LWrite -> hW G' = hW G.
Proof.
  intros c G G' mem held mem' held' m M M' E. rewrite <- (top_idx c G' (mkWst mem' [] held' [] []) LWrite _ M' eq_refl), <- (top_idx c G (mkWst mem [] held [] []) LWrite _ M eq_refl).
  unfold w_top. cbn [w_mem]. destruct E as [->|(-> & D)]; [reflexivity|]. rewrite top_cons, loc_eqb_neq by exact D. reflexivity.
Qed.
Lemma next_hW : forall c G G' mem held mem' held' m, minv c G mem held -> minv c G' mem' held' ->
  mem' = m :: mem -> m_loc m = LWrite -> m_ts m = hW G + 1 -> hW G' = hW G + 1.
Proof.
  intros c G G' mem held mem' held' m M M' E L T. rewrite <- (top_idx c G' (mkWst mem' [] held' [] []) LWrite _ M' eq_refl).
  unfold w_top. cbn [w_mem]. rewrite E, top_cons, L, loc_eqb_refl, T.
  change (Z.max (hW G + 1) (w_top (mkWst mem [] held [] []) LWrite) = hW G + 1). rewrite (top_idx c G (mkWst mem [] held [] []) LWrite _ M eq_refl). lia.
Qed.

(* ---- the logging thread ---- *)
Definition rs (c : rcfg) (G : gts) (t : wthr) : Prop := exists x, mts G (hW G) 2 = Some x /\ x <= w_view t (LMark (hW G mod n_ring c)).
Definition one_ok (c : rcfg) (G : gts) (held : list (nat * text)) (t : wthr) : Prop :=
  w_view t LHold = zlen held /\ w_view t LWrite = hW G /\
  match w_pc t with
  | WHMark _ | WFill _ | WPMark _ => zlen held = hW G + 1
  | WPLoad => zlen held = hW G \/ zlen held = hW G + 1 /\ rs c G t
  | WPHold _ => w_snap t = hW G /\ (zlen held = hW G \/ zlen held = hW G + 1 /\ rs c G t)
  | WPReady _ => w_snap t = hW G /\ zlen held = hW G + 1 /\ rs c G t
  | WPCas _ => w_snap t = hW G /\ zlen held = hW G + 1
  | _ => zlen held = hW G
  end.
Lemma rs_keep : forall c G G' t t', (forall p k x, mts G p k = Some x -> mts G' p k = Some x) -> hW G' = hW G -> (forall k, w_view t k <= w_view t' k) -> rs c G t -> rs c G' t'.
Proof. intros c G G' t t' A B C (x & X1 & X2). exists x. rewrite B. split; [exact (A _ _ _ X1)|]. pose proof (C (LMark (hW G mod n_ring c))). lia. Qed.

Lemma one_step : forall c G G' s n t rt wt mem' t' h o, 1 < n_ring c -> winv c G s -> nth_error (w_ths s) n = Some t -> one_ok c G (w_held s) t ->
  wstep c (w_mem s) t rt wt = Some (mem', t', h, o) ->
  winv c G' (moved s n mem' t' (w_held s ++ map (pair n) h) (w_out s ++ o)) -> moves c G G' (w_held s) t t' h o ->
  one_ok c G' (w_held s ++ map (pair n) h) t'.
Proof.
  intros c G G' s n t rt wt mem' t' h o NP I N (V1 & V2 & OK) H I' MV. pose proof (i_mem _ _ _ I) as M. pose proof (i_mem _ _ _ I') as M'.
  destruct (i_thr _ _ _ I n t N) as (K1 & K2 & K3). destruct (i_thr _ _ _ I' n t' (upd_here _ _ _ _ N)) as (K1' & K2' & K3').
  pose proof (view_le c G' _ _ _ LHold _ M' K2' eq_refl) as U1. pose proof (view_le c G' _ _ _ LWrite _ M' K2' eq_refl) as U2.
  pose proof (mv_marks _ _ _ _ _ _ _ _ MV) as MM. pose proof (i_order _ _ _ _ M) as OR.
  cbn [moved w_mem w_held] in M', U1, U2.
  (* a step that stores neither index *)
  assert (KEEP : forall m, mem' = w_mem s \/ mem' = m :: w_mem s /\ m_loc m <> LWrite -> h = [] -> (forall k, w_view t k <= w_view t' k) ->
    hW G' = hW G /\ zlen (w_held s ++ map (pair n) h) = zlen (w_held s) /\ w_view t' LHold = zlen (w_held s) /\ w_view t' LWrite = hW G).
  { intros m E -> MO. pose proof (same_hW c G G' _ _ _ _ m M M' E) as EW. cbn [map] in *. rewrite app_nil_r in *.
    pose proof (MO LHold). pose proof (MO LWrite). split; [exact EW|]. split; [reflexivity|]. lia. }
  assert (LD : forall l m v' p sn, w_load (w_mem s) (w_view t) l rt = Some (m, v') -> mem' = w_mem s -> t' = mkW p (w_msg t) sn v' -> h = [] ->
    hW G' = hW G /\ zlen (w_held s ++ map (pair n) h) = zlen (w_held s) /\ w_view t' LHold = zlen (w_held s) /\ w_view t' LWrite = hW G /\
    (In m (w_mem s) /\ m_loc m = l /\ m_ts m = rt /\ w_view t l <= rt) /\ (rs c G t -> rs c G' t')).
  { intros l m v' p sn L E -> EH. apply load_view in L. destruct L as (L1 & L2 & L3 & L4 & L5).
    destruct (KEEP m (or_introl E) EH L5) as (A & B & C & D). repeat (split; [assumption|]). split; [auto|]. intros R. exact (rs_keep c G G' t (mkW p (w_msg t) sn v') MM A L5 R). }
  assert (ST : forall l nv x p mem2 v', w_store (w_mem s) (w_view t) l wt nv x = Some (mem2, v') -> l <> LWrite -> mem' = mem2 -> t' = mkW p (w_msg t) (w_snap t) v' -> h = [] ->
    hW G' = hW G /\ zlen (w_held s ++ map (pair n) h) = zlen (w_held s) /\ w_view t' LHold = zlen (w_held s) /\ w_view t' LWrite = hW G /\
    w_view t l < wt /\ w_view t' l = wt /\ In (mkMsg l wt nv x v') mem').
  { intros l nv x p mem2 v' L D -> -> EH. apply store_view in L. destruct L as (L1 & L2 & -> & L4).
    destruct (KEEP (mkMsg l wt nv x v') (or_intror (conj eq_refl D)) EH L4) as (A & B & C & E). repeat (split; [assumption|]). left. reflexivity. }
  unfold one_ok. unfold thr_ok in K3. unfold wstep in H.
  destruct (w_pc t) as [| |old|old|i|i|i| |old|old|old| |old|old|i|i| |old|old|old] eqn:P; try discriminate H.
  - destruct (w_load (w_mem s) (w_view t) LHold rt) as [[m v']|] eqn:L; [|discriminate]. injection H as <- <- <- <-.
    destruct (LD _ _ _ _ _ L eq_refl eq_refl eq_refl) as (A & B & C & D & _). cbn [w_go_at w_pc]. rewrite A, B. auto.
  - destruct (w_load (w_mem s) (w_view t) LRead rt) as [[m v']|] eqn:L; [|discriminate]. injection H as <- <- <- <-.
    destruct (LD _ _ _ _ _ L eq_refl eq_refl eq_refl) as (A & B & C & D & _). cbn [w_go w_pc]. rewrite A, B. destruct (nxt c old =? m_val m); auto.
  - destruct (w_cas (w_mem s) (w_view t) LHold rt old (nxt c old)) as [[[[|] m2] v']|] eqn:L; [| |discriminate]; injection H as <- <- <- <-; apply cas_view in L; destruct L as (m & L1 & L2 & L3 & L4 & L5 & L6).
    + destruct L6 as (L6 & L7 & ->). cbn [w_go_at w_pc w_view] in *.
      assert (EW : hW G' = hW G) by (refine (same_hW c G G' _ _ _ _ _ M M' (or_intror (conj eq_refl _))); discriminate).
      assert (EZ : zlen (w_held s ++ map (pair n) [w_msg t]) = zlen (w_held s) + 1) by (unfold zlen; rewrite app_length; cbn; lia).
      pose proof (L5 LWrite). rewrite EW in *. rewrite EZ in *. lia.
    + destruct L6 as (L6 & ->). destruct (KEEP m (or_introl eq_refl) eq_refl L5) as (A & B & C & D). cbn [w_go w_pc]. rewrite A, B. auto.
  - destruct (w_store (w_mem s) (w_view t) (LMark i) wt MARK_HOLD []) as [[m2 v']|] eqn:L; [|discriminate]. injection H as <- <- <- <-.
    destruct (ST _ _ _ _ _ _ L ltac:(discriminate) eq_refl eq_refl eq_refl) as (A & B & C & D & _). cbn [w_go w_pc]. rewrite A, B. auto.
  - destruct (w_store (w_mem s) (w_view t) (LRec i) wt 0 (w_msg t)) as [[m2 v']|] eqn:L; [|discriminate]. injection H as <- <- <- <-.
    destruct (ST _ _ _ _ _ _ L ltac:(discriminate) eq_refl eq_refl eq_refl) as (A & B & C & D & _). cbn [w_go w_pc]. rewrite A, B. auto.
  - destruct (w_store (w_mem s) (w_view t) (LMark i) wt MARK_READY []) as [[m2 v']|] eqn:L; [|discriminate]. injection H as <- <- <- <-.
    destruct (ST _ _ _ _ _ _ L ltac:(discriminate) eq_refl eq_refl eq_refl) as (A & B & C & D & E1 & E2 & E3). cbn [w_go w_pc]. rewrite A, B. split; [exact C|]. split; [exact D|].
    right. split; [exact OK|].
    assert (SN : w_snap t = hW G) by (pose proof (fills_late c G _ _ n t M (i_thr _ _ _ I n t N) ltac:(unfold fills; rewrite P; exact Logic.I)); lia).
    destruct K3 as ((F1 & _) & _). rewrite SN in F1.
    destruct (i_mark _ _ _ _ M' _ i E3 eq_refl) as [(_ & X)|(p & k & Q1 & Q2 & Q3)]; [discriminate X|]. cbn [m_ts m_val] in Q2, Q3.
    destruct (i_dom _ _ _ _ M' _ _ _ Q2) as (D1 & D2 & _). rewrite B in D1.
    assert (k = 2) by (unfold stage in Q3; destruct (k =? 1) eqn:X1; [discriminate|]; destruct (k =? 2) eqn:X2; [lia|discriminate]). subst k.
    destruct (Z.eq_dec p (hW G)) as [->|NE].
    + exists wt. rewrite A. split; [exact Q2|]. rewrite <- F1. cbn [w_go w_view] in *. lia.
    + exfalso. destruct (i_rdy _ _ _ _ M p ltac:(lia)) as (x & X). pose proof (MM _ _ _ X) as X'. rewrite Q2 in X'. injection X' as <-.
      pose proof (K1 _ _ _ _ (r_rdy (n_ring c) G (hW G) p wt ltac:(lia) X) ltac:(lia)) as Y. rewrite Q1 in Y. lia.
  - destruct (w_load (w_mem s) (w_view t) LWrite rt) as [[m v']|] eqn:L; [|discriminate]. injection H as <- <- <- <-.
    destruct (LD _ _ _ _ _ L eq_refl eq_refl eq_refl) as (A & B & C & D & (L1 & L2 & L3 & L4) & R). cbn [w_go_at w_pc w_snap]. rewrite A, B. split; [exact C|]. split; [exact D|].
    destruct (i_idx _ _ _ _ M m (hW G) L1 ltac:(rewrite L2; reflexivity)) as (X & _). split; [lia|]. destruct OK as [OK|(OK & Y)]; auto.
  - destruct (w_load (w_mem s) (w_view t) LHold rt) as [[m v']|] eqn:L; [|discriminate]. injection H as <- <- <- <-.
    destruct (LD _ _ _ _ _ L eq_refl eq_refl eq_refl) as (A & B & C & D & (L1 & L2 & L3 & L4) & R). cbn [w_go w_pc w_snap]. rewrite A, B. split; [exact C|]. split; [exact D|].
    destruct (i_idx _ _ _ _ M m (zlen (w_held s)) L1 ltac:(rewrite L2; reflexivity)) as (X & Y). destruct OK as (SN & OK). destruct K3 as (K3 & _). rewrite SN in K3.
    assert (ET : rt = zlen (w_held s)) by lia. rewrite L3, ET in Y. rewrite K3, Y. destruct (hW G mod n_ring c =? zlen (w_held s) mod n_ring c) eqn:Q.
    + assert (zlen (w_held s) = hW G) by (destruct OK as [OK|(OK & _)]; [exact OK|]; symmetry; apply (mod_close (n_ring c)); lia). destruct (is_sync c); assumption.
    + destruct OK as [OK|(OK & Z)]; [exfalso; rewrite OK in Q; lia|]. auto.
  - destruct (w_load (w_mem s) (w_view t) (LMark old) rt) as [[m v']|] eqn:L; [|discriminate]. injection H as <- <- <- <-.
    destruct (LD _ _ _ _ _ L eq_refl eq_refl eq_refl) as (A & B & C & D & (L1 & L2 & L3 & L4) & R). cbn [w_go w_pc w_snap]. rewrite A, B. split; [exact C|]. split; [exact D|].
    destruct OK as (SN & OK & (x & X1 & X2)). destruct K3 as (K3 & _). rewrite SN in K3. rewrite <- K3 in X2. destruct (i_dom _ _ _ _ M _ _ _ X1) as (_ & _ & X0 & _).
    assert (E : m_val m = MARK_READY).
    { destruct (i_mark _ _ _ _ M m old L1 L2) as [(Z & _)|(p & k & Q1 & Q2 & Q3)]; [lia|]. destruct (i_dom _ _ _ _ M _ _ _ Q2) as (D1 & D2 & D3 & D4). rewrite L3 in *.
      destruct (Z.eq_dec p (hW G)) as [->|NE].
      - assert (k = 1 \/ k = 2 \/ k = 3) as [->|[->| ->]] by lia; [|exact Q3|specialize (D4 eq_refl); lia].
        pose proof (i_mono _ _ _ _ M _ _ _ _ _ _ eq_refl Q2 X1 ltac:(lia)). lia.
      - pose proof (i_mono _ _ _ _ M p k rt (hW G) 2 x ltac:(rewrite Q1; exact K3) Q2 X1 ltac:(lia)). lia. }
    rewrite E. cbn. auto.
  - destruct (w_cas (w_mem s) (w_view t) LWrite rt old (nxt c old)) as [[[[|] m2] v']|] eqn:L; [| |discriminate]; injection H as <- <- <- <-; apply cas_view in L; destruct L as (m & L1 & L2 & L3 & L4 & L5 & L6);
      destruct (i_idx _ _ _ _ M m (hW G) L1 ltac:(rewrite L2; reflexivity)) as (X & Y); assert (ET : rt = hW G) by lia; destruct OK as (SN & OK).
    + destruct L6 as (L6 & L7 & ->). cbn [w_go_at w_pc w_view map] in *. rewrite app_nil_r in *.
      assert (EW : hW G' = hW G + 1) by (refine (next_hW c G G' _ _ _ _ _ M M' eq_refl eq_refl _); cbn [m_ts]; lia). pose proof (L5 LHold). split; [lia|]. split; [lia|]. left. lia.
    + destruct L6 as (L6 & _). exfalso. apply L6. destruct K3 as (K3 & _). rewrite Y, L3, ET, K3, SN. reflexivity.
  - destruct (w_load (w_mem s) (w_view t) LProc rt) as [[m v']|] eqn:L; [|discriminate]. injection H as <- <- <- <-.
    destruct (LD _ _ _ _ _ L eq_refl eq_refl eq_refl) as (A & B & C & D & _). cbn [w_go_at w_pc]. rewrite A, B. auto.
  - destruct (w_load (w_mem s) (w_view t) LWrite rt) as [[m v']|] eqn:L; [|discriminate]. injection H as <- <- <- <-.
    destruct (LD _ _ _ _ _ L eq_refl eq_refl eq_refl) as (A & B & C & D & _). cbn [w_go w_pc]. rewrite A, B. destruct (old =? m_val m), (is_sync c); auto.
  - destruct (w_cas (w_mem s) (w_view t) LProc rt old (nxt c old)) as [[[[|] m2] v']|] eqn:L; [| |discriminate]; injection H as <- <- <- <-; apply cas_view in L; destruct L as (m & L1 & L2 & L3 & L4 & L5 & L6).
    + destruct L6 as (L6 & L7 & ->). destruct (KEEP (mkMsg LProc (rt + 1) (nxt c old) [] v') (or_intror (conj eq_refl (fun X : LProc = LWrite => ltac:(discriminate X)))) eq_refl L5) as (A & B & C & D). cbn [w_go_at w_pc]. rewrite A, B. auto.
    + destruct L6 as (L6 & ->). destruct (KEEP m (or_introl eq_refl) eq_refl L5) as (A & B & C & D). cbn [w_go w_pc]. rewrite A, B. destruct (is_sync c); auto.
  - destruct (w_plain (w_mem s) (w_view t) (LRec i) rt) as [[m v']|] eqn:L; [|discriminate]. injection H as <- <- <- <-.
    unfold w_plain in L. destruct (at_ts (w_mem s) (LRec i) rt) as [x|]; [|discriminate]. destruct (w_view t (LRec i) <=? rt) eqn:Q; [|discriminate]. injection L as <- <-.
    destruct (KEEP x (or_introl eq_refl) eq_refl (fun k => vset_le (w_view t) (LRec i) rt k (proj1 (Z.leb_le _ _) Q))) as (A & B & C & D). cbn [w_go w_pc]. rewrite A, B. auto.
  - destruct (w_store (w_mem s) (w_view t) (LMark i) wt MARK_INVALID []) as [[m2 v']|] eqn:L; [|discriminate]. injection H as <- <- <- <-.
    destruct (ST _ _ _ _ _ _ L ltac:(discriminate) eq_refl eq_refl eq_refl) as (A & B & C & D & _). cbn [w_go w_pc]. rewrite A, B. auto.
  - destruct (w_load (w_mem s) (w_view t) LRead rt) as [[m v']|] eqn:L; [|discriminate]. injection H as <- <- <- <-.
    destruct (LD _ _ _ _ _ L eq_refl eq_refl eq_refl) as (A & B & C & D & _). cbn [w_go_at w_pc]. rewrite A, B. auto.
  - destruct (w_load (w_mem s) (w_view t) LProc rt) as [[m v']|] eqn:L; [|discriminate]. injection H as <- <- <- <-.
    destruct (LD _ _ _ _ _ L eq_refl eq_refl eq_refl) as (A & B & C & D & _). cbn [w_go w_pc]. rewrite A, B. destruct (old =? m_val m); auto.
  - destruct (w_load (w_mem s) (w_view t) (LMark old) rt) as [[m v']|] eqn:L; [|discriminate]. injection H as <- <- <- <-.
    destruct (LD _ _ _ _ _ L eq_refl eq_refl eq_refl) as (A & B & C & D & _). cbn [w_go w_pc]. rewrite A, B. destruct (m_val m =? MARK_INVALID); auto.
  - destruct (w_cas (w_mem s) (w_view t) LRead rt old (nxt c old)) as [[[[|] m2] v']|] eqn:L; [| |discriminate]; injection H as <- <- <- <-; apply cas_view in L; destruct L as (m & L1 & L2 & L3 & L4 & L5 & L6).
    + destruct L6 as (L6 & L7 & ->). destruct (KEEP (mkMsg LRead (rt + 1) (nxt c old) [] v') (or_intror (conj eq_refl (fun X : LRead = LWrite => ltac:(discriminate X)))) eq_refl L5) as (A & B & C & D). cbn [w_go_at w_pc]. rewrite A, B. auto.
    + destruct L6 as (L6 & ->). destruct (KEEP m (or_introl eq_refl) eq_refl L5) as (A & B & C & D). cbn [w_go w_pc]. rewrite A, B. auto.
Qed.

(* the thread of the statements of [weak_start c 1] *)
Definition logger_of (c : rcfg) : nat := if is_sync c then 0%nat else 1%nat.
Definition oneinv (c : rcfg) (G : gts) (s : wst) : Prop :=
  winv c G s /\ roles c s /\ length (w_ths s) = S (logger_of c) /\ exists t, nth_error (w_ths s) (logger_of c) = Some t /\ one_ok c G (w_held s) t.
Lemma oneinv_step : forall c G s a s', 1 < n_ring c -> oneinv c G s -> w_fresh c s a -> weak_step c s a = Some s' -> exists G', oneinv c G' s'.
Proof.
  intros c G s a s' NP (I & R & LN & t1 & N1 & OK) FR H. pose proof (roles_step c s a s' R H) as R'. pose proof (step_len c s a s' H) as LN'. rewrite LN in LN'.
  destruct a as [n x|n rt wt]; cbn [weak_step] in H; destruct (nth_error (w_ths s) n) as [t|] eqn:N; try discriminate.
  - destruct (w_pc t) eqn:P; try discriminate. injection H as <-. exists G. split; [|split; [exact R'|split; [exact LN'|]]].
    + destruct (i_thr _ _ _ I n t N) as (A & B & _).
      pose proof (local_ok c G s n t (mkW WHLoad x (w_snap t) (w_view t)) (w_out s) I N ltac:(split; [exact A|split; [exact B|exact Logic.I]]) ltac:(contradiction) ltac:(contradiction)) as [X Y Z].
      constructor; [exact X|exact Y|exact Z].
    + cbn [w_ths w_held]. destruct (Nat.eq_dec n (logger_of c)) as [->|D].
      * rewrite N in N1. injection N1 as <-. exists (mkW WHLoad x (w_snap t) (w_view t)). split; [exact (upd_here _ _ _ _ N)|]. destruct OK as (A & B & C). rewrite P in C. split; [exact A|]. split; [exact B|exact C].
      * exists t1. split; [rewrite upd_other by congruence; exact N1|exact OK].
  - destruct (wstep c (w_mem s) t rt wt) as [[[[mem' t'] h] o]|] eqn:W; [|discriminate]. injection H as <-.
    destruct (run_ok c G s n t rt wt mem' t' h o NP I N FR W) as (G' & I' & MV). exists G'. split; [exact I'|]. split; [exact R'|]. split; [exact LN'|]. cbn [w_ths w_held].
    destruct (Nat.eq_dec n (logger_of c)) as [E|D].
    + rewrite <- E in N1 |- *. rewrite N in N1. injection N1 as <-. exists t'. split; [exact (upd_here _ _ _ _ N)|]. exact (one_step c G G' s n t rt wt mem' t' h o NP I N OK W I' MV).
    + exists t1. split; [rewrite upd_other by congruence; exact N1|].
      assert (LT : (n < length (w_ths s))%nat) by (apply nth_error_Some; rewrite N; discriminate). rewrite LN in LT. unfold logger_of in *.
      destruct (is_sync c) eqn:SY; [lia|]. assert (n = 0%nat) by lia. subst n. pose proof (R SY 0%nat t N) as RC. cbn in RC.
      destruct (step_consumer _ _ _ _ _ _ _ _ _ W RC) as (-> & EM). cbn [map] in *. rewrite app_nil_r in *.
      assert (EW : hW G' = hW G).
      { destruct EM as [E|(m & E & NPD)].
        - exact (same_hW c G G' _ _ _ _ (zero_at LHold) (i_mem _ _ _ I) (i_mem _ _ _ I') (or_introl E)).
        - exact (same_hW c G G' _ _ _ _ m (i_mem _ _ _ I) (i_mem _ _ _ I') (or_intror (conj E (fun X => NPD (or_intror X))))). }
      destruct OK as (A & B & C). unfold one_ok. rewrite EW. split; [exact A|]. split; [exact B|].
      pose proof (fun r => rs_keep c G G' t1 t1 (mv_marks _ _ _ _ _ _ _ _ MV) EW (fun k => Z.le_refl _) r) as RK.
      destruct (w_pc t1); auto; try (destruct C as [C|(C & C')]; auto); try (destruct C as (C0 & C); split; [exact C0|]; destruct C as [C|(C & C')]; auto);
        try (destruct C as (C0 & C & C'); auto).
Qed.
Lemma start_one : forall c, 1 < n_ring c -> oneinv c G0 (weak_start c 1).
Proof.
  intros c NP. split; [exact (start_winv c 1 NP)|]. split; [exact (start_roles c 1)|]. unfold weak_start, logger_of. destruct (is_sync c); (split; [reflexivity|]); exists (mkW WIdle [] 0 bottom); split; try reflexivity; repeat split.
Qed.
Lemma oneinv_run : forall c ls G s s', 1 < n_ring c -> oneinv c G s -> w_no_lap c s ls -> weak_run c s ls = Some s' -> exists G', oneinv c G' s'.
Proof.
  intros c ls. induction ls as [|a ls IH]; intros G s s' NP A L H; cbn [weak_run] in H; [injection H as <-; eauto|].
  destruct (weak_step c s a) as [s1|] eqn:E; [|discriminate]. destruct L as (F & L). destruct (oneinv_step c G s a s1 NP A F E) as (G1 & A1).
  exact (IH G1 s1 s' NP A1 (L s1 E) H).
Qed.
Lemma one_published : forall c ls s t, 1 < n_ring c -> weakly c 1 ls s -> nth_error (w_ths s) (if is_sync c then 0%nat else 1%nat) = Some t -> w_pc t = WIdle ->
  w_top s LWrite = zlen (w_held s).
Proof.
  intros c ls s t NP (H & L) N P. destruct (oneinv_run c ls G0 _ s NP (start_one c NP) L H) as (G & I & _ & _ & u & U & (_ & _ & OK)).
  unfold logger_of in U. rewrite N in U. injection U as <-. rewrite P in OK. rewrite (top_idx c G s LWrite _ (i_mem _ _ _ I) eq_refl). symmetry. exact OK.
Qed.

(* ---- the writer thread publishes nothing ---- *)
Lemma writer_keeps : forall c ls s s', is_sync c = false -> roles c s -> Forall writer_only ls -> weak_run c s ls = Some s' -> w_top s' LWrite = w_top s LWrite /\ w_held s' = w_held s.
Proof.
  intros c ls. induction ls as [|a ls IH]; intros s s' SY R F H; cbn [weak_run] in H; [injection H as <-; auto|].
  inversion F as [|a' ls' F1 F2]; subst. destruct (weak_step c s a) as [s1|] eqn:E; [|discriminate].
  destruct (IH s1 s' SY (roles_step c s a s1 R E) F2 H) as (A & B). rewrite A, B. clear A B IH H.
  destruct a as [n x|n rt wt]; [contradiction|]. cbn in F1. subst n. cbn [weak_step] in E. destruct (nth_error (w_ths s) 0) as [t|] eqn:N; [|discriminate].
  destruct (wstep c (w_mem s) t rt wt) as [[[[mem' t'] h] o]|] eqn:W; [|discriminate]. injection E as <-. pose proof (R SY 0%nat t N) as RC. cbn in RC.
  destruct (step_consumer _ _ _ _ _ _ _ _ _ W RC) as (-> & EM). cbn [w_held map]. rewrite app_nil_r. split; [|reflexivity]. unfold w_top. cbn [w_mem].
  destruct EM as [->|(m & -> & NPD)]; [reflexivity|]. rewrite top_cons, loc_eqb_neq; [reflexivity|]. intros X. apply NPD. right. exact X.
Qed.
Lemma roles_run : forall c ls s s', roles c s -> weak_run c s ls = Some s' -> roles c s'.
Proof.
  intros c ls. induction ls as [|a ls IH]; intros s s' R H; cbn [weak_run] in H; [injection H as <-; exact R|].
  destruct (weak_step c s a) as [s1|] eqn:E; [|discriminate]. exact (IH s1 s' (roles_step c s a s1 R E) H).
Qed.
Lemma weak_run_app : forall c a b s s', weak_run c s (a ++ b) = Some s' -> exists s1, weak_run c s a = Some s1 /\ weak_run c s1 b = Some s'.
Proof.
  intros c a. induction a as [|x a IH]; intros b s s' H; [exists s; auto|]. cbn [app weak_run] in *. destruct (weak_step c s x) as [s1|]; [exact (IH b s1 s' H)|discriminate].
Qed.
Lemma out_published : forall c k ls s, 1 < n_ring c -> weakly c k ls s -> zlen (w_out s) <= w_top s LWrite.
Proof.
  intros c k ls s NP H. destruct (delivered c k ls s NP H) as (ND & IN & _). destruct (counts c k ls s NP H) as (_ & C1 & C2 & _).
  assert (L : (length (map fst (w_out s)) <= length (map Z.of_nat (seq 0 (Z.to_nat (w_top s LProc)))))%nat).
  { apply NoDup_incl_length; [exact ND|]. intros p P. apply in_map_iff in P. destruct P as ((q & x) & <- & P). destruct (IN q x P) as (Q & _). apply in_map_iff.
    exists (Z.to_nat q). cbn [fst]. split; [lia|]. apply in_seq. lia. }
  rewrite !map_length, seq_length in L. unfold zlen. lia.
Qed.
Lemma writer_alone : forall c k ls more s s', 1 < n_ring c -> is_sync c = false -> weak_run c (weak_start c k) ls = Some s -> weakly c k (ls ++ more) s' -> Forall writer_only more ->
  zlen (w_out s') <= w_top s LWrite.
Proof.
  intros c k ls more s s' NP SY H W F. pose proof (out_published c k _ s' NP W) as O. destruct W as (W & _). apply weak_run_app in W. destruct W as (s1 & W1 & W2). rewrite H in W1. injection W1 as <-.
  destruct (writer_keeps c more s s' SY (roles_run c ls _ s (start_roles c k) H) F W2) as (<- & _). exact O.
Qed.

(* ---- checking that a run has no lap ---- *)
Definition fresh_b (c : rcfg) (s : wst) (a : wlabel) : bool :=
  match a with
  | XRun n rt _ =>
      match nth_error (w_ths s) n with
      | Some t => match w_pc t with WHCas old | WPCas old | WCCas old | WRCas old => negb (rt mod n_ring c =? old) || (rt - w_snap t <? n_ring c) | _ => true end
      | None => true
      end
  | XLog _ _ => true
  end.
Fixpoint no_lap_b (c : rcfg) (s : wst) (ls : list wlabel) : bool :=
  match ls with
  | [] => true
  | a :: ls' => fresh_b c s a && match weak_step c s a with Some s' => no_lap_b c s' ls' | None => true end
  end.
Lemma no_lap_b_ok : forall c ls s, no_lap_b c s ls = true -> w_no_lap c s ls.
Proof.
  intros c ls. induction ls as [|a ls IH]; intros s H; [exact Logic.I|]. cbn [no_lap_b] in H. apply andb_prop in H. destruct H as (A & B). split.
  - destruct a as [n x|n rt wt]; [exact Logic.I|]. cbn [w_fresh fresh_b] in *. intros t N. rewrite N in A. destruct (w_pc t); try exact Logic.I; lia.
  - intros s' E. rewrite E in B. exact (IH s' B).
Qed.
Lemma weakly_run : forall {A} c k ls (f : wst -> A) v, no_lap_b c (weak_start c k) ls = true ->
  match weak_run c (weak_start c k) ls with Some s => Some (f s) | None => None end = Some v -> exists s, weakly c k ls s /\ f s = v.
Proof.
  intros A c k ls f v L H. destruct (weak_run c (weak_start c k) ls) as [s|] eqn:E; [|discriminate]. injection H as <-. exists s. split; [|reflexivity]. split; [exact E|exact (no_lap_b_ok c ls _ L)].
Qed.
