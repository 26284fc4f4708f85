(* The order of the records in weak memory, and one logging thread. *)
From Coq Require Import String ZArith List Bool Lia ZifyBool ZifyNat ZifyN.
From Verif Require Import Base BaseFacts LoggerState Ring RingInv WeakRing WeakSpec WeakProofs WeakInv WeakOut.
Import ListNotations.
Open Scope Z_scope.
Ltac Zify.zify_post_hook ::= idtac.

(* ---- slots and races ---- *)
Lemma slots_apart : forall c k ls s n m t u i j, 1 < n_ring c -> weakly c k ls s -> n <> m -> nth_error (w_ths s) n = Some t -> nth_error (w_ths s) m = Some u ->
  w_filling t = Some i \/ w_reading t = Some i -> w_filling u = Some j \/ w_reading u = Some j -> i <> j.
Proof.
  intros c k ls s n m t u i j NP H D N M A B. destruct (weakly_all c k ls s NP H) as (G & I & _). pose proof (i_mem _ _ _ I) as MM. pose proof (i_order _ _ _ _ MM) as OR.
  assert (RG : forall q x e, nth_error (w_ths s) q = Some x -> w_filling x = Some e \/ w_reading x = Some e ->
    e = w_snap x mod n_ring c /\ (fills x /\ hW G <= w_snap x < zlen (w_held s) \/ reads x /\ hR G <= w_snap x < hP G)).
  { intros q x e Q X. pose proof (i_thr _ _ _ I q x Q) as K. destruct X as [X|X].
    - assert (F : fills x) by (unfold fills, w_filling in *; destruct (w_pc x); try discriminate; exact Logic.I).
      destruct (fills_facts _ _ _ _ _ _ MM K F) as (e' & (E1 & _) & E2). rewrite E2 in X. injection X as <-. split; [exact E1|left]. split; [exact F|exact (fills_late _ _ _ _ _ _ MM K F)].
    - assert (F : reads x) by (unfold reads, w_reading in *; destruct (w_pc x); try discriminate; exact Logic.I).
      destruct (reads_facts _ _ _ _ _ _ K F) as (E1 & E2 & E3 & E4). rewrite E4 in X. injection X as <-. split; [reflexivity|right]. split; [exact F|]. split; [|lia].
      destruct (Z_lt_ge_dec (w_snap x) (hR G)) as [L|L]; [|lia]. destruct (i_clr _ _ _ _ MM (w_snap x) ltac:(lia)) as (y & Y). rewrite Y in E3. discriminate. }
  destruct (RG n t i N A) as (-> & C1). destruct (RG m u j M B) as (-> & C2). intros E.
  assert (DD : w_snap t <> w_snap u).
  { destruct (i_apart _ _ _ I n m t u N M D) as (AF & AR). destruct C1 as [(F1 & C1)|(F1 & C1)], C2 as [(F2 & C2)|(F2 & C2)]; [exact (AF F1 F2)|lia|lia|exact (AR F1 F2)]. }
  destruct (Z_lt_ge_dec (w_snap t) (w_snap u)) as [L|L].
  - pose proof (mod_gap (n_ring c) _ _ ltac:(lia) E L). lia.
  - pose proof (mod_gap (n_ring c) _ _ ltac:(lia) (eq_sym E) ltac:(lia)). lia.
Qed.

Lemma no_race : forall c k ls s n t i, 1 < n_ring c -> weakly c k ls s -> nth_error (w_ths s) n = Some t -> w_pc t = WFill i \/ w_pc t = WCRead i ->
  up_to_date s t (LRec i) /\ up_to_date s t (LMark i).
Proof.
  intros c k ls s n t i NP H N P. destruct (weakly_all c k ls s NP H) as (G & I & _). pose proof (i_mem _ _ _ I) as MM.
  pose proof (i_thr _ _ _ I n t N) as K. destruct K as (K1 & K2 & K3). unfold thr_ok in K3. destruct P as [P|P]; rewrite P in K3.
  - destruct K3 as ((E1 & E2 & E3 & E4 & E5) & (x & X1 & X2) & D).
    destruct (fill_seen c G _ _ (w_view t) (w_snap t) i NP MM K1 K2 E1 E2 E4 E5) as (A & B & _).
    + intros y Y. rewrite X1 in Y. injection Y as <-. exact X2.
    + intros d Y. rewrite D in Y. discriminate.
    + split; [exact B|exact A].
  - destruct K3 as (-> & E2 & E3 & E4). destruct (read_seen c G _ _ (w_view t) (w_snap t) NP MM K1 K2 E2 E3 E4) as (A & B & _). split; [exact B|exact A].
Qed.

Lemma counts : forall c k ls s, 1 < n_ring c -> weakly c k ls s ->
  w_top s LHold = zlen (w_held s) /\ 0 <= w_top s LRead <= w_top s LProc /\ w_top s LProc <= w_top s LWrite <= w_top s LHold /\ w_top s LHold <= w_top s LRead + n_ring c - 1.
Proof.
  intros c k ls s NP H. destruct (weakly_all c k ls s NP H) as (G & I & _). pose proof (i_mem _ _ _ I) as MM. pose proof (i_order _ _ _ _ MM).
  rewrite (top_idx c G s LHold _ MM eq_refl), (top_idx c G s LWrite _ MM eq_refl), (top_idx c G s LProc _ MM eq_refl), (top_idx c G s LRead _ MM eq_refl). lia.
Qed.

Lemma delivered : forall c k ls s, 1 < n_ring c -> weakly c k ls s ->
  NoDup (map fst (w_out s)) /\ (forall p x, In (p, x) (w_out s) -> 0 <= p < w_top s LProc /\ exists n, nth_error (w_held s) (Z.to_nat p) = Some (n, x)) /\
  (forall p, 0 <= p < w_top s LProc -> (exists x, In (p, x) (w_out s)) \/ exists n t i, nth_error (w_ths s) n = Some t /\ w_pc t = WCRead i /\ i = p mod n_ring c).
Proof.
  intros c k ls s NP H. destruct (weakly_all c k ls s NP H) as (G & I & O). pose proof (i_mem _ _ _ I) as MM. rewrite (top_idx c G s LProc _ MM eq_refl).
  split; [exact (o_nd _ _ O)|]. split; [exact (o_in _ _ O)|]. intros p P. destruct (o_cl _ _ O p P) as [X|(n & t & i & N & Q & <-)].
  - left. apply in_map_iff in X. destruct X as ((q & x) & <- & X). exists x. exact X.
  - right. exists n, t, i. split; [exact N|]. split; [exact Q|]. destruct (i_thr _ _ _ I n t N) as (_ & _ & K). unfold thr_ok in K. rewrite Q in K. exact (proj1 K).
Qed.

(* ---- one step, by the kind of thread ---- *)
Definition consumer (p : wpc) : bool :=
  match p with WCLoad | WCWrite _ | WCCas _ | WCRead _ | WCMark _ | WRLoad | WRProc _ | WRMark _ | WRCas _ => true | _ => false end.
Definition pend (t : wthr) : list text := match w_pc t with WHLoad | WHRead _ | WHCas _ => [w_msg t] | _ => [] end.


Lemma step_roles : forall c mem t rt wt mem' t' h o, is_sync c = false -> wstep c mem t rt wt = Some (mem', t', h, o) ->
  consumer (w_pc t') = consumer (w_pc t).
Proof.
  intros c mem t rt wt mem' t' h o S H. destruct (w_pc t) eqn:P; unfold wstep in H; rewrite P in H; rewrite ?S in H;
    repeat match type of H with
    | context [match w_load ?a ?b ?c ?d with _ => _ end] => destruct (w_load a b c d) as [[? ?]|]
    | context [match w_store ?a ?b ?c ?d ?e ?f with _ => _ end] => destruct (w_store a b c d e f) as [[? ?]|]
    | context [match w_cas ?a ?b ?c ?d ?e ?f with _ => _ end] => destruct (w_cas a b c d e f) as [[[[|] ?] ?]|]
    | context [match w_plain ?a ?b ?c ?d with _ => _ end] => destruct (w_plain a b c d) as [[? ?]|]
    end; try discriminate H; injection H as <- <- <- <-; cbn [w_go w_go_at w_pc consumer];
    repeat match goal with |- context [if ?b then _ else _] => destruct b end; reflexivity.
Qed.

Lemma step_pend : forall c mem t rt wt mem' t' h o, wstep c mem t rt wt = Some (mem', t', h, o) -> h ++ pend t' = pend t.
Proof.
  intros c mem t rt wt mem' t' h o H. unfold pend. destruct (w_pc t) eqn:P; unfold wstep in H; rewrite P in H;
    repeat match type of H with
    | context [match w_load ?a ?b ?c ?d with _ => _ end] => destruct (w_load a b c d) as [[? ?]|]
    | context [match w_store ?a ?b ?c ?d ?e ?f with _ => _ end] => destruct (w_store a b c d e f) as [[? ?]|]
    | context [match w_cas ?a ?b ?c ?d ?e ?f with _ => _ end] => destruct (w_cas a b c d e f) as [[[[|] ?] ?]|]
    | context [match w_plain ?a ?b ?c ?d with _ => _ end] => destruct (w_plain a b c d) as [[? ?]|]
    end; try discriminate H; injection H as <- <- <- <-; cbn [w_go w_go_at w_pc w_msg app];
    repeat match goal with |- context [if ?b then _ else _] => destruct b end; reflexivity.
Qed.

(* what a consumer stores is neither hold nor write index and no ready mark *)
Definition produced (m : msg) : Prop := m_loc m = LHold \/ m_loc m = LWrite.
Lemma step_consumer : forall c mem t rt wt mem' t' h o, wstep c mem t rt wt = Some (mem', t', h, o) -> consumer (w_pc t) = true ->
  h = [] /\ (mem' = mem \/ exists m, mem' = m :: mem /\ ~ produced m).
Proof.
  intros c mem t rt wt mem' t' h o H C. destruct (w_pc t) eqn:P; try discriminate C; unfold wstep in H; rewrite P in H;
    repeat match type of H with
    | context [match w_load ?a ?b ?c ?d with _ => _ end] => destruct (w_load a b c d) as [[? ?]|]
    | context [match w_store ?a ?b ?c ?d ?e ?f with _ => _ end] => let E := fresh "ST" in destruct (w_store a b c d e f) as [[? ?]|] eqn:E
    | context [match w_cas ?a ?b ?c ?d ?e ?f with _ => _ end] => let E := fresh "CA" in destruct (w_cas a b c d e f) as [[[[|] ?] ?]|] eqn:E
    | context [match w_plain ?a ?b ?c ?d with _ => _ end] => destruct (w_plain a b c d) as [[? ?]|]
    end; try discriminate H; injection H as <- <- <- <-; (split; [reflexivity|]); try (left; reflexivity).
  - unfold w_cas in CA. destruct (w_load mem (w_view t) LProc rt) as [[m w]|]; [|discriminate]. destruct (m_val m =? old); [|discriminate].
    destruct (w_store mem w LProc (rt + 1) (nxt c old) []) as [[m2 w2]|] eqn:ST; [|discriminate]. injection CA as <- <-. apply store_inv in ST. destruct ST as (_ & _ & _ & ->).
    right. eexists. split; [reflexivity|]. intros [X|X]; discriminate X.
  - unfold w_cas in CA. destruct (w_load mem (w_view t) LProc rt) as [[m w]|]; [|discriminate]. destruct (m_val m =? old).
    + destruct (w_store mem w LProc (rt + 1) (nxt c old) []) as [[m2 w2]|]; discriminate.
    + injection CA as <- _. left. reflexivity.
  - apply store_inv in ST. destruct ST as (_ & _ & _ & ->). right. eexists. split; [reflexivity|]. intros [X|X]; discriminate X.
  - unfold w_cas in CA. destruct (w_load mem (w_view t) LRead rt) as [[m w]|]; [|discriminate]. destruct (m_val m =? old); [|discriminate].
    destruct (w_store mem w LRead (rt + 1) (nxt c old) []) as [[m2 w2]|] eqn:ST; [|discriminate]. injection CA as <- <-. apply store_inv in ST. destruct ST as (_ & _ & _ & ->).
    right. eexists. split; [reflexivity|]. intros [X|X]; discriminate X.
  - unfold w_cas in CA. destruct (w_load mem (w_view t) LRead rt) as [[m w]|]; [|discriminate]. destruct (m_val m =? old).
    + destruct (w_store mem w LRead (rt + 1) (nxt c old) []) as [[m2 w2]|]; discriminate.
    + injection CA as <- _. left. reflexivity.
Qed.

(* ---- the order in which statements of one thread are reserved ---- *)
Definition tinv (s : wst) : Prop := forall n t, nth_error (w_ths s) n = Some t -> w_of n (w_held s) ++ pend t = w_of n (w_started s).
Lemma w_of_app : forall n a b, w_of n (a ++ b) = w_of n a ++ w_of n b.
Proof. intros. unfold w_of. rewrite filter_app, map_app. reflexivity. Qed.
Lemma w_of_own : forall n h, w_of n (map (pair n) h) = h.
Proof. intros n h. unfold w_of. induction h as [|x h IH]; [reflexivity|]. cbn [map filter fst]. rewrite Nat.eqb_refl. cbn [map snd]. rewrite IH. reflexivity. Qed.
Lemma w_of_other : forall n m h, n <> m -> w_of n (map (pair m) h) = [].
Proof. intros n m h D. unfold w_of. induction h as [|x h IH]; [reflexivity|]. cbn [map filter fst]. replace (Nat.eqb m n) with false by (symmetry; apply Nat.eqb_neq; congruence). exact IH. Qed.
Lemma tinv_step : forall c s a s', tinv s -> weak_step c s a = Some s' -> tinv s'.
Proof.
  intros c s a s' T H. destruct a as [n x|n rt wt]; cbn [weak_step] in H; destruct (nth_error (w_ths s) n) as [t|] eqn:N; try discriminate.
  - destruct (w_pc t) eqn:P; try discriminate. injection H as <-. intros m u U. cbn [w_ths w_held w_started] in *. rewrite w_of_app. apply upd_inv in U. destruct U as [(-> & ->)|(D & U)].
    + change [(n, x)] with (map (pair n) [x]). rewrite w_of_own, <- (T n t N). unfold pend. rewrite P. cbn [w_pc w_msg]. rewrite app_nil_r. reflexivity.
    + change [(n, x)] with (map (pair n) [x]). rewrite w_of_other, app_nil_r by congruence. exact (T m u U).
  - destruct (wstep c (w_mem s) t rt wt) as [[[[mem' t'] h] o]|] eqn:W; [|discriminate]. injection H as <-. intros m u U. cbn [w_ths w_held w_started] in *.
    rewrite w_of_app. apply upd_inv in U. destruct U as [(-> & ->)|(D & U)].
    + rewrite w_of_own, <- app_assoc, (step_pend _ _ _ _ _ _ _ _ _ W). exact (T n t N).
    + rewrite w_of_other, app_nil_r by congruence. exact (T m u U).
Qed.
Lemma tinv_run : forall c ls s s', tinv s -> weak_run c s ls = Some s' -> tinv s'.
Proof.
  intros c ls. induction ls as [|a ls IH]; intros s s' T H; cbn [weak_run] in H; [injection H as <-; exact T|].
  destruct (weak_step c s a) as [s1|] eqn:E; [|discriminate]. exact (IH s1 s' (tinv_step c s a s1 T E) H).
Qed.
Lemma start_tinv : forall c k, tinv (weak_start c k).
Proof. intros c k n t H. destruct (start_thr c k n t H) as (_ & P). unfold pend. destruct P as [->|(_ & _ & ->)]; reflexivity. Qed.
Lemma reserved_in_order : forall c k ls s n t, weakly c k ls s -> nth_error (w_ths s) n = Some t ->
  w_of n (w_started s) = w_of n (w_held s) ++ match w_pc t with WHLoad | WHRead _ | WHCas _ => [w_msg t] | _ => [] end.
Proof. intros c k ls s n t (H & _) N. symmetry. exact (tinv_run c ls _ s (start_tinv c k) H n t N). Qed.

(* ---- an async channel dispatches in the order of reservation ---- *)
Definition seen_by (t : wthr) : Z := match w_pc t with WCRead _ => 1 | _ => 0 end.
Record ainv (G : gts) (s : wst) : Prop := mkAinv {
  a_role : forall n t, nth_error (w_ths s) n = Some t -> consumer (w_pc t) = Nat.eqb n 0;
  a_out : map fst (w_out s) = map Z.of_nat (seq 0 (length (w_out s)));
  a_len : exists t, nth_error (w_ths s) 0 = Some t /\ zlen (w_out s) + seen_by t = hP G
}.
Lemma ainv_step : forall c G s a s', 1 < n_ring c -> is_sync c = false -> allinv c G s -> ainv G s -> w_fresh c s a -> weak_step c s a = Some s' ->
  exists G', allinv c G' s' /\ ainv G' s'.
Proof.
  intros c G s a s' NP SY (I & O) A FR H. destruct A as [A1 A2 (t0 & A3 & A4)].
  destruct a as [n x|n rt wt].
  - assert (exists G', allinv c G' s' /\ hP G' = hP G) as (G' & AL & EP).
    { pose proof H as H'. destruct (step_all c G s (XLog n x) s' NP (conj I O) FR H) as (G' & AL). exists G'. split; [exact AL|]. cbn [weak_step] in H'.
      destruct (nth_error (w_ths s) n) as [t|] eqn:N; [|discriminate]. destruct (w_pc t) eqn:P; try discriminate. injection H' as <-.
      rewrite <- (top_idx c G' _ LProc _ (i_mem _ _ _ (proj1 AL)) eq_refl), <- (top_idx c G s LProc _ (i_mem _ _ _ I) eq_refl). reflexivity. }
    exists G'. split; [exact AL|]. cbn [weak_step] in H. destruct (nth_error (w_ths s) n) as [t|] eqn:N; [|discriminate]. destruct (w_pc t) eqn:P; try discriminate. injection H as <-.
    pose proof (A1 n t N) as R. rewrite P in R. cbn in R. constructor; cbn [w_ths w_out].
    + intros m u U. apply upd_inv in U. destruct U as [(-> & ->)|(D & U)]; [exact R|exact (A1 m u U)].
    + exact A2.
    + exists t0. split; [|rewrite EP; exact A4]. destruct n as [|n]; [discriminate R|]. rewrite upd_other by congruence. exact A3.
  - cbn [weak_step] in H. destruct (nth_error (w_ths s) n) as [t|] eqn:N; [|discriminate].
    destruct (wstep c (w_mem s) t rt wt) as [[[[mem' t'] h] o]|] eqn:W; [|discriminate]. injection H as <-.
    destruct (run_ok c G s n t rt wt mem' t' h o NP I N FR W) as (G' & I' & MV). exists G'. split; [split; [exact I'|exact (oinv_step c G G' s n t t' mem' h o I O N MV)]|].
    pose proof (step_roles _ _ _ _ _ _ _ _ _ SY W) as SR. rewrite (A1 n t N) in SR. pose proof (A1 n t N) as R0. destruct MV as [_ _ MC MN MO _ _].
    assert (RO : forall m u, nth_error (upd (w_ths s) n t') m = Some u -> consumer (w_pc u) = Nat.eqb m 0).
    { intros m u U. apply upd_inv in U. destruct U as [(-> & ->)|(D & U)]; [exact SR|exact (A1 m u U)]. }
    destruct n as [|n].
    + rewrite A3 in N. injection N as <-. destruct MO as [(-> & NR)|(i & y & nd & P1 & P2 & P3 & -> & P4)].
      * assert (S0 : seen_by t0 = 0) by (unfold seen_by; destruct (w_pc t0); try reflexivity; exfalso; eapply NR; reflexivity).
        constructor; cbn [w_ths w_out moved]; [exact RO|rewrite app_nil_r; exact A2|]. exists t'. split; [exact (upd_here _ _ _ _ A3)|]. rewrite app_nil_r.
        destruct (w_pc t') as [| |old|old|i|i|i| |old|old|old| |old|old|i|i| |old|old|old] eqn:E;
          try (unfold seen_by; rewrite E; rewrite MN by (intros j; discriminate); lia).
        destruct (MC (ex_intro _ i eq_refl)) as (_ & X & _). unfold seen_by. rewrite E. lia.
      * assert (S0 : seen_by t0 = 1) by (unfold seen_by; rewrite P1; reflexivity).
        destruct (i_thr _ _ _ I 0%nat t0 A3) as (_ & _ & K). unfold thr_ok in K. rewrite P1 in K. destruct K as (_ & K1 & _).
        pose proof (o_rd _ _ O 0%nat t0 i A3 P1) as ND.
        assert (E : w_snap t0 = Z.of_nat (length (w_out s))).
        { destruct (Z_lt_ge_dec (w_snap t0) (Z.of_nat (length (w_out s)))) as [L|L]; [|unfold zlen in A4; lia]. exfalso. apply ND. rewrite A2. apply in_map_iff.
          exists (Z.to_nat (w_snap t0)). split; [lia|]. apply in_seq. lia. }
        constructor; cbn [w_ths w_out moved]; [exact RO| |].
        -- rewrite map_app, A2, app_length. cbn [length map fst]. rewrite Nat.add_1_r, seq_S, map_app, Nat.add_0_l. cbn [map]. rewrite E. reflexivity.
        -- exists t'. split; [exact (upd_here _ _ _ _ A3)|]. rewrite MN by (intros j; rewrite P2; discriminate). unfold seen_by. rewrite P2. unfold zlen in *. rewrite app_length. cbn [length]. lia.
    + destruct MO as [(-> & NR)|(i & y & nd & P1 & _)]; [|rewrite P1 in R0; discriminate R0].
      constructor; cbn [w_ths w_out moved]; [exact RO|rewrite app_nil_r; exact A2|]. exists t0. split; [rewrite upd_other by congruence; exact A3|]. rewrite app_nil_r.
      rewrite MN; [exact A4|]. intros i E. rewrite E in SR. discriminate SR.
Qed.
Lemma start_ainv : forall c k, is_sync c = false -> ainv G0 (weak_start c k).
Proof.
  intros c k SY. unfold weak_start. rewrite SY. constructor.
  - intros [|n] t H; cbn [w_ths app nth_error] in H; [injection H as <-; reflexivity|]. apply nth_error_In, repeat_spec in H. subst t. reflexivity.
  - reflexivity.
  - exists (mkW WCLoad [] 0 bottom). split; reflexivity.
Qed.
Lemma ainv_run : forall c ls G s s', 1 < n_ring c -> is_sync c = false -> allinv c G s -> ainv G s -> w_no_lap c s ls -> weak_run c s ls = Some s' ->
  exists G', allinv c G' s' /\ ainv G' s'.
Proof.
  intros c ls. induction ls as [|a ls IH]; intros G s s' NP SY A B L H; cbn [weak_run] in H; [injection H as <-; eauto|].
  destruct (weak_step c s a) as [s1|] eqn:E; [|discriminate]. destruct L as (F & L). destruct (ainv_step c G s a s1 NP SY A B F E) as (G1 & A1 & B1).
  exact (IH G1 s1 s' NP SY A1 B1 (L s1 E) H).
Qed.
Lemma in_order : forall (held : list (nat * text)) (out : list (Z * text)), map fst out = map Z.of_nat (seq 0 (length out)) ->
  (forall p x, In (p, x) out -> exists n, nth_error held (Z.to_nat p) = Some (n, x)) ->
  map snd out = map snd (firstn (length out) held).
Proof.
  intros held out. induction out as [|(p, x) out IH] using rev_ind; intros E H; [reflexivity|].
  rewrite app_length in *. cbn [length] in *. rewrite Nat.add_1_r, seq_S, map_app, map_app in E. cbn [map fst] in E. apply app_inj_tail in E. destruct E as (E1 & E2). cbn in E2.
  destruct (H p x ltac:(apply in_or_app; right; left; reflexivity)) as (n & N). rewrite E2, Nat2Z.id in N.
  rewrite Nat.add_1_r, map_app. rewrite (IH E1) by (intros q y Q; apply H; apply in_or_app; left; exact Q). cbn [map snd].
  apply nth_error_split in N. destruct N as (l1 & l2 & -> & L). rewrite <- L.
  assert (F1 : firstn (length l1) (l1 ++ (n, x) :: l2) = l1) by (rewrite firstn_app, Nat.sub_diag, firstn_all; cbn [firstn]; apply app_nil_r).
  assert (F2 : firstn (S (length l1)) (l1 ++ (n, x) :: l2) = l1 ++ [(n, x)]) by (replace (S (length l1)) with (length l1 + 1)%nat by lia; rewrite firstn_app_2; reflexivity).
  rewrite F1, F2, map_app. reflexivity.
Qed.
Lemma async_order : forall c k ls s, 1 < n_ring c -> is_sync c = false -> weakly c k ls s ->
  map snd (w_out s) = map snd (firstn (length (w_out s)) (w_held s)).
Proof.
  intros c k ls s NP SY (H & L). destruct (ainv_run c ls G0 _ s NP SY (start_all c k NP) (start_ainv c k SY) L H) as (G & (_ & O) & [_ A2 _]).
  apply in_order; [exact A2|]. intros p x X. exact (proj2 (o_in _ _ O p x X)).
Qed.
