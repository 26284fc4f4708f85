(* Proofs about the queue in weak memory: what a view contains is closed under rules
   that relate the indices, the marks and the records. *)
From Coq Require Import String ZArith List Bool Lia ZifyBool ZifyNat ZifyN.
From Verif Require Import Base BaseFacts LoggerState Ring RingInv WeakRing WeakSpec.
Import ListNotations.
Open Scope Z_scope.
Ltac Zify.zify_post_hook ::= idtac.

Lemma loc_eqb_eq : forall a b, loc_eqb a b = true <-> a = b.
Proof. intros [| | | |i|i] [| | | |j|j]; cbn; split; intros H; try discriminate; try reflexivity; try (apply Z.eqb_eq in H; congruence); injection H as ->; lia. Qed.
Lemma loc_eqb_refl : forall a, loc_eqb a a = true.
Proof. intros a. apply loc_eqb_eq. reflexivity. Qed.
Lemma loc_eqb_neq : forall a b, a <> b -> loc_eqb a b = false.
Proof. intros a b H. destruct (loc_eqb a b) eqn:E; [apply loc_eqb_eq in E; contradiction|reflexivity]. Qed.
Lemma vset_same : forall v l t, vset v l t l = t.
Proof. intros. unfold vset. rewrite loc_eqb_refl. reflexivity. Qed.
Lemma vset_other : forall v l t k, k <> l -> vset v l t k = v k.
Proof. intros. unfold vset. rewrite loc_eqb_neq by assumption. reflexivity. Qed.
Lemma vset_le : forall v l t k, v l <= t -> v k <= vset v l t k.
Proof. intros v l t k H. unfold vset. destruct (loc_eqb k l) eqn:E; [apply loc_eqb_eq in E; subst; exact H|lia]. Qed.

Lemma at_in : forall mem l t m, at_ts mem l t = Some m -> In m mem /\ m_loc m = l /\ m_ts m = t.
Proof.
  intros mem l t m H. unfold at_ts in H. apply find_some in H. destruct H as [I E]. apply andb_prop in E. destruct E as [E1 E2].
  apply loc_eqb_eq in E1. split; [exact I|]. split; [exact E1|lia].
Qed.
Lemma at_none : forall mem l t m, at_ts mem l t = None -> In m mem -> m_loc m = l -> m_ts m <> t.
Proof. intros mem l t m H I E X. unfold at_ts in H. apply (find_none _ _ H) in I. rewrite E, loc_eqb_refl in I. cbn in I. lia. Qed.
Lemma at_cons : forall mem l t m0, (exists m, at_ts mem l t = Some m) -> exists m, at_ts (m0 :: mem) l t = Some m.
Proof. intros mem l t m0 [m H]. unfold at_ts in *. cbn [find]. destruct (loc_eqb (m_loc m0) l && (m_ts m0 =? t)); eauto. Qed.
Lemma at_new : forall mem l t n x v, at_ts (mkMsg l t n x v :: mem) l t = Some (mkMsg l t n x v).
Proof. intros. unfold at_ts. cbn. rewrite loc_eqb_refl, Z.eqb_refl. reflexivity. Qed.

Lemma mod_gap : forall N a b, 0 < N -> a mod N = b mod N -> a < b -> a + N <= b.
Proof.
  intros N a b H E L. pose proof (Z.div_mod a N ltac:(lia)). pose proof (Z.div_mod b N ltac:(lia)). rewrite E in H0.
  assert (a / N < b / N) by nia. nia.
Qed.
Lemma mod_close : forall N a b, 0 < N -> a mod N = b mod N -> a <= b < a + N -> a = b.
Proof. intros N a b H E L. destruct (Z.eq_dec a b); [assumption|]. pose proof (mod_gap N a b H E ltac:(lia)). lia. Qed.

(* ---- ghosts: how far the indices are, and where the marks and the record of each
   position stand in the modification order ---- *)
Record gts := mkG { hW : Z; hP : Z; hR : Z; mts : Z -> Z -> option Z; dts : Z -> option Z }.
Definition stage (k : Z) : Z := if k =? 1 then MARK_HOLD else if k =? 2 then MARK_READY else MARK_INVALID.

Inductive rule (N : Z) (G : gts) : loc -> Z -> loc -> Z -> Prop :=
| r_hold : forall h, rule N G LHold h LRead (h - N + 1)
| r_read : forall r, rule N G LRead r LProc r
| r_clr : forall r p t, 0 <= p < r -> mts G p 3 = Some t -> rule N G LRead r (LMark (p mod N)) t
| r_proc : forall q, rule N G LProc q LWrite q
| r_write : forall w, rule N G LWrite w LHold w
| r_rdy : forall w p t, 0 <= p < w -> mts G p 2 = Some t -> rule N G LWrite w (LMark (p mod N)) t
| r_rec : forall p t d, mts G p 2 = Some t -> dts G p = Some d -> rule N G (LMark (p mod N)) t (LRec (p mod N)) d
| r_own : forall p t, mts G p 2 = Some t -> rule N G (LMark (p mod N)) t LHold (p + 1)
| r_don : forall p t, mts G p 3 = Some t -> rule N G (LMark (p mod N)) t LProc (p + 1).
Definition good (N : Z) (G : gts) (v : view) : Prop := forall l a l' b, rule N G l a l' b -> a <= v l -> b <= v l'.

Lemma good_join : forall N G v w, good N G v -> good N G w -> good N G (vjoin v w).
Proof.
  intros N G v w A B l a l' b R H. unfold vjoin in *. destruct (Z.max_spec (v l) (w l)) as [[_ E]|[_ E]]; rewrite E in H.
  - pose proof (B _ _ _ _ R H). lia.
  - pose proof (A _ _ _ _ R H). lia.
Qed.

Definition bounded (mem : list msg) (v : view) : Prop :=
  forall l, 0 <= v l /\ (v l = 0 \/ exists m, In m mem /\ m_loc m = l /\ v l <= m_ts m).
Lemma bounded_join : forall mem v w, bounded mem v -> bounded mem w -> bounded mem (vjoin v w).
Proof.
  intros mem v w A B l. unfold vjoin. destruct (A l) as [A1 A2], (B l) as [B1 B2]. split; [lia|].
  destruct (Z.max_spec (v l) (w l)) as [[_ ->]|[_ ->]]; assumption.
Qed.
Lemma bounded_cons : forall mem v m, bounded mem v -> bounded (m :: mem) v.
Proof. intros mem v m B l. destruct (B l) as [B1 [B2|(x & X & E)]]; (split; [exact B1|]); [left; exact B2|right; exists x; split; [right; exact X|exact E]]. Qed.
Lemma bounded_set : forall mem v l t m, bounded mem v -> 0 <= t -> m_loc m = l -> m_ts m = t -> In m mem -> bounded mem (vset v l t).
Proof.
  intros mem v l t m B T E1 E2 I k. unfold vset. destruct (loc_eqb k l) eqn:E; [|exact (B k)]. apply loc_eqb_eq in E. subst k.
  split; [exact T|]. right. exists m. split; [exact I|]. split; [exact E1|lia].
Qed.

Definition idx (G : gts) (held : list (nat * text)) (l : loc) : option Z :=
  match l with LHold => Some (zlen held) | LWrite => Some (hW G) | LProc => Some (hP G) | LRead => Some (hR G) | _ => None end.

(* ---- what a thread knows at each line ---- *)
Definition fills (t : wthr) : Prop := match w_pc t with WHMark _ | WFill _ | WPMark _ => True | _ => False end.
Definition reads (t : wthr) : Prop := match w_pc t with WCRead _ | WCMark _ => True | _ => False end.
Definition fill_ok (c : rcfg) (G : gts) (held : list (nat * text)) (n : nat) (t : wthr) (i : Z) : Prop :=
  i = w_snap t mod n_ring c /\ 0 <= w_snap t /\ nth_error held (Z.to_nat (w_snap t)) = Some (n, w_msg t) /\
  w_snap t + 1 <= w_view t LHold /\ mts G (w_snap t) 2 = None.
Definition thr_ok (c : rcfg) (G : gts) (held : list (nat * text)) (n : nat) (t : wthr) : Prop :=
  let N := n_ring c in let a := w_snap t in let v := w_view t in
  match w_pc t with
  | WHRead old => old = a mod N /\ a <= v LHold
  | WHCas old => old = a mod N /\ a <= v LHold /\ a + 2 - N <= v LRead
  | WHMark i => fill_ok c G held n t i /\ mts G a 1 = None /\ dts G a = None
  | WFill i => fill_ok c G held n t i /\ (exists x, mts G a 1 = Some x /\ x <= v (LMark i)) /\ dts G a = None
  | WPMark i => fill_ok c G held n t i /\ (exists x, mts G a 1 = Some x /\ x <= v (LMark i)) /\ (exists d, dts G a = Some d /\ d <= v (LRec i))
  | WPHold old | WPReady old => old = a mod N /\ a <= v LWrite
  | WPCas old => old = a mod N /\ a <= v LWrite /\ (hW G = a -> exists x, mts G a 2 = Some x /\ x <= v (LMark old))
  | WCWrite old => old = a mod N /\ a <= v LProc
  | WCCas old => old = a mod N /\ a <= v LProc /\ a + 1 <= v LWrite
  | WCRead i | WCMark i => i = a mod N /\ 0 <= a < hP G /\ a + 1 <= v LProc /\ mts G a 3 = None
  | WRProc old => old = a mod N /\ a <= v LRead
  | WRMark old => old = a mod N /\ a <= v LRead /\ a + 1 <= v LProc
  | WRCas old => old = a mod N /\ a <= v LRead /\ (hR G = a -> exists x, mts G a 3 = Some x /\ x <= v (LMark old))
  | _ => True
  end.

Record minv (c : rcfg) (G : gts) (mem : list msg) (held : list (nat * text)) : Prop := mkMinv {
  i_order : 0 <= hR G <= hP G /\ hP G <= hW G <= zlen held /\ zlen held <= hR G + n_ring c - 1;
  i_idx : forall m g, In m mem -> idx G held (m_loc m) = Some g -> 0 <= m_ts m <= g /\ m_val m = m_ts m mod n_ring c;
  i_all : forall l g t, idx G held l = Some g -> 0 <= t <= g -> exists m, at_ts mem l t = Some m;
  i_mark : forall m i, In m mem -> m_loc m = LMark i ->
    (m_ts m = 0 /\ m_val m = MARK_INVALID) \/ exists p k, p mod n_ring c = i /\ mts G p k = Some (m_ts m) /\ m_val m = stage k;
  i_rec : forall m i, In m mem -> m_loc m = LRec i ->
    m_ts m = 0 \/ exists p n, p mod n_ring c = i /\ dts G p = Some (m_ts m) /\ nth_error held (Z.to_nat p) = Some (n, m_txt m);
  i_dom : forall p k t, mts G p k = Some t -> 0 <= p < zlen held /\ 1 <= k <= 3 /\ 0 < t /\ (k = 3 -> p < hP G);
  i_data : forall p t, mts G p 2 = Some t -> exists d, dts G p = Some d;
  i_rdy : forall p, 0 <= p < hW G -> exists t, mts G p 2 = Some t;
  i_clr : forall p, 0 <= p < hR G -> exists t, mts G p 3 = Some t;
  i_mono : forall p k a q j b, p mod n_ring c = q mod n_ring c -> mts G p k = Some a -> mts G q j = Some b -> p < q \/ p = q /\ k < j -> a < b;
  i_ddom : forall p d, dts G p = Some d -> 0 <= p < zlen held /\ 0 < d;
  i_dmono : forall p a q b, p mod n_ring c = q mod n_ring c -> dts G p = Some a -> dts G q = Some b -> p < q -> a < b;
  i_msg : forall m, In m mem -> good (n_ring c) G (m_view m) /\ bounded mem (m_view m) /\ m_ts m <= m_view m (m_loc m)
}.
Definition knows (c : rcfg) (G : gts) (mem : list msg) (held : list (nat * text)) (n : nat) (t : wthr) : Prop :=
  good (n_ring c) G (w_view t) /\ bounded mem (w_view t) /\ thr_ok c G held n t.
Definition apart (ths : list wthr) : Prop :=
  forall n m t u, nth_error ths n = Some t -> nth_error ths m = Some u -> n <> m ->
    (fills t -> fills u -> w_snap t <> w_snap u) /\ (reads t -> reads u -> w_snap t <> w_snap u).
Record winv (c : rcfg) (G : gts) (s : wst) : Prop := mkWinv {
  i_mem : minv c G (w_mem s) (w_held s);
  i_thr : forall n t, nth_error (w_ths s) n = Some t -> knows c G (w_mem s) (w_held s) n t;
  i_apart : apart (w_ths s)
}.

(* ---- consequences ---- *)
Lemma view_le : forall c G mem held v l g, minv c G mem held -> bounded mem v -> idx G held l = Some g -> v l <= g.
Proof.
  intros c G mem held v l g M B E. destruct (B l) as [_ [Z|(m & I & L & H)]].
  - pose proof (i_order _ _ _ _ M). rewrite Z. destruct l; cbn in E; try discriminate; injection E as <-; lia.
  - rewrite <- L in E. pose proof (i_idx _ _ _ _ M m g I E). lia.
Qed.

(* a thread that fills a slot has seen every mark and every record of it *)
Lemma fill_seen : forall c G mem held v a i, 1 < n_ring c -> minv c G mem held -> good (n_ring c) G v -> bounded mem v ->
  i = a mod n_ring c -> 0 <= a -> a + 1 <= v LHold -> mts G a 2 = None ->
  (forall x, mts G a 1 = Some x -> x <= v (LMark i)) -> (forall d, dts G a = Some d -> d <= v (LRec i)) ->
  (forall m, In m mem -> m_loc m = LMark i -> m_ts m <= v (LMark i)) /\
  (forall m, In m mem -> m_loc m = LRec i -> m_ts m <= v (LRec i)) /\
  (forall p k x, p mod n_ring c = i -> mts G p k = Some x -> p = a /\ k = 1 \/ p < a) /\
  (forall p x, p mod n_ring c = i -> dts G p = Some x -> p <= a) /\
  (forall p k x, p mod n_ring c = i -> mts G p k = Some x -> x <= v (LMark i)) /\
  (forall p x, p mod n_ring c = i -> dts G p = Some x -> x <= v (LRec i)).
Proof.
  intros c G mem held v a i NP M GD B EI A0 AV A2 O1 O2.
  pose proof (i_order _ _ _ _ M) as OR.
  assert (RD : a + 1 - n_ring c + 1 <= v LRead) by exact (GD _ _ _ _ (r_hold _ _ (a + 1)) AV).
  pose proof (view_le c G mem held v LRead _ M B eq_refl) as RB.
  assert (AL : hW G <= a). { destruct (Z_lt_ge_dec a (hW G)) as [L|]; [|lia]. destruct (i_rdy _ _ _ _ M a ltac:(lia)) as (z & Z). rewrite Z in A2. discriminate A2. }
  assert (PAST : forall p, p mod n_ring c = i -> 0 <= p < zlen held -> p < a -> p < v LRead /\ p < hR G).
  { intros p PE PD L. pose proof (mod_gap (n_ring c) p a ltac:(lia) (eq_trans PE EI) L). lia. }
  assert (FUT : forall p, p mod n_ring c = i -> 0 <= p < zlen held -> p <= a).
  { intros p PE PD. destruct (Z_le_gt_dec p a) as [|L]; [assumption|]. pose proof (mod_gap (n_ring c) a p ltac:(lia) (eq_sym (eq_trans PE EI)) ltac:(lia)). lia. }
  assert (EV : forall p k x, p mod n_ring c = i -> mts G p k = Some x -> p = a /\ k = 1 \/ p < a).
  { intros p k x PE PX. pose proof (i_dom _ _ _ _ M p k x PX) as (PD & KD & _ & K3). pose proof (FUT p PE PD).
    destruct (Z.eq_dec p a) as [->|]; [|lia]. left. split; [reflexivity|].
    destruct (Z.eq_dec k 2) as [->|]; [rewrite PX in A2; discriminate A2|]. destruct (Z.eq_dec k 3) as [->|]; [specialize (K3 eq_refl); lia|lia]. }
  assert (MK : forall p k x, p mod n_ring c = i -> mts G p k = Some x -> x <= v (LMark i)).
  { intros p k x PE PX. pose proof (i_dom _ _ _ _ M p k x PX) as (PD & KD & _ & _). destruct (EV p k x PE PX) as [(-> & ->)|L]; [exact (O1 x PX)|].
    destruct (PAST p PE PD L) as (P1 & P2). destruct (i_clr _ _ _ _ M p ltac:(lia)) as (y & Y).
    pose proof (GD _ _ _ _ (r_clr _ _ (v LRead) p y ltac:(lia) Y) ltac:(lia)) as LE. rewrite PE in LE.
    destruct (Z.eq_dec k 3) as [->|]; [rewrite PX in Y; injection Y as <-; exact LE|]. pose proof (i_mono _ _ _ _ M p k x p 3 y eq_refl PX Y ltac:(lia)). lia. }
  assert (RC : forall p x, p mod n_ring c = i -> dts G p = Some x -> x <= v (LRec i)).
  { intros p x PE PX. pose proof (i_ddom _ _ _ _ M p _ PX) as (PD & _). pose proof (FUT p PE PD). destruct (Z.eq_dec p a) as [->|]; [exact (O2 _ PX)|].
    destruct (PAST p PE PD ltac:(lia)) as (P1 & P2). destruct (i_rdy _ _ _ _ M p ltac:(lia)) as (y & Y).
    pose proof (MK p 2 y PE Y) as LE. pose proof (GD _ _ _ _ (r_rec _ _ p y _ Y PX)) as LE2. rewrite PE in LE2. exact (LE2 LE). }
  split; [|split; [|split; [exact EV|split; [|split; [exact MK|exact RC]]]]].
  - intros m I L. destruct (i_mark _ _ _ _ M m i I L) as [(Z & _)|(p & k & PE & PX & _)]; [destruct (B (LMark i)); lia|]. exact (MK p k _ PE PX).
  - intros m I L. destruct (i_rec _ _ _ _ M m i I L) as [Z|(p & n' & PE & PX & _)]; [destruct (B (LRec i)); lia|].
    exact (RC p _ PE PX).
  - intros p x PE PX. exact (FUT p PE (proj1 (i_ddom _ _ _ _ M p _ PX))).
Qed.

(* so has one that reads it *)
Lemma read_seen : forall c G mem held v a, 1 < n_ring c -> minv c G mem held -> good (n_ring c) G v -> bounded mem v ->
  0 <= a < hP G -> a + 1 <= v LProc -> mts G a 3 = None -> let i := a mod n_ring c in
  (forall m, In m mem -> m_loc m = LMark i -> m_ts m <= v (LMark i)) /\
  (forall m, In m mem -> m_loc m = LRec i -> m_ts m <= v (LRec i)) /\
  (exists d, dts G a = Some d /\ d <= v (LRec i)) /\ (exists t, mts G a 2 = Some t /\ t <= v (LMark i)) /\
  (forall p k x, p mod n_ring c = i -> mts G p k = Some x -> p < a \/ p = a /\ k < 3) /\
  (forall p x, p mod n_ring c = i -> dts G p = Some x -> p <= a) /\
  (forall p k x, p mod n_ring c = i -> mts G p k = Some x -> x <= v (LMark i)).
Proof.
  intros c G mem held v a NP M GD B A0 AV A3 i. pose proof (i_order _ _ _ _ M) as OR.
  assert (WV : a + 1 <= v LWrite) by exact (GD _ _ _ _ (r_proc _ _ (a + 1)) AV).
  assert (AR : hR G <= a). { destruct (Z_lt_ge_dec a (hR G)) as [L|]; [|lia]. destruct (i_clr _ _ _ _ M a ltac:(lia)) as (z & Z). rewrite Z in A3. discriminate A3. }
  assert (FUT : forall p, p mod n_ring c = i -> 0 <= p < zlen held -> p <= a).
  { intros p PE PD. destruct (Z_le_gt_dec p a) as [|L]; [assumption|]. pose proof (mod_gap (n_ring c) a p ltac:(lia) (eq_sym PE) ltac:(lia)). lia. }
  destruct (i_rdy _ _ _ _ M a ltac:(lia)) as (y & Y). destruct (i_data _ _ _ _ M a y Y) as (d & D).
  assert (YV : y <= v (LMark i)) by exact (GD _ _ _ _ (r_rdy _ _ (a + 1) a y ltac:(lia) Y) WV).
  assert (DV : d <= v (LRec i)) by exact (GD _ _ _ _ (r_rec _ _ a y d Y D) YV).
  assert (EV : forall p k x, p mod n_ring c = i -> mts G p k = Some x -> p < a \/ p = a /\ k < 3).
  { intros p k x PE PX. pose proof (i_dom _ _ _ _ M p k x PX) as (PD & KD & _ & K3). pose proof (FUT p PE PD).
    destruct (Z.eq_dec p a) as [->|]; [|lia]. right. split; [reflexivity|]. destruct (Z.eq_dec k 3) as [->|]; [rewrite PX in A3; discriminate A3|lia]. }
  assert (MK : forall p k x, p mod n_ring c = i -> mts G p k = Some x -> x <= v (LMark i)).
  { intros p k x PE PX. destruct (EV p k _ PE PX) as [P|(-> & P)].
    + pose proof (i_mono _ _ _ _ M p k _ a 2 y PE PX Y ltac:(lia)). lia.
    + destruct (Z.eq_dec k 2) as [->|]; [rewrite PX in Y; injection Y as <-; exact YV|]. pose proof (i_dom _ _ _ _ M a k _ PX).
      pose proof (i_mono _ _ _ _ M a k _ a 2 y eq_refl PX Y ltac:(lia)). lia. }
  split; [|split; [|split; [eauto|split; [eauto|split; [exact EV|split; [|exact MK]]]]]].
  - intros m I L. destruct (i_mark _ _ _ _ M m i I L) as [(Z & _)|(p & k & PE & PX & _)]; [destruct (B (LMark i)); lia|].
    exact (MK p k _ PE PX).
  - intros m I L. destruct (i_rec _ _ _ _ M m i I L) as [Z|(p & n' & PE & PX & _)]; [destruct (B (LRec i)); lia|].
    pose proof (FUT p PE (proj1 (i_ddom _ _ _ _ M p _ PX))) as P. destruct (Z.eq_dec p a) as [->|]; [rewrite PX in D; injection D as <-; exact DV|].
    pose proof (i_dmono _ _ _ _ M p _ a d PE PX D ltac:(lia)). lia.
  - intros p x PE PX. exact (FUT p PE (proj1 (i_ddom _ _ _ _ M p _ PX))).
Qed.

(* ---- how the ghosts grow ---- *)
Definition put_m (G : gts) (p k t : Z) : gts :=
  mkG (hW G) (hP G) (hR G) (fun q j => if (q =? p) && (j =? k) then Some t else mts G q j) (dts G).
Definition put_d (G : gts) (p t : Z) : gts :=
  mkG (hW G) (hP G) (hR G) (mts G) (fun q => if q =? p then Some t else dts G q).
Definition put_i (G : gts) (w p r : Z) : gts := mkG w p r (mts G) (dts G).

Lemma put_m_inv : forall G p k t q j x, mts (put_m G p k t) q j = Some x -> (q = p /\ j = k /\ x = t) \/ mts G q j = Some x.
Proof. intros G p k t q j x H. cbn in H. destruct ((q =? p) && (j =? k)) eqn:E; [left; injection H as ->; lia|right; exact H]. Qed.
Lemma put_m_old : forall G p k t q j x, mts G p k = None -> mts G q j = Some x -> mts (put_m G p k t) q j = Some x.
Proof. intros G p k t q j x N H. cbn. destruct ((q =? p) && (j =? k)) eqn:E; [|exact H]. assert (q = p /\ j = k) as [-> ->] by lia. rewrite H in N. discriminate. Qed.
Lemma put_m_new : forall G p k t, mts (put_m G p k t) p k = Some t.
Proof. intros. cbn. rewrite !Z.eqb_refl. reflexivity. Qed.

(* a view without the new mark is still closed *)
Lemma good_put_m : forall c G mem held v p k t, minv c G mem held -> good (n_ring c) G v -> bounded mem v ->
  mts G p k = None -> 0 < t -> (forall m, In m mem -> m_loc m = LMark (p mod n_ring c) -> m_ts m < t) ->
  good (n_ring c) (put_m G p k t) v.
Proof.
  intros c G mem held v p k t M GD B NK T MX l a l' b R H.
  assert (NM : v (LMark (p mod n_ring c)) < t). { destruct (B (LMark (p mod n_ring c))) as [_ [Z|(m & I & E & L)]]; [lia|]. pose proof (MX m I E). lia. }
  assert (WR : forall q, 0 <= q < v LWrite -> exists x, mts G q 2 = Some x). { intros q Q. apply (i_rdy _ _ _ _ M). pose proof (view_le c G mem held v LWrite _ M B eq_refl). lia. }
  assert (RR : forall q, 0 <= q < v LRead -> exists x, mts G q 3 = Some x). { intros q Q. apply (i_clr _ _ _ _ M). pose proof (view_le c G mem held v LRead _ M B eq_refl). lia. }
  destruct R as [h|r|r q x D X|q|w|w q x D X|q x d X Y|q x X|q x X].
  - exact (GD _ _ _ _ (r_hold _ _ h) H).
  - exact (GD _ _ _ _ (r_read _ _ r) H).
  - apply put_m_inv in X. destruct X as [(-> & <- & ->)|X]; [|exact (GD _ _ _ _ (r_clr _ _ r q x D X) H)].
    destruct (RR p ltac:(lia)) as (y & Y). rewrite Y in NK. discriminate.
  - exact (GD _ _ _ _ (r_proc _ _ q) H).
  - exact (GD _ _ _ _ (r_write _ _ w) H).
  - apply put_m_inv in X. destruct X as [(-> & <- & ->)|X]; [|exact (GD _ _ _ _ (r_rdy _ _ w q x D X) H)].
    destruct (WR p ltac:(lia)) as (y & Y). rewrite Y in NK. discriminate.
  - apply put_m_inv in X. destruct X as [(-> & <- & ->)|X]; [lia|exact (GD _ _ _ _ (r_rec _ _ q x d X Y) H)].
  - apply put_m_inv in X. destruct X as [(-> & <- & ->)|X]; [lia|exact (GD _ _ _ _ (r_own _ _ q x X) H)].
  - apply put_m_inv in X. destruct X as [(-> & <- & ->)|X]; [lia|exact (GD _ _ _ _ (r_don _ _ q x X) H)].
Qed.

(* storing a mark *)
Lemma minv_mark : forall c G mem held v p k t n, minv c G mem held -> good (n_ring c) G v -> bounded mem v ->
  let i := p mod n_ring c in
  0 <= p < zlen held -> 1 <= k <= 3 -> mts G p k = None -> v (LMark i) < t -> n = stage k ->
  (forall m, In m mem -> m_loc m = LMark i -> m_ts m <= v (LMark i)) ->
  (forall q j x, q mod n_ring c = i -> mts G q j = Some x -> x <= v (LMark i)) ->
  (forall q j x, q mod n_ring c = i -> mts G q j = Some x -> q < p \/ q = p /\ j < k) ->
  (k = 2 -> exists d, dts G p = Some d /\ d <= v (LRec i)) -> (k = 2 -> p + 1 <= v LHold) -> (k = 3 -> p + 1 <= v LProc) ->
  let G' := put_m G p k t in let v' := vset v (LMark i) t in let mem' := mkMsg (LMark i) t n [] v' :: mem in
  minv c G' mem' held /\ good (n_ring c) G' v' /\ bounded mem' v' /\ (forall w, good (n_ring c) G w -> bounded mem w -> good (n_ring c) G' w).
Proof.
  intros c G mem held v p k t n M GD B i PD KD NK LT NE MX EX ORD K2 K2H K3 G' v' mem'.
  assert (T0 : 0 < t) by (destruct (B (LMark i)); lia).
  assert (GO : forall w, good (n_ring c) G w -> bounded mem w -> good (n_ring c) G' w).
  { intros w GW BW. apply (good_put_m c G mem held w p k t M GW BW NK T0). intros m I E. pose proof (MX m I E). unfold i in *. lia. }
  assert (BV : bounded mem' v').
  { apply (bounded_set mem' v (LMark i) t (mkMsg (LMark i) t n [] v')); [apply bounded_cons; exact B|lia|reflexivity|reflexivity|left; reflexivity]. }
  assert (GV : good (n_ring c) G' v').
  { intros l a l' b R H. unfold v' in H.
    destruct (loc_eqb l (LMark i)) eqn:EL.
    - apply loc_eqb_eq in EL. subst l. rewrite vset_same in H.
      assert (VL : forall k0, v k0 <= v' k0) by (intros k0; apply vset_le; lia).
      assert (OLD : a <= v (LMark i) -> b <= v' l') by (intros Q; pose proof (GO v GD B _ _ _ _ R Q); pose proof (VL l'); lia).
      inversion R; subst; clear R;
        match goal with X : mts G' ?q _ = Some a, E : ?q mod n_ring c = i |- _ => apply put_m_inv in X; destruct X as [(-> & KE & ->)|X]; [|exact (OLD (EX _ _ _ E X))] end.
      + destruct (K2 (eq_sym KE)) as (d & D & DL). match goal with Y : dts G' p = Some b |- _ => change (dts G p = Some b) in Y; rewrite D in Y; injection Y as <- end.
        unfold v'. rewrite vset_other by discriminate. exact DL.
      + unfold v'. rewrite vset_other by discriminate. exact (K2H (eq_sym KE)).
      + unfold v'. rewrite vset_other by discriminate. exact (K3 (eq_sym KE)).
    - unfold vset in H. rewrite EL in H. pose proof (GO v GD B _ _ _ _ R H). pose proof (vset_le v (LMark i) t l' ltac:(lia)). unfold v'. lia. }
  split; [|split; [exact GV|split; [exact BV|exact GO]]].
  constructor.
  - exact (i_order _ _ _ _ M).
  - intros m g I E. destruct I as [<-|I]; [discriminate E|exact (i_idx _ _ _ _ M m g I E)].
  - intros l g x E X. apply at_cons. exact (i_all _ _ _ _ M l g x E X).
  - intros m j I E. destruct I as [<-|I].
    + cbn in E. injection E as <-. right. exists p, k. split; [reflexivity|]. split; [apply put_m_new|exact NE].
    + destruct (i_mark _ _ _ _ M m j I E) as [Z|(q & k' & QE & QX & QV)]; [left; exact Z|right]. exists q, k'. split; [exact QE|]. split; [apply put_m_old; assumption|exact QV].
  - intros m j I E. destruct I as [<-|I]; [discriminate E|exact (i_rec _ _ _ _ M m j I E)].
  - intros q j x X. apply put_m_inv in X. destruct X as [(-> & -> & ->)|X]; [|exact (i_dom _ _ _ _ M q j x X)].
    split; [exact PD|]. split; [exact KD|]. split; [exact T0|]. intros ->. pose proof (view_le c G mem held v LProc _ M B eq_refl). specialize (K3 eq_refl). cbn. lia.
  - intros q x X. apply put_m_inv in X. destruct X as [(-> & <- & ->)|X]; [|exact (i_data _ _ _ _ M q x X)]. destruct (K2 eq_refl) as (d & D & _). exists d. exact D.
  - intros q Q. destruct (i_rdy _ _ _ _ M q Q) as (x & X). exists x. apply put_m_old; assumption.
  - intros q Q. destruct (i_clr _ _ _ _ M q Q) as (x & X). exists x. apply put_m_old; assumption.
  - intros q j a r l b E XA XB L. apply put_m_inv in XA. apply put_m_inv in XB. destruct XA as [(-> & -> & ->)|XA], XB as [(-> & -> & ->)|XB].
    + lia.
    + destruct (ORD r l b (eq_sym E) XB); lia.
    + pose proof (EX q j a E XA). lia.
    + exact (i_mono _ _ _ _ M q j a r l b E XA XB L).
  - exact (i_ddom _ _ _ _ M).
  - exact (i_dmono _ _ _ _ M).
  - intros m I. destruct I as [<-|I]; [cbn [m_view m_ts m_loc]; split; [exact GV|split; [exact BV|unfold v'; rewrite vset_same; lia]]|].
    destruct (i_msg _ _ _ _ M m I) as (X & Y & Z). split; [exact (GO _ X Y)|]. split; [apply bounded_cons; exact Y|exact Z].
Qed.

Lemma good_same : forall N G G' v, (forall p k, mts G' p k = mts G p k) -> (forall p t d, mts G p 2 = Some t -> dts G' p = Some d -> dts G p = Some d) ->
  good N G v -> good N G' v.
Proof.
  intros N G G' v EM ED GD l a l' b R H. apply (GD l a l' b); [|exact H].
  destruct R; try rewrite EM in *; try (econstructor; eassumption).
  eapply r_rec; [eassumption|]. eapply ED; eassumption.
Qed.

(* storing a record *)
Lemma minv_rec : forall c G mem held v p t x nd, minv c G mem held -> good (n_ring c) G v -> bounded mem v ->
  let i := p mod n_ring c in
  0 <= p < zlen held -> dts G p = None -> mts G p 2 = None -> v (LRec i) < t -> nth_error held (Z.to_nat p) = Some (nd, x) ->
  (forall q y, q mod n_ring c = i -> dts G q = Some y -> y <= v (LRec i)) ->
  (forall q y, q mod n_ring c = i -> dts G q = Some y -> q <= p) ->
  let G' := put_d G p t in let v' := vset v (LRec i) t in let mem' := mkMsg (LRec i) t 0 x v' :: mem in
  minv c G' mem' held /\ good (n_ring c) G' v' /\ bounded mem' v' /\ (forall w, good (n_ring c) G w -> good (n_ring c) G' w).
Proof.
  intros c G mem held v p t x nd M GD B i PD ND NM LT HE EX ORD G' v' mem'.
  assert (T0 : 0 < t) by (destruct (B (LRec i)); lia).
  assert (GO : forall w, good (n_ring c) G w -> good (n_ring c) G' w).
  { intros w. apply good_same; [reflexivity|]. intros q y d Y D. cbn in D. destruct (Z.eqb_spec q p) as [->|]; [rewrite Y in NM; discriminate|exact D]. }
  assert (BV : bounded mem' v').
  { apply (bounded_set mem' v (LRec i) t (mkMsg (LRec i) t 0 x v')); [apply bounded_cons; exact B|lia|reflexivity|reflexivity|left; reflexivity]. }
  assert (GV : good (n_ring c) G' v').
  { intros l a l' b R H. assert (l <> LRec i) by (destruct R; discriminate). unfold v' in *. rewrite vset_other in H by assumption.
    pose proof (GO v GD _ _ _ _ R H). pose proof (vset_le v (LRec i) t l' ltac:(lia)). lia. }
  split; [|split; [exact GV|split; [exact BV|exact GO]]].
  constructor.
  - exact (i_order _ _ _ _ M).
  - intros m g I E. destruct I as [<-|I]; [discriminate E|exact (i_idx _ _ _ _ M m g I E)].
  - intros l g y E X. apply at_cons. exact (i_all _ _ _ _ M l g y E X).
  - intros m j I E. destruct I as [<-|I]; [discriminate E|exact (i_mark _ _ _ _ M m j I E)].
  - intros m j I E. destruct I as [<-|I].
    + cbn in E. injection E as <-. right. exists p, nd. split; [reflexivity|]. split; [cbn; rewrite Z.eqb_refl; reflexivity|exact HE].
    + destruct (i_rec _ _ _ _ M m j I E) as [Z|(q & n & QE & QX & QV)]; [left; exact Z|right]. exists q, n. split; [exact QE|]. split; [|exact QV].
      cbn. destruct (Z.eqb_spec q p) as [->|]; [rewrite QX in ND; discriminate|exact QX].
  - exact (i_dom _ _ _ _ M).
  - intros q y Y. destruct (i_data _ _ _ _ M q y Y) as (d & D). cbn. destruct (q =? p); eauto.
  - exact (i_rdy _ _ _ _ M).
  - exact (i_clr _ _ _ _ M).
  - exact (i_mono _ _ _ _ M).
  - intros q d D. cbn in D. destruct (Z.eqb_spec q p) as [->|]; [injection D as <-; split; assumption|exact (i_ddom _ _ _ _ M q d D)].
  - intros q a r b E XA XB L. cbn in XA, XB. destruct (Z.eqb_spec q p) as [->|]; destruct (Z.eqb_spec r p) as [->|].
    + lia.
    + pose proof (ORD r b (eq_sym E) XB). lia.
    + injection XB as <-. pose proof (EX q a E XA). lia.
    + exact (i_dmono _ _ _ _ M q a r b E XA XB L).
  - intros m I. destruct I as [<-|I]; [cbn [m_view m_ts m_loc]; split; [exact GV|split; [exact BV|unfold v'; rewrite vset_same; lia]]|].
    destruct (i_msg _ _ _ _ M m I) as (X & Y & Z). split; [exact (GO _ X)|]. split; [apply bounded_cons; exact Y|exact Z].
Qed.

(* advancing an index *)
Lemma minv_idx : forall c G mem held v l g W P R h, 0 < n_ring c -> minv c G mem held -> good (n_ring c) G v -> bounded mem v ->
  idx G held l = Some g -> g <= v l ->
  let G' := put_i G W P R in let held' := held ++ h in
  idx G' held' l = Some (g + 1) -> (forall k, k <> l -> idx G' held' k = idx G held k) ->
  0 <= R <= P /\ P <= W <= zlen held' /\ zlen held' <= R + n_ring c - 1 -> hW G <= W -> hP G <= P -> hR G <= R ->
  (forall p, 0 <= p < W -> exists t, mts G p 2 = Some t) -> (forall p, 0 <= p < R -> exists t, mts G p 3 = Some t) ->
  let v' := vset v l (g + 1) in
  good (n_ring c) G v' ->
  let mem' := mkMsg l (g + 1) ((g + 1) mod n_ring c) [] v' :: mem in
  minv c G' mem' held' /\ good (n_ring c) G' v' /\ bounded mem' v' /\ (forall w, good (n_ring c) G w -> good (n_ring c) G' w).
Proof.
  intros c G mem held v l g W P R h NP M GD B E GL G' held' E1 EO ORD HW HP HR RDY CLR v' GV mem'.
  assert (LH : zlen held <= zlen held') by (unfold held'; rewrite zlen_app; pose proof (zlen_nonneg _ h); lia).
  assert (G0 : 0 <= g) by (pose proof (i_order _ _ _ _ M); destruct l; cbn in E; try discriminate; injection E as <-; lia).
  assert (GO : forall w, good (n_ring c) G w -> good (n_ring c) G' w) by (intros w; apply good_same; [reflexivity|intros q y d _ D; exact D]).
  assert (BV : bounded mem' v').
  { apply (bounded_set mem' v l (g + 1) (mkMsg l (g + 1) ((g + 1) mod n_ring c) [] v')); [apply bounded_cons; exact B|lia|reflexivity|reflexivity|left; reflexivity]. }
  assert (IK : forall k j, idx G' held' k = Some j -> (k = l /\ j = g + 1) \/ (k <> l /\ idx G held k = Some j)).
  { intros k j K. destruct (loc_eqb k l) eqn:EK; [apply loc_eqb_eq in EK; subst k; left; split; [reflexivity|rewrite E1 in K; injection K as ->; reflexivity]|].
    assert (k <> l) by (intros ->; rewrite loc_eqb_refl in EK; discriminate). right. split; [assumption|rewrite <- EO; assumption]. }
  split; [|split; [exact (GO _ GV)|split; [exact BV|exact GO]]].
  constructor.
  - exact ORD.
  - intros m j I K. destruct I as [<-|I].
    + cbn [m_loc m_ts m_val] in *. rewrite E1 in K. injection K as <-. split; [lia|reflexivity].
    + destruct (IK _ _ K) as [(L & ->)|(_ & K')]; [rewrite L in *|exact (i_idx _ _ _ _ M m j I K')].
      rewrite <- L in E. pose proof (i_idx _ _ _ _ M m g I E) as (X & Y). split; [lia|exact Y].
  - intros k j t K T. destruct (IK _ _ K) as [(-> & ->)|(_ & K')].
    + destruct (Z.eq_dec t (g + 1)) as [->|]; [eexists; apply at_new|]. apply at_cons. apply (i_all _ _ _ _ M l g t E). lia.
    + apply at_cons. exact (i_all _ _ _ _ M k j t K' T).
  - intros m j I EM. destruct I as [<-|I]; [cbn in EM; subst l; discriminate E|exact (i_mark _ _ _ _ M m j I EM)].
  - intros m j I EM. destruct I as [<-|I]; [cbn in EM; subst l; discriminate E|].
    destruct (i_rec _ _ _ _ M m j I EM) as [Z|(q & n & QE & QX & QV)]; [left; exact Z|right]. exists q, n. split; [exact QE|]. split; [exact QX|].
    unfold held'. rewrite nth_error_app1; [exact QV|]. apply nth_error_Some. rewrite QV. discriminate.
  - intros q j t X. destruct (i_dom _ _ _ _ M q j t X) as (A1 & A2 & A3 & A4). split; [lia|]. split; [exact A2|]. split; [exact A3|]. intros J. specialize (A4 J). cbn. lia.
  - exact (i_data _ _ _ _ M).
  - exact RDY.
  - exact CLR.
  - exact (i_mono _ _ _ _ M).
  - intros q d D. destruct (i_ddom _ _ _ _ M q d D). split; [lia|assumption].
  - exact (i_dmono _ _ _ _ M).
  - intros m I. destruct I as [<-|I]; [cbn [m_view m_ts m_loc]; split; [exact (GO _ GV)|split; [exact BV|unfold v'; rewrite vset_same; lia]]|].
    destruct (i_msg _ _ _ _ M m I) as (X & Y & Z). split; [exact (GO _ X)|]. split; [apply bounded_cons; exact Y|exact Z].
Qed.
