(* Segments through load, unload and the end of a process. *)
From Coq Require Import ZArith List Bool Lia ZifyBool ZifyNat ZifyN.
From Verif Require Import Base BaseFacts Ring Recover Shm ShmSpec.
Import ListNotations.
Open Scope Z_scope.

Lemma find_some' : forall (A : Type) (f : A -> bool) l x, In x l -> f x = true ->
  (forall y, In y l -> f y = true -> y = x) -> find f l = Some x.
Proof.
  intros A f l x H F U. destruct (find f l) as [y|] eqn:E.
  - apply find_some in E. destruct E as [E1 E2]. rewrite (U y E1 E2). reflexivity.
  - pose proof (find_none f l E x H). congruence.
Qed.
Lemma ids_inj : forall l s t, NoDup (map e_id l) -> In s l -> In t l -> e_id s = e_id t -> s = t.
Proof.
  intros l. induction l as [|a l IH]; intros s t N S T E; [destruct S|].
  cbn in N. inversion N as [|? ? NI N']; subst. destruct S as [<-|S], T as [<-|T].
  - reflexivity.
  - exfalso. apply NI. rewrite E. apply in_map. exact T.
  - exfalso. apply NI. rewrite <- E. apply in_map. exact S.
  - exact (IH s t N' S T E).
Qed.
Lemma with_id : forall l s, NoDup (map e_id l) -> In s l -> seg_with_id l (e_id s) = Some s.
Proof.
  intros l s N H. apply find_some'; [exact H|apply Z.eqb_refl|]. intros y Y E. apply Z.eqb_eq in E.
  exact (ids_inj l y s N Y H E).
Qed.
Lemma with_key : forall v s, kern_ok v -> In s (v_segs v) -> e_key s <> 0 -> seg_with_key (v_segs v) (e_key s) = Some s.
Proof.
  intros v s KO H NZ. apply find_some'; [exact H|apply Z.eqb_refl|]. intros y Y E. apply Z.eqb_eq in E.
  apply (ids_inj (v_segs v)); [exact (ko_ids _ KO)|exact Y|exact H|].
  apply (ko_keys _ KO); [exact Y|exact H|exact E|congruence].
Qed.
Lemma no_key : forall l k, (forall s, In s l -> e_key s <> k) -> seg_with_key l k = None.
Proof.
  intros l k H. unfold seg_with_key. destruct (find (fun s => e_key s =? k) l) as [s|] eqn:E; [|reflexivity].
  apply find_some in E. destruct E as [E1 E2]. apply Z.eqb_eq in E2. exfalso. exact (H s E1 E2).
Qed.

Lemma on_ids : forall l i f, (forall s, e_id (f s) = e_id s) -> map e_id (on_seg l i f) = map e_id l.
Proof.
  intros l i f F. unfold on_seg. rewrite map_map. apply map_ext. intros s. destruct (e_id s =? i); [apply F|reflexivity].
Qed.
Lemma on_other : forall l i f t, (forall s, e_id (f s) = e_id s) -> e_id t <> i -> (In t (on_seg l i f) <-> In t l).
Proof.
  intros l i f t F D. unfold on_seg. rewrite in_map_iff. split.
  - intros (s & E & S). destruct (e_id s =? i) eqn:Q; [apply Z.eqb_eq in Q; rewrite <- E, F in D; contradiction|congruence].
  - intros T. exists t. split; [|exact T]. destruct (e_id t =? i) eqn:Q; [lia|reflexivity].
Qed.
Lemma on_in : forall l i f s, In s l -> e_id s = i -> In (f s) (on_seg l i f).
Proof.
  intros l i f s S E. unfold on_seg. apply in_map_iff. exists s. split; [|exact S].
  rewrite E, Z.eqb_refl. reflexivity.
Qed.
Lemma on_inv : forall l i f t, In t (on_seg l i f) -> exists s, In s l /\ t = if e_id s =? i then f s else s.
Proof. intros l i f t H. unfold on_seg in H. apply in_map_iff in H. destruct H as (s & E & S). exists s. auto. Qed.
Lemma reap_in : forall l t, In t (reap l) <-> In t l /\ ~ (e_gone t = true /\ e_at t <= 0).
Proof.
  intros l t. unfold reap. rewrite filter_In. destruct (e_gone t), (e_at t <=? 0) eqn:E; cbn; intuition lia.
Qed.
Lemma reap_ids : forall l, NoDup (map e_id l) -> NoDup (map e_id (reap l)).
Proof.
  intros l. induction l as [|a l IH]; intros N; [constructor|]. cbn in N. inversion N as [|? ? NI N']; subst.
  unfold reap. cbn [filter]. destruct (negb (e_gone a && (e_at a <=? 0))); [|apply IH; exact N'].
  cbn. constructor; [|apply IH; exact N']. intros H. apply NI. apply in_map_iff in H. destruct H as (s & E & S).
  apply filter_In in S. rewrite <- E. apply in_map. exact (proj1 S).
Qed.

(* ---- attaching to a segment that exists ---- *)
Lemma load_found : forall fuel K v p s e m ok, kern_ok v -> In s (v_segs v) -> 0 < p_key p -> e_key s = key32 (p_key p) ->
  e_key s <> 0 -> load_shm fuel K (e_id s) (e_mem s) = Ret (e, m, ok) ->
  load_shared fuel K all_well v p =
    Ret (e, mkKern (put_mem (sys_at (v_segs v) (e_id s)) (e_id s) m) (v_next v),
         mkProc (p_key p) (if ok : bool then Seg (e_id s) else p_shm p) (e_id s :: p_maps p)).
Proof.
  intros fuel K v p s e m ok KO S P E NZ L. unfold load_shared. replace (p_key p <=? 0) with false by lia.
  rewrite <- E. replace (e_key s =? 0) with false by lia. rewrite (with_key v s KO S NZ). cbn [f_access f_attach all_well].
  unfold use_seg. cbn [v_segs v_next p_key p_shm p_maps].
  set (f := fun s0 => mkSegment (e_id s0) (e_key s0) (e_at s0 + 1) (e_gone s0) (e_mem s0)).
  assert (W : seg_with_id (sys_at (v_segs v) (e_id s)) (e_id s) = Some (f s)).
  { change (e_id s) with (e_id (f s)) at 2. apply with_id; [unfold sys_at; rewrite on_ids by reflexivity; exact (ko_ids _ KO)|].
    apply on_in; [exact S|reflexivity]. }
  rewrite W. cbn [e_mem f]. rewrite L. cbn [bind]. reflexivity.
Qed.

Lemma attach_ok : forall fuel K v p s e m ok, kern_ok v -> In s (v_segs v) -> 0 < p_key p -> e_key s = key32 (p_key p) ->
  e_key s <> 0 -> load_shm fuel K (e_id s) (e_mem s) = Ret (e, m, ok) ->
  exists v' p', load_shared fuel K all_well v p = Ret (e, v', p') /\
    In (mkSegment (e_id s) (e_key s) (e_at s + 1) (e_gone s) m) (v_segs v') /\ others_kept (e_id s) v v' /\
    v_next v' = v_next v /\ p_shm p' = (if ok : bool then Seg (e_id s) else p_shm p) /\ p_maps p' = e_id s :: p_maps p /\ p_key p' = p_key p.
Proof.
  intros fuel K v p s e m ok KO S P E NZ L. rewrite (load_found fuel K v p s e m ok KO S P E NZ L).
  do 2 eexists. split; [reflexivity|]. split.
  - cbn [v_segs]. unfold put_mem.
    apply (on_in _ _ (fun s0 => mkSegment (e_id s0) (e_key s0) (e_at s0) (e_gone s0) m) (mkSegment (e_id s) (e_key s) (e_at s + 1) (e_gone s) (e_mem s))).
    + unfold sys_at. apply (on_in _ _ (fun s0 => mkSegment (e_id s0) (e_key s0) (e_at s0 + 1) (e_gone s0) (e_mem s0)) s); [exact S|reflexivity].
    + reflexivity.
  - split; [|repeat split]. intros t T. cbn [v_segs]. unfold put_mem, sys_at. rewrite !on_other by (intros; reflexivity || exact T). reflexivity.
Qed.

(* ---- a new segment ---- *)
Lemma on_fresh : forall l i f, (forall s, In s l -> e_id s <> i) -> on_seg l i f = l.
Proof.
  intros l i f H. unfold on_seg. rewrite <- (map_id l) at 2. apply map_ext_in. intros s S.
  replace (e_id s =? i) with false by (specialize (H s S); lia). reflexivity.
Qed.
Definition new_mem (K : rlim) (i : Z) : shm := head_mem K i (reset_mem (zero_mem K)).
Lemma on_cons : forall s l i f, e_id s = i -> (forall t, In t l -> e_id t <> i) -> on_seg (s :: l) i f = f s :: l.
Proof.
  intros s l i f E H. unfold on_seg. cbn [map]. fold (on_seg l i f). rewrite (on_fresh l i f H), E, Z.eqb_refl. reflexivity.
Qed.
Lemma load_empty : forall fuel K i, load_shm fuel K i (new_mem K i) = Ret (0, new_mem K i, true).
Proof.
  intros fuel K i. unfold load_shm, new_mem, head_mem. cbn [m_size m_id m_channels m_rings reset_mem]. rewrite !Z.eqb_refl.
  cbn [negb orb]. destruct (map _ _); reflexivity.
Qed.
Lemma load_new : forall fuel K v p, kern_ok v -> 0 < p_key p -> key32 (p_key p) <> 0 ->
  (forall s, In s (v_segs v) -> e_key s <> key32 (p_key p)) ->
  load_shared fuel K all_well v p =
    Ret (0, mkKern (mkSegment (v_next v) (key32 (p_key p)) 1 false (new_mem K (v_next v)) :: v_segs v) (v_next v + 1),
         mkProc (p_key p) (Seg (v_next v)) (v_next v :: p_maps p)).
Proof.
  intros fuel K v p KO P NZ H. unfold load_shared. replace (p_key p <=? 0) with false by lia.
  replace (key32 (p_key p) =? 0) with false by lia. rewrite (no_key _ _ H). cbn [f_room f_attach all_well].
  assert (FR : forall s, In s (v_segs v) -> e_id s <> v_next v) by (intros s S; pose proof (ko_next _ KO s S); lia).
  cbn [v_segs v_next]. fold (new_mem K (v_next v)). unfold use_seg, put_mem, sys_at. cbn [v_segs v_next p_key p_shm p_maps].
  rewrite on_cons by (reflexivity || exact FR). cbn [e_id e_key e_at e_gone e_mem].
  rewrite on_cons by (reflexivity || exact FR). cbn [e_id e_key e_at e_gone e_mem].
  unfold seg_with_id. cbn [find e_id]. rewrite Z.eqb_refl. cbn [e_mem]. rewrite load_empty. cbn [bind].
  rewrite on_cons by (reflexivity || exact FR). reflexivity.
Qed.
Lemma new_mem_empty : forall K i, m_size (new_mem K i) = k_size K /\ m_id (new_mem K i) = i /\ m_channels (new_mem K i) = 0 /\
  zlen (m_rings (new_mem K i)) = Z.max 0 (k_chan K) /\
  Forall (fun q => empty_ring q /\ zlen (q_slots q) = Z.max 0 (k_ring K) /\ Forall (fun d => d_mark d = 0) (q_slots q)) (m_rings (new_mem K i)).
Proof.
  intros K i. repeat (split; [reflexivity|]). unfold new_mem, head_mem, reset_mem, zero_mem. cbn [m_rings]. split.
  - unfold zlen. rewrite map_length, repeat_length. lia.
  - apply Forall_forall. intros q Q. apply in_map_iff in Q. destruct Q as (r & <- & R). apply repeat_spec in R. subst r.
    split; [repeat split|]. unfold zero_ring. cbn [q_slots]. split; [unfold zlen; rewrite repeat_length; lia|].
    apply Forall_forall. intros d D. apply repeat_spec in D. subst d. reflexivity.
Qed.

(* ---- leaving ---- *)
Lemma dt_other : forall v i t, kern_ok v -> e_id t <> i -> (In t (sys_dt (v_segs v) i) <-> In t (v_segs v)).
Proof.
  intros v i t KO D. unfold sys_dt. rewrite reap_in, on_other by (intros; reflexivity || exact D). split; [tauto|].
  intros T. split; [exact T|]. intros [G A]. pose proof (ko_gone _ KO t T G). lia.
Qed.

(* the segment is there, with its key and its memory *)
Definition stays (i k : Z) (m : shm) (l : list segment) : Prop :=
  exists s, In s l /\ e_id s = i /\ e_key s = k /\ e_gone s = false /\ e_mem s = m.
Lemma stays_dt : forall i k m l j, stays i k m l -> stays i k m (sys_dt l j).
Proof.
  intros i k m l j (s & S & E1 & E2 & E3 & E4). destruct (Z.eq_dec (e_id s) j) as [E|D].
  - exists (mkSegment (e_id s) (e_key s) (e_at s - 1) (e_gone s) (e_mem s)). cbn [e_id e_key e_gone e_mem].
    split; [|auto]. apply reap_in. split; [|cbn; intros [G _]; congruence].
    apply (on_in l j (fun s0 => mkSegment (e_id s0) (e_key s0) (e_at s0 - 1) (e_gone s0) (e_mem s0)) s); assumption.
  - exists s. split; [|auto]. apply reap_in. split; [|intros [G _]; congruence].
    apply on_other; [reflexivity|exact D|exact S].
Qed.
Lemma stays_leave : forall i k m v p, stays i k m (v_segs v) -> stays i k m (v_segs (leave v p)).
Proof.
  intros i k m v p. unfold leave. cbn [v_segs]. generalize (v_segs v) as l. induction (p_maps p) as [|j js IH]; intros l H; [exact H|].
  cbn [fold_left]. apply IH. apply stays_dt. exact H.
Qed.

Lemma reap_id : forall l, (forall s, In s l -> ~ (e_gone s = true /\ e_at s <= 0)) -> reap l = l.
Proof.
  intros l. induction l as [|a l IH]; intros H; [reflexivity|]. unfold reap. cbn [filter].
  destruct (negb (e_gone a && (e_at a <=? 0))) eqn:E.
  - f_equal. apply IH. intros s S. apply H. right. exact S.
  - exfalso. apply (H a (or_introl eq_refl)). destruct (e_gone a); [|discriminate]. split; [reflexivity|].
    cbn in E. lia.
Qed.

(* ---- unloading ---- *)
Lemma unload_ok : forall v p s, kern_ok v -> 0 < p_key p -> In s (v_segs v) -> p_shm p = Seg (e_id s) ->
  m_id (e_mem s) = e_id s -> 0 < e_at s ->
  exists v' p', unload_shared v p = Ret (v', p') /\ p_shm p' = Nowhere /\ others_kept (e_id s) v v' /\ v_next v' = v_next v /\
    (forall t, In t (v_segs v') -> e_id t = e_id s -> e_key t = 0 /\ e_gone t = true /\ e_at t = e_at s - 1 /\ 0 < e_at t) /\
    (e_key s <> 0 -> forall t, In t (v_segs v') -> e_key t <> e_key s).
Proof.
  intros v p s KO P S PS MI AT. unfold unload_shared. rewrite PS. replace (0 <? p_key p) with true by lia.
  rewrite (with_id _ s (ko_ids _ KO) S), MI. do 2 eexists. split; [reflexivity|]. split; [reflexivity|].
  assert (OT : others_kept (e_id s) v (mkKern (sys_rm (sys_dt (v_segs v) (e_id s)) (e_id s)) (v_next v))).
  { intros t T. cbn [v_segs]. unfold sys_rm. rewrite reap_in, on_other by (intros; reflexivity || exact T).
    rewrite dt_other by assumption. split; [tauto|]. intros X. split; [exact X|]. intros [G A].
    pose proof (ko_gone _ KO t X G). lia. }
  split; [exact OT|]. split; [reflexivity|].
  assert (SAME : forall t, In t (sys_rm (sys_dt (v_segs v) (e_id s)) (e_id s)) -> e_id t = e_id s ->
            e_key t = 0 /\ e_gone t = true /\ e_at t = e_at s - 1 /\ 0 < e_at t).
  { intros t T E. unfold sys_rm in T. apply reap_in in T. destruct T as [T NG].
    apply on_inv in T. destruct T as (u & U & ->). destruct (e_id u =? e_id s) eqn:Q; [|lia].
    cbn [e_id e_key e_gone e_at] in *. apply reap_in in U. destruct U as [U _]. apply on_inv in U. destruct U as (w & W & ->).
    destruct (e_id w =? e_id s) eqn:Q2; [|rewrite Q2 in Q; discriminate].
    assert (w = s) by (apply (ids_inj (v_segs v)); [exact (ko_ids _ KO)|exact W|exact S|lia]). subst w.
    cbn [e_at] in *. split; [reflexivity|]. split; [reflexivity|]. split; [reflexivity|]. 
    destruct (Z_le_gt_dec (e_at s - 1) 0); [exfalso; apply NG; auto|lia]. }
  split; [exact SAME|]. cbn [v_segs]. intros NZ t T. destruct (Z.eq_dec (e_id t) (e_id s)) as [E|D].
  - destruct (SAME t T E) as (K0 & _). congruence.
  - apply (OT t D) in T. intros EK. apply D. apply (ko_keys _ KO); [exact T|exact S|exact EK|congruence].
Qed.

(* ---- the invariant is kept ---- *)
Lemma ok_on : forall v i f, kern_ok v -> (forall s, e_id (f s) = e_id s) ->
  (forall s, In s (v_segs v) -> e_id s = i -> 0 <= e_at (f s) /\ (e_key (f s) = e_key s \/ e_key (f s) = 0) /\
     (e_gone (f s) = true -> e_key (f s) = 0)) ->
  (forall s, In s (v_segs v) -> e_gone s = true -> e_id s = i -> e_key (f s) = 0) ->
  kern_ok (mkKern (reap (on_seg (v_segs v) i f)) (v_next v)).
Proof.
  intros v i f KO FI FA FG.
  assert (INV : forall t, In t (reap (on_seg (v_segs v) i f)) -> exists s, In s (v_segs v) /\ e_id t = e_id s /\
            0 <= e_at t /\ (e_key t = e_key s \/ e_key t = 0) /\ (e_gone t = true -> e_key t = 0 /\ 0 < e_at t)).
  { intros t T. apply reap_in in T. destruct T as [T NG]. apply on_inv in T. destruct T as (s & S & ->). exists s.
    split; [exact S|]. destruct (e_id s =? i) eqn:Q.
    - destruct (FA s S ltac:(lia)) as (A1 & A2 & A3). split; [apply FI|]. split; [exact A1|]. split; [exact A2|].
      intros G. split; [exact (A3 G)|]. destruct (Z_le_gt_dec (e_at (f s)) 0); [exfalso; apply NG; auto|lia].
    - split; [reflexivity|]. split; [exact (ko_at _ KO s S)|]. split; [auto|exact (ko_gone _ KO s S)]. }
  constructor; cbn [v_segs v_next].
  - apply reap_ids. rewrite on_ids by exact FI. exact (ko_ids _ KO).
  - intros t T. destruct (INV t T) as (s & S & E & _). rewrite E. exact (ko_next _ KO s S).
  - exact (ko_zero _ KO).
  - intros t T. destruct (INV t T) as (s & S & E & A & _). exact A.
  - intros t u T U E NZ. destruct (INV t T) as (s & S & E1 & _ & [K1|K1] & _); [|congruence].
    destruct (INV u U) as (w & W & E2 & _ & [K2|K2] & _); [|congruence].
    rewrite E1, E2. apply (ko_keys _ KO); [exact S|exact W|congruence|congruence].
  - intros t T G. destruct (INV t T) as (s & S & E & A & _ & B). exact (B G).
Qed.

Lemma ok_dt : forall v i, kern_ok v -> (forall s, In s (v_segs v) -> e_id s = i -> 0 < e_at s) ->
  kern_ok (mkKern (sys_dt (v_segs v) i) (v_next v)).
Proof.
  intros v i KO A. apply ok_on; [exact KO|reflexivity| |].
  - intros s S E. cbn [e_at e_key e_gone]. pose proof (A s S E). split; [lia|]. split; [auto|].
    intros G. exact (proj1 (ko_gone _ KO s S G)).
  - intros s S G _. exact (proj1 (ko_gone _ KO s S G)).
Qed.
Lemma ok_rm : forall v i, kern_ok v -> kern_ok (mkKern (sys_rm (v_segs v) i) (v_next v)).
Proof.
  intros v i KO. apply ok_on; [exact KO|reflexivity| |].
  - intros s S E. cbn [e_at e_key e_gone]. split; [exact (ko_at _ KO s S)|]. auto.
  - reflexivity.
Qed.

(* ---- several processes ---- *)
Definition held (ps : list proc) (i : Z) : Z := Z.of_nat (count_occ Z.eq_dec (concat (map p_maps ps)) i).
Definition cnt (l : list Z) (i : Z) : Z := Z.of_nat (count_occ Z.eq_dec l i).

Record sys_ok (y : sys) : Prop := mkSysOk {
  so_k : kern_ok (y_k y);
  so_at : forall s, In s (v_segs (y_k y)) -> e_at s = held (y_ps y) (e_id s);
  so_maps : forall p i, In p (y_ps y) -> In i (p_maps p) -> exists s, In s (v_segs (y_k y)) /\ e_id s = i;
  so_shm : forall p i, In p (y_ps y) -> p_shm p = Seg i -> In i (p_maps p) /\
           forall s, In s (v_segs (y_k y)) -> e_id s = i -> m_id (e_mem s) = i
}.

Lemma cnt_app : forall a b i, cnt (a ++ b) i = cnt a i + cnt b i.
Proof. intros a b i. unfold cnt. rewrite count_occ_app. lia. Qed.
Lemma cnt_cons : forall x a i, cnt (x :: a) i = (if x =? i then 1 else 0) + cnt a i.
Proof. intros x a i. unfold cnt. cbn. destruct (Z.eq_dec x i), (x =? i) eqn:E; lia. Qed.
Lemma cnt_pos : forall a i, In i a -> 0 < cnt a i.
Proof. intros a i H. unfold cnt. apply (count_occ_In Z.eq_dec) in H. lia. Qed.
Lemma cnt_nonneg : forall a i, 0 <= cnt a i.
Proof. intros a i. unfold cnt. lia. Qed.
Lemma held_upd : forall ps n p p' i, nth_error ps n = Some p -> held (upd ps n p') i = held ps i - cnt (p_maps p) i + cnt (p_maps p') i.
Proof.
  intros ps. induction ps as [|q ps IH]; intros [|n] p p' i H; cbn in H; try discriminate.
  - injection H as ->. unfold held, upd. cbn [firstn skipn app map concat].
    change (cnt (p_maps p' ++ concat (map p_maps ps)) i = cnt (p_maps p ++ concat (map p_maps ps)) i - cnt (p_maps p) i + cnt (p_maps p') i).
    rewrite !cnt_app. lia.
  - specialize (IH n p p' i H). unfold held in *.
    change (upd (q :: ps) (S n) p') with (q :: upd ps n p'). cbn [map concat].
    change (cnt (p_maps q ++ concat (map p_maps (upd ps n p'))) i = cnt (p_maps q ++ concat (map p_maps ps)) i - cnt (p_maps p) i + cnt (p_maps p') i).
    rewrite !cnt_app. unfold cnt at 2 4. lia.
Qed.
Lemma held_in : forall ps p i, In p ps -> cnt (p_maps p) i <= held ps i.
Proof.
  intros ps p i H. induction ps as [|q ps IH]; [destruct H|]. unfold held. cbn [map concat].
  change (cnt (p_maps p) i <= cnt (p_maps q ++ concat (map p_maps ps)) i). rewrite cnt_app.
  destruct H as [<-|H]; [pose proof (cnt_nonneg (concat (map p_maps ps)) i); lia|].
  specialize (IH H). unfold held in IH. fold (cnt (concat (map p_maps ps)) i) in IH. pose proof (cnt_nonneg (p_maps q) i). lia.
Qed.
Lemma upd_in : forall (A : Type) (l : list A) n x y, In y (upd l n x) -> y = x \/ In y l.
Proof.
  intros A l. unfold upd. induction l as [|a l IH]; intros [|n] x y H; cbn in *; try tauto.
  - destruct H as [<-|H]; auto.
  - destruct H as [<-|H]; [auto|]. apply IH in H. tauto.
Qed.

(* a kernel with the segments of [v], in which segment [i] may have other
   attachments, another memory or be removed *)
Lemma reap_noop : forall v, kern_ok v -> reap (v_segs v) = v_segs v.
Proof. intros v KO. apply reap_id. intros s S [G A]. pose proof (ko_gone _ KO s S G). lia. Qed.

Lemma ok_at : forall v i, kern_ok v -> kern_ok (mkKern (sys_at (v_segs v) i) (v_next v)).
Proof.
  intros v i KO.
  assert (E : reap (sys_at (v_segs v) i) = sys_at (v_segs v) i).
  { apply reap_id. intros t T [G A]. apply on_inv in T. destruct T as (s & S & ->).
    destruct (e_id s =? i); cbn in *; pose proof (ko_gone _ KO s S G); lia. }
  rewrite <- E. apply ok_on; [exact KO|reflexivity| |].
  - intros s S _. cbn. pose proof (ko_at _ KO s S). split; [lia|]. split; [auto|]. intros G. exact (proj1 (ko_gone _ KO s S G)).
  - intros s S G _. exact (proj1 (ko_gone _ KO s S G)).
Qed.
Lemma ok_put : forall v i m, kern_ok v -> kern_ok (mkKern (put_mem (v_segs v) i m) (v_next v)).
Proof.
  intros v i m KO.
  assert (E : reap (put_mem (v_segs v) i m) = put_mem (v_segs v) i m).
  { apply reap_id. intros t T [G A]. apply on_inv in T. destruct T as (s & S & ->).
    destruct (e_id s =? i); cbn in *; pose proof (ko_gone _ KO s S G); lia. }
  rewrite <- E. apply ok_on; [exact KO|reflexivity| |].
  - intros s S _. cbn. split; [exact (ko_at _ KO s S)|]. split; [auto|]. intros G. exact (proj1 (ko_gone _ KO s S G)).
  - intros s S G _. exact (proj1 (ko_gone _ KO s S G)).
Qed.
Lemma ok_new : forall v k m, kern_ok v -> (forall s, In s (v_segs v) -> e_key s <> k) ->
  kern_ok (mkKern (mkSegment (v_next v) k 0 false m :: v_segs v) (v_next v + 1)).
Proof.
  intros v k m KO H. pose proof (ko_zero _ KO) as Z0. constructor; cbn [v_segs v_next].
  - cbn. constructor; [|exact (ko_ids _ KO)]. intros X. apply in_map_iff in X. destruct X as (s & E & S).
    pose proof (ko_next _ KO s S). lia.
  - intros s [<-|S]; [cbn; lia|]. pose proof (ko_next _ KO s S). lia.
  - lia.
  - intros s [<-|S]; [cbn; lia|exact (ko_at _ KO s S)].
  - intros s t [<-|S] [<-|T] E NZ; cbn in *; auto.
    + exfalso. exact (H t T (eq_sym E)).
    + exfalso. exact (H s S E).
    + exact (ko_keys _ KO s t S T E NZ).
  - intros s [<-|S]; [discriminate|exact (ko_gone _ KO s S)].
Qed.

Lemma cnt_in : forall a i, 0 < cnt a i -> In i a.
Proof. intros a i H. apply (count_occ_In Z.eq_dec). unfold cnt in H. lia. Qed.
Lemma held_exists : forall ps i, 0 < held ps i -> exists p, In p ps /\ In i (p_maps p).
Proof.
  intros ps i H. apply cnt_in in H. apply in_concat in H. destruct H as (l & L & X).
  apply in_map_iff in L. destruct L as (p & <- & P). eauto.
Qed.
Lemma held_none : forall y i, sys_ok y -> (forall s, In s (v_segs (y_k y)) -> e_id s <> i) -> held (y_ps y) i = 0.
Proof.
  intros y i SO H. destruct (Z.eq_dec (held (y_ps y) i) 0) as [E|D]; [exact E|exfalso].
  destruct (held_exists (y_ps y) i) as (p & P & X); [unfold held in *; lia|].
  destruct (so_maps _ SO p i P X) as (s & S & E). exact (H s S E).
Qed.

(* one process changes, with the same attachments *)
Lemma sys_same : forall y n p p', sys_ok y -> nth_error (y_ps y) n = Some p -> p_maps p' = p_maps p ->
  (p_shm p' = p_shm p \/ forall i, p_shm p' <> Seg i) -> sys_ok (mkSys (y_k y) (upd (y_ps y) n p')).
Proof.
  intros y n p p' SO N M S. pose proof (nth_error_In _ _ N) as P. constructor; cbn [y_k y_ps].
  - exact (so_k _ SO).
  - intros s X. rewrite (held_upd _ _ _ _ _ N), M. rewrite (so_at _ SO s X). lia.
  - intros q i Q I. apply upd_in in Q. destruct Q as [->|Q]; [rewrite M in I; exact (so_maps _ SO p i P I)|exact (so_maps _ SO q i Q I)].
  - intros q i Q E. apply upd_in in Q. destruct Q as [->|Q]; [|exact (so_shm _ SO q i Q E)].
    destruct S as [S|S]; [|exfalso; exact (S i E)]. rewrite M. rewrite S in E. exact (so_shm _ SO p i P E).
Qed.

Lemma sys_fresh : forall y k m, sys_ok y -> (forall s, In s (v_segs (y_k y)) -> e_key s <> k) ->
  sys_ok (mkSys (mkKern (mkSegment (v_next (y_k y)) k 0 false m :: v_segs (y_k y)) (v_next (y_k y) + 1)) (y_ps y)).
Proof.
  intros y k m SO H.
  assert (FR : forall s, In s (v_segs (y_k y)) -> e_id s <> v_next (y_k y)) by (intros s S; pose proof (ko_next _ (so_k _ SO) s S); lia).
  constructor; cbn [y_k y_ps v_segs].
  - apply ok_new; [exact (so_k _ SO)|exact H].
  - intros s [<-|S]; [cbn [e_at e_id]; symmetry; apply held_none; assumption|exact (so_at _ SO s S)].
  - intros p i P I. destruct (so_maps _ SO p i P I) as (s & S & E). exists s. split; [right; exact S|exact E].
  - intros p i P E. destruct (so_shm _ SO p i P E) as (I & M). split; [exact I|]. intros s [<-|S] X; [|exact (M s S X)].
    destruct (so_maps _ SO p i P I) as (t & T & TE). exfalso. apply (FR t T). cbn in X. congruence.
Qed.

Lemma sys_attach : forall y n p s m (ok : bool) key, sys_ok y -> nth_error (y_ps y) n = Some p -> In s (v_segs (y_k y)) ->
  (m_id m = e_id s \/ m_id m = m_id (e_mem s)) -> (ok = true -> m_id m = e_id s) ->
  sys_ok (mkSys (mkKern (put_mem (sys_at (v_segs (y_k y)) (e_id s)) (e_id s) m) (v_next (y_k y)))
                (upd (y_ps y) n (mkProc key (if ok then Seg (e_id s) else Nowhere) (e_id s :: p_maps p)))).
Proof.
  intros y n p s m ok key SO N S M1 M2. pose proof (nth_error_In _ _ N) as P.
  assert (INV : forall t, In t (put_mem (sys_at (v_segs (y_k y)) (e_id s)) (e_id s) m) -> exists u, In u (v_segs (y_k y)) /\
            e_id t = e_id u /\ e_at t = e_at u + (if e_id u =? e_id s then 1 else 0) /\
            (e_id u = e_id s -> e_mem t = m) /\ (e_id u <> e_id s -> e_mem t = e_mem u)).
  { intros t T. apply on_inv in T. destruct T as (w & W & ->). apply on_inv in W. destruct W as (u & U & ->). exists u.
    split; [exact U|]. destruct (e_id u =? e_id s) eqn:Q; cbn [e_id e_at e_mem]; rewrite Q; cbn [e_id e_at e_mem]; repeat split; auto; lia. }
  assert (BACK : forall u, In u (v_segs (y_k y)) -> exists t, In t (put_mem (sys_at (v_segs (y_k y)) (e_id s)) (e_id s) m) /\ e_id t = e_id u).
  { intros u U. assert (X : In (e_id u) (map e_id (put_mem (sys_at (v_segs (y_k y)) (e_id s)) (e_id s) m))).
    { unfold put_mem, sys_at. rewrite !on_ids by reflexivity. apply in_map. exact U. }
    apply in_map_iff in X. destruct X as (t & E & T). eauto. }
  constructor; cbn [y_k y_ps v_segs].
  - apply (ok_put (mkKern (sys_at (v_segs (y_k y)) (e_id s)) (v_next (y_k y)))). apply ok_at. exact (so_k _ SO).
  - intros t T. destruct (INV t T) as (u & U & E1 & E2 & _). rewrite (held_upd _ _ _ _ _ N). cbn [p_maps]. rewrite cnt_cons, E1, E2.
    rewrite (so_at _ SO u U). rewrite (Z.eqb_sym (e_id u)). lia.
  - intros q i Q I. apply upd_in in Q. destruct Q as [->|Q].
    + cbn [p_maps] in I. destruct I as [<-|I]; [exact (BACK s S)|]. destruct (so_maps _ SO p i P I) as (u & U & E).
      destruct (BACK u U) as (t & T & TE). exists t. split; [exact T|congruence].
    + destruct (so_maps _ SO q i Q I) as (u & U & E). destruct (BACK u U) as (t & T & TE). exists t. split; [exact T|congruence].
  - intros q i Q E. apply upd_in in Q. destruct Q as [->|Q].
    + cbn [p_shm p_maps] in *. destruct ok; [|discriminate]. injection E as <-. split; [left; reflexivity|].
      intros t T TE. destruct (INV t T) as (u & U & E1 & _ & E3 & _). rewrite E3 by congruence. exact (M2 eq_refl).
    + destruct (so_shm _ SO q i Q E) as (I & M). split; [exact I|]. intros t T TE. destruct (INV t T) as (u & U & E1 & _ & E3 & E4).
      destruct (Z.eq_dec (e_id u) (e_id s)) as [D|D].
      * rewrite (E3 D). destruct M1 as [M1|M1]; [congruence|]. rewrite M1. apply (M s S). congruence.
      * rewrite (E4 D). apply (M u U). congruence.
Qed.

Lemma sys_detach : forall y n p p' i, sys_ok y -> nth_error (y_ps y) n = Some p -> p_shm p' = Nowhere ->
  (forall x, cnt (p_maps p) x = cnt (p_maps p') x + if i =? x then 1 else 0) ->
  sys_ok (mkSys (mkKern (sys_dt (v_segs (y_k y)) i) (v_next (y_k y))) (upd (y_ps y) n p')).
Proof.
  intros y n p p' i SO N PS C. pose proof (nth_error_In _ _ N) as P.
  assert (PI : In i (p_maps p)).
  { apply cnt_in. rewrite C, Z.eqb_refl. pose proof (cnt_nonneg (p_maps p') i). lia. }
  assert (AT : forall s, In s (v_segs (y_k y)) -> e_id s = i -> 0 < e_at s).
  { intros s S E. rewrite (so_at _ SO s S), E. pose proof (held_in (y_ps y) p i P). pose proof (cnt_pos _ _ PI). lia. }
  assert (INV : forall t, In t (sys_dt (v_segs (y_k y)) i) -> exists u, In u (v_segs (y_k y)) /\ e_id t = e_id u /\
            e_at t = e_at u - (if e_id u =? i then 1 else 0) /\ e_mem t = e_mem u).
  { intros t T. apply reap_in in T. destruct T as [T _]. apply on_inv in T. destruct T as (u & U & ->). exists u. split; [exact U|].
    destruct (e_id u =? i); cbn; repeat split; lia. }
  assert (BACK : forall u, In u (v_segs (y_k y)) -> 0 < held (upd (y_ps y) n p') (e_id u) ->
            exists t, In t (sys_dt (v_segs (y_k y)) i) /\ e_id t = e_id u).
  { intros u U H. rewrite (held_upd _ _ _ _ _ N), C in H. rewrite <- (so_at _ SO u U) in H.
    exists (if e_id u =? i then mkSegment (e_id u) (e_key u) (e_at u - 1) (e_gone u) (e_mem u) else u).
    split; [|destruct (e_id u =? i); reflexivity]. apply reap_in. split.
    - apply in_map_iff. exists u. split; [reflexivity|exact U].
    - rewrite (Z.eqb_sym i) in H. intros [G A]. destruct (e_id u =? i); cbn in *; lia. }
  assert (MP : forall q x, In q (upd (y_ps y) n p') -> In x (p_maps q) -> 0 < held (upd (y_ps y) n p') x).
  { intros q x Q X. pose proof (held_in _ _ x Q). pose proof (cnt_pos _ _ X). lia. }
  assert (OLD : forall q x, In q (upd (y_ps y) n p') -> In x (p_maps q) -> exists u, In u (v_segs (y_k y)) /\ e_id u = x).
  { intros q x Q X. apply upd_in in Q. destruct Q as [->|Q]; [|exact (so_maps _ SO q x Q X)].
    apply (so_maps _ SO p x P). apply cnt_in. rewrite C. pose proof (cnt_pos _ _ X). destruct (i =? x); lia. }
  constructor; cbn [y_k y_ps v_segs].
  - apply ok_dt; [exact (so_k _ SO)|exact AT].
  - intros t T. destruct (INV t T) as (u & U & E1 & E2 & _). rewrite (held_upd _ _ _ _ _ N), C, E1, E2, (so_at _ SO u U), (Z.eqb_sym (e_id u)). lia.
  - intros q x Q X. destruct (OLD q x Q X) as (u & U & E). destruct (BACK u U) as (t & T & TE); [rewrite E; exact (MP q x Q X)|].
    exists t. split; [exact T|congruence].
  - intros q x Q E. apply upd_in in Q. destruct Q as [->|Q]; [congruence|]. destruct (so_shm _ SO q x Q E) as (I & M). split; [exact I|].
    intros t T TE. destruct (INV t T) as (u & U & E1 & _ & E3). rewrite E3. apply (M u U). congruence.
Qed.

Lemma sys_remove : forall y i, sys_ok y -> sys_ok (mkSys (mkKern (sys_rm (v_segs (y_k y)) i) (v_next (y_k y))) (y_ps y)).
Proof.
  intros y i SO.
  assert (INV : forall t, In t (sys_rm (v_segs (y_k y)) i) -> exists u, In u (v_segs (y_k y)) /\ e_id t = e_id u /\
            e_at t = e_at u /\ e_mem t = e_mem u).
  { intros t T. apply reap_in in T. destruct T as [T _]. apply on_inv in T. destruct T as (u & U & ->). exists u. split; [exact U|].
    destruct (e_id u =? i); cbn; auto. }
  constructor; cbn [y_k y_ps v_segs].
  - apply ok_rm. exact (so_k _ SO).
  - intros t T. destruct (INV t T) as (u & U & E1 & E2 & _). rewrite E1, E2. exact (so_at _ SO u U).
  - intros q x Q X. destruct (so_maps _ SO q x Q X) as (u & U & E).
    exists (if e_id u =? i then mkSegment (e_id u) 0 (e_at u) true (e_mem u) else u).
    split; [|destruct (e_id u =? i); exact E]. apply reap_in. split; [apply in_map_iff; exists u; split; [reflexivity|exact U]|].
    intros [G A]. assert (A' : e_at u <= 0) by (destruct (e_id u =? i); exact A).
    rewrite (so_at _ SO u U), E in A'. pose proof (held_in (y_ps y) q x Q). pose proof (cnt_pos _ _ X). lia.
  - intros q x Q E. destruct (so_shm _ SO q x Q E) as (I & M). split; [exact I|].
    intros t T TE. destruct (INV t T) as (u & U & E1 & _ & E3). rewrite E3. apply (M u U). congruence.
Qed.

Lemma load_shm_id : forall fuel K i m e m' ok, load_shm fuel K i m = Ret (e, m', ok) ->
  m_id m' = m_id m /\ (ok = true -> m_id m' = i).
Proof.
  intros fuel K i m e m' ok H. unfold load_shm in H.
  destruct (negb (m_size m =? k_size K) || negb (m_id m =? i)) eqn:Q.
  - injection H as <- <- <-. split; [reflexivity|discriminate].
  - destruct (recover_rings fuel K 0 (m_channels m) (m_rings m)) as [[e0 l]| |]; cbn [bind] in H; try discriminate.
    injection H as <- <- <-. cbn [m_id]. split; [reflexivity|]. lia.
Qed.

Lemma cnt_remove : forall l i x, In i l -> cnt l x = cnt (remove_one i l) x + if i =? x then 1 else 0.
Proof.
  intros l i x. induction l as [|a l IH]; intros H; [destruct H|]. cbn [remove_one]. rewrite cnt_cons.
  destruct (a =? i) eqn:Q.
  - assert (a = i) by lia. subst a. lia.
  - rewrite cnt_cons. destruct H as [H|H]; [lia|]. specialize (IH H). lia.
Qed.

Lemma on_on : forall l i f g, (forall s, e_id (g s) = e_id s) ->
  on_seg (on_seg l i g) i f = on_seg l i (fun s => f (g s)).
Proof.
  intros l i f g G. unfold on_seg. rewrite map_map. apply map_ext. intros s. destruct (e_id s =? i) eqn:Q; [rewrite G, Q; reflexivity|rewrite Q; reflexivity].
Qed.

Lemma upd_upd : forall (A : Type) (l : list A) n x y, upd (upd l n x) n y = upd l n y.
Proof.
  intros A l. unfold upd. induction l as [|a l IH]; intros [|n] x y; cbn; try reflexivity. f_equal. apply IH.
Qed.
Lemma upd_get : forall (A : Type) (l : list A) n x y, nth_error l n = Some y -> nth_error (upd l n x) n = Some x.
Proof.
  intros A l. unfold upd. induction l as [|a l IH]; intros [|n] x y H; cbn in *; try discriminate; [reflexivity|]. exact (IH n x y H).
Qed.

Lemma sys_leave : forall js y n p p', sys_ok y -> nth_error (y_ps y) n = Some p -> p_maps p = js -> p_shm p = Nowhere ->
  p_shm p' = Nowhere -> p_maps p' = [] ->
  sys_ok (mkSys (mkKern (fold_left sys_dt js (v_segs (y_k y))) (v_next (y_k y))) (upd (y_ps y) n p')).
Proof.
  intros js. induction js as [|j js IH]; intros y n p p' SO N M S S' M'; cbn [fold_left].
  - pose proof (sys_same y n p p' SO N ltac:(congruence) ltac:(left; congruence)) as X. destruct (y_k y). exact X.
  - pose proof (sys_detach y n p (mkProc (p_key p) Nowhere js) j SO N eq_refl) as X.
    specialize (X ltac:(intros x; rewrite M, cnt_cons; cbn [p_maps]; lia)).
    pose proof (IH _ n (mkProc (p_key p) Nowhere js) p' X) as Y. cbn [y_k y_ps v_segs v_next] in Y.
    rewrite upd_upd in Y. apply Y; try reflexivity; try assumption. eapply upd_get. exact N.
Qed.

Lemma key_none : forall l k, seg_with_key l k = None -> forall s, In s l -> e_key s <> k.
Proof. intros l k H s S E. pose proof (find_none _ _ H s S) as F. cbn in F. lia. Qed.

Lemma sys_use : forall fuel K y n p s m0 e v' p' key, sys_ok y -> nth_error (y_ps y) n = Some p -> In s (v_segs (y_k y)) ->
  (m_id m0 = e_id s \/ m_id m0 = m_id (e_mem s)) ->
  use_seg fuel K (mkKern (put_mem (sys_at (v_segs (y_k y)) (e_id s)) (e_id s) m0) (v_next (y_k y))) (mkProc key Nowhere (e_id s :: p_maps p)) (e_id s) = Ret (e, v', p') ->
  sys_ok (mkSys v' (upd (y_ps y) n p')).
Proof.
  intros fuel K y n p s m0 e v' p' key SO N S M H. unfold use_seg in H. cbn [v_segs v_next p_key p_shm p_maps] in H.
  set (t := mkSegment (e_id s) (e_key s) (e_at s + 1) (e_gone s) m0).
  assert (W : seg_with_id (put_mem (sys_at (v_segs (y_k y)) (e_id s)) (e_id s) m0) (e_id s) = Some t).
  { change (e_id s) with (e_id t) at 3. apply with_id.
    - unfold put_mem, sys_at. rewrite !on_ids by reflexivity. exact (ko_ids _ (so_k _ SO)).
    - unfold put_mem, sys_at. rewrite on_on by reflexivity. cbn [e_id e_key e_at e_gone].
      apply (on_in _ _ (fun s0 => mkSegment (e_id s0) (e_key s0) (e_at s0 + 1) (e_gone s0) m0) s S eq_refl). }
  rewrite W in H. cbn [e_mem t] in H.
  destruct (load_shm fuel K (e_id s) m0) as [[[e0 m] ok]| |] eqn:L; cbn [bind] in H; try discriminate. injection H as <- <- <-.
  destruct (load_shm_id _ _ _ _ _ _ _ L) as (L1 & L2).
  assert (E : put_mem (put_mem (sys_at (v_segs (y_k y)) (e_id s)) (e_id s) m0) (e_id s) m = put_mem (sys_at (v_segs (y_k y)) (e_id s)) (e_id s) m).
  { unfold put_mem. rewrite on_on by reflexivity. reflexivity. }
  rewrite E. apply sys_attach; try assumption. rewrite L1. exact M.
Qed.

Lemma sys_load : forall fuel K f y n p e v' p', sys_ok y -> nth_error (y_ps y) n = Some p -> p_shm p = Nowhere ->
  load_shared fuel K f (y_k y) p = Ret (e, v', p') -> sys_ok (mkSys v' (upd (y_ps y) n p')).
Proof.
  intros fuel K f y n p e v' p' SO N PS H. unfold load_shared in H. rewrite PS in H.
  assert (SAME : sys_ok (mkSys (y_k y) (upd (y_ps y) n p))) by (apply (sys_same y n p p SO N); auto).
  destruct (p_key p <=? 0); [injection H as <- <- <-; apply (sys_same y n p _ SO N); [reflexivity|right; discriminate]|].
  destruct (key32 (p_key p) =? 0); [injection H as <- <- <-; exact SAME|].
  destruct (seg_with_key (v_segs (y_k y)) (key32 (p_key p))) as [s|] eqn:F.
  - apply find_some in F. destruct F as [S _].
    destruct (f_access f); [injection H as <- <- <-; exact SAME|]. destruct (f_attach f); [injection H as <- <- <-; exact SAME|].
    apply (sys_use fuel K y n p s (e_mem s) e v' p' (p_key p) SO N S); [right; reflexivity|].
    rewrite <- H. f_equal. f_equal. unfold put_mem, sys_at. rewrite on_on by reflexivity. cbn [e_id e_key e_at e_gone].
    unfold on_seg. apply map_ext_in. intros t T. destruct (e_id t =? e_id s) eqn:Q; [|reflexivity].
    assert (t = s) by (apply (ids_inj (v_segs (y_k y))); [exact (ko_ids _ (so_k _ SO))|exact T|exact S|lia]). subst t. reflexivity.
  - destruct (f_room f); [injection H as <- <- <-; exact SAME|].
    pose proof (sys_fresh y (key32 (p_key p)) (zero_mem K) SO (key_none _ _ F)) as FR.
    destruct (f_attach f).
    + injection H as <- <- <-. apply (sys_same _ n p p FR N); auto.
    + cbn [v_segs v_next] in H.
      apply (sys_use fuel K (mkSys (mkKern (mkSegment (v_next (y_k y)) (key32 (p_key p)) 0 false (zero_mem K) :: v_segs (y_k y)) (v_next (y_k y) + 1)) (y_ps y))
               n p (mkSegment (v_next (y_k y)) (key32 (p_key p)) 0 false (zero_mem K)) (head_mem K (v_next (y_k y)) (reset_mem (zero_mem K))) e v' p' (p_key p) FR N);
        [left; reflexivity|left; reflexivity|exact H].
Qed.

Lemma sys_step_ok : forall fuel K y ev y', sys_ok y -> sys_step fuel K y ev = Some y' -> sys_ok y'.
Proof.
  intros fuel K y ev y' SO H. unfold sys_step in H.
  destruct ev as [key|n f|n m|n key|n|n]; try (destruct (nth_error (y_ps y) n) as [p|] eqn:N; [|discriminate]).
  - injection H as <-. constructor; cbn [y_k y_ps].
    + exact (so_k _ SO).
    + intros s S. unfold held. rewrite map_app, concat_app. cbn. rewrite app_nil_r. exact (so_at _ SO s S).
    + intros p i P I. apply in_app_iff in P. destruct P as [P|[<-|[]]]; [exact (so_maps _ SO p i P I)|destruct I].
    + intros p i P E. apply in_app_iff in P. destruct P as [P|[<-|[]]]; [exact (so_shm _ SO p i P E)|discriminate].
  - destruct (p_shm p) eqn:PS; [|injection H as <-; exact SO|injection H as <-; exact SO].
    destruct (load_shared fuel K f (y_k y) p) as [[[e v'] p']| |] eqn:L; try discriminate. injection H as <-.
    exact (sys_load fuel K f y n p e v' p' SO N PS L).
  - destruct (p_shm p) as [| |i] eqn:PS; try discriminate.
    destruct (seg_with_id (v_segs (y_k y)) i) as [s|] eqn:F; [|discriminate]. apply find_some in F. destruct F as [S F].
    destruct ((m_size m =? m_size (e_mem s)) && (m_id m =? m_id (e_mem s))) eqn:Q; [|discriminate]. injection H as <-.
    pose proof (sys_same y n p p SO N eq_refl ltac:(auto)) as SM.
    assert (EQ : e_id s = i) by lia. constructor; cbn [y_k y_ps v_segs].
    + apply ok_put. exact (so_k _ SO).
    + intros t T. apply on_inv in T. destruct T as (u & U & ->). pose proof (so_at _ SM u U) as A. cbn [y_ps] in A.
      destruct (e_id u =? i); exact A.
    + intros q x QI X. destruct (so_maps _ SM q x QI X) as (u & U & E). cbn [y_k] in U.
      exists (if e_id u =? i then mkSegment (e_id u) (e_key u) (e_at u) (e_gone u) m else u).
      split; [apply in_map_iff; exists u; split; [reflexivity|exact U]|destruct (e_id u =? i); exact E].
    + intros q x QI E. destruct (so_shm _ SM q x QI E) as (I & M). split; [exact I|]. intros t T TE.
      apply on_inv in T. destruct T as (u & U & ->). destruct (e_id u =? i) eqn:Q2; [|exact (M u U TE)].
      cbn [e_id e_mem] in *. replace (m_id m) with (m_id (e_mem s)) by lia. apply (M s S). lia.
  - injection H as <-. apply (sys_same y n p _ SO N); [reflexivity|left; reflexivity].
  - destruct (unload_shared (y_k y) p) as [[v' p']| |] eqn:U; try discriminate. injection H as <-.
    unfold unload_shared in U. destruct (p_shm p) as [| |i] eqn:PS.
    + injection U as <- <-. apply (sys_same y n p p SO N); auto.
    + destruct (0 <? p_key p); injection U as <- <-.
      * apply (sys_remove (mkSys (y_k y) (upd (y_ps y) n (mkProc (p_key p) Nowhere (p_maps p))))).
        apply (sys_same y n p _ SO N); [reflexivity|right; discriminate].
      * apply (sys_same y n p _ SO N); [reflexivity|right; discriminate].
    + destruct (0 <? p_key p); [|discriminate]. destruct (seg_with_id (v_segs (y_k y)) i) as [s|] eqn:F; [|discriminate].
      injection U as <- <-. destruct (so_shm _ SO p i (nth_error_In _ _ N) PS) as (I & _).
      pose proof (sys_detach y n p (mkProc (p_key p) Nowhere (remove_one i (p_maps p))) i SO N eq_refl
        (fun x => cnt_remove (p_maps p) i x I)) as D.
      exact (sys_remove _ (m_id (e_mem s)) D).
  - injection H as <-. unfold leave.
    pose proof (sys_same y n p (mkProc (p_key p) Nowhere (p_maps p)) SO N eq_refl ltac:(right; discriminate)) as X.
    pose proof (sys_leave (p_maps p) _ n (mkProc (p_key p) Nowhere (p_maps p)) (mkProc (p_key p) Nowhere []) X) as Y.
    cbn [y_k y_ps] in Y. rewrite upd_upd in Y. apply Y; try reflexivity. eapply upd_get. exact N.
Qed.

Lemma sys_run_ok : forall fuel K es y y', sys_ok y -> sys_run fuel K y es = Some y' -> sys_ok y'.
Proof.
  intros fuel K es. induction es as [|e es IH]; intros y y' SO H; cbn [sys_run] in H; [injection H as <-; exact SO|].
  destruct (sys_step fuel K y e) as [y1|] eqn:E; [|discriminate]. exact (IH y1 y' (sys_step_ok _ _ _ _ _ SO E) H).
Qed.
Lemma boot_ok : sys_ok boot.
Proof.
  constructor; cbn; try (intros; contradiction).
  constructor; cbn; try (intros; contradiction); [constructor|lia].
Qed.

Lemma seen_ok : forall fuel K y, seen fuel K y -> sys_ok y.
Proof. intros fuel K y (es & H). exact (sys_run_ok _ _ _ _ _ boot_ok H). Qed.
Lemma times_cnt : forall i l, times i l = cnt l i.
Proof. intros i l. induction l as [|x l IH]; [reflexivity|]. cbn [times]. rewrite cnt_cons, IH. reflexivity. Qed.
Lemma attached_held : forall i ps, attached i ps = held ps i.
Proof.
  intros i ps. induction ps as [|p ps IH]; [reflexivity|]. cbn [attached]. rewrite IH, times_cnt. unfold held. cbn [map concat].
  fold (cnt (concat (map p_maps ps)) i). fold (cnt (p_maps p ++ concat (map p_maps ps)) i). rewrite cnt_app. reflexivity.
Qed.

Lemma keep_dt : forall v i t, kern_ok v -> e_id t <> i -> In t (v_segs v) -> In t (sys_dt (v_segs v) i).
Proof. intros v i t KO D T. apply (dt_other v i t KO D). exact T. Qed.
Lemma keep_rm : forall l i t, e_id t <> i -> In t l -> ~ (e_gone t = true /\ e_at t <= 0) -> In t (sys_rm l i).
Proof. intros l i t D T G. unfold sys_rm. apply reap_in. split; [|exact G]. apply on_other; [reflexivity|exact D|exact T]. Qed.
Lemma keep_put : forall l i m t, e_id t <> i -> In t l -> In t (put_mem l i m).
Proof. intros l i m t D T. apply on_other; [reflexivity|exact D|exact T]. Qed.
Lemma keep_at : forall l i t, e_id t <> i -> In t l -> In t (sys_at l i).
Proof. intros l i t D T. apply on_other; [reflexivity|exact D|exact T]. Qed.
Lemma keep_leave : forall js l t, ~ In (e_id t) js -> ~ (e_gone t = true /\ e_at t <= 0) -> In t l -> In t (fold_left sys_dt js l).
Proof.
  intros js. induction js as [|j js IH]; intros l t N G T; [exact T|]. cbn [fold_left]. apply IH; [intros X; apply N; right; exact X|exact G|].
  unfold sys_dt. apply reap_in. split; [|exact G]. apply on_other; [reflexivity| |exact T]. intros E. apply N. left. congruence.
Qed.
Lemma use_keep : forall fuel K v p i e v' p' t, use_seg fuel K v p i = Ret (e, v', p') -> e_id t <> i -> In t (v_segs v) -> In t (v_segs v').
Proof.
  intros fuel K v p i e v' p' t H D T. unfold use_seg in H. destruct (seg_with_id (v_segs v) i) as [s|]; [|discriminate].
  destruct (load_shm fuel K i (e_mem s)) as [[[e0 m] ok]| |]; cbn [bind] in H; try discriminate. injection H as <- <- <-.
  cbn [v_segs]. apply keep_put; assumption.
Qed.
Lemma load_keep : forall fuel K f v p e v' p' t, kern_ok v -> load_shared fuel K f v p = Ret (e, v', p') ->
  In t (v_segs v) -> e_key t <> key32 (p_key p) -> In t (v_segs v').
Proof.
  intros fuel K f v p e v' p' t KO H T N. unfold load_shared in H.
  destruct (p_key p <=? 0); [injection H as <- <- <-; exact T|]. destruct (key32 (p_key p) =? 0); [injection H as <- <- <-; exact T|].
  destruct (seg_with_key (v_segs v) (key32 (p_key p))) as [s|] eqn:F.
  - destruct (f_access f); [injection H as <- <- <-; exact T|]. destruct (f_attach f); [injection H as <- <- <-; exact T|].
    apply find_some in F. destruct F as [S F].
    assert (D : e_id t <> e_id s).
    { intros E. assert (t = s) by (apply (ids_inj (v_segs v)); [exact (ko_ids _ KO)|exact T|exact S|exact E]). subst t. lia. }
    apply (use_keep _ _ _ _ _ _ _ _ t H D). cbn [v_segs]. apply keep_at; assumption.
  - destruct (f_room f); [injection H as <- <- <-; exact T|]. destruct (f_attach f); [injection H as <- <- <-; right; exact T|].
    pose proof (ko_next _ KO t T) as B. apply (use_keep _ _ _ _ _ _ _ _ t H); [lia|].
    cbn [v_segs]. apply keep_put; [lia|]. apply keep_at; [lia|]. right. exact T.
Qed.

Lemma step_keep : forall fuel K y n p ev y' t, sys_ok y -> sys_step fuel K y ev = Some y' -> by_proc n ev ->
  nth_error (y_ps y) n = Some p -> In t (v_segs (y_k y)) -> ~ In (e_id t) (p_maps p) -> e_key t <> key32 (p_key p) ->
  (p_shm p = Heap -> p_key p <= 0) -> In t (v_segs (y_k y')).
Proof.
  intros fuel K y n p ev y' t SO H B N T NM NK HP.
  assert (G : ~ (e_gone t = true /\ e_at t <= 0)) by (intros [G A]; pose proof (ko_gone _ (so_k _ SO) t T G); lia).
  unfold sys_step in H. destruct ev as [key|k f|k m|k key|k|k]; cbn [by_proc] in B; try contradiction; subst k; rewrite N in H.
  - destruct (p_shm p); [|injection H as <-; exact T|injection H as <-; exact T].
    destruct (load_shared fuel K f (y_k y) p) as [[[e v'] p']| |] eqn:L; try discriminate. injection H as <-. cbn [y_k].
    exact (load_keep _ _ _ _ _ _ _ _ t (so_k _ SO) L T NK).
  - destruct (p_shm p) as [| |i] eqn:PS; try discriminate. destruct (seg_with_id (v_segs (y_k y)) i) as [s|]; [|discriminate].
    destruct (_ && _); [|discriminate]. injection H as <-. cbn [y_k v_segs]. apply keep_put; [|exact T].
    intros E. apply NM. rewrite E. exact (proj1 (so_shm _ SO p i (nth_error_In _ _ N) PS)).
  - injection H as <-. exact T.
  - destruct (unload_shared (y_k y) p) as [[v' p']| |] eqn:U; try discriminate. injection H as <-. cbn [y_k].
    unfold unload_shared in U. destruct (p_shm p) as [| |i] eqn:PS.
    + injection U as <- <-. exact T.
    + replace (0 <? p_key p) with false in U by (specialize (HP eq_refl); lia). injection U as <- <-. exact T.
    + destruct (0 <? p_key p); [|discriminate]. destruct (seg_with_id (v_segs (y_k y)) i) as [s|] eqn:F; [|discriminate].
      injection U as <- <-. cbn [v_segs]. destruct (so_shm _ SO p i (nth_error_In _ _ N) PS) as (I & M).
      assert (D : e_id t <> i) by (intros E; apply NM; rewrite E; exact I).
      apply find_some in F. destruct F as [S F]. rewrite (M s S ltac:(lia)).
      apply keep_rm; [exact D| |exact G]. apply keep_dt; [exact (so_k _ SO)|exact D|exact T].
  - injection H as <-. unfold leave. cbn [y_k v_segs]. apply keep_leave; assumption.
Qed.

(* ---- a segment whose header nobody wrote ---- *)
Record stuck (K : rlim) (i k : Z) (m : shm) (y : sys) : Prop := mkStuck {
  st_ok : sys_ok y;
  st_in : stays i k m (v_segs (y_k y));
  st_who : forall p, In p (y_ps y) -> p_shm p <> Seg i
}.
Lemma stays_put : forall i k m l j m', j <> i -> stays i k m l -> stays i k m (put_mem l j m').
Proof.
  intros i k m l j m' D (s & S & E1 & E2 & E3 & E4). exists s. split; [|auto]. apply keep_put; [congruence|exact S].
Qed.
Lemma stays_same : forall i k m l, stays i k m l -> NoDup (map e_id l) -> stays i k m (put_mem l i m).
Proof.
  intros i k m l (s & S & E1 & E2 & E3 & E4) ND. exists (mkSegment (e_id s) (e_key s) (e_at s) (e_gone s) m).
  split; [|cbn; auto]. apply (on_in l i (fun s0 => mkSegment (e_id s0) (e_key s0) (e_at s0) (e_gone s0) m) s S E1).
Qed.
Lemma stays_at : forall i k m l j, stays i k m l -> stays i k m (sys_at l j).
Proof.
  intros i k m l j (s & S & E1 & E2 & E3 & E4). destruct (Z.eq_dec (e_id s) j) as [E|D].
  - exists (mkSegment (e_id s) (e_key s) (e_at s + 1) (e_gone s) (e_mem s)). split; [|cbn; auto].
    apply (on_in l j (fun s0 => mkSegment (e_id s0) (e_key s0) (e_at s0 + 1) (e_gone s0) (e_mem s0)) s S E).
  - exists s. split; [|auto]. apply keep_at; assumption.
Qed.
Lemma stays_rm : forall i k m l j, j <> i -> stays i k m l -> stays i k m (sys_rm l j).
Proof.
  intros i k m l j D (s & S & E1 & E2 & E3 & E4). exists s. split; [|auto]. apply keep_rm; [congruence|exact S|intros [G _]; congruence].
Qed.

(* loading the key of such a segment *)
Lemma load_stuck : forall fuel K i k m v p f, kern_ok v -> stays i k m (v_segs v) -> m_size m <> k_size K ->
  0 < p_key p -> key32 (p_key p) = k -> k <> 0 ->
  exists e v', load_shared fuel K f v p = Ret (e, v', mkProc (p_key p) (p_shm p) (if f_access f || f_attach f then p_maps p else i :: p_maps p)) /\
    e = (if f_access f then 12 else if f_attach f then 14 else 15) /\ stays i k m (v_segs v').
Proof.
  intros fuel K i k m v p f KO (s & S & E1 & E2 & E3 & E4) MS P KE NZ. unfold load_shared.
  replace (p_key p <=? 0) with false by lia. rewrite KE. replace (k =? 0) with false by lia.
  assert (W : seg_with_key (v_segs v) k = Some s) by (rewrite <- E2; apply with_key; [exact KO|exact S|congruence]). rewrite W.
  destruct p as [pk ps pm]. cbn [p_key p_shm p_maps] in *.
  destruct (f_access f); [do 2 eexists; split; [reflexivity|]; split; [reflexivity|exists s; auto]|].
  destruct (f_attach f); [do 2 eexists; split; [reflexivity|]; split; [reflexivity|exists s; auto]|].
  unfold use_seg. cbn [v_segs v_next p_key p_shm p_maps orb].
  set (t := mkSegment (e_id s) (e_key s) (e_at s + 1) (e_gone s) (e_mem s)).
  assert (T : In t (sys_at (v_segs v) (e_id s))).
  { apply (on_in (v_segs v) (e_id s) (fun s0 => mkSegment (e_id s0) (e_key s0) (e_at s0 + 1) (e_gone s0) (e_mem s0)) s S eq_refl). }
  assert (W2 : seg_with_id (sys_at (v_segs v) (e_id s)) (e_id s) = Some t).
  { change (e_id s) with (e_id t) at 2. apply with_id; [|exact T]. unfold sys_at. rewrite on_ids by reflexivity. exact (ko_ids _ KO). }
  rewrite W2. cbn [e_mem t]. unfold load_shm. rewrite E4. replace (m_size m =? k_size K) with false by lia. cbn [negb orb bind].
  rewrite E1. do 2 eexists. split; [reflexivity|]. split; [reflexivity|]. cbn [v_segs].
  apply stays_same; [apply stays_at; exists s; auto|]. unfold sys_at. rewrite on_ids by reflexivity. exact (ko_ids _ KO).
Qed.

Lemma use_shm : forall fuel K v p j e v' p', use_seg fuel K v p j = Ret (e, v', p') -> p_shm p' = Seg j \/ p_shm p' = p_shm p.
Proof.
  intros fuel K v p j e v' p' H. unfold use_seg in H. destruct (seg_with_id (v_segs v) j) as [s|]; [|discriminate].
  destruct (load_shm fuel K j (e_mem s)) as [[[e0 m] ok]| |]; cbn [bind] in H; try discriminate. injection H as <- <- <-.
  cbn [p_shm]. destruct ok; auto.
Qed.
Lemma load_place : forall fuel K f v p e v' p', load_shared fuel K f v p = Ret (e, v', p') ->
  p_shm p' = Heap \/ p_shm p' = p_shm p \/ (exists s, In s (v_segs v) /\ e_key s = key32 (p_key p) /\ p_shm p' = Seg (e_id s)) \/
  (seg_with_key (v_segs v) (key32 (p_key p)) = None /\ p_shm p' = Seg (v_next v)).
Proof.
  intros fuel K f v p e v' p' H. unfold load_shared in H.
  destruct (p_key p <=? 0); [injection H as <- <- <-; auto|]. destruct (key32 (p_key p) =? 0); [injection H as <- <- <-; auto|].
  destruct (seg_with_key (v_segs v) (key32 (p_key p))) as [s|] eqn:F.
  - destruct (f_access f); [injection H as <- <- <-; auto|]. destruct (f_attach f); [injection H as <- <- <-; auto|].
    apply find_some in F. destruct F as [S F]. apply use_shm in H. cbn [p_shm] in H.
    destruct H as [H|H]; [|auto]. right. right. left. exists s. split; [exact S|]. split; [lia|exact H].
  - destruct (f_room f); [injection H as <- <- <-; auto|]. destruct (f_attach f); [injection H as <- <- <-; auto|].
    apply use_shm in H. cbn [p_shm] in H. destruct H as [H|H]; auto.
Qed.

Lemma stuck_step : forall fuel K i k m y ev y', 0 < i -> k <> 0 -> m_size m <> k_size K -> stuck K i k m y ->
  sys_step fuel K y ev = Some y' -> stuck K i k m y'.
Proof.
  intros fuel K i k m y ev y' I0 K0 MS [SO IN WH] H. pose proof (sys_step_ok _ _ _ _ _ SO H) as SO'.
  assert (ID : forall s, In s (v_segs (y_k y)) -> e_key s = k -> e_id s = i).
  { intros s S E. destruct IN as (t & T & T1 & T2 & _). rewrite <- T1. apply (ko_keys _ (so_k _ SO)); [exact S|exact T|congruence|congruence]. }
  assert (KI : forall s, In s (v_segs (y_k y)) -> e_id s = i -> e_key s = k).
  { intros s S E. destruct IN as (t & T & T1 & T2 & _). rewrite <- T2. f_equal. apply (ids_inj (v_segs (y_k y))); [exact (ko_ids _ (so_k _ SO))|exact S|exact T|congruence]. }
  constructor; [exact SO'| |]; clear SO'; unfold sys_step in H;
    (destruct ev as [key|n f|n m1|n key|n|n]; try (destruct (nth_error (y_ps y) n) as [p|] eqn:N; [|discriminate]; pose proof (nth_error_In _ _ N) as P)).
  - injection H as <-. exact IN.
  - destruct (p_shm p) eqn:PS; [|injection H as <-; exact IN|injection H as <-; exact IN].
    destruct (load_shared fuel K f (y_k y) p) as [[[e v'] p']| |] eqn:L; try discriminate. injection H as <-. cbn [y_k].
    destruct (Z.eq_dec (key32 (p_key p)) k) as [E|D].
    + destruct (Z_le_gt_dec (p_key p) 0) as [Le|Gt].
      * unfold load_shared in L. replace (p_key p <=? 0) with true in L by lia. injection L as <- <- <-. exact IN.
      * destruct (load_stuck fuel K i k m (y_k y) p f (so_k _ SO) IN MS ltac:(lia) E K0) as (e1 & v1 & L1 & _ & ST).
        rewrite L1 in L. injection L as <- <- <-. exact ST.
    + destruct IN as (s & S & E1 & E2 & E3 & E4). exists s. split; [|auto].
      apply (load_keep _ _ _ _ _ _ _ _ s (so_k _ SO) L S). congruence.
  - destruct (p_shm p) as [| |j] eqn:PS; try discriminate. destruct (seg_with_id (v_segs (y_k y)) j) as [s|]; [|discriminate].
    destruct (_ && _); [|discriminate]. injection H as <-. cbn [y_k v_segs]. apply stays_put; [|exact IN].
    intros ->. exact (WH p P PS).
  - injection H as <-. exact IN.
  - destruct (unload_shared (y_k y) p) as [[v' p']| |] eqn:U; try discriminate. injection H as <-. cbn [y_k].
    unfold unload_shared in U. destruct (p_shm p) as [| |j] eqn:PS.
    + injection U as <- <-. exact IN.
    + destruct (0 <? p_key p); injection U as <- <-; [|exact IN]. cbn [v_segs]. apply stays_rm; [lia|exact IN].
    + destruct (0 <? p_key p); [|discriminate]. destruct (seg_with_id (v_segs (y_k y)) j) as [s|] eqn:F; [|discriminate].
      injection U as <- <-. cbn [v_segs]. destruct (so_shm _ SO p j P PS) as (_ & M).
      apply find_some in F. destruct F as [S F]. rewrite (M s S ltac:(lia)).
      apply stays_rm; [intros ->; exact (WH p P PS)|]. apply stays_dt. exact IN.
  - injection H as <-. apply stays_leave. exact IN.
  - injection H as <-. cbn [y_ps]. intros q Q. apply in_app_iff in Q. destruct Q as [Q|[<-|[]]]; [exact (WH q Q)|discriminate].
  - destruct (p_shm p) eqn:PS; [|injection H as <-; exact WH|injection H as <-; exact WH].
    destruct (load_shared fuel K f (y_k y) p) as [[[e v'] p']| |] eqn:L; try discriminate. injection H as <-. cbn [y_ps].
    intros q Q X. apply upd_in in Q. destruct Q as [->|Q]; [|exact (WH q Q X)].
    destruct (Z.eq_dec (key32 (p_key p)) k) as [E|D].
    + destruct (Z_le_gt_dec (p_key p) 0) as [Le|Gt].
      * unfold load_shared in L. replace (p_key p <=? 0) with true in L by lia. injection L as <- <- <-. discriminate.
      * destruct (load_stuck fuel K i k m (y_k y) p f (so_k _ SO) IN MS ltac:(lia) E K0) as (e1 & v1 & L1 & _ & ST).
        rewrite L1 in L. injection L as <- <- <-. cbn [p_shm] in X. congruence.
    + destruct (load_place _ _ _ _ _ _ _ _ L) as [Y|[Y|[(s & S & Y1 & Y2)|(_ & Y)]]]; try congruence.
      * rewrite Y2 in X. injection X as X. apply D. rewrite <- Y1. apply KI; assumption.
      * rewrite Y in X. injection X as X. destruct IN as (s & S & E1 & _). pose proof (ko_next _ (so_k _ SO) s S). lia.
  - destruct (p_shm p) as [| |j] eqn:PS; try discriminate. destruct (seg_with_id (v_segs (y_k y)) j) as [s|]; [|discriminate].
    destruct (_ && _); [|discriminate]. injection H as <-. cbn [y_ps]. intros q Q. apply upd_in in Q. destruct Q as [->|Q]; [exact (WH p P)|exact (WH q Q)].
  - injection H as <-. cbn [y_ps]. intros q Q. apply upd_in in Q. destruct Q as [->|Q]; [exact (WH p P)|exact (WH q Q)].
  - destruct (unload_shared (y_k y) p) as [[v' p']| |] eqn:U; try discriminate. injection H as <-. cbn [y_ps].
    assert (X : p_shm p' = Nowhere).
    { unfold unload_shared in U. destruct (p_shm p) as [| |j] eqn:PS; [injection U as <- <-; exact PS| |].
      - destruct (0 <? p_key p); injection U as <- <-; reflexivity.
      - destruct (0 <? p_key p); [|discriminate]. destruct (seg_with_id (v_segs (y_k y)) j); [|discriminate]. injection U as <- <-. reflexivity. }
    intros q Q. apply upd_in in Q. destruct Q as [->|Q]; [congruence|exact (WH q Q)].
  - injection H as <-. cbn [y_ps]. intros q Q. apply upd_in in Q. destruct Q as [->|Q]; [discriminate|exact (WH q Q)].
Qed.
Lemma stuck_run : forall fuel K i k m es y y', 0 < i -> k <> 0 -> m_size m <> k_size K -> stuck K i k m y ->
  sys_run fuel K y es = Some y' -> stuck K i k m y'.
Proof.
  intros fuel K i k m es. induction es as [|e es IH]; intros y y' I0 K0 MS ST H; cbn [sys_run] in H; [injection H as <-; exact ST|].
  destruct (sys_step fuel K y e) as [y1|] eqn:E; [|discriminate].
  exact (IH y1 y' I0 K0 MS (stuck_step _ _ _ _ _ _ _ _ I0 K0 MS ST E) H).
Qed.
Lemma stuck_new : forall fuel K y n p f y', sys_ok y -> nth_error (y_ps y) n = Some p -> p_shm p = Nowhere -> 0 < p_key p ->
  key32 (p_key p) <> 0 -> (forall s, In s (v_segs (y_k y)) -> e_key s <> key32 (p_key p)) -> f_room f = false -> f_attach f = true ->
  sys_step fuel K y (ELoad n f) = Some y' -> stuck K (v_next (y_k y)) (key32 (p_key p)) (zero_mem K) y'.
Proof.
  intros fuel K y n p f y' SO N PS P K0 NK FR FA H. pose proof (sys_step_ok _ _ _ _ _ SO H) as SO'.
  unfold sys_step in H. rewrite N, PS in H. unfold load_shared in H. replace (p_key p <=? 0) with false in H by lia.
  replace (key32 (p_key p) =? 0) with false in H by lia. rewrite (no_key _ _ NK), FR, FA in H. injection H as <-.
  constructor; [exact SO'| |]; cbn [y_k y_ps v_segs].
  - eexists. split; [left; reflexivity|]. cbn. auto.
  - intros q Q E. apply upd_in in Q. destruct Q as [->|Q]; [congruence|].
    destruct (so_shm _ SO q _ Q E) as (I & _). destruct (so_maps _ SO q _ Q I) as (s & S & X).
    pose proof (ko_next _ (so_k _ SO) s S). lia.
Qed.
