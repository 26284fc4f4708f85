(* Proofs for processes that load the same shared memory at the same time. *)
From Coq Require Import String ZArith List Bool Lia ZifyBool ZifyNat ZifyN.
From Verif Require Import Base BaseFacts Ring Recover Shm ShmSpec ShmProofs ShmRace ShmRaceSpec.
Import ListNotations.
Open Scope Z_scope.

Definition sized (K : rlim) : shm := mem_size K (reset_mem (zero_mem K)).
Lemma sized_id : forall K i, mem_id i (sized K) = new_mem K i.
Proof. reflexivity. Qed.

Definition raw (l : at_line) : option Z :=
  match l with LAtNew i | LReset i | LSize i | LId i => Some i | _ => None end.
Definition in_call (l : at_line) : Prop := match l with Idle _ => False | _ => True end.
Definition key_of (segs : list segment) (i k : Z) : Prop := forall s, In s segs -> e_id s = i -> e_key s = k \/ e_key s = 0.

Definition line_ok (K : rlim) (segs : list segment) (nx : Z) (p : proc) (l : at_line) : Prop :=
  let k := key32 (p_key p) in
  match l with
  | Idle None => p_shm p = Nowhere
  | Idle (Some e) => e = 0 <-> p_shm p <> Nowhere
  | LProbe => True
  | LCreate => True
  | LAtNew i => stays i k (zero_mem K) segs
  | LReset i => stays i k (zero_mem K) segs /\ In i (p_maps p)
  | LSize i => stays i k (reset_mem (zero_mem K)) segs /\ In i (p_maps p)
  | LId i => In i (p_maps p) /\ (i <> 0 -> stays i k (sized K) segs)
  | LAt i => i < nx /\ key_of segs i k
  | LCheck i => In i (p_maps p)
  end /\ (in_call l -> p_shm p = Nowhere) /\
  (match l with Idle _ => p_shm p = Heap -> p_key p <= 0 | LProbe => True | _ => 0 < p_key p /\ k <> 0 end).

Ltac idle := cbn; intros; first [congruence | lia].
Record race_ok (K : rlim) (z : race) : Prop := mkRaceOk {
  ro_sys : sys_ok (z_s z);
  ro_len : length (z_at z) = length (z_ps z);
  ro_line : forall n p l, nth_error (z_ps z) n = Some p -> nth_error (z_at z) n = Some l ->
            line_ok K (v_segs (z_k z)) (v_next (z_k z)) p l;
  ro_size : forall p s, In p (z_ps z) -> In s (v_segs (z_k z)) -> p_shm p = Seg (e_id s) -> m_size (e_mem s) = k_size K;
  ro_one : forall n n' l l' i, nth_error (z_at z) n = Some l -> nth_error (z_at z) n' = Some l' ->
           raw l = Some i -> raw l' = Some i -> n = n';
  ro_key : forall p i, In p (z_ps z) -> In i (p_maps p) -> key_of (v_segs (z_k z)) i (key32 (p_key p))
}.

(* ---- upd ---- *)
Lemma nth_upd : forall (A : Type) (l : list A) n x m, (n < length l)%nat ->
  nth_error (upd l n x) m = if (m =? n)%nat then Some x else nth_error l m.
Proof.
  intros A l n x m H. destruct (Nat.eqb_spec m n) as [->|N].
  - destruct (nth_error l n) as [y|] eqn:E; [exact (upd_get _ _ _ _ _ E)|]. apply nth_error_None in E. lia.
  - revert n m H N. induction l as [|a l IH]; intros n m H N; [cbn in H; lia|]. destruct n as [|n].
    + destruct m as [|m]; [lia|]. reflexivity.
    + destruct m as [|m]; [reflexivity|]. cbn in H. apply (IH n m); lia.
Qed.
Lemma upd_len : forall (A : Type) (l : list A) n x, (n < length l)%nat -> length (upd l n x) = length l.
Proof.
  intros A l. induction l as [|a l IH]; intros n x H; [cbn in H; lia|]. destruct n as [|n]; [reflexivity|].
  cbn in H. change (S (length (upd l n x)) = S (length l)). rewrite IH by lia. reflexivity.
Qed.
Lemma nth_lt : forall (A : Type) (l : list A) n x, nth_error l n = Some x -> (n < length l)%nat.
Proof. intros A l n x H. apply nth_error_Some. congruence. Qed.

(* ---- frame ---- *)
Definition older (segs segs' : list segment) (nx : Z) : Prop :=
  forall t, In t segs' -> e_id t < nx -> exists s, In s segs /\ e_id s = e_id t /\ (e_key t = e_key s \/ e_key t = 0).
Lemma key_frame : forall segs segs' nx i k, older segs segs' nx -> i < nx -> key_of segs i k -> key_of segs' i k.
Proof.
  intros segs segs' nx i k O L KO t T E. destruct (O t T ltac:(lia)) as (s & S & SE & [X|X]); [|auto].
  rewrite X. apply (KO s S). congruence.
Qed.
Lemma line_frame : forall K segs nx segs' nx' p l, line_ok K segs nx p l -> nx <= nx' -> older segs segs' nx ->
  (forall i k m, raw l = Some i -> l <> LId 0 -> stays i k m segs -> stays i k m segs') -> line_ok K segs' nx' p l.
Proof.
  intros K segs nx segs' nx' p l (A & B) L O F. split; [|exact B].
  destruct l as [[e|]| | |i|i|i|i|i|i]; cbn beta iota zeta in *.
  - exact A.
  - exact A.
  - exact I.
  - exact I.
  - apply F; [reflexivity|discriminate|exact A].
  - destruct A as [A A']. split; [apply F; [reflexivity|discriminate|exact A]|exact A'].
  - destruct A as [A A']. split; [apply F; [reflexivity|discriminate|exact A]|exact A'].
  - destruct A as [A' A]. split; [exact A'|]. intros NZ. apply F; [reflexivity|congruence|exact (A NZ)].
  - destruct A as [A A']. split; [lia|]. exact (key_frame _ _ _ _ _ O A A').
  - exact A.
Qed.

(* a segment under construction is used by nobody *)
Lemma raw_free : forall K z n p l i q, 0 < k_size K -> race_ok K z -> nth_error (z_ps z) n = Some p -> nth_error (z_at z) n = Some l ->
  raw l = Some i -> l <> LId 0 -> In q (z_ps z) -> p_shm q <> Seg i.
Proof.
  intros K z n p l i q KS R N L W ND Q E. pose proof (ro_line _ _ R n p l N L) as (A & _).
  assert (S0 : forall m, stays i (key32 (p_key p)) m (v_segs (z_k z)) -> m_size m = k_size K /\ m_id m = i).
  { intros m (s & S & SI & _ & _ & SM). split; [rewrite <- SM; apply (ro_size _ _ R q s Q S); congruence|].
    rewrite <- SM. exact (proj2 (so_shm _ (ro_sys _ _ R) q i Q E) s S SI). }
  destruct l as [[e|]| | |j|j|j|j|j|j]; cbn in W; try discriminate; injection W as ->; cbn beta iota zeta in A.
  - apply S0 in A. destruct A as [A _]. cbn in A. lia.
  - destruct A as [A _]. apply S0 in A. destruct A as [A _]. cbn in A. lia.
  - destruct A as [A _]. apply S0 in A. destruct A as [A _]. cbn in A. lia.
  - destruct A as [_ A]. assert (i <> 0) by congruence. apply S0 in A; [|assumption]. destruct A as [_ A]. cbn in A. congruence.
Qed.

(* ---- steps that put one process and the kernel ---- *)
Lemma race_upd : forall K z n p l v p' l', race_ok K z -> nth_error (z_ps z) n = Some p -> nth_error (z_at z) n = Some l ->
  sys_ok (mkSys v (upd (z_ps z) n p')) -> v_next (z_k z) <= v_next v -> older (v_segs (z_k z)) (v_segs v) (v_next (z_k z)) ->
  p_key p' = p_key p ->
  (forall m q l2 i k mem, m <> n -> nth_error (z_ps z) m = Some q -> nth_error (z_at z) m = Some l2 -> raw l2 = Some i -> l2 <> LId 0 ->
     stays i k mem (v_segs (z_k z)) -> stays i k mem (v_segs v)) ->
  line_ok K (v_segs v) (v_next v) p' l' ->
  (forall q s, In q (z_ps z) -> In s (v_segs v) -> p_shm q = Seg (e_id s) -> m_size (e_mem s) = k_size K) ->
  (forall s, In s (v_segs v) -> p_shm p' = Seg (e_id s) -> m_size (e_mem s) = k_size K) ->
  (forall i, raw l' = Some i -> raw l = Some i \/ forall m l2, nth_error (z_at z) m = Some l2 -> raw l2 <> Some i) ->
  (forall i, In i (p_maps p') -> In i (p_maps p) \/ key_of (v_segs v) i (key32 (p_key p))) ->
  race_ok K (mkRace (mkSys v (upd (z_ps z) n p')) (upd (z_at z) n l')).
Proof.
  intros K z n p l v p' l' R N L SO NX OL PK FR LO SZ SZ' RW MP.
  pose proof (nth_lt _ _ _ _ N) as N1. pose proof (nth_lt _ _ _ _ L) as L1.
  constructor; cbn [z_s z_at z_ps z_k y_k y_ps]; unfold z_k, z_ps; cbn [z_s y_k y_ps].
  - exact SO.
  - rewrite !upd_len by assumption. exact (ro_len _ _ R).
  - intros m q l2 Q L2. rewrite nth_upd in Q, L2 by assumption. destruct (Nat.eqb_spec m n) as [->|NE].
    + injection Q as <-. injection L2 as <-. exact LO.
    + apply (line_frame K (v_segs (z_k z)) (v_next (z_k z))); [exact (ro_line _ _ R m q l2 Q L2)|exact NX|exact OL|].
      intros i k mem W ND. exact (FR m q l2 i k mem NE Q L2 W ND).
  - intros q s Q S E. apply upd_in in Q. destruct Q as [->|Q]; [exact (SZ' s S E)|exact (SZ q s Q S E)].
  - intros m m' l2 l2' i M M' W W'. rewrite nth_upd in M, M' by assumption.
    destruct (Nat.eqb_spec m n) as [->|NE], (Nat.eqb_spec m' n) as [->|NE'].
    + reflexivity.
    + injection M as <-. destruct (RW i W) as [X|X]; [exact (ro_one _ _ R _ _ _ _ _ L M' X W')|exfalso; exact (X m' l2' M' W')].
    + injection M' as <-. destruct (RW i W') as [X|X]; [exact (ro_one _ _ R _ _ _ _ _ M L W X)|exfalso; exact (X m l2 M W)].
    + exact (ro_one _ _ R _ _ _ _ _ M M' W W').
  - assert (OLD : forall q i, In q (z_ps z) -> In i (p_maps q) -> key_of (v_segs v) i (key32 (p_key q))).
    { intros q i Q I. apply (key_frame (v_segs (z_k z)) _ (v_next (z_k z))); [exact OL| |exact (ro_key _ _ R q i Q I)].
      destruct (so_maps _ (ro_sys _ _ R) q i Q I) as (s & S & <-). exact (proj2 (ko_next _ (so_k _ (ro_sys _ _ R)) s S)). }
    intros q i Q I. apply upd_in in Q. destruct Q as [->|Q]; [|exact (OLD q i Q I)]. rewrite PK. destruct (MP i I) as [X|X]; [|exact X].
    exact (OLD p i (nth_error_In _ _ N) X).
Qed.

(* ---- kernels that differ little ---- *)
Lemma older_refl : forall l nx, older l l nx.
Proof. intros l nx t T _. exists t. auto. Qed.
Lemma older_on : forall l i f nx, (forall s, e_id (f s) = e_id s) -> (forall s, e_key (f s) = e_key s \/ e_key (f s) = 0) -> older l (on_seg l i f) nx.
Proof.
  intros l i f nx FI FK t T _. apply on_inv in T. destruct T as (s & S & ->). exists s. split; [exact S|].
  destruct (e_id s =? i); [split; [symmetry; apply FI|apply FK]|auto].
Qed.
Lemma older_sub : forall l l' nx, (forall t, In t l' -> In t l) -> older l l' nx.
Proof. intros l l' nx H t T _. exists t. auto. Qed.
Lemma older_trans : forall l l' l'' nx, older l l' nx -> older l' l'' nx -> older l l'' nx.
Proof.
  intros l l' l'' nx A B t T H. destruct (B t T H) as (s & S & E & Q). destruct (A s S ltac:(lia)) as (r & R & E' & Q').
  exists r. split; [exact R|]. split; [congruence|]. destruct Q as [Q|Q]; [rewrite Q; exact Q'|auto].
Qed.
Lemma older_dt : forall l i nx, older l (sys_dt l i) nx.
Proof.
  intros l i nx. eapply older_trans; [|apply older_sub; intros t T; apply reap_in in T; exact (proj1 T)].
  apply older_on; intros s; [reflexivity|left; reflexivity].
Qed.
Lemma older_rm : forall l i nx, older l (sys_rm l i) nx.
Proof.
  intros l i nx. eapply older_trans; [|apply older_sub; intros t T; apply reap_in in T; exact (proj1 T)].
  apply older_on; intros s; [reflexivity|right; reflexivity].
Qed.
Lemma older_leave : forall js l nx, older l (fold_left sys_dt js l) nx.
Proof.
  intros js. induction js as [|j js IH]; intros l nx; [apply older_refl|]. cbn [fold_left]. eapply older_trans; [apply older_dt|apply IH].
Qed.
Lemma stays_at : forall i k m l j, stays i k m l -> stays i k m (sys_at l j).
Proof.
  intros i k m l j (s & S & E1 & E2 & E3 & E4). unfold stays, sys_at. destruct (e_id s =? j) eqn:Q.
  - exists (mkSegment (e_id s) (e_key s) (e_at s + 1) (e_gone s) (e_mem s)). split; [apply (on_in l j (fun s => mkSegment (e_id s) (e_key s) (e_at s + 1) (e_gone s) (e_mem s))); [exact S|lia]|]. cbn. auto.
  - exists s. split; [|auto]. apply on_other; [reflexivity|lia|exact S].
Qed.
Definition with_mem (f : shm -> shm) (s : segment) : segment := mkSegment (e_id s) (e_key s) (e_at s) (e_gone s) (f (e_mem s)).
Lemma change_on : forall v i f, v_segs (change_mem v i f) = on_seg (v_segs v) i (with_mem f).
Proof. reflexivity. Qed.
Lemma stays_other : forall i k m l j f, i <> j -> stays i k m l -> stays i k m (on_seg l j (with_mem f)).
Proof.
  intros i k m l j f NE (s & S & E1 & E2 & E3 & E4). exists s. split; [|auto]. apply on_other; [reflexivity|congruence|exact S].
Qed.
Lemma stays_change : forall i k m l f, stays i k m l -> stays i k (f m) (on_seg l i (with_mem f)).
Proof.
  intros i k m l f (s & S & E1 & E2 & E3 & E4). exists (with_mem f s). split; [apply on_in; assumption|]. cbn. rewrite E4. auto.
Qed.
Lemma stays_rm : forall i k m l j, i <> j -> stays i k m l -> stays i k m (sys_rm l j).
Proof.
  intros i k m l j NE (s & S & E1 & E2 & E3 & E4). exists s. split; [|auto]. apply keep_rm; [congruence|exact S|]. intros [G _]. congruence.
Qed.
Lemma stays_uniq : forall v i k m k' m', kern_ok v -> stays i k m (v_segs v) -> stays i k' m' (v_segs v) -> k = k' /\ m = m'.
Proof.
  intros v i k m k' m' KO (s & S & E1 & E2 & E3 & E4) (t & T & F1 & F2 & F3 & F4).
  assert (s = t) by (apply (ids_inj _ _ _ (ko_ids _ KO) S T); congruence). subst t. split; congruence.
Qed.
Lemma change_id : forall l i f, (forall s, In s l -> e_id s = i -> f (e_mem s) = e_mem s) -> on_seg l i (with_mem f) = l.
Proof.
  intros l i f. induction l as [|a l IH]; intros H; [reflexivity|]. unfold on_seg in *. cbn [map].
  rewrite IH by (intros s S; apply H; right; exact S). destruct (e_id a =? i) eqn:Q; [|reflexivity].
  unfold with_mem. rewrite H by (auto with datatypes; lia). destruct a; reflexivity.
Qed.
Lemma put_change : forall v i m, mkKern (put_mem (v_segs v) i m) (v_next v) = change_mem v i (fun _ => m).
Proof. reflexivity. Qed.

(* ---- sys_ok ---- *)
Lemma ok_change : forall v i f, kern_ok v -> kern_ok (change_mem v i f).
Proof.
  intros v i f KO. pose proof (ok_on v i (with_mem f) KO) as H. unfold change_mem. change (fun s => mkSegment _ _ _ _ _) with (with_mem f).
  assert (E : reap (on_seg (v_segs v) i (with_mem f)) = on_seg (v_segs v) i (with_mem f)).
  { apply reap_id. intros s S [G A]. apply on_inv in S. destruct S as (u & U & ->). pose proof (ko_gone _ KO u U) as Q.
    destruct (e_id u =? i); cbn in G, A; specialize (Q G); lia. }
  rewrite E in H. apply H.
  - reflexivity.
  - intros s S _. cbn. split; [exact (ko_at _ KO s S)|]. split; [auto|]. intros G. exact (proj1 (ko_gone _ KO s S G)).
  - intros s S G _. cbn. exact (proj1 (ko_gone _ KO s S G)).
Qed.
Lemma sys_change : forall y i f n p p', sys_ok y -> nth_error (y_ps y) n = Some p -> p_maps p' = p_maps p ->
  (forall q s, In q (y_ps y) -> In s (v_segs (y_k y)) -> e_id s = i -> p_shm q = Seg i -> m_id (f (e_mem s)) = i) ->
  (p_shm p' = p_shm p \/ (p_shm p' = Seg i /\ In i (p_maps p) /\ forall s, In s (v_segs (y_k y)) -> e_id s = i -> m_id (f (e_mem s)) = i)) ->
  sys_ok (mkSys (change_mem (y_k y) i f) (upd (y_ps y) n p')).
Proof.
  intros y i f n p p' SO N M F P. pose proof (nth_error_In _ _ N) as IN. constructor; cbn [y_k y_ps].
  - apply ok_change. exact (so_k _ SO).
  - intros t T. rewrite change_on in T. apply on_inv in T. destruct T as (s & S & ->). rewrite (held_upd _ _ _ _ _ N), M.
    pose proof (so_at _ SO s S) as X. destruct (e_id s =? i); cbn [with_mem e_at e_id]; lia.
  - assert (G : forall q x, In q (y_ps y) -> In x (p_maps q) -> exists t, In t (v_segs (change_mem (y_k y) i f)) /\ e_id t = x).
    { intros q x Q X. destruct (so_maps _ SO q x Q X) as (s & S & E). exists (if e_id s =? i then with_mem f s else s).
      split; [rewrite change_on; apply in_map_iff; exists s; auto|]. destruct (e_id s =? i); exact E. }
    intros q x Q X. apply upd_in in Q. destruct Q as [->|Q]; [rewrite M in X; exact (G p x IN X)|exact (G q x Q X)].
  - assert (G : forall q x, In q (y_ps y) -> p_shm q = Seg x -> In x (p_maps q) /\
              forall t, In t (v_segs (change_mem (y_k y) i f)) -> e_id t = x -> m_id (e_mem t) = x).
    { intros q x Q X. destruct (so_shm _ SO q x Q X) as (A & B). split; [exact A|]. intros t T E. rewrite change_on in T. apply on_inv in T.
      destruct T as (s & S & ->). destruct (e_id s =? i) eqn:QQ; [|exact (B s S E)]. cbn [with_mem e_mem e_id] in *.
      assert (XI : x = i) by lia. rewrite XI in *. apply (F q s Q S); [exact E|exact X]. }
    intros q x Q X. apply upd_in in Q. destruct Q as [->|Q]; [|exact (G q x Q X)]. rewrite M.
    destruct P as [P|(P & A & B)]; [rewrite P in X; exact (G p x IN X)|]. rewrite P in X. injection X as <-. split; [exact A|].
    intros t T E. rewrite change_on in T. apply on_inv in T. destruct T as (s & S & ->). destruct (e_id s =? i) eqn:QQ.
    + cbn [with_mem e_mem]. apply (B s S). lia.
    + lia.
Qed.
Lemma sys_map_in : forall y n p i s, sys_ok y -> nth_error (y_ps y) n = Some p -> p_shm p = Nowhere -> In s (v_segs (y_k y)) -> e_id s = i ->
  sys_ok (mkSys (fst (map_in (y_k y) p i)) (upd (y_ps y) n (snd (map_in (y_k y) p i)))).
Proof.
  intros y n p i s SO N SH S E. subst i. pose proof (sys_attach y n p s (e_mem s) false (p_key p) SO N S (or_intror eq_refl) ltac:(discriminate)) as H.
  cbn [map_in fst snd]. rewrite SH. replace (sys_at (v_segs (y_k y)) (e_id s)) with (put_mem (sys_at (v_segs (y_k y)) (e_id s)) (e_id s) (e_mem s)); [exact H|].
  apply (change_id _ (e_id s) (fun _ => e_mem s)). intros t T TE. apply on_inv in T. destruct T as (u & U & ->).
  assert (u = s) by (apply (ids_inj _ _ _ (ko_ids _ (so_k _ SO)) U S); destruct (e_id u =? e_id s) eqn:Q; cbn in TE; lia). subst u.
  destruct (e_id s =? e_id s); reflexivity.
Qed.
Lemma load_facts : forall fuel K i m e m' ok, load_shm fuel K i m = Ret (e, m', ok) ->
  (m' = m /\ ok = false /\ e = 15 /\ (m_size m <> k_size K \/ m_id m <> i)) \/
  (m_size m = k_size K /\ m_id m = i /\ m_size m' = k_size K /\ m_id m' = i /\ ok = (e =? 0)).
Proof.
  intros fuel K i m e m' ok H. unfold load_shm in H. destruct (negb (m_size m =? k_size K) || negb (m_id m =? i)) eqn:Q.
  - injection H as <- <- <-. left. repeat split; try reflexivity. lia.
  - right. destruct (recover_rings fuel K 0 (m_channels m) (m_rings m)) as [[e0 l]| |]; cbn [bind] in H; try discriminate. injection H as <- <- <-.
    cbn. repeat split; lia.
Qed.

(* ---- one step ---- *)
Lemma raw_next : forall K z n p l i, race_ok K z -> nth_error (z_ps z) n = Some p -> nth_error (z_at z) n = Some l -> raw l = Some i ->
  i < v_next (z_k z).
Proof.
  intros K z n p l i R N L W. pose proof (ro_sys _ _ R) as SO. pose proof (ro_line _ _ R n p l N L) as (A & _).
  assert (G : forall k m, stays i k m (v_segs (z_k z)) -> i < v_next (z_k z)).
  { intros k m (s & S & <- & _). exact (proj2 (ko_next _ (so_k _ SO) s S)). }
  destruct l as [[e|]| | |j|j|j|j|j|j]; cbn in W; try discriminate; injection W as ->; cbn beta iota zeta in A.
  - exact (G _ _ A).
  - exact (G _ _ (proj1 A)).
  - exact (G _ _ (proj1 A)).
  - destruct (so_maps _ SO p i (nth_error_In _ _ N) (proj1 A)) as (s & S & <-). exact (proj2 (ko_next _ (so_k _ SO) s S)).
Qed.
Lemma at_of : forall K z n l, race_ok K z -> nth_error (z_at z) n = Some l -> exists p, nth_error (z_ps z) n = Some p.
Proof.
  intros K z n l R L. pose proof (nth_lt _ _ _ _ L) as H. rewrite (ro_len _ _ R) in H. apply nth_error_Some in H.
  destruct (nth_error (z_ps z) n) as [p|]; [eauto|congruence].
Qed.

(* the process alone changes *)
Lemma race_self : forall K z n p l p' l', race_ok K z -> nth_error (z_ps z) n = Some p -> nth_error (z_at z) n = Some l ->
  p_key p' = p_key p -> p_maps p' = p_maps p -> (p_shm p' = p_shm p \/ forall i, p_shm p' <> Seg i) ->
  line_ok K (v_segs (z_k z)) (v_next (z_k z)) p' l' -> (forall i, raw l' = Some i -> raw l = Some i) ->
  race_ok K (mkRace (mkSys (z_k z) (upd (z_ps z) n p')) (upd (z_at z) n l')).
Proof.
  intros K z n p l p' l' R N L PK PM PS LO RW. apply (race_upd K z n p l (z_k z) p' l' R N L).
  - exact (sys_same (z_s z) n p p' (ro_sys _ _ R) N PM PS).
  - apply Z.le_refl.
  - apply older_refl.
  - exact PK.
  - auto.
  - exact LO.
  - exact (ro_size _ _ R).
  - intros s S E. destruct PS as [PS|PS]; [|exfalso; exact (PS _ E)]. rewrite PS in E. exact (ro_size _ _ R p s (nth_error_In _ _ N) S E).
  - intros i W. left. exact (RW i W).
  - intros i I. left. rewrite PM in I. exact I.
Qed.

(* a store to a segment that nobody else builds *)
Lemma race_change : forall K z n p l p' l' i f, race_ok K z -> nth_error (z_ps z) n = Some p -> nth_error (z_at z) n = Some l ->
  p_key p' = p_key p -> p_maps p' = p_maps p ->
  (forall m q l2 k mem, m <> n -> nth_error (z_ps z) m = Some q -> nth_error (z_at z) m = Some l2 -> raw l2 = Some i -> l2 <> LId 0 ->
     stays i k mem (v_segs (z_k z)) -> f mem = mem) ->
  (forall q s, In q (z_ps z) -> In s (v_segs (z_k z)) -> e_id s = i -> p_shm q = Seg i -> m_id (f (e_mem s)) = i /\ m_size (f (e_mem s)) = k_size K) ->
  (p_shm p' = p_shm p \/ (p_shm p' = Seg i /\ In i (p_maps p) /\
     forall s, In s (v_segs (z_k z)) -> e_id s = i -> m_id (f (e_mem s)) = i /\ m_size (f (e_mem s)) = k_size K)) ->
  line_ok K (v_segs (change_mem (z_k z) i f)) (v_next (z_k z)) p' l' -> (forall j, raw l' = Some j -> raw l = Some j) ->
  race_ok K (mkRace (mkSys (change_mem (z_k z) i f) (upd (z_ps z) n p')) (upd (z_at z) n l')).
Proof.
  intros K z n p l p' l' i f R N L PK PM FR FU PS LO RW. pose proof (nth_error_In _ _ N) as IN.
  assert (SZ : forall q s, In q (z_ps z) -> In s (v_segs (change_mem (z_k z) i f)) -> p_shm q = Seg (e_id s) -> m_size (e_mem s) = k_size K).
  { intros q t Q T E. rewrite change_on in T. apply on_inv in T. destruct T as (s & S & ->). destruct (e_id s =? i) eqn:QQ.
    - cbn [with_mem e_mem e_id] in *. assert (XI : e_id s = i) by lia. rewrite XI in E. exact (proj2 (FU q s Q S XI E)).
    - exact (ro_size _ _ R q s Q S E). }
  apply (race_upd K z n p l (change_mem (z_k z) i f) p' l' R N L).
  - apply (sys_change (z_s z) i f n p p' (ro_sys _ _ R) N PM).
    + intros q s Q S E X. exact (proj1 (FU q s Q S E X)).
    + destruct PS as [PS|(PS & A & B)]; [left; exact PS|right]. split; [exact PS|]. split; [exact A|]. intros s S E. exact (proj1 (B s S E)).
  - apply Z.le_refl.
  - rewrite change_on. apply older_on; [reflexivity|left; reflexivity].
  - exact PK.
  - intros m q l2 j k mem NE Q L2 W ND ST. rewrite change_on. destruct (Z.eq_dec j i) as [->|D]; [|apply stays_other; assumption].
    pose proof (FR m q l2 k mem NE Q L2 W ND ST) as FM. rewrite <- FM. apply stays_change. exact ST.
  - exact LO.
  - exact SZ.
  - intros s S E. destruct PS as [PS|(PS & A & B)].
    + rewrite PS in E. exact (SZ p s IN S E).
    + rewrite PS in E. injection E as E. rewrite change_on in S. apply on_inv in S. destruct S as (u & U & ->). destruct (e_id u =? i) eqn:QQ; [|lia].
      cbn [with_mem e_mem]. apply (B u U). lia.
  - intros j W. left. exact (RW j W).
  - intros j J. left. rewrite PM in J. exact J.
Qed.

Lemma id_at : forall l i s, seg_with_id l i = Some s -> In s l /\ e_id s = i.
Proof. intros l i s H. unfold seg_with_id in H. apply find_some in H. destruct H as [A B]. split; [exact A|lia]. Qed.
Lemma key_at : forall l k s, seg_with_key l k = Some s -> In s l /\ e_key s = k.
Proof. intros l i s H. unfold seg_with_key in H. apply find_some in H. destruct H as [A B]. split; [exact A|lia]. Qed.

(* attaching *)
Lemma race_map : forall K z n p l l' i s, race_ok K z -> nth_error (z_ps z) n = Some p -> nth_error (z_at z) n = Some l ->
  p_shm p = Nowhere -> In s (v_segs (z_k z)) -> e_id s = i -> key_of (v_segs (z_k z)) i (key32 (p_key p)) ->
  line_ok K (sys_at (v_segs (z_k z)) i) (v_next (z_k z)) (snd (map_in (z_k z) p i)) l' -> (forall j, raw l' = Some j -> raw l = Some j) ->
  race_ok K (mkRace (mkSys (fst (map_in (z_k z) p i)) (upd (z_ps z) n (snd (map_in (z_k z) p i)))) (upd (z_at z) n l')).
Proof.
  intros K z n p l l' i s R N L SH S E KO LO RW.
  assert (OL : older (v_segs (z_k z)) (sys_at (v_segs (z_k z)) i) (v_next (z_k z))) by (apply older_on; [reflexivity|left; reflexivity]).
  assert (SZ : forall q s, In q (z_ps z) -> In s (sys_at (v_segs (z_k z)) i) -> p_shm q = Seg (e_id s) -> m_size (e_mem s) = k_size K).
  { intros q t Q T X. apply on_inv in T. destruct T as (u & U & ->). destruct (e_id u =? i); cbn in *; exact (ro_size _ _ R q u Q U X). }
  apply (race_upd K z n p l _ _ l' R N L).
  - exact (sys_map_in (z_s z) n p i s (ro_sys _ _ R) N SH S E).
  - apply Z.le_refl.
  - exact OL.
  - reflexivity.
  - intros m q l2 j k mem _ _ _ _ _ ST. apply stays_at. exact ST.
  - exact LO.
  - exact SZ.
  - intros t T X. cbn in X. congruence.
  - intros j W. left. exact (RW j W).
  - intros j J. cbn in J. destruct J as [<-|J]; [|left; exact J]. right. apply (key_frame _ _ _ i _ OL); [|exact KO].
    rewrite <- E. exact (proj2 (ko_next _ (so_k _ (ro_sys _ _ R)) s S)).
Qed.

Lemma race_line : forall fuel K f z n p l v p' l', 0 < k_size K -> race_ok K z -> nth_error (z_ps z) n = Some p -> nth_error (z_at z) n = Some l ->
  line_step fuel K f (z_k z) p l = Ret (v, p', l') -> race_ok K (mkRace (mkSys v (upd (z_ps z) n p')) (upd (z_at z) n l')).
Proof.
  intros fuel K f z n p l v p' l' KS R N L H. pose proof (ro_line _ _ R n p l N L) as LO. pose proof (ro_sys _ _ R) as SO. pose proof (nth_error_In _ _ N) as IN.
  pose proof (so_k _ SO) as KO. fold (z_k z) in KO.
  destruct l as [e| | |i|i|i|i|i|i]; cbn [line_step] in H.
  - injection H as <- <- <-. apply (race_self K z n p (Idle e)); auto.
  - destruct LO as (_ & SH & _). specialize (SH I).
    destruct (p_key p <=? 0) eqn:KP.
    { injection H as <- <- <-. apply (race_self K z n p LProbe); auto; try discriminate; [right; discriminate|].
      split; [|split; [intros []|idle]]. cbn. split; [discriminate|reflexivity]. }
    assert (BAD : forall e, e <> 0 -> line_ok K (v_segs (z_k z)) (v_next (z_k z)) p (Idle (Some e))).
    { intros e NE. split; [|split; [intros []|idle]]. cbn. split; [lia|]. intros X. exfalso. exact (X SH). }
    destruct (key32 (p_key p) =? 0) eqn:K0.
    { injection H as <- <- <-. apply (race_self K z n p LProbe); auto; try discriminate. apply BAD. discriminate. }
    destruct (seg_with_key (v_segs (z_k z)) (key32 (p_key p))) as [s|] eqn:SK.
    + injection H as <- <- <-. destruct (f_access f).
      * apply (race_self K z n p LProbe); auto; try discriminate. apply BAD. discriminate.
      * apply (race_self K z n p LProbe); auto; try discriminate. apply key_at in SK. destruct SK as [S E].
        split; [|split; [auto|lia]]. split; [exact (proj2 (ko_next _ KO s S))|]. intros t T TE. left.
        assert (t = s) by (apply (ids_inj _ _ _ (ko_ids _ KO) T S TE)). congruence.
    + injection H as <- <- <-. apply (race_self K z n p LProbe); auto; try discriminate. split; [exact I|]. split; [auto|lia].
  - destruct LO as (_ & SH & KP & K0). specialize (SH I).
    assert (BAD : line_ok K (v_segs (z_k z)) (v_next (z_k z)) p (Idle (Some E_SHMGET_CREATE_ERROR))).
    { split; [|split; [intros []|idle]]. cbn. split; [discriminate|]. intros X. exfalso. exact (X SH). }
    destruct (seg_with_key (v_segs (z_k z)) (key32 (p_key p))) as [s|] eqn:SK.
    { injection H as <- <- <-. apply (race_self K z n p LCreate); auto; try discriminate. }
    destruct (f_room f).
    { injection H as <- <- <-. apply (race_self K z n p LCreate); auto; try discriminate. }
    injection H as <- <- <-. pose proof (key_none _ _ SK) as NK. set (s0 := mkSegment (v_next (z_k z)) (key32 (p_key p)) 0 false (zero_mem K)).
    assert (FR : forall s, In s (v_segs (z_k z)) -> e_id s <> v_next (z_k z)) by (intros s S; pose proof (ko_next _ KO s S); lia).
    apply (race_upd K z n p LCreate _ p (LAtNew (v_next (z_k z))) R N L).
    + pose proof (sys_fresh (z_s z) (key32 (p_key p)) (zero_mem K) SO NK) as SF. fold (z_k z) in SF. fold s0 in SF.
      exact (sys_same _ n p p SF N eq_refl (or_introl eq_refl)).
    + cbn [v_next]. lia.
    + intros t [<-|T] X; [cbn in X; lia|]. exists t. auto.
    + reflexivity.
    + intros m q l2 j k mem _ _ _ _ _ (s & S & X). exists s. split; [right; exact S|exact X].
    + split; [|split; [auto|split; [exact KP|exact K0]]]. exists s0. split; [left; reflexivity|]. cbn. auto.
    + intros q s Q [<-|S] E; [|exact (ro_size _ _ R q s Q S E)]. exfalso. destruct (so_shm _ SO q _ Q E) as (A & _).
      destruct (so_maps _ SO q _ Q A) as (t & T & TE). exact (FR t T TE).
    + intros s _ E. congruence.
    + intros j W. right. injection W as <-. intros m l2 M W2. destruct (at_of _ _ _ _ R M) as (q & Q). pose proof (raw_next _ _ _ _ _ _ R Q M W2). lia.
    + intros j J. left. exact J.
  - destruct LO as (A & SH & KP). specialize (SH I). cbn beta iota zeta in A.
    assert (BAD : line_ok K (v_segs (z_k z)) (v_next (z_k z)) p (Idle (Some E_SHMAT_ERROR))).
    { split; [|split; [intros []|idle]]. cbn. split; [discriminate|]. intros X. exfalso. exact (X SH). }
    destruct (seg_with_id (v_segs (z_k z)) i) as [s|] eqn:SI.
    2:{ injection H as <- <- <-. apply (race_self K z n p (LAtNew i)); auto; try discriminate. }
    destruct (f_attach f).
    { injection H as <- <- <-. apply (race_self K z n p (LAtNew i)); auto; try discriminate. }
    apply id_at in SI. destruct SI as [S E]. injection H as <- <- <-. apply (race_map K z n p (LAtNew i) (LReset i) i s R N L SH S E).
    + intros t T TE. left. destruct A as (u & U & UI & UK & _). assert (t = u) by (apply (ids_inj _ _ _ (ko_ids _ KO) T U); congruence). congruence.
    + split; [|split; [auto|exact KP]]. split; [apply stays_at; exact A|left; reflexivity].
    + auto.
  - destruct LO as (A & SH & KP). specialize (SH I). destruct A as [A MP]. injection H as <- <- <-.
    apply (race_change K z n p (LReset i)); auto.
    + intros m q l2 k mem NE Q L2 W ND _. exfalso. apply NE. exact (ro_one _ _ R _ _ _ _ i L2 L W eq_refl).
    + intros q s Q S E X. exfalso. exact (raw_free K z n p (LReset i) i q KS R N L eq_refl ltac:(discriminate) Q X).
    + split; [|split; [auto|exact KP]]. split; [|exact MP]. rewrite change_on. apply stays_change. exact A.
  - destruct LO as (A & SH & KP). specialize (SH I). destruct A as [A MP]. injection H as <- <- <-.
    apply (race_change K z n p (LSize i)); auto.
    + intros m q l2 k mem NE Q L2 W ND _. exfalso. apply NE. exact (ro_one _ _ R _ _ _ _ i L2 L W eq_refl).
    + intros q s Q S E X. exfalso. exact (raw_free K z n p (LSize i) i q KS R N L eq_refl ltac:(discriminate) Q X).
    + split; [|split; [auto|exact KP]]. split; [exact MP|]. intros _. rewrite change_on. apply (stays_change i _ _ _ (mem_size K)). exact A.
  - destruct LO as (A & SH & KP). specialize (SH I). destruct A as [MP A]. injection H as <- <- <-.
    apply (race_change K z n p (LId i)); auto; try discriminate.
    + intros m q l2 k mem NE Q L2 W ND _. exfalso. apply NE. exact (ro_one _ _ R _ _ _ _ i L2 L W eq_refl).
    + intros q s Q S E X. cbn. split; [reflexivity|]. apply (ro_size _ _ R q s Q S). congruence.
    + split; [|split; [auto|exact KP]]. exact MP.
  - destruct LO as (A & SH & KP). specialize (SH I). cbn beta iota zeta in A. destruct A as [NX A].
    assert (BAD : line_ok K (v_segs (z_k z)) (v_next (z_k z)) p (Idle (Some E_SHMAT_ERROR))).
    { split; [|split; [intros []|idle]]. cbn. split; [discriminate|]. intros X. exfalso. exact (X SH). }
    destruct (seg_with_id (v_segs (z_k z)) i) as [s|] eqn:SI.
    2:{ injection H as <- <- <-. apply (race_self K z n p (LAt i)); auto; try discriminate. }
    destruct (f_attach f).
    { injection H as <- <- <-. apply (race_self K z n p (LAt i)); auto; try discriminate. }
    apply id_at in SI. destruct SI as [S E]. injection H as <- <- <-. apply (race_map K z n p (LAt i) (LCheck i) i s R N L SH S E A).
    + split; [|split; [auto|exact KP]]. left. reflexivity.
    + discriminate.
  - destruct LO as (A & SH & KP). specialize (SH I). cbn beta iota zeta in A. unfold use_seg in H.
    destruct (seg_with_id (v_segs (z_k z)) i) as [s|] eqn:SI; [|discriminate]. apply id_at in SI. destruct SI as [S E].
    destruct (load_shm fuel K i (e_mem s)) as [[[e m] ok]| |] eqn:LS; cbn [bind] in H; try discriminate. injection H as <- <- <-.
    rewrite put_change. pose proof (load_facts _ _ _ _ _ _ _ LS) as LF.
    assert (UN : forall t, In t (v_segs (z_k z)) -> e_id t = i -> t = s) by (intros t T TE; apply (ids_inj _ _ _ (ko_ids _ KO) T S); congruence).
    apply (race_change K z n p (LCheck i)); auto; try discriminate.
    + intros m1 q l2 k mem NE Q L2 W ND ST.
      assert (ME : e_mem s = mem) by (destruct ST as (t & T & TI & _ & _ & TM); rewrite <- (UN t T TI); exact TM).
      destruct LF as [(LF & _)|(LF1 & LF2 & _)]; [congruence|]. exfalso.
      pose proof (ro_line _ _ R m1 q l2 Q L2) as (B & _).
      assert (G : forall mm, stays i (key32 (p_key q)) mm (v_segs (z_k z)) -> mm = mem) by (intros mm X; exact (proj2 (stays_uniq _ _ _ _ _ _ KO X ST))).
      destruct l2 as [[e2|]| | |j|j|j|j|j|j]; cbn in W; try discriminate; injection W as ->; cbn beta iota zeta in B.
      * apply G in B. rewrite ME, <- B in LF1. cbn in LF1. lia.
      * destruct B as [B _]. apply G in B. rewrite ME, <- B in LF1. cbn in LF1. lia.
      * destruct B as [B _]. apply G in B. rewrite ME, <- B in LF1. cbn in LF1. lia.
      * destruct B as [_ B]. assert (NZ : i <> 0) by congruence. apply B in NZ as B1. apply G in B1. rewrite ME, <- B1 in LF2. cbn in LF2. congruence.
    + intros q t Q T TE X. destruct LF as [(-> & _)|(_ & _ & LF3 & LF4 & _)]; [|auto]. split.
      * exact (proj2 (so_shm _ SO q i Q X) s S E).
      * apply (ro_size _ _ R q s Q S). congruence.
    + cbn [p_shm]. destruct ok; [right|left; reflexivity]. split; [reflexivity|]. split; [exact A|]. intros t T TE.
      destruct LF as [(_ & LF & _)|(_ & _ & LF3 & LF4 & _)]; [discriminate|auto].
    + split; [|split; [intros []|cbn; destruct ok; [discriminate|rewrite SH; discriminate]]]. cbn [p_shm]. destruct LF as [(_ & -> & -> & _)|(_ & _ & _ & _ & ->)].
      * split; [discriminate|]. intros X. exfalso. exact (X SH).
      * destruct (e =? 0) eqn:EZ; [split; [discriminate|lia]|]. split; [lia|]. intros X. exfalso. exact (X SH).
Qed.

Lemma race_sys_same : forall K z y n p p' l l', race_ok K z -> nth_error (z_ps z) n = Some p -> nth_error (z_at z) n = Some l ->
  y_ps y = upd (z_ps z) n p' -> sys_ok y -> p_key p' = p_key p -> v_next (z_k z) <= v_next (y_k y) ->
  older (v_segs (z_k z)) (v_segs (y_k y)) (v_next (z_k z)) ->
  (forall m q l2 i k mem, m <> n -> nth_error (z_ps z) m = Some q -> nth_error (z_at z) m = Some l2 -> raw l2 = Some i -> l2 <> LId 0 ->
     stays i k mem (v_segs (z_k z)) -> stays i k mem (v_segs (y_k y))) ->
  line_ok K (v_segs (y_k y)) (v_next (y_k y)) p' l' ->
  (forall q s, In q (z_ps z) -> In s (v_segs (y_k y)) -> p_shm q = Seg (e_id s) -> m_size (e_mem s) = k_size K) ->
  (p_shm p' = Nowhere \/ p_shm p' = p_shm p) -> (forall j, raw l' = Some j -> raw l = Some j) -> (forall i, In i (p_maps p') -> In i (p_maps p)) ->
  race_ok K (mkRace y (upd (z_at z) n l')).
Proof.
  intros K z y n p p' l l' R N L EP SO PK NX OL FR LO SZ PS RW MP. destruct y as [v ps]. cbn [y_k y_ps] in *. subst ps.
  apply (race_upd K z n p l v p' l' R N L); auto. intros s S E. destruct PS as [PS|PS]; [congruence|].
  rewrite PS in E. exact (SZ p s (nth_error_In _ _ N) S E).
Qed.
Lemma upd_same : forall (A : Type) (l : list A) n x, nth_error l n = Some x -> upd l n x = l.
Proof.
  intros A l. induction l as [|a l IH]; intros n x H; [destruct n; discriminate|]. destruct n as [|n]; [cbn in H; injection H as ->; reflexivity|].
  cbn in H. change (a :: upd l n x = a :: l). rewrite (IH n x H). reflexivity.
Qed.
Lemma leave_mem : forall js l t, In t (fold_left sys_dt js l) -> exists s, In s l /\ e_id s = e_id t /\ e_mem s = e_mem t.
Proof.
  intros js. induction js as [|j js IH]; intros l t T; [exists t; auto|]. cbn [fold_left] in T. destruct (IH _ _ T) as (s & S & E & M).
  apply reap_in in S. destruct S as [S _]. apply on_inv in S. destruct S as (u & U & ->). exists u. split; [exact U|].
  destruct (e_id u =? j); cbn in *; auto.
Qed.
Lemma race_step_ok : forall fuel K z a z', 0 < k_size K -> race_ok K z -> race_step fuel K z a = Some z' -> race_ok K z'.
Proof.
  intros fuel K z a z' KS R H. pose proof (ro_sys _ _ R) as SO. pose proof (so_k _ SO) as KO. fold (z_k z) in KO.
  destruct a as [key|n|n f|n m|n|n]; cbn [race_step] in H;
    try (destruct (nth_error (z_ps z) n) as [p|] eqn:N; [|discriminate]; destruct (nth_error (z_at z) n) as [l|] eqn:L; [|discriminate]).
  - injection H as <-. pose proof (ro_len _ _ R) as LEN. unfold z_ps in LEN. constructor; unfold z_k, z_ps; cbn [z_s z_at y_k y_ps].
    + pose proof (sys_step_ok fuel K (z_s z) (EStart key) _ SO eq_refl) as H. exact H.
    + rewrite !app_length. cbn [length]. rewrite LEN. reflexivity.
    + intros m q l Q L. destruct (Nat.lt_ge_cases m (length (z_at z))) as [LT|GE].
      * rewrite nth_error_app1 in L by exact LT. rewrite nth_error_app1 in Q by (rewrite <- LEN; exact LT). exact (ro_line _ _ R m q l Q L).
      * rewrite nth_error_app2 in L by exact GE. rewrite nth_error_app2 in Q by (rewrite <- LEN; exact GE). rewrite <- LEN in Q.
        destruct (m - length (z_at z))%nat as [|d]; [|destruct d; discriminate]. cbn in Q, L. injection Q as <-. injection L as <-. split; [reflexivity|]. split; [intros []|idle].
    + intros q s Q S E. apply in_app_iff in Q. destruct Q as [Q|[<-|[]]]; [exact (ro_size _ _ R q s Q S E)|discriminate].
    + assert (G : forall m l i, nth_error (z_at z ++ [Idle None]) m = Some l -> raw l = Some i -> nth_error (z_at z) m = Some l).
      { intros m l i L W. destruct (Nat.lt_ge_cases m (length (z_at z))) as [LT|GE]; [rewrite nth_error_app1 in L by exact LT; exact L|].
        rewrite nth_error_app2 in L by exact GE. destruct (m - length (z_at z))%nat as [|d]; [|destruct d; discriminate]. cbn in L. injection L as <-. discriminate. }
      intros m m' l l' i L L' W W'. exact (ro_one _ _ R m m' l l' i (G _ _ _ L W) (G _ _ _ L' W') W W').
    + intros q i Q I. apply in_app_iff in Q. destruct Q as [Q|[<-|[]]]; [exact (ro_key _ _ R q i Q I)|destruct I].
  - destruct l as [e| | |i|i|i|i|i|i]; try discriminate. destruct (p_shm p) eqn:SH; try discriminate. injection H as <-.
    pose proof (race_self K z n p (Idle e) p LProbe R N L eq_refl eq_refl (or_introl eq_refl)) as G. rewrite (upd_same _ _ _ _ N) in G.
    assert (ZS : mkSys (z_k z) (z_ps z) = z_s z) by (unfold z_k, z_ps; destruct (z_s z); reflexivity). rewrite ZS in G. apply G; [|discriminate]. split; [exact I|]. split; [auto|exact I].
  - destruct (line_step fuel K f (z_k z) p l) as [[[v p'] l']| |] eqn:E; try discriminate. injection H as <-.
    exact (race_line fuel K f z n p l v p' l' KS R N L E).
  - destruct l as [e| | |i|i|i|i|i|i]; try discriminate. destruct (sys_step fuel K (z_s z) (EStore n m)) as [y|] eqn:E; [|discriminate]. injection H as <-.
    cbn [sys_step] in E. fold (z_ps z) in E. rewrite N in E. destruct (p_shm p) as [| |i] eqn:SH; try discriminate. fold (z_k z) in E.
    destruct (seg_with_id (v_segs (z_k z)) i) as [s|] eqn:SI; [|discriminate]. apply id_at in SI. destruct SI as [S SE].
    destruct ((m_size m =? m_size (e_mem s)) && (m_id m =? m_id (e_mem s))) eqn:Q; [|discriminate]. injection E as <-.
    rewrite put_change. pose proof (race_change K z n p (Idle e) p (Idle e) i (fun _ => m) R N L eq_refl eq_refl) as G.
    rewrite (upd_same _ _ _ _ L) in G. assert (IN : In p (z_ps z)) by exact (nth_error_In _ _ N).
    assert (MI : m_id m = i) by (pose proof (proj2 (so_shm _ SO p i IN SH) s S SE); lia).
    assert (MS : m_size m = k_size K) by (pose proof (ro_size _ _ R p s IN S ltac:(congruence)); lia).
    apply G; auto; try discriminate.
    + intros m1 q l2 k mem NE Q2 L2 W ND ST. exfalso. exact (raw_free K z m1 q l2 i p KS R Q2 L2 W ND IN SH).
    + exact (ro_line _ _ R n p (Idle e) N L).
  - destruct l as [e| | |i|i|i|i|i|i]; try discriminate. destruct (sys_step fuel K (z_s z) (EUnload n)) as [y|] eqn:E; [|discriminate]. injection H as <-.
    pose proof (sys_step_ok _ _ _ _ _ SO E) as SO'. assert (IN : In p (z_ps z)) by exact (nth_error_In _ _ N).
    cbn [sys_step] in E. fold (z_ps z) (z_k z) in E. rewrite N in E. unfold unload_shared in E. destruct (p_shm p) as [| |i] eqn:SH.
    + injection E as <-. eapply (race_sys_same K z _ n p p (Idle e) (Idle None) R N L); [reflexivity|exact SO'|..]; cbn [y_k]; auto using Z.le_refl, older_refl; try discriminate.
      * split; [exact SH|]. split; [intros []|idle].
      * exact (ro_size _ _ R).
    + pose proof (ro_line _ _ R n p _ N L) as (_ & _ & KH). cbn in KH. specialize (KH SH). replace (0 <? p_key p) with false in E by lia. injection E as <-.
      eapply (race_sys_same K z _ n p _ (Idle e) (Idle None) R N L); [reflexivity|exact SO'|..]; cbn [y_k p_key p_shm p_maps]; auto using Z.le_refl, older_refl; try discriminate.
      * split; [reflexivity|]. split; [intros []|idle].
      * exact (ro_size _ _ R).
    + destruct (0 <? p_key p) eqn:KP; [|discriminate]. destruct (seg_with_id (v_segs (z_k z)) i) as [s|] eqn:SI; [|discriminate]. apply id_at in SI. destruct SI as [S SE].
      injection E as <-. pose proof (proj2 (so_shm _ SO p i IN SH) s S SE) as MI. rewrite MI in *.
      eapply (race_sys_same K z _ n p _ (Idle e) (Idle None) R N L); [reflexivity|exact SO'|..]; cbn [y_k p_key p_shm p_maps v_next v_segs]; auto using Z.le_refl; try discriminate.
      * eapply older_trans; [apply older_dt|apply older_rm].
      * intros m1 q l2 j k mem NE Q2 L2 W ND ST. apply stays_rm; [|apply stays_dt; exact ST]. intros ->. exact (raw_free K z m1 q l2 i p KS R Q2 L2 W ND IN SH).
      * split; [reflexivity|]. split; [intros []|idle].
      * intros q t Q T X. apply reap_in in T. destruct T as [T _]. apply on_inv in T. destruct T as (u & U & ->).
        apply reap_in in U. destruct U as [U _]. apply on_inv in U. destruct U as (w & W & ->).
        assert (G : p_shm q = Seg (e_id w)) by (destruct (e_id w =? i) eqn:Q1; cbn [e_id] in X; rewrite Q1 in X; cbn [e_id] in X; exact X).
        pose proof (ro_size _ _ R q w Q W G) as RS. destruct (e_id w =? i) eqn:Q1; cbn [e_id]; rewrite Q1; cbn [e_mem]; exact RS.
      * intros j J. clear - J. induction (p_maps p) as [|a l IH]; [exact J|]. cbn in J. destruct (a =? i); [right; exact J|]. destruct J as [<-|J]; [left; reflexivity|right; exact (IH J)].
  - destruct (sys_step fuel K (z_s z) (EExit n)) as [y|] eqn:E; [|discriminate]. injection H as <-.
    pose proof (sys_step_ok _ _ _ _ _ SO E) as SO'. cbn [sys_step] in E. fold (z_ps z) (z_k z) in E. rewrite N in E. injection E as <-.
    eapply (race_sys_same K z _ n p _ l (Idle None) R N L); [reflexivity|exact SO'|..]; cbn [y_k p_key p_shm p_maps v_next v_segs leave]; auto using Z.le_refl; try discriminate.
    * apply older_leave.
    * intros m1 q l2 j k mem NE Q2 L2 W ND ST. apply (stays_leave _ _ _ (z_k z) p). exact ST.
    * split; [reflexivity|]. split; [intros []|idle].
    * intros q t Q T X. destruct (leave_mem _ _ _ T) as (s & S & E1 & E2). rewrite <- E2. apply (ro_size _ _ R q s Q S). congruence.
    * intros j [].
Qed.

Lemma race_boot_ok : forall K, race_ok K race_boot.
Proof.
  intros K. constructor.
  - exact boot_ok.
  - reflexivity.
  - intros n p l N. destruct n; discriminate.
  - intros p s [].
  - intros n n' l l' i N. destruct n; discriminate.
  - intros p i [].
Qed.
Lemma race_run_ok : forall fuel K l z z', 0 < k_size K -> race_ok K z -> race_run fuel K z l = Some z' -> race_ok K z'.
Proof.
  intros fuel K l. induction l as [|a l IH]; intros z z' KS R H; cbn [race_run] in H; [injection H as <-; exact R|].
  destruct (race_step fuel K z a) as [z1|] eqn:E; [|discriminate]. exact (IH z1 z' KS (race_step_ok _ _ _ _ _ KS R E) H).
Qed.
Lemma raced_ok : forall fuel K z, 0 < k_size K -> raced fuel K z -> race_ok K z.
Proof. intros fuel K z KS (l & H). exact (race_run_ok fuel K l race_boot z KS (race_boot_ok K) H). Qed.

(* what a step does to one segment *)
Lemma step_stays : forall fuel K f z p l v p' l' i k mem, kern_ok (z_k z) -> line_step fuel K f (z_k z) p l = Ret (v, p', l') ->
  stays i k mem (v_segs (z_k z)) ->
  (stays i k mem (v_segs v) /\ l <> LReset i /\ l <> LSize i /\ l <> LId i /\ l <> LCheck i) \/
  (exists g, ((l = LReset i /\ g = reset_mem /\ l' = LSize i) \/ (l = LSize i /\ g = mem_size K /\ l' = LId i) \/ (l = LId i /\ g = mem_id i /\ l' = LCheck i)) /\
     stays i k (g mem) (v_segs v)) \/
  (l = LCheck i /\ exists e m ok, load_shm fuel K i mem = Ret (e, m, ok) /\ stays i k m (v_segs v) /\ p_shm p' = (if ok : bool then Seg i else p_shm p)).
Proof.
  intros fuel K f z p l v p' l' i k mem KO H ST.
  destruct l as [e| | |j|j|j|j|j|j]; cbn [line_step] in H.
  - injection H as <- <- <-. left. repeat split; try discriminate. exact ST.
  - left. split; [|repeat split; discriminate]. destruct (p_key p <=? 0); [injection H as <- <- <-; exact ST|]. destruct (key32 (p_key p) =? 0); [injection H as <- <- <-; exact ST|].
    destruct (seg_with_key _ _); injection H as <- <- <-; exact ST.
  - left. split; [|repeat split; discriminate]. destruct (seg_with_key _ _); [injection H as <- <- <-; exact ST|]. destruct (f_room f); injection H as <- <- <-; [exact ST|].
    destruct ST as (s & S & X). exists s. split; [right; exact S|exact X].
  - left. split; [|repeat split; discriminate]. destruct (seg_with_id _ _); [|injection H as <- <- <-; exact ST]. destruct (f_attach f); injection H as <- <- <-; [exact ST|].
    apply stays_at. exact ST.
  - injection H as <- <- <-. destruct (Z.eq_dec j i) as [->|NE].
    + right. left. exists reset_mem. split; [auto|]. rewrite change_on. apply stays_change. exact ST.
    + left. split; [rewrite change_on; apply stays_other; [congruence|exact ST]|repeat split; congruence].
  - injection H as <- <- <-. destruct (Z.eq_dec j i) as [->|NE].
    + right. left. exists (mem_size K). split; [auto|]. rewrite change_on. apply stays_change. exact ST.
    + left. split; [rewrite change_on; apply stays_other; [congruence|exact ST]|repeat split; congruence].
  - injection H as <- <- <-. destruct (Z.eq_dec j i) as [->|NE].
    + right. left. exists (mem_id i). split; [auto|]. rewrite change_on. apply stays_change. exact ST.
    + left. split; [rewrite change_on; apply stays_other; [congruence|exact ST]|repeat split; congruence].
  - left. split; [|repeat split; discriminate]. destruct (seg_with_id _ _); [|injection H as <- <- <-; exact ST]. destruct (f_attach f); injection H as <- <- <-; [exact ST|].
    apply stays_at. exact ST.
  - unfold use_seg in H. destruct (seg_with_id (v_segs (z_k z)) j) as [s|] eqn:SI; [|discriminate]. apply id_at in SI. destruct SI as [S E].
    destruct (load_shm fuel K j (e_mem s)) as [[[e m] ok]| |] eqn:LS; cbn [bind] in H; try discriminate. injection H as <- <- <-.
    destruct (Z.eq_dec j i) as [->|NE].
    + right. right. split; [reflexivity|]. exists e, m, ok.
      assert (ME : e_mem s = mem) by (destruct ST as (t & T & TI & _ & _ & <-); f_equal; apply (ids_inj _ _ _ (ko_ids _ KO) S T); congruence).
      rewrite <- ME. split; [exact LS|]. split; [|reflexivity]. exact (stays_change i k mem _ (fun _ => m) ST).
    + left. split; [cbn [v_segs]; apply (stays_other i k mem _ j (fun _ => m)); [congruence|exact ST]|repeat split; congruence].
Qed.

(* ---- everybody starts with the same key ---- *)
Definition builds (K : rlim) (segs : list segment) (k : Z) (l : at_line) (i : Z) : Prop :=
  match l with
  | LAtNew j | LReset j => j = i /\ stays i k (zero_mem K) segs
  | LSize j => j = i /\ stays i k (reset_mem (zero_mem K)) segs
  | LId j => j = i /\ stays i k (sized K) segs
  | LCheck j => j = i /\ stays i k (new_mem K i) segs
  | _ => False
  end.
Definition cares (K : rlim) (z : race) (k : Z) (i : Z) : Prop :=
  exists n p l, nth_error (z_ps z) n = Some p /\ nth_error (z_at z) n = Some l /\ (builds K (v_segs (z_k z)) k l i \/ p_shm p = Seg i).
Record calm_ok (K : rlim) (k : Z) (z : race) : Prop := mkCalmOk {
  co_race : race_ok K z;
  co_key : forall p, In p (z_ps z) -> 0 < p_key p /\ key32 (p_key p) = k;
  co_segs : forall s, In s (v_segs (z_k z)) -> e_key s = k /\ e_gone s = false;
  co_none : v_segs (z_k z) = [] -> forall l, In l (z_at z) -> l = Idle None \/ l = LProbe \/ l = LCreate;
  co_some : forall s, In s (v_segs (z_k z)) -> cares K z k (e_id s)
}.

Lemma calm_stays : forall K k z s, calm_ok K k z -> In s (v_segs (z_k z)) -> stays (e_id s) k (e_mem s) (v_segs (z_k z)).
Proof. intros K k z s C S. exists s. destruct (co_segs _ _ _ C s S). auto. Qed.

Definition built (K : rlim) (l : at_line) (i : Z) : option shm :=
  match l with
  | LAtNew j | LReset j => if j =? i then Some (zero_mem K) else None
  | LSize j => if j =? i then Some (reset_mem (zero_mem K)) else None
  | LId j => if j =? i then Some (sized K) else None
  | LCheck j => if j =? i then Some (new_mem K i) else None
  | _ => None
  end.
Lemma builds_built : forall K segs k l i, builds K segs k l i <-> exists m, built K l i = Some m /\ stays i k m segs.
Proof.
  intros K segs k l i. destruct l as [e| | |j|j|j|j|j|j]; cbn [builds built]; split; intros H; try (destruct H; fail);
    try (destruct H as (m & H & _); discriminate);
    try (destruct H as [-> H]; rewrite Z.eqb_refl; eauto);
    try (destruct H as (m & H & ST); destruct (Z.eqb_spec j i); [|discriminate]; injection H as <-; auto).
Qed.
Lemma built_good : forall K l i m, 0 < k_size K -> built K l i = Some m -> m_size m = k_size K -> m_id m = i -> m = new_mem K i.
Proof.
  intros K l i m KS B S E. destruct l as [e| | |j|j|j|j|j|j]; cbn [built] in B; try discriminate; (destruct (Z.eqb_spec j i); [|discriminate]); injection B as <-; cbn in S, E; try lia.
  - rewrite <- E. reflexivity.
  - reflexivity.
Qed.
Lemma line_key : forall fuel K f v p l v' p' l', line_step fuel K f v p l = Ret (v', p', l') -> p_key p' = p_key p.
Proof.
  intros fuel K f v p l v' p' l' H. destruct l as [e| | |j|j|j|j|j|j]; cbn [line_step] in H; try (injection H as <- <- <-; reflexivity).
  - destruct (p_key p <=? 0); [injection H as <- <- <-; reflexivity|]. destruct (key32 (p_key p) =? 0); [injection H as <- <- <-; reflexivity|].
    destruct (seg_with_key _ _); injection H as <- <- <-; reflexivity.
  - destruct (seg_with_key _ _); [injection H as <- <- <-; reflexivity|]. destruct (f_room f); injection H as <- <- <-; reflexivity.
  - destruct (seg_with_id _ _); [|injection H as <- <- <-; reflexivity]. destruct (f_attach f); injection H as <- <- <-; reflexivity.
  - destruct (seg_with_id _ _); [|injection H as <- <- <-; reflexivity]. destruct (f_attach f); injection H as <- <- <-; reflexivity.
  - unfold use_seg in H. destruct (seg_with_id (v_segs v) j) as [s|]; [|discriminate].
    destruct (load_shm fuel K j (e_mem s)) as [[[e m] ok]| |]; cbn [bind] in H; try discriminate. injection H as <- <- <-. reflexivity.
Qed.
(* segments are only added, by line 58 *)
Lemma line_segs : forall fuel K f v p l v' p' l', line_step fuel K f v p l = Ret (v', p', l') ->
  map (fun s => (e_id s, e_key s, e_gone s)) (v_segs v') = map (fun s => (e_id s, e_key s, e_gone s)) (v_segs v) \/
  (l = LCreate /\ l' = LAtNew (v_next v) /\ p' = p /\ seg_with_key (v_segs v) (key32 (p_key p)) = None /\
   v_segs v' = mkSegment (v_next v) (key32 (p_key p)) 0 false (zero_mem K) :: v_segs v).
Proof.
  assert (ON : forall l i f, (forall s, (e_id (f s), e_key (f s), e_gone (f s)) = (e_id s, e_key s, e_gone s)) ->
    map (fun s => (e_id s, e_key s, e_gone s)) (on_seg l i f) = map (fun s => (e_id s, e_key s, e_gone s)) l).
  { intros l i f H. unfold on_seg. rewrite map_map. apply map_ext. intros s. destruct (e_id s =? i); [apply H|reflexivity]. }
  intros fuel K f v p l v' p' l' H. destruct l as [e| | |j|j|j|j|j|j]; cbn [line_step] in H; try (injection H as <- <- <-; left; reflexivity).
  - left. destruct (p_key p <=? 0); [injection H as <- <- <-; reflexivity|]. destruct (key32 (p_key p) =? 0); [injection H as <- <- <-; reflexivity|].
    destruct (seg_with_key _ _); injection H as <- <- <-; reflexivity.
  - destruct (seg_with_key _ _) eqn:SK; [injection H as <- <- <-; left; reflexivity|]. destruct (f_room f); injection H as <- <- <-; [left; reflexivity|right]. auto.
  - left. destruct (seg_with_id _ _); [|injection H as <- <- <-; reflexivity]. destruct (f_attach f); injection H as <- <- <-; [reflexivity|]. apply ON. reflexivity.
  - injection H as <- <- <-. left. apply ON. reflexivity.
  - injection H as <- <- <-. left. apply ON. reflexivity.
  - injection H as <- <- <-. left. apply ON. reflexivity.
  - left. destruct (seg_with_id _ _); [|injection H as <- <- <-; reflexivity]. destruct (f_attach f); injection H as <- <- <-; [reflexivity|]. apply ON. reflexivity.
  - left. unfold use_seg in H. destruct (seg_with_id (v_segs v) j) as [s|]; [|discriminate].
    destruct (load_shm fuel K j (e_mem s)) as [[[e m] ok]| |]; cbn [bind] in H; try discriminate. injection H as <- <- <-. apply ON. reflexivity.
Qed.

Lemma calm_cares : forall fuel K k z n p l v p' l' i, 0 < k_size K -> calm_ok K k z -> nth_error (z_ps z) n = Some p -> nth_error (z_at z) n = Some l ->
  line_step fuel K all_well (z_k z) p l = Ret (v, p', l') -> cares K z k i ->
  cares K (mkRace (mkSys v (upd (z_ps z) n p')) (upd (z_at z) n l')) k i.
Proof.
  intros fuel K k z n p l v p' l' i KS C N L H (m & q & lq & M & LM & B).
  pose proof (co_race _ _ _ C) as R. pose proof (so_k _ (ro_sys _ _ R)) as KO. fold (z_k z) in KO.
  pose proof (nth_lt _ _ _ _ N) as N1. pose proof (nth_lt _ _ _ _ L) as L1.
  pose proof (ro_line _ _ R n p l N L) as (LO & IC & _).
  assert (KEEP : forall w lw, m <> n -> (builds K (v_segs v) k lq i \/ p_shm q = Seg i) -> cares K (mkRace (mkSys v (upd (z_ps z) n w)) (upd (z_at z) n lw)) k i).
  { intros w lw NE X. exists m, q, lq. unfold z_ps, z_k. cbn [z_s z_at y_k y_ps]. rewrite !nth_upd by assumption.
    destruct (Nat.eqb_spec m n); [contradiction|]. auto. }
  assert (ME : forall w lw, (builds K (v_segs v) k lw i \/ p_shm w = Seg i) -> cares K (mkRace (mkSys v (upd (z_ps z) n w)) (upd (z_at z) n lw)) k i).
  { intros w lw X. exists n, w, lw. unfold z_ps, z_k. cbn [z_s z_at y_k y_ps]. rewrite !nth_upd by assumption. rewrite Nat.eqb_refl. auto. }
  destruct (Nat.eq_dec m n) as [->|NE].
  - assert (q = p) by congruence. assert (lq = l) by congruence. subst q lq. destruct B as [B|B].
    + apply ME. apply builds_built in B. destruct B as (mem & B & ST).
      pose proof (step_stays _ _ _ _ _ _ _ _ _ _ _ _ KO H ST) as SS.
      destruct l as [e| | |j|j|j|j|j|j]; cbn [built] in B; try discriminate; (destruct (Z.eqb_spec j i) as [->|]; [|discriminate]); injection B as <-.
      * cbn [line_step] in H. destruct ST as (s & S & SI & _). rewrite <- SI in H. rewrite (with_id _ s (ko_ids _ KO) S) in H. cbn [f_attach all_well] in H. injection H as <- <- <-.
        left. destruct SS as [(ST & _)|[(g & [(X & _)|[(X & _)|(X & _)]] & _)|(X & _)]]; try discriminate. cbn [builds]. auto.
      * destruct SS as [(_ & X & _)|[(g & [(_ & -> & ->)|[(X & _)|(X & _)]] & ST')|(X & _)]]; try discriminate; try congruence. left. cbn [builds]. auto.
      * destruct SS as [(_ & _ & X & _)|[(g & [(X & _)|[(_ & -> & ->)|(X & _)]] & ST')|(X & _)]]; try discriminate; try congruence. left. cbn [builds]. auto.
      * destruct SS as [(_ & _ & _ & X & _)|[(g & [(X & _)|[(X & _)|(_ & -> & ->)]] & ST')|(X & _)]]; try discriminate; try congruence. left. cbn [builds]. auto.
      * destruct SS as [(_ & _ & _ & _ & X)|[(g & [(X & _)|[(X & _)|(X & _)]] & _)|(_ & e & mm & ok & LS & _ & PS)]]; try discriminate; try congruence.
        right. rewrite load_empty in LS. injection LS as <- <- <-. exact PS.
    + destruct l as [e| | |j|j|j|j|j|j]; try (cbn in IC; specialize (IC I); congruence).
      cbn [line_step] in H. injection H as <- <- <-. apply ME. auto.
  - destruct B as [B|B]; [|apply KEEP; auto].
    apply builds_built in B. destruct B as (mem & B & ST). pose proof (step_stays _ _ _ _ _ _ _ _ _ _ _ _ KO H ST) as SS.
    assert (GO : stays i k mem (v_segs v) -> cares K (mkRace (mkSys v (upd (z_ps z) n p')) (upd (z_at z) n l')) k i).
    { intros X. apply KEEP; [exact NE|]. left. apply builds_built. eauto. }
    destruct SS as [(X & _)|[(g & G & X)|(-> & e & mm & ok & LS & X & PS)]].
    + exact (GO X).
    + assert (RQ : raw lq = Some i -> False).
      { intros W. apply NE. apply (ro_one _ _ R m n lq l i LM L W). destruct G as [(-> & _)|[(-> & _)|(-> & _)]]; reflexivity. }
      destruct lq as [e| | |j|j|j|j|j|j]; cbn [built] in B; try discriminate; (destruct (Z.eqb_spec j i) as [->|]; [|discriminate]); try (exfalso; apply RQ; reflexivity).
      injection B as <-. destruct G as [(-> & _)|[(-> & _)|(-> & -> & _)]].
      * exfalso. destruct LO as [LO _]. pose proof (proj2 (stays_uniq _ _ _ _ _ _ KO LO ST)) as Q. apply (f_equal m_size) in Q. cbn in Q. lia.
      * exfalso. destruct LO as [LO _]. pose proof (proj2 (stays_uniq _ _ _ _ _ _ KO LO ST)) as Q. apply (f_equal m_size) in Q. cbn in Q. lia.
      * apply GO. exact X.
    + destruct (load_facts _ _ _ _ _ _ _ LS) as [(-> & _)|(S1 & S2 & _)]; [exact (GO X)|].
      rewrite (built_good K lq i mem KS B S1 S2), load_empty in LS. injection LS as <- <- <-. apply ME. right. exact PS.
Qed.

Lemma calm_line : forall fuel K k z n p l v p' l', 0 < k_size K -> k <> 0 -> calm_ok K k z -> nth_error (z_ps z) n = Some p -> nth_error (z_at z) n = Some l ->
  line_step fuel K all_well (z_k z) p l = Ret (v, p', l') -> calm_ok K k (mkRace (mkSys v (upd (z_ps z) n p')) (upd (z_at z) n l')).
Proof.
  intros fuel K k z n p l v p' l' KS NZ C N L H. pose proof (co_race _ _ _ C) as R. pose proof (nth_error_In _ _ N) as IN.
  destruct (co_key _ _ _ C p IN) as [KP KK]. pose proof (line_segs _ _ _ _ _ _ _ _ _ H) as LS.
  constructor.
  - exact (race_line fuel K all_well z n p l v p' l' KS R N L H).
  - intros q Q. unfold z_ps in Q. cbn [z_s y_ps] in Q. apply upd_in in Q. destruct Q as [->|Q]; [rewrite (line_key _ _ _ _ _ _ _ _ _ H); auto|exact (co_key _ _ _ C q Q)].
  - unfold z_k. cbn [z_s y_k]. intros t T. destruct LS as [LS|(_ & _ & _ & _ & LS)].
    + apply (in_map (fun s => (e_id s, e_key s, e_gone s))) in T. rewrite LS in T. apply in_map_iff in T. destruct T as (s & E & S). injection E as _ E1 E2.
      rewrite <- E1, <- E2. exact (co_segs _ _ _ C s S).
    + rewrite LS in T. destruct T as [<-|T]; [cbn; auto|exact (co_segs _ _ _ C t T)].
  - unfold z_k. cbn [z_s y_k z_at]. intros NV l2 L2. destruct LS as [LS|(_ & _ & _ & _ & LS)]; [|rewrite LS in NV; discriminate].
    assert (OV : v_segs (z_k z) = []) by (rewrite NV in LS; cbn in LS; symmetry in LS; apply map_eq_nil in LS; exact LS).
    pose proof (co_none _ _ _ C OV) as CN. apply upd_in in L2. destruct L2 as [->|L2]; [|exact (CN l2 L2)].
    destruct (CN l (nth_error_In _ _ L)) as [->|[->| ->]]; cbn [line_step] in H.
    + injection H as <- <- <-. auto.
    + replace (p_key p <=? 0) with false in H by lia. replace (key32 (p_key p) =? 0) with false in H by lia. rewrite OV in H. cbn in H. injection H as <- <- <-. auto.
    + rewrite OV in H. cbn in H. injection H as <- <- <-. discriminate.
  - unfold z_k at 1. cbn [z_s y_k]. intros t T. destruct LS as [LS|(EL & EL' & EP & SK & LS)].
    + assert (X : exists s, In s (v_segs (z_k z)) /\ e_id s = e_id t).
      { apply (in_map (fun s => (e_id s, e_key s, e_gone s))) in T. rewrite LS in T. apply in_map_iff in T. destruct T as (s & E & S). injection E as E _ _. eauto. }
      destruct X as (s & S & <-). exact (calm_cares fuel K k z n p l v p' l' (e_id s) KS C N L H (co_some _ _ _ C s S)).
    + rewrite LS in T. destruct T as [<-|T].
      * exists n, p', l'. unfold z_ps, z_k. cbn [z_s z_at y_k y_ps]. rewrite !nth_upd by (eapply nth_lt; eassumption). rewrite Nat.eqb_refl.
        split; [reflexivity|]. split; [reflexivity|]. left. rewrite EL'. cbn [builds e_id]. split; [reflexivity|].
        rewrite LS, KK. eexists. split; [left; reflexivity|]. cbn. auto.
      * exfalso. apply (key_none _ _ SK t T). rewrite KK. exact (proj1 (co_segs _ _ _ C t T)).
Qed.

Lemma calm_step : forall fuel K k z a z', 0 < k_size K -> k <> 0 -> calm_ok K k z -> calm k a -> race_step fuel K z a = Some z' -> calm_ok K k z'.
Proof.
  intros fuel K k z a z' KS NZ C CA H. pose proof (co_race _ _ _ C) as R. pose proof (ro_sys _ _ R) as SO.
  pose proof (race_step_ok fuel K z a z' KS R H) as R'.
  destruct a as [key|n|n f|n m|n|n]; cbn [calm] in CA; try (destruct CA; fail); cbn [race_step] in H;
    try (destruct (nth_error (z_ps z) n) as [p|] eqn:N; [|discriminate]; destruct (nth_error (z_at z) n) as [l|] eqn:L; [|discriminate]).
  - injection H as <-. constructor.
    + exact R'.
    + unfold z_ps. cbn [z_s y_ps]. intros q Q. apply in_app_iff in Q. destruct Q as [Q|[<-|[]]]; [exact (co_key _ _ _ C q Q)|exact CA].
    + exact (co_segs _ _ _ C).
    + unfold z_k. cbn [z_s z_at y_k]. intros NV l L. apply in_app_iff in L. destruct L as [L|[<-|[]]]; [exact (co_none _ _ _ C NV l L)|auto].
    + unfold z_k at 1. cbn [z_s y_k]. intros s S. destruct (co_some _ _ _ C s S) as (n & p & l & N & L & B). exists n, p, l. unfold z_ps, z_k. cbn [z_s z_at y_k y_ps].
      split; [rewrite nth_error_app1 by (eapply nth_lt; exact N); exact N|]. split; [rewrite nth_error_app1 by (eapply nth_lt; exact L); exact L|exact B].
  - destruct l as [e| | |i|i|i|i|i|i]; try discriminate. destruct (p_shm p) eqn:SH; try discriminate. injection H as <-. constructor.
    + exact R'.
    + exact (co_key _ _ _ C).
    + exact (co_segs _ _ _ C).
    + unfold z_k. cbn [z_s z_at y_k]. intros NV l2 L2. apply upd_in in L2. destruct L2 as [->|L2]; [auto|exact (co_none _ _ _ C NV l2 L2)].
    + intros s S. destruct (co_some _ _ _ C s S) as (m & q & l & M & LM & B). exists m, q, l. split; [exact M|]. split; [|exact B].
      cbn [z_at]. rewrite nth_upd by (eapply nth_lt; exact L). destruct (Nat.eqb_spec m n) as [->|]; [|exact LM].
      exfalso. rewrite L in LM. injection LM as <-. assert (q = p) by congruence. subst q. destruct B as [B|B]; [exact B|congruence].
  - destruct (line_step fuel K f (z_k z) p l) as [[[v p'] l']| |] eqn:E; try discriminate. injection H as <-. subst f.
    exact (calm_line fuel K k z n p l v p' l' KS NZ C N L E).
  - destruct l as [e| | |i|i|i|i|i|i]; try discriminate. destruct (sys_step fuel K (z_s z) (EStore n m)) as [y|] eqn:E; [|discriminate]. injection H as <-.
    cbn [sys_step] in E. fold (z_ps z) in E. rewrite N in E. destruct (p_shm p) as [| |i] eqn:SH; try discriminate. fold (z_k z) in E.
    destruct (seg_with_id (v_segs (z_k z)) i) as [s|] eqn:SI; [|discriminate]. apply id_at in SI. destruct SI as [S SE].
    destruct ((m_size m =? m_size (e_mem s)) && (m_id m =? m_id (e_mem s))) eqn:Q; [|discriminate]. injection E as <-. rewrite (upd_same _ _ _ _ N) in *.
    constructor.
    + exact R'.
    + exact (co_key _ _ _ C).
    + unfold z_k. cbn [z_s y_k v_segs]. intros t T. apply on_inv in T. destruct T as (u & U & ->). pose proof (co_segs _ _ _ C u U). destruct (e_id u =? i); assumption.
    + unfold z_k. cbn [z_s y_k v_segs z_at]. intros NV. exfalso. unfold put_mem, on_seg in NV. apply map_eq_nil in NV. unfold z_k in S. rewrite NV in S. exact S.
    + unfold z_k at 1. cbn [z_s y_k v_segs]. intros t T. apply on_inv in T. destruct T as (u & U & ET).
      assert (EI : e_id t = e_id u) by (rewrite ET; destruct (e_id u =? i); reflexivity). rewrite EI.
      assert (u = s).
      { apply (ids_inj _ _ _ (ko_ids _ (so_k _ SO)) U S). apply (ko_keys _ (so_k _ SO)); [exact U|exact S| |].
        - rewrite (proj1 (co_segs _ _ _ C u U)), (proj1 (co_segs _ _ _ C s S)). reflexivity.
        - rewrite (proj1 (co_segs _ _ _ C u U)). exact NZ. }
      subst u. exists n, p, (Idle e). split; [exact N|]. split; [exact L|]. right. rewrite SE. exact SH.
Qed.
Lemma calm_run : forall fuel K k l z z', 0 < k_size K -> k <> 0 -> calm_ok K k z -> Forall (calm k) l -> race_run fuel K z l = Some z' -> calm_ok K k z'.
Proof.
  intros fuel K k l. induction l as [|a l IH]; intros z z' KS NZ C F H; cbn [race_run] in H; [injection H as <-; exact C|].
  inversion F as [|? ? FA FL]; subst. destruct (race_step fuel K z a) as [z1|] eqn:E; [|discriminate].
  exact (IH z1 z' KS NZ (calm_step _ _ _ _ _ _ KS NZ C FA E) FL H).
Qed.
Lemma calm_boot : forall K k, calm_ok K k race_boot.
Proof. intros K k. constructor; [apply race_boot_ok|intros p []|intros s []|intros _ l []|intros s []]. Qed.

Lemma calm_seg : forall K k z n p, k <> 0 -> calm_ok K k z -> nth_error (z_ps z) n = Some p -> p_shm p <> Nowhere ->
  exists s, v_segs (z_k z) = [s] /\ p_shm p = Seg (e_id s).
Proof.
  intros K k z n p NZ C N SH. pose proof (co_race _ _ _ C) as R. pose proof (ro_sys _ _ R) as SO. pose proof (nth_error_In _ _ N) as IN.
  destruct (p_shm p) as [| |i] eqn:E; [congruence| |].
  - exfalso. pose proof (nth_lt _ _ _ _ N) as LT. rewrite <- (ro_len _ _ R) in LT. apply nth_error_Some in LT. destruct (nth_error (z_at z) n) as [l|] eqn:L; [|congruence].
    pose proof (ro_line _ _ R n p l N L) as (_ & IC & HP). destruct l; try (cbn in IC; specialize (IC I); congruence). specialize (HP E).
    pose proof (co_key _ _ _ C p IN). lia.
  - destruct (so_shm _ SO p i IN E) as (M & _). destruct (so_maps _ SO p i IN M) as (s & S & SE). exists s. rewrite SE. split; [|reflexivity].
    fold (z_k z) in S. assert (U : forall t, In t (v_segs (z_k z)) -> t = s).
    { intros t T. apply (ids_inj _ _ _ (ko_ids _ (so_k _ SO)) T S). apply (ko_keys _ (so_k _ SO)); [exact T|exact S| |].
      - rewrite (proj1 (co_segs _ _ _ C t T)), (proj1 (co_segs _ _ _ C s S)). reflexivity.
      - rewrite (proj1 (co_segs _ _ _ C t T)). exact NZ. }
    pose proof (ko_ids _ (so_k _ SO)) as ND. fold (z_k z) in ND. destruct (v_segs (z_k z)) as [|a [|b r]]; [destruct S| |].
    + rewrite (U a (or_introl eq_refl)). reflexivity.
    + exfalso. pose proof (U a (or_introl eq_refl)) as A. pose proof (U b (or_intror (or_introl eq_refl))) as B. cbn in ND. inversion ND as [|? ? NI _]; subst. apply NI. left. reflexivity.
Qed.
Lemma calm_back : forall K k z, k <> 0 -> calm_ok K k z -> all_back z -> z_at z <> [] ->
  exists s, v_segs (z_k z) = [s] /\ e_key s = k /\
    (exists n p, nth_error (z_ps z) n = Some p /\ nth_error (z_at z) n = Some (Idle (Some 0)) /\ p_shm p = Seg (e_id s)) /\
    (forall n p, nth_error (z_ps z) n = Some p -> nth_error (z_at z) n = Some (Idle (Some 0)) -> p_shm p = Seg (e_id s)).
Proof.
  intros K k z NZ C AB NE. pose proof (co_race _ _ _ C) as R.
  assert (V : v_segs (z_k z) <> []).
  { intros V. destruct (z_at z) as [|l r] eqn:ZA; [congruence|]. assert (IL : In l (z_at z)) by (rewrite ZA; left; reflexivity).
    destruct (AB l IL) as (e & ->). destruct (co_none _ _ _ C V _ IL) as [X|[X|X]]; discriminate. }
  destruct (v_segs (z_k z)) as [|s0 r] eqn:VS; [congruence|].
  assert (S0 : In s0 (v_segs (z_k z))) by (rewrite VS; left; reflexivity).
  destruct (co_some _ _ _ C s0 S0) as (n & p & l & N & L & B). destruct (AB l (nth_error_In _ _ L)) as (e & ->).
  destruct B as [B|B]; [destruct B|].
  assert (SH : p_shm p <> Nowhere) by congruence.
  destruct (calm_seg K k z n p NZ C N SH) as (s & V1 & PS). rewrite <- VS. exists s. split; [exact V1|].
  assert (S : In s (v_segs (z_k z))) by (rewrite V1; left; reflexivity).
  split; [exact (proj1 (co_segs _ _ _ C s S))|].
  assert (G : forall m q, nth_error (z_ps z) m = Some q -> nth_error (z_at z) m = Some (Idle (Some 0)) -> p_shm q = Seg (e_id s)).
  { intros m q M LM. pose proof (ro_line _ _ R m q _ M LM) as (A & _). cbn in A. destruct (calm_seg K k z m q NZ C M (proj1 A eq_refl)) as (t & V2 & PT).
    rewrite V1 in V2. injection V2 as <-. exact PT. }
  split; [|exact G]. exists n, p. split; [exact N|]. split; [|exact PS]. pose proof (ro_line _ _ R n p _ N L) as (A & _). cbn in A. rewrite (proj2 A SH) in L. exact L.
Qed.

(* ---- nobody logs: the memory ---- *)
Definition plain_mem (K : rlim) (s : segment) : Prop :=
  e_mem s = zero_mem K \/ e_mem s = reset_mem (zero_mem K) \/ e_mem s = sized K \/ e_mem s = new_mem K (e_id s).
Lemma plain_new : forall K s, 0 < k_size K -> plain_mem K s -> m_size (e_mem s) = k_size K -> m_id (e_mem s) = e_id s -> e_mem s = new_mem K (e_id s).
Proof. intros K s KS [->|[->|[->| ->]]] A B; cbn in A, B; try lia; [rewrite <- B|]; reflexivity. Qed.

Definition quiet_ok (K : rlim) (z : race) : Prop := race_ok K z /\ forall s, In s (v_segs (z_k z)) -> plain_mem K s.
Lemma plain_leave : forall K js l, (forall s, In s l -> plain_mem K s) -> forall s, In s (fold_left sys_dt js l) -> plain_mem K s.
Proof.
  intros K js l H t T. destruct (leave_mem _ _ _ T) as (s & S & E1 & E2). specialize (H s S). unfold plain_mem in *. rewrite <- E1, <- E2. exact H.
Qed.
Lemma quiet_step : forall fuel K z a z', 0 < k_size K -> quiet_ok K z -> no_store a -> race_step fuel K z a = Some z' -> quiet_ok K z'.
Proof.
  intros fuel K z a z' KS (R & P) NS H. pose proof (ro_sys _ _ R) as SO. pose proof (so_k _ SO) as KO. fold (z_k z) in KO.
  split; [exact (race_step_ok fuel K z a z' KS R H)|].
  destruct a as [key|n|n f|n m|n|n]; cbn [no_store] in NS; try (destruct NS; fail); cbn [race_step] in H;
    try (destruct (nth_error (z_ps z) n) as [p|] eqn:N; [|discriminate]; destruct (nth_error (z_at z) n) as [l|] eqn:L; [|discriminate]).
  - injection H as <-. exact P.
  - destruct l as [e| | |i|i|i|i|i|i]; try discriminate. destruct (p_shm p); try discriminate. injection H as <-. exact P.
  - destruct (line_step fuel K f (z_k z) p l) as [[[v p'] l']| |] eqn:E; try discriminate. injection H as <-. unfold z_k. cbn [z_s y_k].
    pose proof (ro_line _ _ R n p l N L) as (LO & _).
    assert (ON : forall i g, (forall s, In s (v_segs (z_k z)) -> e_id s = i -> plain_mem K (with_mem g s)) -> forall t, In t (on_seg (v_segs (z_k z)) i (with_mem g)) -> plain_mem K t).
    { intros i g G t T. apply on_inv in T. destruct T as (s & S & ->). destruct (e_id s =? i) eqn:Q; [apply G; [exact S|lia]|exact (P s S)]. }
    assert (AT : forall i t, In t (sys_at (v_segs (z_k z)) i) -> plain_mem K t).
    { intros i t T. apply on_inv in T. destruct T as (s & S & ->). specialize (P s S). destruct (e_id s =? i); exact P. }
    destruct l as [e| | |j|j|j|j|j|j]; cbn [line_step] in E.
    + injection E as <- <- <-. exact P.
    + destruct (p_key p <=? 0); [injection E as <- <- <-; exact P|]. destruct (key32 (p_key p) =? 0); [injection E as <- <- <-; exact P|].
      destruct (seg_with_key _ _); injection E as <- <- <-; exact P.
    + destruct (seg_with_key _ _); [injection E as <- <- <-; exact P|]. destruct (f_room f); injection E as <- <- <-; [exact P|].
      cbn [v_segs]. intros t [<-|T]; [left; reflexivity|exact (P t T)].
    + destruct (seg_with_id _ _); [|injection E as <- <- <-; exact P]. destruct (f_attach f); injection E as <- <- <-; [exact P|]. apply AT.
    + injection E as <- <- <-. apply ON. intros s S SI. right. left. destruct LO as [(u & U & UI & _ & _ & UM) _].
      rewrite (ids_inj _ s u (ko_ids _ KO) S U ltac:(congruence)). cbn. rewrite UM. reflexivity.
    + injection E as <- <- <-. apply ON. intros s S SI. right. right. left. destruct LO as [(u & U & UI & _ & _ & UM) _].
      rewrite (ids_inj _ s u (ko_ids _ KO) S U ltac:(congruence)). cbn. rewrite UM. reflexivity.
    + injection E as <- <- <-. apply ON. intros s S SI. destruct LO as [MP LO]. destruct (Z.eq_dec j 0) as [J|J].
      * rewrite J in *. clear J. specialize (P s S). unfold plain_mem in *. cbn [with_mem e_mem e_id]. rewrite SI in *. destruct P as [->|[->|[->| ->]]]; auto.
      * right. right. right. cbn [with_mem e_mem e_id]. destruct (LO J) as (u & U & UI & _ & _ & UM). rewrite (ids_inj _ s u (ko_ids _ KO) S U ltac:(congruence)). rewrite UM, UI. reflexivity.
    + destruct (seg_with_id _ _); [|injection E as <- <- <-; exact P]. destruct (f_attach f); injection E as <- <- <-; [exact P|]. apply AT.
    + unfold use_seg in E. destruct (seg_with_id (v_segs (z_k z)) j) as [s|] eqn:SI; [|discriminate]. apply id_at in SI. destruct SI as [S SE].
      destruct (load_shm fuel K j (e_mem s)) as [[[e m] ok]| |] eqn:LS; cbn [bind] in E; try discriminate. injection E as <- <- <-. cbn [v_segs].
      assert (ME : m = e_mem s).
      { destruct (load_facts _ _ _ _ _ _ _ LS) as [(-> & _)|(S1 & S2 & _)]; [reflexivity|].
        pose proof (plain_new K s KS (P s S) S1 ltac:(congruence)) as X. rewrite X, <- SE, load_empty in LS. injection LS as _ <- _. symmetry. exact X. }
      intros t T. apply on_inv in T. destruct T as (u & U & ->). destruct (e_id u =? j) eqn:Q; [|exact (P u U)].
      assert (u = s) by (apply (ids_inj _ _ _ (ko_ids _ KO) U S); lia). subst u. rewrite ME. exact (P s S).
  - destruct l as [e| | |i|i|i|i|i|i]; try discriminate. destruct (sys_step fuel K (z_s z) (EUnload n)) as [y|] eqn:E; [|discriminate]. injection H as <-.
    cbn [sys_step] in E. fold (z_ps z) (z_k z) in E. rewrite N in E. unfold unload_shared in E.
    assert (RM : forall l i, (forall s, In s l -> plain_mem K s) -> forall t, In t (sys_rm l i) -> plain_mem K t).
    { intros l i G t T. apply reap_in in T. destruct T as [T _]. apply on_inv in T. destruct T as (s & S & ->). specialize (G s S). destruct (e_id s =? i); exact G. }
    destruct (p_shm p) as [| |i].
    + injection E as <-. exact P.
    + destruct (0 <? p_key p); injection E as <-; [|exact P]. exact (RM _ _ P).
    + destruct (0 <? p_key p); [|discriminate]. destruct (seg_with_id (v_segs (z_k z)) i) as [s|]; [|discriminate]. injection E as <-. unfold z_k at 1. cbn [z_s y_k v_segs].
      apply RM. exact (plain_leave K [i] (v_segs (z_k z)) P).
  - destruct (sys_step fuel K (z_s z) (EExit n)) as [y|] eqn:E; [|discriminate]. injection H as <-.
    cbn [sys_step] in E. fold (z_ps z) (z_k z) in E. rewrite N in E. injection E as <-. unfold z_k at 1. cbn [z_s y_k v_segs leave].
    exact (plain_leave K (p_maps p) (v_segs (z_k z)) P).
Qed.
Lemma quiet_run : forall fuel K l z z', 0 < k_size K -> quiet_ok K z -> Forall no_store l -> race_run fuel K z l = Some z' -> quiet_ok K z'.
Proof.
  intros fuel K l. induction l as [|a l IH]; intros z z' KS Q F H; cbn [race_run] in H; [injection H as <-; exact Q|].
  inversion F as [|? ? FA FL]; subst. destruct (race_step fuel K z a) as [z1|] eqn:E; [|discriminate].
  exact (IH z1 z' KS (quiet_step _ _ _ _ _ KS Q FA E) FL H).
Qed.
Lemma quiet_boot : forall K, quiet_ok K race_boot.
Proof. intros K. split; [apply race_boot_ok|intros s []]. Qed.
Lemma quiet_seg : forall K z p s, 0 < k_size K -> quiet_ok K z -> In p (z_ps z) -> In s (v_segs (z_k z)) -> p_shm p = Seg (e_id s) -> e_mem s = new_mem K (e_id s).
Proof.
  intros K z p s KS (R & P) IN S E. apply (plain_new K s KS (P s S)).
  - exact (ro_size _ _ R p s IN S E).
  - exact (proj2 (so_shm _ (ro_sys _ _ R) p _ IN E) s S eq_refl).
Qed.

(* ---- the codes ---- *)
Definition codes_ok (z : race) : Prop :=
  (forall l, In l (z_at z) -> match l with Idle (Some e) => e = 0 \/ e = 13 \/ e = 15 | LAt i => exists s, In s (v_segs (z_k z)) /\ e_id s = i | _ => True end).
Lemma codes_step : forall fuel K k z a z', 0 < k_size K -> k <> 0 -> calm_ok K k z -> quiet_ok K z -> codes_ok z -> calm k a -> no_store a ->
  race_step fuel K z a = Some z' -> codes_ok z'.
Proof.
  intros fuel K k z a z' KS NZ C Q CD CA NS H. pose proof (co_race _ _ _ C) as R. pose proof (so_k _ (ro_sys _ _ R)) as KO. fold (z_k z) in KO.
  destruct a as [key|n|n f|n m|n|n]; cbn [calm no_store] in CA, NS; try (destruct CA; fail); try (destruct NS; fail); cbn [race_step] in H;
    try (destruct (nth_error (z_ps z) n) as [p|] eqn:N; [|discriminate]; destruct (nth_error (z_at z) n) as [l|] eqn:L; [|discriminate]).
  - injection H as <-. intros l IL. cbn [z_at] in IL. apply in_app_iff in IL. destruct IL as [IL|[<-|[]]]; [exact (CD l IL)|exact I].
  - destruct l as [e| | |i|i|i|i|i|i]; try discriminate. destruct (p_shm p) eqn:SH; try discriminate. injection H as <-.
    intros l IL. cbn [z_at] in IL. apply upd_in in IL. destruct IL as [->|IL]; [exact I|exact (CD l IL)].
  - destruct (line_step fuel K f (z_k z) p l) as [[[v p'] l']| |] eqn:E; try discriminate. injection H as <-. subst f.
    assert (GROW : forall s, In s (v_segs (z_k z)) -> exists t, In t (v_segs v) /\ e_id t = e_id s).
    { intros s S. destruct (line_segs _ _ _ _ _ _ _ _ _ E) as [X|(_ & _ & _ & _ & X)].
      - apply (in_map (fun s => (e_id s, e_key s, e_gone s))) in S. rewrite <- X in S. apply in_map_iff in S. destruct S as (t & TE & T). injection TE as TE _ _. eauto.
      - exists s. rewrite X. split; [right; exact S|reflexivity]. }
    intros l2 IL. cbn [z_at] in IL. unfold z_k. cbn [z_s y_k]. apply upd_in in IL. destruct IL as [->|IL].
    2:{ specialize (CD l2 IL). destruct l2 as [[e|]| | |i|i|i|i|i|i]; try exact CD. destruct CD as (s & S & <-). exact (GROW s S). }
    pose proof (CD l (nth_error_In _ _ L)) as CL. destruct (co_key _ _ _ C p (nth_error_In _ _ N)) as [KP KK].
    pose proof (ro_line _ _ R n p l N L) as (LO & _).
    destruct l as [e| | |j|j|j|j|j|j]; cbn [line_step] in E.
    + injection E as <- <- <-. exact CL.
    + replace (p_key p <=? 0) with false in E by lia. replace (key32 (p_key p) =? 0) with false in E by lia.
      destruct (seg_with_key _ _) as [s|] eqn:SK; injection E as <- <- <-; [|exact I]. cbn [f_access all_well]. apply key_at in SK. exists s. split; [exact (proj1 SK)|reflexivity].
    + destruct (seg_with_key _ _) as [s|]; [injection E as <- <- <-; right; left; reflexivity|]. cbn [f_room all_well] in E. injection E as <- <- <-. exact I.
    + destruct LO as (s & S & SI & _). rewrite <- SI in E. rewrite (with_id _ s (ko_ids _ KO) S) in E. cbn [f_attach all_well] in E. injection E as <- <- <-. exact I.
    + injection E as <- <- <-. exact I.
    + injection E as <- <- <-. exact I.
    + injection E as <- <- <-. exact I.
    + destruct CL as (s & S & SI). rewrite <- SI in E. rewrite (with_id _ s (ko_ids _ KO) S) in E. cbn [f_attach all_well] in E. injection E as <- <- <-. exact I.
    + unfold use_seg in E. destruct (seg_with_id (v_segs (z_k z)) j) as [s|] eqn:SI; [|discriminate]. apply id_at in SI. destruct SI as [S SE].
      destruct (load_shm fuel K j (e_mem s)) as [[[e m] ok]| |] eqn:LS; cbn [bind] in E; try discriminate. injection E as <- <- <-.
      destruct (load_facts _ _ _ _ _ _ _ LS) as [(_ & _ & -> & _)|(S1 & S2 & _)]; [auto|].
      rewrite (plain_new K s KS (proj2 Q s S) S1 ltac:(congruence)), <- SE, load_empty in LS. injection LS as <- _ _. auto.
Qed.
Lemma codes_run : forall fuel K k l z z', 0 < k_size K -> k <> 0 -> calm_ok K k z -> quiet_ok K z -> codes_ok z -> Forall (calm k) l -> Forall no_store l ->
  race_run fuel K z l = Some z' -> codes_ok z'.
Proof.
  intros fuel K k l. induction l as [|a l IH]; intros z z' KS NZ C Q CD F G H; cbn [race_run] in H; [injection H as <-; exact CD|].
  inversion F as [|? ? FA FL]; inversion G as [|? ? GA GL]; subst. destruct (race_step fuel K z a) as [z1|] eqn:E; [|discriminate].
  exact (IH z1 z' KS NZ (calm_step _ _ _ _ _ _ KS NZ C FA E) (quiet_step _ _ _ _ _ KS Q GA E) (codes_step _ _ _ _ _ _ KS NZ C Q CD FA GA E) FL GL H).
Qed.

(* ---- one process alone ---- *)
Fixpoint lines (c : nat) (fuel : nat) (K : rlim) (f : fails) (v : kern) (p : proc) (l : at_line) : outcome (kern * proc * at_line) :=
  match c with O => Ret (v, p, l) | S c' => let! (vp, l') := line_step fuel K f v p l in let (v', p') := vp : kern * proc in lines c' fuel K f v' p' l' end.
Lemma lines_idle : forall c fuel K f v p e, lines c fuel K f v p (Idle e) = Ret (v, p, Idle e).
Proof. intros c. induction c as [|c IH]; intros; [reflexivity|]. cbn [lines line_step bind]. apply IH. Qed.
Lemma lines_run : forall c fuel K f z n p l v' p' l', nth_error (z_ps z) n = Some p -> nth_error (z_at z) n = Some l ->
  lines c fuel K f (z_k z) p l = Ret (v', p', l') ->
  race_run fuel K z (repeat (MStep n f) c) = Some (mkRace (mkSys v' (upd (z_ps z) n p')) (upd (z_at z) n l')).
Proof.
  intros c. induction c as [|c IH]; intros fuel K f z n p l v' p' l' N L H; cbn [lines repeat race_run] in *.
  - injection H as <- <- <-. rewrite (upd_same _ _ _ _ N), (upd_same _ _ _ _ L). destruct z as [[v ps] ats]. reflexivity.
  - cbn [race_step]. rewrite N, L. destruct (line_step fuel K f (z_k z) p l) as [[[v1 p1] l1]| |] eqn:E; cbn [bind] in H; try discriminate.
    rewrite (IH fuel K f (mkRace (mkSys v1 (upd (z_ps z) n p1)) (upd (z_at z) n l1)) n p1 l1 v' p' l').
    + unfold z_ps. cbn [z_s z_at y_ps]. rewrite !upd_upd. reflexivity.
    + exact (upd_get _ _ _ _ _ N).
    + exact (upd_get _ _ _ _ _ L).
    + exact H.
Qed.
Lemma map_with_id : forall (l : list segment) f s, NoDup (map e_id l) -> (forall t, e_id (f t) = e_id t) -> In s l -> seg_with_id (on_seg l (e_id s) f) (e_id s) = Some (f s).
Proof.
  intros l f s ND FI S. rewrite <- (FI s) at 2. apply with_id; [rewrite on_ids by exact FI; exact ND|]. apply on_in; [exact S|reflexivity].
Qed.
Lemma alone : forall fuel K f v p e v' p', kern_ok v -> load_shared fuel K f v p = Ret (e, v', p') ->
  lines 7 fuel K f v p LProbe = Ret (v', p', Idle (Some e)).
Proof.
  intros fuel K f v p e v' p' KO H. unfold load_shared in H. cbn [lines line_step].
  destruct (p_key p <=? 0) eqn:KP; [injection H as <- <- <-; reflexivity|].
  destruct (key32 (p_key p) =? 0) eqn:K0; [injection H as <- <- <-; reflexivity|].
  destruct (seg_with_key (v_segs v) (key32 (p_key p))) as [s|] eqn:SK.
  - apply key_at in SK. destruct SK as [S E]. destruct (f_access f); [injection H as <- <- <-; reflexivity|]. cbn [bind lines line_step].
    rewrite (with_id _ s (ko_ids _ KO) S). destruct (f_attach f); [injection H as <- <- <-; reflexivity|]. cbn [bind map_in lines line_step].
    rewrite H. reflexivity.
  - cbn [bind lines line_step]. rewrite SK. destruct (f_room f); [injection H as <- <- <-; reflexivity|]. cbn [bind lines line_step v_segs v_next].
    set (s0 := mkSegment (v_next v) (key32 (p_key p)) 0 false (zero_mem K)) in *.
    assert (KO1 : kern_ok (mkKern (s0 :: v_segs v) (v_next v + 1))) by (apply ok_new; [exact KO|exact (key_none _ _ SK)]).
    pose proof (with_id _ s0 (ko_ids _ KO1) (or_introl eq_refl)) as W. cbn [e_id v_segs s0] in W. fold s0 in W. rewrite W.
    cbn [v_segs v_next] in H. destruct (f_attach f); [injection H as <- <- <-; reflexivity|]. cbn [bind map_in lines line_step v_segs v_next].
    unfold change_mem. cbn [v_segs v_next]. rewrite !on_on by reflexivity. unfold put_mem, sys_at in H. rewrite on_on in H by reflexivity.
    unfold sys_at. rewrite on_on by reflexivity. rewrite on_cons in H by (reflexivity || (intros t T; pose proof (ko_next _ KO t T); lia)).
    rewrite on_cons by (reflexivity || (intros t T; pose proof (ko_next _ KO t T); lia)). cbn [s0 e_id e_key e_at e_gone e_mem] in *.
    change (mem_id (v_next v) (mem_size K (reset_mem (zero_mem K)))) with (head_mem K (v_next v) (reset_mem (zero_mem K))).
    rewrite H. reflexivity.
Qed.

Lemma untouched : forall fuel K f z n p l v p' l' q s, 0 < k_size K -> race_ok K z -> nth_error (z_ps z) n = Some p -> nth_error (z_at z) n = Some l ->
  line_step fuel K f (z_k z) p l = Ret (v, p', l') -> (forall i, l <> LCheck i) -> In q (z_ps z) -> In s (v_segs (z_k z)) -> p_shm q = Seg (e_id s) ->
  exists t, In t (v_segs v) /\ e_id t = e_id s /\ e_mem t = e_mem s.
Proof.
  intros fuel K f z n p l v p' l' q s KS R N L H NC Q S E.
  assert (OTH : forall j g, j <> e_id s -> In s (on_seg (v_segs (z_k z)) j (with_mem g))) by (intros j g NE; apply on_other; [reflexivity|congruence|exact S]).
  assert (AT : forall j, exists t, In t (sys_at (v_segs (z_k z)) j) /\ e_id t = e_id s /\ e_mem t = e_mem s).
  { intros j. exists (if e_id s =? j then mkSegment (e_id s) (e_key s) (e_at s + 1) (e_gone s) (e_mem s) else s).
    split; [apply in_map_iff; exists s; auto|]. destruct (e_id s =? j); auto. }
  destruct l as [e| | |j|j|j|j|j|j]; cbn [line_step] in H.
  - injection H as <- <- <-. eauto.
  - destruct (p_key p <=? 0); [injection H as <- <- <-; eauto|]. destruct (key32 (p_key p) =? 0); [injection H as <- <- <-; eauto|].
    destruct (seg_with_key _ _); injection H as <- <- <-; eauto.
  - destruct (seg_with_key _ _); [injection H as <- <- <-; eauto|]. destruct (f_room f); injection H as <- <- <-; [eauto|].
    exists s. split; [right; exact S|auto].
  - destruct (seg_with_id _ _); [|injection H as <- <- <-; eauto]. destruct (f_attach f); injection H as <- <- <-; [eauto|]. apply AT.
  - injection H as <- <- <-. exists s. split; [apply OTH|auto]. intros ->. exact (raw_free K z n p _ _ q KS R N L eq_refl ltac:(discriminate) Q E).
  - injection H as <- <- <-. exists s. split; [apply OTH|auto]. intros ->. exact (raw_free K z n p _ _ q KS R N L eq_refl ltac:(discriminate) Q E).
  - injection H as <- <- <-. destruct (Z.eq_dec j (e_id s)) as [->|NE]; [|exists s; split; [apply OTH; exact NE|auto]].
    exists (with_mem (mem_id (e_id s)) s). split; [rewrite change_on; apply on_in; [exact S|reflexivity]|]. split; [reflexivity|]. cbn.
    pose proof (proj2 (so_shm _ (ro_sys _ _ R) q _ Q E) s S eq_refl) as M. unfold mem_id. rewrite <- M at 1. destruct (e_mem s); reflexivity.
  - destruct (seg_with_id _ _); [|injection H as <- <- <-; eauto]. destruct (f_attach f); injection H as <- <- <-; [eauto|]. apply AT.
  - exfalso. exact (NC j eq_refl).
Qed.

(* ---- a segment whose header nobody will write ---- *)
Record dead (K : rlim) (i k : Z) (mem : shm) (z : race) : Prop := mkDead {
  de_race : race_ok K z;
  de_stays : stays i k mem (v_segs (z_k z));
  de_who : forall l, In l (z_at z) -> raw l <> Some i
}.
Lemma dead_free : forall K i k mem z p, (m_size mem <> k_size K \/ m_id mem <> i) -> dead K i k mem z -> In p (z_ps z) -> p_shm p <> Seg i.
Proof.
  intros K i k mem z p BAD D P E. pose proof (de_race _ _ _ _ _ D) as R. destruct (de_stays _ _ _ _ _ D) as (s & S & SI & _ & _ & SM).
  destruct BAD as [B|B]; apply B; rewrite <- SM.
  - apply (ro_size _ _ R p s P S). congruence.
  - exact (proj2 (so_shm _ (ro_sys _ _ R) p i P E) s S SI).
Qed.
Lemma dead_step : forall fuel K i k mem z a z', 0 < k_size K -> (m_size mem <> k_size K \/ m_id mem <> i) -> dead K i k mem z ->
  race_step fuel K z a = Some z' -> dead K i k mem z'.
Proof.
  intros fuel K i k mem z a z' KS BAD D H. pose proof (de_race _ _ _ _ _ D) as R. pose proof (ro_sys _ _ R) as SO. pose proof (so_k _ SO) as KO. fold (z_k z) in KO.
  pose proof (de_stays _ _ _ _ _ D) as ST. pose proof (de_who _ _ _ _ _ D) as W.
  assert (UPD : forall n l l2, raw l <> Some i -> In l2 (upd (z_at z) n l) -> raw l2 <> Some i).
  { intros n l l2 NR IL. apply upd_in in IL. destruct IL as [->|IL]; [exact NR|exact (W l2 IL)]. }
  pose proof (race_step_ok fuel K z a z' KS R H) as R'.
  destruct a as [key|n|n f|n m|n|n]; cbn [race_step] in H;
    try (destruct (nth_error (z_ps z) n) as [p|] eqn:N; [|discriminate]; destruct (nth_error (z_at z) n) as [l|] eqn:L; [|discriminate]).
  - injection H as <-. constructor; [exact R'|exact ST|]. intros l IL. cbn [z_at] in IL. apply in_app_iff in IL. destruct IL as [IL|[<-|[]]]; [exact (W l IL)|discriminate].
  - destruct l as [e| | |j|j|j|j|j|j]; try discriminate. destruct (p_shm p); try discriminate. injection H as <-. constructor; [exact R'|exact ST|].
    intros l IL. apply (UPD n LProbe l); [discriminate|exact IL].
  - destruct (line_step fuel K f (z_k z) p l) as [[[v p'] l']| |] eqn:E; try discriminate. injection H as <-.
    pose proof (W l (nth_error_In _ _ L)) as WL. constructor; [exact R'| |].
    + unfold z_k. cbn [z_s y_k]. destruct (step_stays _ _ _ _ _ _ _ _ _ _ _ _ KO E ST) as [(X & _)|[(g & G & _)|(_ & e & m & ok & LS & X & _)]].
      * exact X.
      * exfalso. apply WL. destruct G as [(-> & _)|[(-> & _)|(-> & _)]]; reflexivity.
      * destruct (load_facts _ _ _ _ _ _ _ LS) as [(-> & _)|(S1 & S2 & _)]; [exact X|]. exfalso. destruct BAD; contradiction.
    + intros l2 IL. cbn [z_at] in IL. apply (UPD n l' l2); [|exact IL]. intros RW.
      assert (FR : forall s, In s (v_segs (z_k z)) -> e_id s <> v_next (z_k z)) by (intros s S; pose proof (ko_next _ KO s S); lia).
      destruct ST as (s & S & SI & _).
      destruct l as [e| | |j|j|j|j|j|j]; cbn [line_step] in E.
      * injection E as <- <- <-. discriminate.
      * destruct (p_key p <=? 0); [injection E as <- <- <-; discriminate|]. destruct (key32 (p_key p) =? 0); [injection E as <- <- <-; discriminate|].
        destruct (seg_with_key _ _); injection E as <- <- <-; [destruct (f_access f)|]; discriminate.
      * destruct (seg_with_key _ _); [injection E as <- <- <-; discriminate|]. destruct (f_room f); injection E as <- <- <-; [discriminate|]. cbn in RW. injection RW as RW. exact (FR s S ltac:(congruence)).
      * destruct (seg_with_id _ _); [|injection E as <- <- <-; discriminate]. destruct (f_attach f); injection E as <- <- <-; [discriminate|exact (WL RW)].
      * injection E as <- <- <-. exact (WL RW).
      * injection E as <- <- <-. exact (WL RW).
      * injection E as <- <- <-. discriminate.
      * destruct (seg_with_id _ _); [|injection E as <- <- <-; discriminate]. destruct (f_attach f); injection E as <- <- <-; discriminate.
      * unfold use_seg in E. destruct (seg_with_id (v_segs (z_k z)) j) as [s1|]; [|discriminate].
        destruct (load_shm fuel K j (e_mem s1)) as [[[e m] ok]| |]; cbn [bind] in E; try discriminate. injection E as <- <- <-. discriminate.
  - destruct l as [e| | |j|j|j|j|j|j]; try discriminate. destruct (sys_step fuel K (z_s z) (EStore n m)) as [y|] eqn:E; [|discriminate]. injection H as <-.
    cbn [sys_step] in E. fold (z_ps z) (z_k z) in E. rewrite N in E. destruct (p_shm p) as [| |j] eqn:SH; try discriminate.
    destruct (seg_with_id (v_segs (z_k z)) j) as [s|]; [|discriminate]. destruct (_ && _); [|discriminate]. injection E as <-.
    constructor; [exact R'| |exact W]. apply (stays_other i k mem (v_segs (z_k z)) j (fun _ => m)); [|exact ST].
    intros ->. exact (dead_free K j k mem z p BAD D (nth_error_In _ _ N) SH).
  - destruct l as [e| | |j|j|j|j|j|j]; try discriminate. destruct (sys_step fuel K (z_s z) (EUnload n)) as [y|] eqn:E; [|discriminate]. injection H as <-.
    cbn [sys_step] in E. fold (z_ps z) (z_k z) in E. rewrite N in E. unfold unload_shared in E. pose proof (nth_error_In _ _ N) as IN.
    constructor; [exact R'| |intros l IL; apply (UPD n (Idle None) l); [discriminate|exact IL]].
    destruct (p_shm p) as [| |j] eqn:SH.
    + injection E as <-. exact ST.
    + pose proof (ro_line _ _ R n p _ N L) as (_ & _ & KH). cbn in KH. specialize (KH SH). replace (0 <? p_key p) with false in E by lia. injection E as <-. exact ST.
    + destruct (0 <? p_key p); [|discriminate]. destruct (seg_with_id (v_segs (z_k z)) j) as [s|] eqn:SI; [|discriminate]. apply id_at in SI. destruct SI as [S SE]. injection E as <-.
      unfold z_k at 1. cbn [z_s y_k v_segs]. apply stays_rm; [|apply stays_dt; exact ST]. rewrite (proj2 (so_shm _ SO p j IN SH) s S SE).
      intros ->. exact (dead_free K j k mem z p BAD D IN SH).
  - destruct (sys_step fuel K (z_s z) (EExit n)) as [y|] eqn:E; [|discriminate]. injection H as <-.
    cbn [sys_step] in E. fold (z_ps z) (z_k z) in E. rewrite N in E. injection E as <-.
    constructor; [exact R'| |intros l2 IL; apply (UPD n (Idle None) l2); [discriminate|exact IL]].
    apply (stays_leave _ _ _ (z_k z) p). exact ST.
Qed.
Lemma dead_run : forall fuel K i k mem l z z', 0 < k_size K -> (m_size mem <> k_size K \/ m_id mem <> i) -> dead K i k mem z ->
  race_run fuel K z l = Some z' -> dead K i k mem z'.
Proof.
  intros fuel K i k mem l. induction l as [|a l IH]; intros z z' KS B D H; cbn [race_run] in H; [injection H as <-; exact D|].
  destruct (race_step fuel K z a) as [z1|] eqn:E; [|discriminate]. exact (IH z1 z' KS B (dead_step _ _ _ _ _ _ _ _ KS B D E) H).
Qed.
