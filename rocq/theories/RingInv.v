(* The invariant of the queue and its preservation by every step of a schedule
   without full laps and without restart. *)
From Coq Require Import ZArith List Bool Lia ZifyBool ZifyNat ZifyN.
From Verif Require Import Base BaseFacts LoggerState Ring RingSpec.
Import ListNotations.
Open Scope Z_scope.

(* ---- lists ---- *)
Lemma upd_len : forall {A} (l : list A) n x, length (upd l n x) = length l.
Proof.
  intros. unfold upd. rewrite app_length, firstn_length.
  pose proof (skipn_length n l) as K.
  destruct (skipn n l) as [|y r]; cbn [length] in *; lia.
Qed.

Lemma upd_nth : forall {A} (l : list A) n x, (n < length l)%nat -> nth_error (upd l n x) n = Some x.
Proof.
  intros A l n x H. unfold upd. rewrite nth_error_app2; rewrite firstn_length; try lia.
  pose proof (skipn_length n l) as K.
  destruct (skipn n l) as [|y r]; cbn [length] in *; try lia.
  replace (n - Nat.min n (length l))%nat with 0%nat by lia. reflexivity.
Qed.

Lemma upd_other : forall {A} (l : list A) n m x, n <> m -> nth_error (upd l n x) m = nth_error l m.
Proof.
  intros A l. induction l as [|y l IH]; intros n m x H.
  - unfold upd. destruct n; reflexivity.
  - destruct n as [|n]; destruct m as [|m]; try lia; try reflexivity.
    change (nth_error (upd l n x) m = nth_error l m). apply IH. lia.
Qed.

Lemma upd_inv : forall {A} (l : list A) n m x y,
  nth_error (upd l n x) m = Some y -> (m = n /\ y = x) \/ (m <> n /\ nth_error l m = Some y).
Proof.
  intros A l n m x y H. destruct (Nat.eq_dec m n) as [->|D].
  - left. split; [reflexivity|].
    assert (n < length l)%nat.
    { rewrite <- (upd_len l n x). apply nth_error_Some. rewrite H. discriminate. }
    rewrite upd_nth in H by assumption. congruence.
  - right. split; [assumption|]. rewrite upd_other in H by lia. assumption.
Qed.

Lemma nth_of_error : forall {A} (l : list A) n d x, nth_error l n = Some x -> nth n l d = x.
Proof.
  intros A l. induction l as [|y l IH]; intros [|n] d x H; cbn in *; try discriminate; [congruence|auto].
Qed.

Lemma get_put_same : forall s i v, 0 <= i < zlen (x_slots s) -> get (put s i v) i = v.
Proof.
  intros. unfold get, put. cbn [x_slots]. apply nth_of_error, upd_nth. unfold zlen in *. lia.
Qed.

Lemma get_put_other : forall s i j v, 0 <= i -> 0 <= j -> i <> j -> get (put s i v) j = get s j.
Proof.
  intros s i j v A B D. unfold get, put. cbn [x_slots].
  destruct (nth_error (x_slots s) (Z.to_nat j)) as [x|] eqn:E.
  - rewrite (nth_of_error _ _ dslot x E). apply nth_of_error. rewrite upd_other by lia. assumption.
  - apply nth_error_None in E. rewrite (nth_overflow (x_slots s)) by assumption.
    apply nth_overflow. rewrite upd_len. assumption.
Qed.

Lemma firstn_skipn_snoc : forall n (l : list Z), (n < length l)%nat ->
  firstn (n + 1) l = firstn n l ++ [nth n l 0].
Proof.
  intros n. induction n as [|n IH]; intros [|x l] H; cbn [length] in H; try lia; [reflexivity|].
  cbn [Nat.add firstn nth app]. rewrite IH by lia. reflexivity.
Qed.

(* ---- positions ---- *)
(* the slot of a queue position *)
Definition ix (c : rcfg) (a : Z) : Z := a mod n_ring c.

Definition at_ (c : rcfg) (s : shared) (a : Z) : slot := get s (ix c a).

Lemma ix_eq : forall c a b, 0 < n_ring c -> ix c a = ix c b ->
  - n_ring c < a - b < n_ring c -> a = b.
Proof.
  intros c a b N E L. unfold ix in E. set (n := n_ring c) in *. clearbody n.
  pose proof (Z.div_mod a n ltac:(lia)). pose proof (Z.div_mod b n ltac:(lia)).
  rewrite E in H. set (p := a / n) in *. set (q := b / n) in *. set (r := b mod n) in *.
  clearbody p q r. assert (a - b = n * (p - q)) by lia.
  assert (p - q = 0) by nia. nia.
Qed.

Lemma nxt_ix : forall c a, nxt c (ix c a) = ix c (a + 1).
Proof. intros. unfold nxt, ix. rewrite Zplus_mod_idemp_l. reflexivity. Qed.

Lemma ix_bound : forall c a, 0 < n_ring c -> 0 <= ix c a < n_ring c.
Proof. intros. apply Z.mod_pos_bound. assumption. Qed.

Lemma ix_lap : forall c a, ix c (a + n_ring c) = ix c a.
Proof.
  intros. unfold ix. rewrite <- (Z_mod_plus_full a 1 (n_ring c)). f_equal. ring.
Qed.

Lemma at_put_same : forall c s a v, 0 < n_ring c -> zlen (x_slots s) = n_ring c ->
  at_ c (put s (ix c a) v) a = v.
Proof. intros. unfold at_. apply get_put_same. rewrite H0. apply ix_bound. assumption. Qed.

Lemma at_put_other : forall c s a b v, 0 < n_ring c -> a <> b -> - n_ring c < a - b < n_ring c ->
  at_ c (put s (ix c a) v) b = at_ c s b.
Proof.
  intros c s a b v N D L. unfold at_.
  pose proof (ix_bound c a N). pose proof (ix_bound c b N).
  apply get_put_other; try lia. intros E. apply ix_eq in E; lia.
Qed.

(* ---- the invariant ---- *)
Definition own (t : thr) : option Z :=
  match t_pc t with
  | HCount _ | HMark _ | FInit _ | Fill _ _ | PState _ | PTerm _ | PMark _ => Some (t_snap t)
  | _ => None
  end.
Definition clm (t : thr) : option Z :=
  match t_pc t with
  | CRead _ _ _ | CMark _ => Some (t_snap t)
  | _ => None
  end.
Definition rdg (t : thr) : option Z :=
  match t_pc t with
  | CRead _ _ _ => Some (t_snap t)
  | _ => None
  end.

Definition held_at (g : ghost) (a : Z) : option (nat * text) :=
  if a <? 0 then None else nth_error (g_held g) (Z.to_nat a).

Definition ready (c : rcfg) (s : shared) (g : ghost) (a : Z) : Prop :=
  s_mark (at_ c s a) = MARK_READY /\
  exists i m, held_at g a = Some (i, m) /\ s_text (at_ c s a) = line c m.

Definition owned (c : rcfg) (s : shared) (g : ghost) (i : nat) (t : thr) (m : Z) : Prop :=
  gW g <= t_snap t < gH g /\ held_at g (t_snap t) = Some (i, t_msg t) /\
  s_mark (at_ c s (t_snap t)) = m.

Definition thr_ok (c : rcfg) (s : shared) (g : ghost) (i : nat) (t : thr) : Prop :=
  let a := t_snap t in
  match t_pc t with
  | HRead old => old = ix c a /\ a <= gH g
  | HCas old => old = ix c a /\ a <= gH g /\ a + 1 <= gR g + n_ring c - 1
  | HCount k | HMark k => k = ix c a /\ owned c s g i t MARK_INVALID
  | FInit k => k = ix c a /\ owned c s g i t MARK_HOLD
  | Fill k rest => k = ix c a /\ owned c s g i t MARK_HOLD /\
                   t_msg t = s_text (at_ c s a) ++ rest
  | PState k | PTerm k => k = ix c a /\ owned c s g i t MARK_HOLD /\
                          s_text (at_ c s a) = t_msg t
  | PMark k => k = ix c a /\ owned c s g i t MARK_HOLD /\
               s_text (at_ c s a) = line c (t_msg t)
  | PHold old => old = ix c a /\ a <= gW g
  | PReady old => old = ix c a /\ a <= gW g /\ a < gH g
  | PCas old => old = ix c a /\ a <= gW g /\ a < gH g /\
                (gW g = a -> ready c s g a)
  | CWrite old => old = ix c a /\ a <= gP g
  | CCas old => old = ix c a /\ a <= gP g /\ a < gW g
  | CRead k n acc => k = ix c a /\ gR g <= a < gP g /\ ready c s g a /\
                     0 <= n <= zlen (s_text (at_ c s a)) /\
                     acc = firstn (Z.to_nat n) (s_text (at_ c s a))
  | CMark k => k = ix c a /\ gR g <= a < gP g /\ ready c s g a
  | RProc old => old = ix c a /\ a <= gR g
  | RMark old => old = ix c a /\ a <= gR g /\ a < gP g
  | RCas old => old = ix c a /\ a <= gR g /\ a < gP g /\
                (gR g = a -> s_mark (at_ c s a) = MARK_INVALID)
  | _ => True
  end.

Record inv (c : rcfg) (s : shared) (g : ghost) (l : list thr) : Prop := mkInv {
  i_hold : x_hold s = ix c (gH g);
  i_write : x_write s = ix c (gW g);
  i_proc : x_proc s = ix c (gP g);
  i_read : x_read s = ix c (gR g);
  i_ord : 0 <= gR g /\ gR g <= gP g /\ gP g <= gW g /\ gW g <= gH g /\
          gH g <= gR g + n_ring c - 1;
  i_len : zlen (x_slots s) = n_ring c;
  i_held : zlen (g_held g) = gH g;
  i_thr : forall i t, nth_error l i = Some t -> thr_ok c s g i t;
  i_own : forall i j t u a, nth_error l i = Some t -> nth_error l j = Some u ->
            own t = Some a -> own u = Some a -> i = j;
  i_clm : forall i j t u a, nth_error l i = Some t -> nth_error l j = Some u ->
            clm t = Some a -> clm u = Some a -> i = j;
  i_free : forall a, gH g <= a < gR g + n_ring c -> s_mark (at_ c s a) = MARK_INVALID;
  i_done : forall a, gR g <= a < gP g ->
             s_mark (at_ c s a) = MARK_INVALID \/
             exists i t, nth_error l i = Some t /\ clm t = Some a;
  i_pub : forall a, gP g <= a < gW g -> ready c s g a;
  i_res : forall a, gW g <= a < gH g -> s_mark (at_ c s a) = MARK_READY -> ready c s g a;
  i_outs : forall a x, In (a, x) (g_out g) ->
             exists i m, held_at g a = Some (i, m) /\ x = line c m;
  i_nodup : NoDup (map fst (g_out g));
  i_outp : forall a, In a (map fst (g_out g)) <->
             (0 <= a < gP g /\ forall i t, nth_error l i = Some t -> rdg t <> Some a)
}.

(* What a step of another thread may do without disturbing thread [u]. *)
Lemma thr_keep : forall c s s' g g' i u,
  thr_ok c s g i u ->
  gH g <= gH g' -> gW g <= gW g' -> gP g <= gP g' -> gR g <= gR g' ->
  gW g <= gH g ->
  (forall a e, held_at g a = Some e -> held_at g' a = Some e) ->
  (forall a, own u = Some a -> gW g <= a < gH g -> gW g' <= a /\ at_ c s' a = at_ c s a) ->
  (forall a, clm u = Some a -> gR g <= a < gP g -> gR g' <= a /\ at_ c s' a = at_ c s a) ->
  (gW g' = gW g -> gW g < gH g -> ready c s g (gW g) -> at_ c s' (gW g) = at_ c s (gW g)) ->
  (gR g' = gR g -> gR g < gP g -> s_mark (at_ c s (gR g)) = MARK_INVALID ->
     s_mark (at_ c s' (gR g)) = MARK_INVALID) ->
  thr_ok c s' g' i u.
Proof.
  intros c s s' g g' i u T LH LW LP LR WH HE O C PW PR.
  unfold thr_ok, own, clm, owned in *.
  destruct u as [p m a]; cbn [t_pc t_msg t_snap] in *.
  assert (RD : forall b, ready c s g b -> at_ c s' b = at_ c s b -> ready c s' g' b).
  { intros b [A (j & n & B & D)] E. split; [rewrite E; assumption|].
    exists j, n. rewrite E. auto. }
  destruct p; try exact I; try tauto.
  - split; [tauto|lia].
  - repeat split; [tauto|lia|lia].
  - destruct T as (A & (B & D & E)). destruct (O a eq_refl B) as [F G].
    rewrite G. repeat split; auto; lia.
  - destruct T as (A & (B & D & E)). destruct (O a eq_refl B) as [F G].
    rewrite G. repeat split; auto; lia.
  - destruct T as (A & (B & D & E)). destruct (O a eq_refl B) as [F G].
    rewrite G. repeat split; auto; lia.
  - destruct T as (A & (B & D & E) & K). destruct (O a eq_refl B) as [F G].
    rewrite G. repeat split; auto; lia.
  - destruct T as (A & (B & D & E) & K). destruct (O a eq_refl B) as [F G].
    rewrite G. repeat split; auto; lia.
  - destruct T as (A & (B & D & E) & K). destruct (O a eq_refl B) as [F G].
    rewrite G. repeat split; auto; lia.
  - destruct T as (A & (B & D & E) & K). destruct (O a eq_refl B) as [F G].
    rewrite G. repeat split; auto; lia.
  - split; [tauto|lia].
  - repeat split; [tauto|lia|lia].
  - destruct T as (A & B & D & E). split; [assumption|]. split; [lia|]. split; [lia|].
    intros W1. assert (W2 : gW g = a) by lia. assert (W3 : gW g' = gW g) by lia.
    clear W1. subst a.
    apply RD; [apply E; reflexivity|]. apply PW; [assumption|assumption|apply E; reflexivity].
  - split; [tauto|lia].
  - repeat split; [tauto|lia|lia].
  - destruct T as (A & B & D & E & F). destruct (C a eq_refl B) as [G K].
    rewrite K. split; [assumption|]. split; [lia|]. split; [apply RD; assumption|]. auto.
  - destruct T as (A & B & D). destruct (C a eq_refl B) as [G K].
    split; [assumption|]. split; [lia|]. apply RD; assumption.
  - split; [tauto|lia].
  - repeat split; [tauto|lia|lia].
  - destruct T as (A & B & D & E). split; [assumption|]. split; [lia|]. split; [lia|].
    intros R1. assert (R2 : gR g = a) by lia. assert (R3 : gR g' = gR g) by lia.
    clear R1. subst a.
    apply PR; [assumption|lia|apply E; reflexivity].
Qed.

(* Uniqueness of owners after thread [i] moved. *)
Lemma uniq_upd : forall (f : thr -> option Z) l i t t',
  (forall i j t u a, nth_error l i = Some t -> nth_error l j = Some u ->
     f t = Some a -> f u = Some a -> i = j) ->
  nth_error l i = Some t ->
  (forall a, f t' = Some a -> f t = Some a \/
     forall j u, nth_error l j = Some u -> f u <> Some a) ->
  forall p q v w a, nth_error (upd l i t') p = Some v -> nth_error (upd l i t') q = Some w ->
    f v = Some a -> f w = Some a -> p = q.
Proof.
  intros f l i t t' U T F p q v w a P Q V W.
  destruct (upd_inv _ _ _ _ _ P) as [[-> ->]|[Np Pp]];
  destruct (upd_inv _ _ _ _ _ Q) as [[-> ->]|[Nq Qq]]; [reflexivity|..].
  - destruct (F a V) as [E|E]; [|exfalso; exact (E q w Qq W)].
    exact (U i q t w a T Qq E W).
  - destruct (F a W) as [E|E]; [|exfalso; exact (E p v Pp V)].
    exact (U p i v t a Pp T V E).
  - exact (U p q v w a Pp Qq V W).
Qed.

Lemma upd_hit : forall {A} (l : list A) i t t', nth_error l i = Some t ->
  nth_error (upd l i t') i = Some t'.
Proof. intros. apply upd_nth. apply nth_error_Some. rewrite H. discriminate. Qed.

Definition same_ring (s s' : shared) : Prop :=
  x_hold s' = x_hold s /\ x_write s' = x_write s /\ x_proc s' = x_proc s /\
  x_read s' = x_read s /\ x_slots s' = x_slots s.
Definition same_ghost (g g' : ghost) : Prop :=
  gH g' = gH g /\ gW g' = gW g /\ gP g' = gP g /\ gR g' = gR g /\
  g_held g' = g_held g /\ g_out g' = g_out g.

Lemma at_same : forall c s s' a, same_ring s s' -> at_ c s' a = at_ c s a.
Proof. intros c s s' a (_ & _ & _ & _ & E). unfold at_, get. rewrite E. reflexivity. Qed.

Lemma held_same : forall g g' a, g_held g' = g_held g -> held_at g' a = held_at g a.
Proof. intros. unfold held_at. rewrite H. reflexivity. Qed.

Lemma rdg_clm : forall t a, rdg t = Some a -> clm t = Some a.
Proof. intros t a. unfold rdg, clm. destruct (t_pc t); congruence. Qed.

(* A step that changes neither the ring nor what is reserved or claimed. *)
Lemma inv_local : forall c s g l i t s' g' t',
  inv c s g l -> nth_error l i = Some t ->
  same_ring s s' -> same_ghost g g' ->
  thr_ok c s' g' i t' ->
  (own t' = own t \/ own t' = None) -> clm t' = clm t -> rdg t' = rdg t ->
  inv c s' g' (upd l i t').
Proof.
  intros c s g l i t s' g' t' I T S G K O C R.
  pose proof (fun a => at_same c s s' a S) as AT.
  destruct S as (S1 & S2 & S3 & S4 & S5), G as (G1 & G2 & G3 & G4 & G5 & G6).
  pose proof (fun a => held_same g g' a G5) as HE.
  assert (RD : forall a, ready c s' g' a <-> ready c s g a).
  { intros a. unfold ready. rewrite AT, HE. tauto. }
  destruct I. constructor; rewrite ?G1, ?G2, ?G3, ?G4, ?G5, ?G6, ?S1, ?S2, ?S3, ?S4, ?S5; auto.
  - intros j u J. destruct (upd_inv _ _ _ _ _ J) as [[-> ->]|[N J']]; [assumption|].
    apply (thr_keep c s s' g g' j u (i_thr0 j u J')); [lia|lia|lia|lia|lia|..].
    + intros a e. rewrite HE. trivial.
    + intros. rewrite AT. split; [lia|reflexivity].
    + intros. rewrite AT. split; [lia|reflexivity].
    + intros. apply AT.
    + intros. rewrite AT. assumption.
  - apply (uniq_upd own l i t t'); auto. intros a A. destruct O as [O|O]; rewrite O in A; [auto|discriminate].
  - apply (uniq_upd clm l i t t'); auto. intros a A. rewrite C in A. auto.
  - intros a A. rewrite AT. auto.
  - intros a A. rewrite AT. destruct (i_done0 a A) as [D|(j & u & J & U)]; [auto|].
    right. destruct (Nat.eq_dec j i) as [->|N].
    + exists i, t'. split; [apply upd_hit with t; assumption|]. rewrite C.
      rewrite T in J. injection J as ->. assumption.
    + exists j, u. rewrite upd_other by lia. auto.
  - intros a A. apply RD. auto.
  - intros a A M. apply RD. rewrite AT in M. auto.
  - intros a x A. destruct (i_outs0 a x A) as (j & m & B & D). exists j, m. rewrite HE. auto.
  - intros a. rewrite i_outp0. apply and_iff_compat_l. split; intros Q j u J.
    + destruct (upd_inv _ _ _ _ _ J) as [[-> ->]|[N J']]; [rewrite R; eauto|eauto].
    + destruct (Nat.eq_dec j i) as [->|N].
      * rewrite T in J. injection J as <-. rewrite <- R. apply (Q i t'). apply upd_hit with t; assumption.
      * apply (Q j u). rewrite upd_other by lia. assumption.
Qed.

(* The owner of a reserved slot writes it. *)
Lemma inv_put_own : forall c s g l i t v t',
  0 < n_ring c ->
  inv c s g l -> nth_error l i = Some t ->
  own t = Some (t_snap t) -> gW g <= t_snap t < gH g ->
  s_mark (at_ c s (t_snap t)) <> MARK_READY ->
  (s_mark v = MARK_READY ->
     exists j m, held_at g (t_snap t) = Some (j, m) /\ s_text v = line c m) ->
  thr_ok c (put s (ix c (t_snap t)) v) g i t' ->
  (own t' = own t \/ own t' = None) -> clm t' = None -> clm t = None ->
  inv c (put s (ix c (t_snap t)) v) g (upd l i t').
Proof.
  intros c s g l i t v t' N I T OT SN NR V K O C CT.
  assert (RT : rdg t = None).
  { destruct (rdg t) eqn:E; [apply rdg_clm in E; congruence|reflexivity]. }
  assert (RT' : rdg t' = None).
  { destruct (rdg t') eqn:E; [apply rdg_clm in E; congruence|reflexivity]. }
  set (a0 := t_snap t) in *. set (s' := put s (ix c a0) v) in *.
  assert (FR : forall b, a0 <> b -> - n_ring c < a0 - b < n_ring c -> at_ c s' b = at_ c s b).
  { intros. unfold s'. apply at_put_other; assumption. }
  destruct I.
  assert (SA : at_ c s' a0 = v) by (apply at_put_same; assumption).
  assert (RD : forall b, ready c s g b -> at_ c s' b = at_ c s b -> ready c s' g b).
  { intros b [A (j & n & B & D)] E. split; [rewrite E; assumption|]. exists j, n. rewrite E. auto. }
  assert (L2 : zlen (x_slots s') = n_ring c).
  { unfold s', put, zlen. cbn [x_slots]. rewrite upd_len. assumption. }
  constructor; auto.
  - intros j u J. destruct (upd_inv _ _ _ _ _ J) as [[-> ->]|[Nj J']]; [assumption|].
    apply (thr_keep c s s' g g j u (i_thr0 j u J')); [lia|lia|lia|lia|lia|trivial|..].
    + intros a OA LA. split; [lia|]. apply FR; [|lia].
      intros E. subst a. apply Nj. symmetry. apply (i_own0 i j t u a0); auto.
    + intros a CA LA. split; [lia|]. apply FR; lia.
    + intros _ L [R1 _]. apply FR; [|lia]. intros E. apply NR. rewrite E. assumption.
    + intros _ L M. rewrite FR by lia. assumption.
  - apply (uniq_upd own l i t t'); auto. intros a A. destruct O as [O|O]; rewrite O in A; [auto|discriminate].
  - apply (uniq_upd clm l i t t'); auto. intros a A. congruence.
  - intros a A. rewrite FR by lia. auto.
  - intros a A. rewrite FR by lia. destruct (i_done0 a A) as [D|(j & u & J & U)]; [auto|].
    right. exists j, u. split; [|assumption]. rewrite upd_other; [assumption|].
    intros ->. rewrite T in J. injection J as ->. congruence.
  - intros a A. apply RD; [auto|]. apply FR; lia.
  - intros a A M. destruct (Z.eq_dec a0 a) as [<-|D].
    + rewrite SA in M. destruct (V M) as (j & m & B & E). split; [rewrite SA; assumption|].
      exists j, m. rewrite SA. auto.
    + assert (E : at_ c s' a = at_ c s a) by (apply FR; lia).
      apply RD; [|assumption]. apply i_res0; [assumption|]. rewrite E in M. assumption.
  - intros a. rewrite i_outp0. apply and_iff_compat_l. split; intros Q j u J.
    + destruct (upd_inv _ _ _ _ _ J) as [[-> ->]|[Nj J']]; [congruence|eauto].
    + destruct (Nat.eq_dec j i) as [->|Nj].
      * rewrite T in J. injection J as <-. congruence.
      * apply (Q j u). rewrite upd_other by lia. assumption.
Qed.

(* A slot is reserved. *)
Lemma inv_hold : forall c s g l i t,
  0 < n_ring c -> inv c s g l -> nth_error l i = Some t ->
  gH g + 1 <= gR g + n_ring c - 1 ->
  own t = None -> clm t = None ->
  inv c (put_idx s (ix c (gH g + 1)) (x_write s) (x_proc s) (x_read s))
        (add_held (put_g g (gH g + 1) (gW g) (gP g) (gR g)) (i, t_msg t))
        (upd l i (go_at t (HCount (ix c (gH g))) (gH g))).
Proof.
  intros c s g l i t N I T FU OT CT.
  set (s' := put_idx s _ _ _ _). set (g' := add_held _ _). set (t' := go_at _ _ _).
  assert (RT : rdg t = None).
  { destruct (rdg t) eqn:E; [apply rdg_clm in E; congruence|reflexivity]. }
  assert (AT : forall b, at_ c s' b = at_ c s b) by reflexivity.
  destruct I.
  assert (HE : forall a e, held_at g a = Some e -> held_at g' a = Some e).
  { intros a e. unfold held_at. destruct (a <? 0); [auto|]. intros E. cbn [g' add_held g_held].
    rewrite nth_error_app1; [assumption|]. apply nth_error_Some. cbn [g_held put_g]. rewrite E. discriminate. }
  assert (HN : held_at g' (gH g) = Some (i, t_msg t)).
  { unfold held_at. destruct (gH g <? 0) eqn:E; [lia|]. cbn [g' add_held g_held put_g].
    rewrite nth_error_app2; unfold zlen in i_held0; [|lia].
    replace (Z.to_nat (gH g) - length (g_held g))%nat with 0%nat by lia. reflexivity. }
  assert (RD : forall b, ready c s g b -> ready c s' g' b).
  { intros b [A (j & n & B & D)]. split; [assumption|]. exists j, n. auto. }
  constructor; cbn [g' add_held put_g gH gW gP gR g_out]; auto; try lia.
  - change (zlen (g_held g ++ [(i, t_msg t)]) = gH g + 1). rewrite zlen_app, i_held0. reflexivity.
  - intros j u J. destruct (upd_inv _ _ _ _ _ J) as [[-> ->]|[Nj J']].
    + unfold thr_ok, t'. cbn [t_pc t_snap go_at]. split; [reflexivity|].
      split; [cbn; lia|]. split; [exact HN|].
      change (s_mark (at_ c s (gH g)) = MARK_INVALID). apply i_free0. lia.
    + apply (thr_keep c s s' g g' j u (i_thr0 j u J'));
        cbn [g' add_held put_g gH gW gP gR]; [lia|lia|lia|lia|lia|auto|..].
      * intros. split; [lia|apply AT].
      * intros. split; [lia|apply AT].
      * intros. apply AT.
      * intros. rewrite AT. assumption.
  - apply (uniq_upd own l i t t'); auto. intros a A. injection A as <-. right.
    intros j u J OU. specialize (i_thr0 j u J). unfold thr_ok, own, owned in *.
    destruct u as [p m a]; cbn [t_pc t_snap t_msg] in *.
    destruct p; try discriminate; injection OU as OU; lia.
  - apply (uniq_upd clm l i t t'); auto. intros a A. discriminate.
  - intros a A. rewrite AT. apply i_free0. lia.
  - intros a A. rewrite AT. destruct (i_done0 a A) as [D|(j & u & J & U)]; [auto|].
    right. exists j, u. split; [|assumption]. rewrite upd_other; [assumption|].
    intros ->. rewrite T in J. injection J as ->. congruence.
  - intros a A M. destruct (Z.eq_dec a (gH g)) as [->|D].
    + rewrite AT in M. rewrite i_free0 in M by lia. discriminate.
    + apply RD. apply i_res0; [lia|assumption].
  - intros a x A. destruct (i_outs0 a x A) as (j & m & B & D). exists j, m. auto.
  - intros a. rewrite i_outp0. apply and_iff_compat_l. split; intros Q j u J.
    + destruct (upd_inv _ _ _ _ _ J) as [[-> ->]|[Nj J']]; [discriminate|eauto].
    + destruct (Nat.eq_dec j i) as [->|Nj].
      * rewrite T in J. injection J as <-. congruence.
      * apply (Q j u). rewrite upd_other by lia. assumption.
Qed.

(* A ready record is published. *)
Lemma inv_publish : forall c s g l i t t',
  0 < n_ring c -> inv c s g l -> nth_error l i = Some t ->
  gW g < gH g -> ready c s g (gW g) ->
  own t = None -> clm t = None -> own t' = None -> clm t' = None ->
  (forall s g, thr_ok c s g i t') ->
  inv c (put_idx s (x_hold s) (ix c (gW g + 1)) (x_proc s) (x_read s))
        (put_g g (gH g) (gW g + 1) (gP g) (gR g)) (upd l i t').
Proof.
  intros c s g l i t t' N I T WH RW OT CT OT' CT' K.
  set (s' := put_idx s _ _ _ _). set (g' := put_g g _ _ _ _).
  assert (RT : rdg t = None).
  { destruct (rdg t) eqn:E; [apply rdg_clm in E; congruence|reflexivity]. }
  assert (RT' : rdg t' = None).
  { destruct (rdg t') eqn:E; [apply rdg_clm in E; congruence|reflexivity]. }
  assert (AT : forall b, at_ c s' b = at_ c s b) by reflexivity.
  destruct I.
  assert (RD : forall b, ready c s g b -> ready c s' g' b).
  { intros b [A (j & n & B & D)]. split; [assumption|]. exists j, n. auto. }
  constructor; cbn [g' put_g gH gW gP gR g_out g_held]; auto; try lia.
  - intros j u J. destruct (upd_inv _ _ _ _ _ J) as [[-> ->]|[Nj J']]; [apply K|].
    apply (thr_keep c s s' g g' j u (i_thr0 j u J'));
      cbn [g' add_held put_g gH gW gP gR]; [lia|lia|lia|lia|lia|trivial|..];
      try (intros; split; [lia|apply AT]); try (intros; apply AT); try (intros; rewrite AT; assumption).
    intros a OA LA. split; [|reflexivity].
    destruct (Z.eq_dec a (gW g)) as [->|D]; [|lia]. exfalso.
    destruct RW as [RW _]. specialize (i_thr0 j u J'). unfold thr_ok, own, owned in *.
    destruct u as [p m a]; cbn [t_pc t_snap t_msg] in *.
    destruct p; try discriminate; injection OA as ->;
      unfold MARK_READY, MARK_HOLD, MARK_INVALID in *; lia.
  - apply (uniq_upd own l i t t'); auto. intros a A. congruence.
  - apply (uniq_upd clm l i t t'); auto. intros a A. congruence.
  - intros a A. rewrite AT. destruct (i_done0 a A) as [D|(j & u & J & U)]; [auto|].
    right. exists j, u. split; [|assumption]. rewrite upd_other; [assumption|].
    intros ->. rewrite T in J. injection J as ->. congruence.
  - intros a A. apply RD. destruct (Z.eq_dec a (gW g)) as [->|D]; [assumption|]. apply i_pub0. lia.
  - intros a A M. apply RD. apply i_res0; [lia|assumption].
  - intros a. rewrite i_outp0. apply and_iff_compat_l. split; intros Q j u J.
    + destruct (upd_inv _ _ _ _ _ J) as [[-> ->]|[Nj J']]; [congruence|eauto].
    + destruct (Nat.eq_dec j i) as [->|Nj].
      * rewrite T in J. injection J as <-. congruence.
      * apply (Q j u). rewrite upd_other by lia. assumption.
Qed.

(* A published record is claimed for dispatch. *)
Lemma inv_claim : forall c s g l i t,
  0 < n_ring c -> inv c s g l -> nth_error l i = Some t ->
  gP g < gW g -> own t = None -> clm t = None ->
  inv c (put_idx s (x_hold s) (x_write s) (ix c (gP g + 1)) (x_read s))
        (put_g g (gH g) (gW g) (gP g + 1) (gR g))
        (upd l i (go_at t (CRead (ix c (gP g)) 0 []) (gP g))).
Proof.
  intros c s g l i t N I T PW OT CT.
  set (s' := put_idx s _ _ _ _). set (g' := put_g g _ _ _ _). set (t' := go_at _ _ _).
  assert (RT : rdg t = None).
  { destruct (rdg t) eqn:E; [apply rdg_clm in E; congruence|reflexivity]. }
  assert (AT : forall b, at_ c s' b = at_ c s b) by reflexivity.
  destruct I.
  assert (RD : forall b, ready c s g b -> ready c s' g' b).
  { intros b [A (j & n & B & D)]. split; [assumption|]. exists j, n. auto. }
  assert (FC : forall j u, nth_error l j = Some u -> clm u <> Some (gP g)).
  { intros j u J OU. specialize (i_thr0 j u J). unfold thr_ok, clm in *.
    destruct u as [p m a]; cbn [t_pc t_snap t_msg] in *.
    destruct p; try discriminate; injection OU as OU; lia. }
  constructor; cbn [g' put_g gH gW gP gR g_out g_held]; auto; try lia.
  - intros j u J. destruct (upd_inv _ _ _ _ _ J) as [[-> ->]|[Nj J']].
    + unfold thr_ok, t'. cbn [t_pc t_snap go_at]. split; [reflexivity|].
      split; [cbn; lia|]. split; [apply RD, i_pub0; lia|]. split; [|reflexivity].
      unfold zlen. lia.
    + apply (thr_keep c s s' g g' j u (i_thr0 j u J'));
        cbn [g' add_held put_g gH gW gP gR]; [lia|lia|lia|lia|lia|auto|..].
      * intros. split; [lia|apply AT].
      * intros. split; [lia|apply AT].
      * intros. apply AT.
      * intros. rewrite AT. assumption.
  - apply (uniq_upd own l i t t'); auto. intros a A. discriminate.
  - apply (uniq_upd clm l i t t'); auto. intros a A. injection A as <-. right. assumption.
  - intros a A. rewrite AT. destruct (Z.eq_dec a (gP g)) as [->|D].
    + right. exists i, t'. split; [apply upd_hit with t; assumption|reflexivity].
    + destruct (i_done0 a ltac:(lia)) as [E|(j & u & J & U)]; [auto|].
      right. exists j, u. split; [|assumption]. rewrite upd_other; [assumption|].
      intros ->. rewrite T in J. injection J as ->. congruence.
  - intros a A. apply RD. apply i_pub0. lia.
  - intros a. rewrite i_outp0. split.
    + intros [L Q]. split; [lia|]. intros j u J.
      destruct (upd_inv _ _ _ _ _ J) as [[-> ->]|[Nj J']]; [|eauto].
      cbn. intros E. injection E as E. lia.
    + intros [L Q]. assert (a <> gP g).
      { intros ->. apply (Q i t'); [apply upd_hit with t; assumption|reflexivity]. }
      split; [lia|]. intros j u J.
      destruct (Nat.eq_dec j i) as [->|Nj].
      * rewrite T in J. injection J as <-. congruence.
      * apply (Q j u). rewrite upd_other by lia. assumption.
Qed.

(* The dispatch of a claimed record is complete. *)
Lemma inv_emit : forall c s g l i t x t',
  0 < n_ring c -> inv c s g l -> nth_error l i = Some t ->
  rdg t = Some (t_snap t) -> own t = None ->
  (exists j m, held_at g (t_snap t) = Some (j, m) /\ x = line c m) ->
  gR g <= t_snap t < gP g ->
  rdg t' = None -> own t' = None -> clm t' = Some (t_snap t) ->
  thr_ok c s (add_out g (t_snap t, x)) i t' ->
  inv c s (add_out g (t_snap t, x)) (upd l i t').
Proof.
  intros c s g l i t x t' N I T RT OT X L RT' OT' CT' K.
  set (g' := add_out g _) in *.
  assert (HE : forall a, held_at g' a = held_at g a) by reflexivity.
  assert (CT : clm t = Some (t_snap t)) by (apply rdg_clm; assumption).
  destruct I.
  assert (NI : ~ In (t_snap t) (map fst (g_out g))).
  { rewrite i_outp0. intros [_ Q]. exact (Q i t T RT). }
  constructor; cbn [g' add_out gH gW gP gR g_out g_held]; auto.
  - intros j u J. destruct (upd_inv _ _ _ _ _ J) as [[-> ->]|[Nj J']]; [assumption|].
    apply (thr_keep c s s g g' j u (i_thr0 j u J'));
      cbn [g' add_out gH gW gP gR]; [lia|lia|lia|lia|lia|trivial|..].
    + intros. split; [lia|reflexivity].
    + intros. split; [lia|reflexivity].
    + intros. reflexivity.
    + intros. assumption.
  - apply (uniq_upd own l i t t'); auto. intros a A. congruence.
  - apply (uniq_upd clm l i t t'); auto. intros a A. left. congruence.
  - intros a A. destruct (i_done0 a A) as [D|(j & u & J & U)]; [auto|].
    right. destruct (Nat.eq_dec j i) as [->|Nj].
    + exists i, t'. split; [apply upd_hit with t; assumption|].
      rewrite T in J. injection J as ->. congruence.
    + exists j, u. rewrite upd_other by lia. auto.
  - intros a y A. apply in_app_or in A. destruct A as [A|[A|[]]].
    + apply (i_outs0 a y A).
    + injection A as <- <-. assumption.
  - rewrite map_app. cbn [map fst]. apply NoDup_Add with (a := t_snap t) (l := map fst (g_out g)).
    + rewrite <- (app_nil_r (map fst (g_out g))) at 1. apply Add_app.
    + split; assumption.
  - intros a. rewrite map_app, in_app_iff, i_outp0. cbn [map fst In]. split.
    + intros [[A Q]|[A|[]]].
      * split; [assumption|]. intros j u J.
        destruct (upd_inv _ _ _ _ _ J) as [[-> ->]|[Nj J']]; [congruence|eauto].
      * subst a. split; [lia|]. intros j u J.
        destruct (upd_inv _ _ _ _ _ J) as [[-> ->]|[Nj J']]; [congruence|].
        intros E. apply Nj. apply (i_clm0 j i u t (t_snap t)); auto. apply rdg_clm. assumption.
    + intros [A Q]. destruct (Z.eq_dec (t_snap t) a) as [E|D]; [auto|left].
      split; [assumption|]. intros j u J.
      destruct (Nat.eq_dec j i) as [->|Nj].
      * rewrite T in J. injection J as <-. congruence.
      * apply (Q j u). rewrite upd_other by lia. assumption.
Qed.

(* The dispatching thread clears the mark. *)
Lemma inv_clear : forall c s g l i t v t',
  0 < n_ring c -> inv c s g l -> nth_error l i = Some t ->
  clm t = Some (t_snap t) -> own t = None -> rdg t = None ->
  gR g <= t_snap t < gP g -> s_mark v = MARK_INVALID ->
  own t' = None -> clm t' = None ->
  (forall s g, thr_ok c s g i t') ->
  inv c (put s (ix c (t_snap t)) v) g (upd l i t').
Proof.
  intros c s g l i t v t' N I T CT OT RT L V OT' CT' K.
  assert (RT' : rdg t' = None).
  { destruct (rdg t') eqn:E; [apply rdg_clm in E; congruence|reflexivity]. }
  set (a0 := t_snap t) in *. set (s' := put s (ix c a0) v) in *.
  assert (FR : forall b, a0 <> b -> - n_ring c < a0 - b < n_ring c -> at_ c s' b = at_ c s b).
  { intros. unfold s'. apply at_put_other; assumption. }
  destruct I.
  assert (SA : at_ c s' a0 = v) by (apply at_put_same; assumption).
  assert (RD : forall b, ready c s g b -> at_ c s' b = at_ c s b -> ready c s' g b).
  { intros b [A (j & n & B & D)] E. split; [rewrite E; assumption|]. exists j, n. rewrite E. auto. }
  assert (L2 : zlen (x_slots s') = n_ring c).
  { unfold s', put, zlen. cbn [x_slots]. rewrite upd_len. assumption. }
  constructor; auto.
  - intros j u J. destruct (upd_inv _ _ _ _ _ J) as [[-> ->]|[Nj J']]; [apply K|].
    apply (thr_keep c s s' g g j u (i_thr0 j u J')); [lia|lia|lia|lia|lia|trivial|..].
    + intros a OA LA. split; [lia|]. apply FR; lia.
    + intros a CA LA. split; [lia|]. apply FR; [|lia].
      intros E. subst a. apply Nj. symmetry. apply (i_clm0 i j t u a0); auto.
    + intros _ W R. apply FR; lia.
    + intros _ W M. destruct (Z.eq_dec a0 (gR g)) as [E|D].
      * rewrite <- E, SA. assumption.
      * rewrite FR by lia. assumption.
  - apply (uniq_upd own l i t t'); auto. intros a A. congruence.
  - apply (uniq_upd clm l i t t'); auto. intros a A. congruence.
  - intros a A. rewrite FR by lia. auto.
  - intros a A. destruct (Z.eq_dec a0 a) as [<-|D].
    + left. rewrite SA. assumption.
    + rewrite FR by lia. destruct (i_done0 a A) as [E|(j & u & J & U)]; [auto|].
      right. exists j, u. split; [|assumption]. rewrite upd_other; [assumption|].
      intros ->. rewrite T in J. injection J as ->. congruence.
  - intros a A. apply RD; [auto|]. apply FR; lia.
  - intros a A M. assert (E : at_ c s' a = at_ c s a) by (apply FR; lia).
    apply RD; [|assumption]. apply i_res0; [assumption|]. rewrite E in M. assumption.
  - intros a. rewrite i_outp0. apply and_iff_compat_l. split; intros Q j u J.
    + destruct (upd_inv _ _ _ _ _ J) as [[-> ->]|[Nj J']]; [congruence|eauto].
    + destruct (Nat.eq_dec j i) as [->|Nj].
      * rewrite T in J. injection J as <-. congruence.
      * apply (Q j u). rewrite upd_other by lia. assumption.
Qed.

(* A dispatched slot is released. *)
Lemma inv_release : forall c s g l i t t',
  0 < n_ring c -> inv c s g l -> nth_error l i = Some t ->
  gR g < gP g -> s_mark (at_ c s (gR g)) = MARK_INVALID ->
  own t = None -> clm t = None -> own t' = None -> clm t' = None ->
  (forall s g, thr_ok c s g i t') ->
  inv c (put_idx s (x_hold s) (x_write s) (x_proc s) (ix c (gR g + 1)))
        (put_g g (gH g) (gW g) (gP g) (gR g + 1)) (upd l i t').
Proof.
  intros c s g l i t t' N I T RP M0 OT CT OT' CT' K.
  set (s' := put_idx s _ _ _ _). set (g' := put_g g _ _ _ _).
  assert (RT : rdg t = None).
  { destruct (rdg t) eqn:E; [apply rdg_clm in E; congruence|reflexivity]. }
  assert (RT' : rdg t' = None).
  { destruct (rdg t') eqn:E; [apply rdg_clm in E; congruence|reflexivity]. }
  assert (AT : forall b, at_ c s' b = at_ c s b) by reflexivity.
  destruct I.
  assert (RD : forall b, ready c s g b -> ready c s' g' b).
  { intros b [A (j & n & B & D)]. split; [assumption|]. exists j, n. auto. }
  constructor; cbn [g' put_g gH gW gP gR g_out g_held]; auto; try lia.
  - intros j u J. destruct (upd_inv _ _ _ _ _ J) as [[-> ->]|[Nj J']]; [apply K|].
    apply (thr_keep c s s' g g' j u (i_thr0 j u J'));
      cbn [g' add_held put_g gH gW gP gR]; [lia|lia|lia|lia|lia|trivial|..];
      try (intros; split; [lia|apply AT]); try (intros; apply AT); try (intros; rewrite AT; assumption).
    intros a CA LA. split; [|reflexivity].
    destruct (Z.eq_dec a (gR g)) as [->|D]; [|lia]. exfalso.
    specialize (i_thr0 j u J'). unfold thr_ok, clm, ready in *.
    destruct u as [p m a]; cbn [t_pc t_snap t_msg] in *.
    destruct p; try discriminate; injection CA as ->;
      unfold MARK_READY, MARK_HOLD, MARK_INVALID in *.
    + destruct i_thr0 as (_ & _ & [Q _] & _). lia.
    + destruct i_thr0 as (_ & _ & [Q _]). lia.
  - apply (uniq_upd own l i t t'); auto. intros a A. congruence.
  - apply (uniq_upd clm l i t t'); auto. intros a A. congruence.
  - intros a A. rewrite AT. destruct (Z.eq_dec a (gR g + n_ring c)) as [->|D].
    + unfold at_ in *. rewrite ix_lap. assumption.
    + apply i_free0. lia.
  - intros a A. rewrite AT. destruct (i_done0 a ltac:(lia)) as [D|(j & u & J & U)]; [auto|].
    right. exists j, u. split; [|assumption]. rewrite upd_other; [assumption|].
    intros ->. rewrite T in J. injection J as ->. congruence.
  - intros a. rewrite i_outp0. apply and_iff_compat_l. split; intros Q j u J.
    + destruct (upd_inv _ _ _ _ _ J) as [[-> ->]|[Nj J']]; [congruence|eauto].
    + destruct (Nat.eq_dec j i) as [->|Nj].
      * rewrite T in J. injection J as <-. congruence.
      * apply (Q j u). rewrite upd_other by lia. assumption.
Qed.

(* ---- every step preserves the invariant ---- *)

Ltac local_step := eapply inv_local; try eassumption;
  [ repeat split; reflexivity | repeat split; reflexivity | .. ].
Ltac tpc := cbn [go go_at t_pc t_snap t_msg] in *.
Ltac with_t f := match goal with T : nth_error _ _ = Some ?t |- _ => f t end.
Ltac quick := try exact I; try reflexivity; try (left; reflexivity); try (right; reflexivity).

Lemma inv_tstep : forall c s g l i t s' g' t',
  0 < n_ring c -> inv c s g l -> nth_error l i = Some t -> fresh_thr c g t ->
  tstep c i s g t = Some (s', g', t') -> inv c s' g' (upd l i t').
Proof.
  intros c s g l i t s' g' t' N IV T F E.
  pose proof (i_thr _ _ _ _ IV i t T) as K.
  pose proof (i_ord _ _ _ _ IV) as OR.
  pose proof (i_len _ _ _ _ IV) as LN.
  destruct t as [p m a]. unfold tstep in E. unfold thr_ok, fresh_thr, owned in *.
  destruct p; tpc; try discriminate.
  - (* HState *) injection E as <- <- <-.
    local_step; destruct (running s); quick.
  - (* HLoad *) injection E as <- <- <-.
    local_step; quick. split; [apply IV|tpc; lia].
  - (* HRead *) destruct K as [K1 K2]. subst old. injection E as <- <- <-.
    rewrite nxt_ix, (i_read _ _ _ _ IV).
    local_step; destruct (ix c (a + 1) =? ix c (gR g)) eqn:Q; quick.
    split; [reflexivity|]. tpc. split; [assumption|].
    destruct (Z_le_gt_dec (a + 1) (gR g + n_ring c - 1)) as [L|L]; [assumption|].
    exfalso. assert (R : a + 1 = gR g + n_ring c) by lia.
    rewrite R, ix_lap, Z.eqb_refl in Q. discriminate.
  - (* HCas *) destruct K as (K1 & K2 & K3). subst old.
    rewrite (i_hold _ _ _ _ IV) in E.
    destruct (ix c (gH g) =? ix c a) eqn:Q.
    + apply Z.eqb_eq in Q. apply ix_eq in Q; [|assumption|lia]. subst a.
      injection E as <- <- <-. rewrite nxt_ix.
      exact (inv_hold c s g l i _ N IV T K3 eq_refl eq_refl).
    + injection E as <- <- <-. local_step; quick.
  - (* HCount *) injection E as <- <- <-. local_step; quick; exact K.
  - (* HMark *) destruct K as (-> & K1 & K2 & K3). injection E as <- <- <-.
    with_t ltac:(fun t => apply (inv_put_own c s g l i t)); tpc; quick; try assumption; tpc.
    + unfold MARK_READY, MARK_INVALID in *. lia.
    + cbn. discriminate.
    + unfold thr_ok, owned. tpc. rewrite at_put_same by assumption. auto.
  - (* HOut *) injection E as <- <- <-. local_step; destruct (running s); quick.
  - (* FInit *) destruct K as (-> & K1 & K2 & K3). injection E as <- <- <-.
    fold (at_ c s a) in *. rewrite K3.
    with_t ltac:(fun t => apply (inv_put_own c s g l i t)); tpc; quick; try assumption; tpc.
    + unfold MARK_READY, MARK_HOLD in *. lia.
    + cbn. discriminate.
    + unfold thr_ok, owned. tpc. rewrite at_put_same by assumption. auto.
  - (* Fill *) destruct K as (-> & (K1 & K2 & K3) & K4). fold (at_ c s a) in *.
    destruct rest as [|b rest].
    + injection E as <- <- <-. local_step; quick.
      unfold thr_ok, owned. tpc. rewrite app_nil_r in K4. auto.
    + injection E as <- <- <-. rewrite K3.
      with_t ltac:(fun t => apply (inv_put_own c s g l i t)); tpc; quick; try assumption; tpc.
      * unfold MARK_READY, MARK_HOLD in *. lia.
      * cbn. discriminate.
      * unfold thr_ok, owned. tpc. rewrite at_put_same by assumption.
        cbn [s_mark s_text]. rewrite <- app_assoc. auto.
  - (* PState *) injection E as <- <- <-. local_step; destruct (running s); quick; exact K.
  - (* PTerm *) destruct K as (-> & (K1 & K2 & K3) & K4). fold (at_ c s a) in *.
    injection E as <- <- <-. rewrite K3, K4.
    with_t ltac:(fun t => apply (inv_put_own c s g l i t)); tpc; quick; try assumption; tpc.
    + unfold MARK_READY, MARK_HOLD in *. lia.
    + cbn. discriminate.
    + unfold thr_ok, owned. tpc. rewrite at_put_same by assumption. auto.
  - (* PMark *) destruct K as (-> & (K1 & K2 & K3) & K4). fold (at_ c s a) in *.
    injection E as <- <- <-. rewrite K4.
    with_t ltac:(fun t => apply (inv_put_own c s g l i t)); tpc; quick; try assumption; tpc.
    + unfold MARK_READY, MARK_HOLD in *. lia.
    + intros _. exists i, m. auto.
  - (* PPrio *) injection E as <- <- <-. local_step; quick.
  - (* PLoad *) injection E as <- <- <-. local_step; quick. split; [apply IV|tpc; lia].
  - (* PHold *) destruct K as [-> K]. injection E as <- <- <-.
    rewrite (i_hold _ _ _ _ IV).
    local_step; destruct (ix c a =? ix c (gH g)) eqn:Q; quick.
    split; [reflexivity|]. tpc. split; [assumption|].
    destruct (Z.eq_dec a (gH g)) as [->|D]; [rewrite Z.eqb_refl in Q; discriminate|lia].
  - (* PReady *) destruct K as (-> & K1 & K2). injection E as <- <- <-. fold (at_ c s a) in *.
    local_step; destruct (s_mark (at_ c s a) =? MARK_READY) eqn:Q; quick.
    split; [reflexivity|]. tpc. split; [assumption|]. split; [assumption|].
    intros W. apply (i_res _ _ _ _ IV); lia.
  - (* PCas *) destruct K as (-> & K1 & K2 & K3). rewrite (i_write _ _ _ _ IV) in E.
    destruct (ix c (gW g) =? ix c a) eqn:Q.
    + apply Z.eqb_eq in Q. apply ix_eq in Q; [|assumption|lia]. subst a.
      injection E as <- <- <-. rewrite nxt_ix.
      with_t ltac:(fun t => apply (inv_publish c s g l i t)); quick; try assumption; auto;
      intros; exact I.
    + injection E as <- <- <-. local_step; quick.
  - (* PCount *) injection E as <- <- <-. local_step; quick.
  - (* PWhile *) injection E as <- <- <-. local_step; destruct (running s); quick.
  - (* PSync *) injection E as <- <- <-. local_step; destruct (is_sync c && running s); quick.
  - (* CLoad *) injection E as <- <- <-. local_step; quick. split; [apply IV|tpc; lia].
  - (* CWrite *) destruct K as [-> K]. injection E as <- <- <-.
    rewrite (i_write _ _ _ _ IV).
    local_step; destruct (ix c a =? ix c (gW g)) eqn:Q; quick.
    split; [reflexivity|]. tpc. split; [assumption|].
    destruct (Z.eq_dec a (gW g)) as [->|D]; [rewrite Z.eqb_refl in Q; discriminate|lia].
  - (* CCas *) destruct K as (-> & K1 & K2). rewrite (i_proc _ _ _ _ IV) in E.
    destruct (ix c (gP g) =? ix c a) eqn:Q.
    + apply Z.eqb_eq in Q. apply ix_eq in Q; [|assumption|lia]. subst a.
      injection E as <- <- <-. rewrite nxt_ix.
      exact (inv_claim c s g l i _ N IV T K2 eq_refl eq_refl).
    + injection E as <- <- <-. local_step; quick.
  - (* CRead *) destruct K as (-> & K1 & K2 & K3 & K4). fold (at_ c s a) in *.
    destruct (k <? zlen (s_text (at_ c s a))) eqn:Q.
    + injection E as <- <- <-. local_step; quick.
      unfold thr_ok. tpc. split; [reflexivity|]. split; [assumption|]. split; [assumption|].
      split; [lia|]. rewrite K4. unfold zlen in *.
      replace (Z.to_nat (k + 1)) with (Z.to_nat k + 1)%nat by lia.
      rewrite (firstn_skipn_snoc (Z.to_nat k)); [reflexivity|lia].
    + injection E as <- <- <-.
      with_t ltac:(fun t => apply (inv_emit c s g l i t)); tpc; quick; try assumption.
      * destruct K2 as [_ (j & n & A & B)]. exists j, n. split; [assumption|].
        rewrite K4, <- B. apply firstn_all2. unfold zlen in *. lia.
      * unfold thr_ok. tpc. auto.
  - (* CMark *) destruct K as (-> & K1 & K2). injection E as <- <- <-.
    with_t ltac:(fun t => apply (inv_clear c s g l i t)); tpc; quick; try assumption;
    intros; exact I.
  - (* CCount *) injection E as <- <- <-. local_step; quick.
  - (* CBytes *) injection E as <- <- <-. local_step; quick.
  - (* RLoad *) injection E as <- <- <-. local_step; quick. split; [apply IV|tpc; lia].
  - (* RProc *) destruct K as [-> K]. injection E as <- <- <-.
    rewrite (i_proc _ _ _ _ IV).
    local_step; destruct (ix c a =? ix c (gP g)) eqn:Q; quick.
    split; [reflexivity|]. tpc. split; [assumption|].
    destruct (Z.eq_dec a (gP g)) as [->|D]; [rewrite Z.eqb_refl in Q; discriminate|lia].
  - (* RMark *) destruct K as (-> & K1 & K2). injection E as <- <- <-. fold (at_ c s a) in *.
    local_step; destruct (s_mark (at_ c s a) =? MARK_INVALID) eqn:Q; quick.
    split; [reflexivity|]. tpc. split; [assumption|]. split; [assumption|].
    intros _. lia.
  - (* RCas *) destruct K as (-> & K1 & K2 & K3). rewrite (i_read _ _ _ _ IV) in E.
    destruct (ix c (gR g) =? ix c a) eqn:Q.
    + apply Z.eqb_eq in Q. apply ix_eq in Q; [|assumption|lia]. subst a.
      injection E as <- <- <-. rewrite nxt_ix.
      with_t ltac:(fun t => apply (inv_release c s g l i t)); quick; try assumption; auto;
      intros; exact I.
    + injection E as <- <- <-. local_step; quick.
  - (* CNull *) injection E as <- <- <-.
    eapply inv_local; try eassumption; quick;
      destruct (x_state s =? CHANNEL_STATE_NULL); repeat split; reflexivity.
  - (* CLoop *) injection E as <- <- <-.
    local_step; destruct (is_sync c); quick; destruct (running s); quick.
  - (* CRest *) injection E as <- <- <-.
    local_step; destruct (x_write s =? x_read s); quick.
  - (* CFin *) injection E as <- <- <-. local_step; quick.
Qed.
