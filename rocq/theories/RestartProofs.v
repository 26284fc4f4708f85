(* A channel after a quiet restart behaves like a new one: runs do not depend on
   the history nor on the counters. *)
From Coq Require Import ZArith List Bool Lia ZifyBool ZifyNat ZifyN Permutation.
From Verif Require Import Base BaseFacts LoggerState Ring RingSpec RingInv RingProofs RingLive RingRun RingQuiet
  RingStop Recover RecoverSpec RecoverRing RestartSpec.
Import ListNotations.
Open Scope Z_scope.

(* what is carried over from the past: how far the indices had come and what had
   been reserved, delivered and started *)
Record past := mkPast { pH : Z; pW : Z; pP : Z; pR : Z;
  p_held : list (nat * text); p_out : list text; p_started : list (nat * text) }.

Definition ghost_sim (p : past) (g g' : ghost) : Prop :=
  gH g = pH p + gH g' /\ gW g = pW p + gW g' /\ gP g = pP p + gP g' /\ gR g = pR p + gR g' /\
  g_held g = p_held p ++ g_held g' /\ map snd (g_out g) = p_out p ++ map snd (g_out g') /\
  g_started g = p_started p ++ g_started g'.

Definition sh_sim (x x' : shared) : Prop := exists a b d e f, x' = put_n x a b d e f.

(* which index the snapshot of a thread at this place is of *)
Definition snap_of (p : past) (q : pc) : option Z :=
  match q with
  | HRead _ | HCas _ => Some (pH p)
  | PHold _ | PReady _ | PCas _ => Some (pW p)
  | CWrite _ | CCas _ => Some (pP p)
  | RProc _ | RMark _ | RCas _ => Some (pR p)
  | _ => None
  end.
Definition uses_msg (q : pc) : bool :=
  match q with
  | HState | HLoad | HRead _ | HCas _ | HOut | HCount _ | HMark _ | FInit _ => true
  | _ => false
  end.

Definition thr_sim (p : past) (t t' : thr) : Prop :=
  t_pc t = t_pc t' /\ (uses_msg (t_pc t) = true -> t_msg t = t_msg t') /\
  (forall d, snap_of p (t_pc t) = Some d -> t_snap t = d + t_snap t').

Definition sim (p : past) (s s' : st) : Prop :=
  sh_sim (sh s) (sh s') /\ ghost_sim p (gh s) (gh s') /\ Forall2 (thr_sim p) (ths s) (ths s').

Lemma sh_sim_intro : forall x a b d e f, sh_sim x (put_n x a b d e f).
Proof. intros. do 5 eexists. reflexivity. Qed.
Lemma put_n_n : forall x a b d e f a' b' d' e' f',
  put_n (put_n x a b d e f) a' b' d' e' f' = put_n x a' b' d' e' f'.
Proof. reflexivity. Qed.
Lemma sh_sim_n : forall x a b d e f a' b' d' e' f', sh_sim (put_n x a b d e f) (put_n x a' b' d' e' f').
Proof. intros. exists a', b', d', e', f'. reflexivity. Qed.

Lemma thr_sim_at : forall p q m m' n n', (uses_msg q = true -> m = m') ->
  (forall d, snap_of p q = Some d -> n = d + n') -> thr_sim p (mkThr q m n) (mkThr q m' n').
Proof. intros. split; [reflexivity|]. split; assumption. Qed.

Lemma tstep_sim : forall p c tid x g t x' g' t' y h u,
  sh_sim x x' -> ghost_sim p g g' -> thr_sim p t t' -> tstep c tid x g t = Some (y, h, u) ->
  exists y' h' u', tstep c tid x' g' t' = Some (y', h', u') /\ sh_sim y y' /\ ghost_sim p h h' /\ thr_sim p u u'.
Proof.
  intros p c tid x g t x' g' t' y h u (a & b & d & e & f & ->) G T H.
  destruct T as (TP & TM & TS). destruct t as [q m n], t' as [q' m' n']. cbn [t_pc t_msg t_snap] in *. subst q'.
  pose proof G as (G1 & G2 & G3 & G4 & G5 & G6 & G7).
  unfold tstep in *. cbn [t_pc t_msg t_snap] in *.
  destruct q; cbn [snap_of uses_msg] in *;
    repeat match goal with
    | H : match ?l with [] => _ | _ => _ end = _ |- _ => destruct l
    | H : (if ?z then _ else _) = Some _ |- _ => destruct z eqn:?
    end; try discriminate; injection H as <- <- <-;
    cbn [put_n x_hold x_write x_proc x_read x_slots x_state] in *;
    change (get (put_n x a b d e f)) with (get x);
    repeat match goal with H : ?z = _ :> bool |- context [if ?z then _ else _] => rewrite H end;
    do 3 eexists; (split; [reflexivity|]);
    (split; [first [do 5 eexists; reflexivity | destruct (x_state x =? CHANNEL_STATE_NULL); do 5 eexists; reflexivity]|]);
    (split; [unfold ghost_sim, put_g, add_held, add_out; cbn [gH gW gP gR g_held g_out g_started];
             rewrite ?map_app, ?G5, ?G6, ?G7, ?TM by reflexivity; cbn [map snd]; rewrite <- ?app_assoc;
             repeat split; try assumption; try lia
            |try (apply thr_sim_at; cbn [uses_msg snap_of]; intros;
                  repeat match goal with
                  | H : context [if ?z then _ else _] |- _ => destruct z
                  end; cbn [uses_msg snap_of] in *; try discriminate; auto; congruence)]).
  rewrite TM by reflexivity. apply thr_sim_at; discriminate.
Qed.

Lemma F2_nth : forall (A B : Type) (P : A -> B -> Prop) l l', Forall2 P l l' ->
  forall n, match nth_error l n, nth_error l' n with
            | Some x, Some y => P x y | None, None => True | _, _ => False end.
Proof. intros A B P l l' H. induction H; intros [|n]; cbn; auto. apply IHForall2. Qed.

Lemma F2_upd : forall (A B : Type) (P : A -> B -> Prop) l l', Forall2 P l l' ->
  forall n x y, P x y -> Forall2 P (upd l n x) (upd l' n y).
Proof.
  intros A B P l l' H. unfold upd. induction H as [|a b l l' Hab H IH]; intros [|n] x y Q; cbn.
  - constructor. - constructor. - constructor; assumption.
  - constructor; [assumption|]. apply IH. assumption.
Qed.

Lemma wipe_n : forall c n x a b d e f r,
  wipe n c (put_n x a b d e f) r = put_n (wipe n c x r) a b d e f.
Proof.
  intros c n. induction n as [|n IH]; intros; [reflexivity|]. cbn [wipe].
  change (x_write (put_n x a b d e f)) with (x_write x).
  destruct (r =? x_write x); [reflexivity|]. exact (IH (put x r _) a b d e f (nxt c r)).
Qed.

Lemma step_sim : forall p c s s' l s1, sim p s s' -> step c s l = Some s1 ->
  exists s1', step c s' l = Some s1' /\ sim p s1 s1'.
Proof.
  intros p c [x g l] [x' g' l'] lb s1 (X & G & T) H. cbn [sh gh ths] in *.
  destruct lb; cbn [step sh gh ths] in *.
  - pose proof (F2_nth _ _ _ _ _ T tid) as N. destruct (nth_error l tid) as [t|]; [|discriminate].
    destruct (nth_error l' tid) as [t'|]; [|contradiction]. destruct N as (N1 & N2 & N3). rewrite <- N1.
    destruct (t_pc t); try discriminate. injection H as <-. eexists. split; [reflexivity|].
    split; [exact X|]. split.
    + destruct G as (G1 & G2 & G3 & G4 & G5 & G6 & G7). cbn [gh]. unfold ghost_sim, add_started.
      cbn [gH gW gP gR g_held g_out g_started]. rewrite G7, <- app_assoc. repeat split; assumption.
    + cbn [ths]. apply F2_upd; [exact T|]. split; [reflexivity|]. split; [reflexivity|discriminate].
  - pose proof (F2_nth _ _ _ _ _ T tid) as N. destruct (nth_error l tid) as [t|]; [|discriminate].
    destruct (nth_error l' tid) as [t'|]; [|contradiction].
    destruct (tstep c tid x g t) as [[[y h] u]|] eqn:E; [|discriminate]. injection H as <-.
    destruct (tstep_sim p c tid x g t x' g' t' y h u X G N E) as (y' & h' & u' & E' & S1 & S2 & S3).
    rewrite E'. eexists. split; [reflexivity|]. split; [exact S1|]. split; [exact S2|].
    cbn [ths]. apply F2_upd; assumption.
  - destruct X as (a & b & d & e & f & ->). change (x_ctl (put_n x a b d e f)) with (x_ctl x).
    destruct (x_ctl x =? 0); [|discriminate]. injection H as <-. eexists. split; [reflexivity|].
    split; [do 5 eexists; reflexivity|]. split; assumption.
  - destruct X as (a & b & d & e & f & ->). change (x_ctl (put_n x a b d e f)) with (x_ctl x).
    destruct (x_ctl x =? 1); [|discriminate]. destruct (is_sync c).
    { injection H as <-. eexists. split; [reflexivity|]. split; [do 5 eexists; reflexivity|]. split; assumption. }
    pose proof (F2_nth _ _ _ _ _ T 0%nat) as N. destruct (nth_error l 0) as [t|]; [|discriminate].
    destruct (nth_error l' 0) as [t'|]; [|contradiction]. destruct N as (N1 & _). rewrite <- N1.
    destruct (t_pc t); try discriminate. injection H as <-. eexists. split; [reflexivity|].
    split; [do 5 eexists; reflexivity|]. split; assumption.
  - destruct X as (a & b & d & e & f & ->). change (x_ctl (put_n x a b d e f)) with (x_ctl x).
    destruct (x_ctl x =? 2); [|discriminate]. injection H as <-. eexists. split; [reflexivity|].
    split; [|split; assumption]. unfold clean. cbn [sh]. change (x_read (put_n x a b d e f)) with (x_read x).
    rewrite wipe_n. do 5 eexists. reflexivity.
  - destruct X as (a & b & d & e & f & ->). change (x_ctl (put_n x a b d e f)) with (x_ctl x).
    destruct (x_ctl x =? 3); [|discriminate]. destruct (is_sync c).
    { injection H as <-. eexists. split; [reflexivity|]. split; [do 5 eexists; reflexivity|]. split; assumption. }
    pose proof (F2_nth _ _ _ _ _ T 0%nat) as N. destruct (nth_error l 0) as [t|]; [|discriminate].
    destruct (nth_error l' 0) as [t'|]; [|contradiction].
    injection H as <-. eexists. split; [reflexivity|].
    split; [do 5 eexists; reflexivity|]. split; [exact G|]. cbn [ths]. apply F2_upd; [exact T|].
    split; [reflexivity|]. split; discriminate.
Qed.

Lemma run_sim : forall p c ls s s' s1, sim p s s' -> run c s ls = Some s1 ->
  exists s1', run c s' ls = Some s1' /\ sim p s1 s1'.
Proof.
  intros p c ls. induction ls as [|l ls IH]; intros s s' s1 R H; cbn [run] in *.
  - injection H as <-. eauto.
  - destruct (step c s l) as [s2|] eqn:E; [|discriminate].
    destruct (step_sim p c s s' l s2 R E) as (s2' & E' & R'). rewrite E'. exact (IH _ _ _ R' H).
Qed.

(* the other way round: the new channel can do nothing more *)
Lemma step_sim_none : forall p c s s' l, sim p s s' -> step c s l = None -> step c s' l = None.
Proof.
  intros p c [x g l] [x' g' l'] lb (X & G & T) H. cbn [sh gh ths] in *.
  destruct lb; cbn [step sh gh ths] in *.
  - pose proof (F2_nth _ _ _ _ _ T tid) as N. destruct (nth_error l tid) as [t|], (nth_error l' tid) as [t'|];
      try contradiction; [|reflexivity]. destruct N as (N1 & _). rewrite <- N1. destruct (t_pc t); try discriminate; reflexivity.
  - pose proof (F2_nth _ _ _ _ _ T tid) as N. destruct (nth_error l tid) as [t|], (nth_error l' tid) as [t'|];
      try contradiction; [|reflexivity]. destruct N as (N1 & _). unfold tstep in *. rewrite <- N1.
    destruct (t_pc t); try match goal with H : match ?l with [] => _ | _ => _ end = None |- _ => destruct l end;
      try reflexivity; try discriminate;
      repeat match goal with H : context [if ?z then _ else _] |- _ => destruct z; try discriminate end.
    destruct rest; discriminate.
  - destruct X as (a & b & d & e & f & ->). change (x_ctl (put_n x a b d e f)) with (x_ctl x).
    destruct (x_ctl x =? 0); [discriminate|reflexivity].
  - destruct X as (a & b & d & e & f & ->). change (x_ctl (put_n x a b d e f)) with (x_ctl x).
    destruct (x_ctl x =? 1); [|reflexivity]. destruct (is_sync c); [discriminate|].
    pose proof (F2_nth _ _ _ _ _ T 0%nat) as N. destruct (nth_error l 0) as [t|], (nth_error l' 0) as [t'|];
      try contradiction; [|reflexivity]. destruct N as (N1 & _). rewrite <- N1. destruct (t_pc t); try discriminate; reflexivity.
  - destruct X as (a & b & d & e & f & ->). change (x_ctl (put_n x a b d e f)) with (x_ctl x).
    destruct (x_ctl x =? 2); [discriminate|reflexivity].
  - destruct X as (a & b & d & e & f & ->). change (x_ctl (put_n x a b d e f)) with (x_ctl x).
    destruct (x_ctl x =? 3); [|reflexivity]. destruct (is_sync c); [discriminate|].
    pose proof (F2_nth _ _ _ _ _ T 0%nat) as N. destruct (nth_error l 0) as [t|], (nth_error l' 0) as [t'|];
      try contradiction; [discriminate|reflexivity].
Qed.

Lemma no_lap_sim : forall p c ls s s', sim p s s' -> no_lap c s ls -> no_lap c s' ls.
Proof.
  intros p c ls. induction ls as [|l ls IH]; intros s s' R H; [exact H|]. destruct H as [F H]. split.
  - destruct l; cbn [fresh] in *; auto. intros t' T'. destruct R as (_ & G & T).
    pose proof (F2_nth _ _ _ _ _ T tid) as N. rewrite T' in N.
    destruct (nth_error (ths s) tid) as [t|] eqn:E; [|contradiction]. specialize (F t eq_refl).
    destruct G as (G1 & G2 & G3 & G4 & _). destruct N as (N1 & _ & N3).
    unfold fresh_thr in *. rewrite <- N1. destruct (t_pc t); auto; cbn [snap_of] in N3;
      specialize (N3 _ eq_refl); lia.
  - intros s1' E'. destruct (step c s l) as [s1|] eqn:E.
    + destruct (step_sim p c s s' l s1 R E) as (s2 & E2 & R2). rewrite E' in E2. injection E2 as <-.
      exact (IH _ _ R2 (H s1 eq_refl)).
    + rewrite (step_sim_none p c s s' l R E) in E'. discriminate.
Qed.

Definition add_past (p q : past) : past :=
  mkPast (pH p + pH q) (pW p + pW q) (pP p + pP q) (pR p + pR q)
         (p_held p ++ p_held q) (p_out p ++ p_out q) (p_started p ++ p_started q).

Lemma sim_trans : forall p q s s' s'', sim p s s' -> sim q s' s'' -> sim (add_past p q) s s''.
Proof.
  intros p q s s' s'' ((a & b & d & e & f & X) & G & T) ((a' & b' & d' & e' & f' & X') & G' & T').
  split; [|split].
  - rewrite X', X. do 5 eexists. reflexivity.
  - destruct G as (G1 & G2 & G3 & G4 & G5 & G6 & G7), G' as (K1 & K2 & K3 & K4 & K5 & K6 & K7).
    unfold ghost_sim, add_past. cbn [pH pW pP pR p_held p_out p_started].
    rewrite G5, G6, G7, K5, K6, K7, !app_assoc. repeat split; lia.
  - clear - T T'. revert T'. generalize (ths s''). induction T as [|t t' l l' (A1 & A2 & A3) T IH]; intros l'' T'.
    + inversion T'. constructor.
    + inversion T' as [|? t'' ? m (B1 & B2 & B3) T2]; subst. constructor; [|apply IH; assumption].
      split; [congruence|]. split.
      * intros U. rewrite A2 by exact U. apply B2. rewrite <- A1. exact U.
      * intros z Z. rewrite <- A1 in B3. destruct (t_pc t); cbn [snap_of add_past pH pW pP pR] in *; try discriminate;
          injection Z as <-; rewrite (A3 _ eq_refl), (B3 _ eq_refl); lia.
Qed.

Lemma sim_refl : forall s, sim (mkPast 0 0 0 0 [] [] []) s s.
Proof.
  intros s. split; [|split].
  - destruct (sh s) eqn:E. do 5 eexists. reflexivity.
  - repeat split.
  - induction (ths s) as [|t l IH]; constructor; [|exact IH]. split; [reflexivity|]. split; [reflexivity|].
    intros d D. destruct (t_pc t); cbn [snap_of pH pW pP pR] in D; try discriminate; injection D as <-; reflexivity.
Qed.

Lemma sim_quiet : forall p c s s', sim p s s' -> quiet c s -> quiet c s'.
Proof.
  intros p c s s' (_ & _ & T) Q tid t' T'. pose proof (F2_nth _ _ _ _ _ T tid) as N. rewrite T' in N.
  destruct (nth_error (ths s) tid) as [t|] eqn:E; [|contradiction]. destruct N as (N1 & _). rewrite <- N1.
  exact (Q tid t E).
Qed.

(* ---- the end of a session ---- *)
Lemma blank_free : forall c s, 0 < n_ring c -> inv_st c s -> gH (gh s) = gR (gh s) -> blank c (x_slots (sh s)).
Proof.
  intros c s N IV E. pose proof (i_len _ _ _ _ IV) as LN. split; [exact LN|].
  apply Forall_forall. intros x X. apply In_nth with (d := dslot) in X. destruct X as (n & L & <-).
  set (h := gH (gh s)) in *. set (z := Z.of_nat n).
  assert (ZB : 0 <= z < n_ring c) by (unfold zlen in LN; lia).
  pose (a := h + (z - h) mod n_ring c).
  assert (AB : h <= a < h + n_ring c) by (unfold a; pose proof (Z.mod_pos_bound (z - h) (n_ring c) N); lia).
  assert (IA : ix c a = z).
  { unfold ix, a. rewrite Zplus_mod_idemp_r. replace (h + (z - h)) with z by ring. apply Z.mod_small. assumption. }
  pose proof (i_free _ _ _ _ IV a ltac:(fold h; lia)) as M. unfold at_, get in M. rewrite IA in M.
  unfold z in M. rewrite Nat2Z.id in M. exact M.
Qed.

Lemma upd_length : forall (A : Type) (l : list A) n x, length (upd l n x) = length l.
Proof.
  intros A l. unfold upd. induction l as [|a l IH]; intros [|n] x; cbn; try reflexivity. f_equal. apply IH.
Qed.
Lemma step_length : forall c s l s', step c s l = Some s' -> length (ths s') = length (ths s).
Proof.
  intros c s l s' H. destruct l; cbn [step] in H;
    repeat match goal with
    | H : match ?z with _ => _ end = Some _ |- _ => destruct z; try discriminate
    | H : (if ?z then _ else _) = Some _ |- _ => destruct z; try discriminate
    end; injection H as <-; cbn [ths]; try reflexivity; apply upd_length.
Qed.
Lemma run_length : forall c ls s s', run c s ls = Some s' -> length (ths s') = length (ths s).
Proof.
  intros c ls. induction ls as [|l ls IH]; intros s s' H; cbn [run] in H; [injection H as <-; reflexivity|].
  destruct (step c s l) eqn:E; [|discriminate]. rewrite (IH _ _ H). exact (step_length _ _ _ _ E).
Qed.

(* a sync channel that is stopped while no thread is inside a log statement *)
Definition asleep (x : shared) (g0 : ghost) (s : st) : Prop :=
  sh s = x /\ (exists e, gh s = mkGhost (gH g0) (gW g0) (gP g0) (gR g0) (g_held g0) (g_out g0) (g_started g0 ++ e)) /\
  forall i t, nth_error (ths s) i = Some t -> match t_pc t with Idle | HState | HOut => True | _ => False end.

Lemma upd_nth : forall (A : Type) (l : list A) n x i y, nth_error (upd l n x) i = Some y ->
  y = x \/ nth_error l i = Some y.
Proof.
  intros A l. unfold upd. induction l as [|a l IH]; intros [|n] x [|i] y H; cbn in *; try discriminate; auto.
  - injection H as <-. auto.
  - apply IH in H. exact H.
Qed.

Lemma asleep_run : forall c x g0 ls s s', running x = false -> asleep x g0 s -> threads_only ls ->
  run c s ls = Some s' -> asleep x g0 s'.
Proof.
  intros c x g0 ls. induction ls as [|l ls IH]; intros s s' NR A TO H; cbn [run] in H; [injection H as <-; exact A|].
  inversion TO as [|? ? L TO']; subst. destruct (step c s l) as [s1|] eqn:E; [|discriminate].
  apply (IH s1 s' NR); [|exact TO'|exact H]. destruct A as (A1 & (e & A2) & A3).
  destruct l; try contradiction; cbn [step] in E.
  - destruct (nth_error (ths s) tid) as [t|] eqn:T; [|discriminate]. destruct (t_pc t); try discriminate.
    injection E as <-. split; [exact A1|]. split.
    + exists (e ++ [(tid, msg)]). cbn [gh]. rewrite A2. unfold add_started.
      cbn [gH gW gP gR g_held g_out g_started]. rewrite app_assoc. reflexivity.
    + cbn [ths]. intros i u U. destruct (upd_nth _ _ _ _ _ _ U) as [->|V]; [exact I|exact (A3 i u V)].
  - destruct (nth_error (ths s) tid) as [t|] eqn:T; [|discriminate].
    destruct (tstep c tid (sh s) (gh s) t) as [[[y h] u]|] eqn:TS; [|discriminate]. injection E as <-.
    pose proof (A3 tid t T) as P. unfold tstep in TS. rewrite A1, NR in TS.
    destruct (t_pc t); try contradiction; try discriminate; injection TS as <- <- <-;
      (split; [reflexivity|]); (split; [exists e; exact A2|]); cbn [ths]; intros i u U;
      (destruct (upd_nth _ _ _ _ _ _ U) as [->|V]; [exact I|exact (A3 i u V)]).
Qed.

Definition past_of (g : ghost) : past :=
  mkPast (gH g) (gW g) (gP g) (gR g) (g_held g) (map snd (g_out g)) (g_started g).

(* everything reserved has been delivered *)
Record flat (c : rcfg) (p : past) : Prop := mkFlat {
  f_w : pW p = pH p; f_p : pP p = pH p; f_r : pR p = pH p;
  f_len : zlen (p_held p) = pH p;
  f_perm : Permutation (p_out p) (map (fun e => line c (snd e)) (p_held p));
  f_out : is_sync c = false -> p_out p = map (fun e => line c (snd e)) (p_held p);
  f_sub : forall tid, subseq (of_thread tid (p_held p)) (of_thread tid (p_started p))
}.

Lemma sim_start : forall c slots k s, sh_sim (sh s) (start_shared slots) ->
  length (ths s) = length (ths (start c slots k)) ->
  (forall i u, nth_error (ths s) i = Some u -> t_pc u = if negb (is_sync c) && Nat.eqb i 0 then CLoad else Idle) ->
  sim (past_of (gh s)) s (start c slots k).
Proof.
  intros c slots k s X L P. split; [exact X|]. split.
  - unfold start. cbn [gh]. unfold ghost_sim, past_of. cbn [pH pW pP pR p_held p_out p_started gH gW gP gR g_held g_out g_started map].
    rewrite !app_nil_r. repeat split; lia.
  - assert (Q : forall i u, nth_error (ths (start c slots k)) i = Some u ->
              t_pc u = if negb (is_sync c) && Nat.eqb i 0 then CLoad else Idle).
    { unfold start. cbn [ths]. intros i u U. destruct (is_sync c).
      - cbn. apply nth_error_In, repeat_spec in U. subst u. reflexivity.
      - destruct i as [|i]; cbn in *; [injection U as <-; reflexivity|]. apply nth_error_In, repeat_spec in U. subst u. reflexivity. }
    revert L P Q. generalize (ths s) (ths (start c slots k)). intros a b L P Q.
    assert (R : forall i x y, nth_error a i = Some x -> nth_error b i = Some y ->
              thr_sim (past_of (gh s)) x y).
    { intros i x y X1 Y1. specialize (P i x X1). specialize (Q i y Y1). split; [congruence|].
      rewrite P. destruct (negb (is_sync c) && Nat.eqb i 0); split; discriminate. }
    clear P Q. revert b L R. induction a as [|x a IH]; intros [|y b] L R; try discriminate; constructor.
    + apply (R 0%nat); reflexivity.
    + apply IH; [injection L as L; exact L|]. intros i. exact (R (S i)).
Qed.

Lemma end_session : forall c slots k ls1 s1 s2 ls2 s3 s4, cfg_ok c -> blank c slots ->
  reaches c slots k ls1 s1 -> threads_only ls1 -> quiet c s1 ->
  step c s1 LStop = Some s2 -> run c s2 ls2 = Some s3 ->
  no_lap c (start c slots k) (ls1 ++ LStop :: ls2) -> threads_only ls2 -> quiet c s3 ->
  run c s3 (restart c) = Some s4 ->
  blank c (x_slots (sh s4)) /\ flat c (past_of (gh s4)) /\
  sim (past_of (gh s4)) s4 (start c (x_slots (sh s4)) k).
Proof.
  intros c slots k ls1 s1 s2 ls2 s3 s4 C B RE TO QU ST RU NL TO2 QU3 RS.
  assert (N : 0 < n_ring c) by (destruct C; lia).
  destruct (no_lap_app _ _ _ _ NL) as [NL1 NL2]. specialize (NL2 s1 RE). destruct NL2 as [_ NL2].
  specialize (NL2 s2 ST).
  pose proof (threads_no_restart ls1 TO) as NR1. pose proof (threads_no_restart ls2 TO2) as NR2.
  destruct (reach_live _ _ _ _ _ C B RE NL1 TO) as [IV LV].
  pose proof (reach_wr _ _ _ _ _ C B RE NL1 NR1) as WR.
  assert (RE3 : reaches c slots k (ls1 ++ LStop :: ls2) s3).
  { unfold reaches in *. rewrite run_app, RE. cbn [run]. rewrite ST. exact RU. }
  assert (NR3 : no_restart (ls1 ++ LStop :: ls2)).
  { unfold no_restart in *. rewrite in_app_iff. intros [X|[X|X]]; [tauto|discriminate|tauto]. }
  pose proof (reach_sub _ _ _ _ _ C B RE3 NL NR3) as SU.
  pose proof (reach_inv _ _ _ _ _ C B RE3 NL NR3) as IV3.
  pose proof (run_length _ _ _ _ RE3) as LEN3. pose proof (run_length _ _ _ _ RS) as LEN4.
  assert (SUB : forall tid, subseq (of_thread tid (g_held (gh s3))) (of_thread tid (g_started (gh s3)))).
  { intros tid. specialize (SU tid). apply subseq_drop in SU. exact SU. }
  assert (W : forall y, x_write y = x_read y -> wipe (Z.to_nat (n_ring c)) c y (x_read y) = y).
  { intros y E. destruct (Z.to_nat (n_ring c)) eqn:Q; [lia|]. cbn [wipe]. rewrite E, Z.eqb_refl. reflexivity. }
  destruct (is_sync c) eqn:SY.
  - destruct (quiet_sync c s1 SY IV LV QU WR) as (Q1 & Q2 & Q3).
    assert (AS2 : asleep (sh s2) (gh s1) s2).
    { cbn [step] in ST. destruct (x_ctl (sh s1) =? 0); [|discriminate]. injection ST as <-. split; [reflexivity|]. split.
      - exists []. cbn [gh]. rewrite app_nil_r. destruct (gh s1). reflexivity.
      - cbn [ths]. intros i t T. destruct (QU i t T) as [[X _]|P]; [congruence|]. rewrite P. exact I. }
    assert (ST2 : running (sh s2) = false).
    { cbn [step] in ST. destruct (x_ctl (sh s1) =? 0); [|discriminate]. injection ST as <-. rewrite SY. reflexivity. }
    destruct (asleep_run c _ _ ls2 s2 s3 ST2 AS2 TO2 RU) as (A1 & (e & A2) & A3).
    assert (ID : forall i t, nth_error (ths s3) i = Some t -> t_pc t = Idle).
    { intros i t T. destruct (QU3 i t T) as [[X _]|P]; [congruence|exact P]. }
    assert (GE : gW (gh s3) = gH (gh s3) /\ gP (gh s3) = gH (gh s3) /\ gR (gh s3) = gH (gh s3)).
    { rewrite A2. cbn [gH gW gP gR]. repeat split; congruence. }
    destruct GE as (G1 & G2 & G3).
    assert (PE : Permutation (map snd (g_out (gh s3))) (map (fun e => line c (snd e)) (g_held (gh s3)))).
    { apply idle_perm; [assumption| |lia]. intros i t T. unfold rdg. rewrite (ID i t T). reflexivity. }
    pose proof (blank_free c s3 N IV3 ltac:(congruence)) as BL.
    assert (XR : x_write (sh s3) = x_read (sh s3)).
    { rewrite (i_write _ _ _ _ IV3), (i_read _ _ _ _ IV3). f_equal. congruence. }
    unfold restart in RS. rewrite SY in RS. cbn [app run step] in RS. rewrite SY in RS.
    destruct (x_ctl (sh s3) =? 1); [|discriminate]. cbn [sh put_ctl x_ctl Z.eqb Pos.eqb] in RS.
    unfold clean in RS. rewrite W in RS by exact XR.
    cbn [sh gh ths put_ctl put_idx put_state x_ctl x_hold x_write x_proc x_read x_slots Z.eqb Pos.eqb] in RS.
    injection RS as <-. cbn [sh gh ths put_ctl put_idx put_state x_slots] in *.
    split; [exact BL|]. split.
    + constructor; cbn [past_of pH pW pP pR p_held p_out p_started]; try assumption; [exact (i_held _ _ _ _ IV3)|congruence].
    + apply (sim_start c (x_slots (sh s3)) k (mkSt _ (gh s3) (ths s3))).
      * do 5 eexists. reflexivity.
      * exact LEN3.
      * cbn [ths]. rewrite SY. exact ID.
  - pose proof (reach_one _ _ _ _ _ C B SY RE NL1 NR1) as [_ ON].
    pose proof (halt_stop c s1 s2 SY IV LV ON WR QU ST) as H2.
    pose proof (halt_run c _ ls2 s2 s3 N SY H2 NL2 NR2 RU) as H3.
    assert (DN : exists t, nth_error (ths s3) 0 = Some t /\ t_pc t = Done).
    { unfold restart in RS. cbn [app run step] in RS. rewrite SY in RS.
      destruct (x_ctl (sh s3) =? 1); [|discriminate].
      destruct (nth_error (ths s3) 0) as [t|]; [|discriminate]. exists t. split; [reflexivity|].
      destruct (t_pc t); try discriminate. reflexivity. }
    destruct DN as (t & T & P).
    destruct (halt_done c _ s3 t N SY H3 T P) as (D0 & A1 & A2 & A3 & BL).
    destruct (h_w _ _ _ H3) as (t0 & WK).
    pose proof (w_thr _ _ _ WK) as T0. rewrite T in T0. injection T0 as <-.
    pose proof (w_end _ _ _ WK) as EN. rewrite P in EN.
    destruct (drained_rest c s3 t WK ltac:(split; [assumption|unfold resting; rewrite P; reflexivity])) as (R1 & R2 & _).
    pose proof (h_wh _ _ _ H3) as WH. rewrite <- (h_held _ _ _ H3) in D0.
    assert (XC : x_ctl (sh s3) =? 1 = true).
    { unfold restart in RS. cbn [app run step] in RS. destruct (x_ctl (sh s3) =? 1); [reflexivity|discriminate]. }
    destruct s3 as [x g l]. cbn [sh gh ths] in *. destruct l as [|u l]; [discriminate|]. cbn in T. injection T as ->.
    destruct t as [q m a]. cbn in P. subst q.
    unfold restart in RS. rewrite SY in RS. cbn [app repeat run step sh ths nth_error t_pc] in RS. rewrite XC, SY in RS.
    cbn [Z.eqb Pos.eqb sh gh ths x_ctl put_ctl put_state nth_error] in RS.
    unfold clean in RS. rewrite W in RS by (cbn [put_ctl put_state x_write x_read]; congruence).
    cbn [Z.eqb Pos.eqb sh gh ths x_ctl put_ctl put_state put_idx nth_error] in RS.
    unfold tstep, upd, go, go_at, running in RS. rewrite SY in RS.
    cbn [Z.eqb Pos.eqb sh gh ths x_ctl put_ctl put_state put_idx nth_error firstn skipn app t_pc t_msg t_snap
       x_hold x_write x_proc x_read x_state x_slots CHANNEL_STATE_NULL CHANNEL_STATE_RUNNING] in RS.
    injection RS as <-. cbn [sh gh ths x_slots] in *.
    split; [exact BL|]. split.
    + constructor; cbn [past_of pH pW pP pR p_held p_out p_started]; try assumption; try congruence;
        [exact (i_held _ _ _ _ IV3)|rewrite D0; apply Permutation_refl].
    + apply (sim_start c (x_slots x) k (mkSt _ g _)).
      * do 5 eexists. reflexivity.
      * exact LEN3.
      * cbn [ths]. rewrite SY. intros [|i] u U; cbn in *; [injection U as <-; reflexivity|].
        destruct (QU3 (S i) u U) as [[_ X]|X]; [discriminate|exact X].
Qed.

Lemma flat_add : forall c p q, flat c p -> flat c q -> flat c (add_past p q).
Proof.
  intros c p q [A1 A2 A3 A4 A5 A6 A7] [B1 B2 B3 B4 B5 B6 B7].
  constructor; unfold add_past; cbn [pH pW pP pR p_held p_out p_started]; try congruence.
  - unfold zlen in *. rewrite app_length. lia.
  - rewrite map_app. apply Permutation_app; assumption.
  - intros E. rewrite map_app, A6, B6 by exact E. reflexivity.
  - intros tid. rewrite !of_thread_app. specialize (A7 tid). specialize (B7 tid).
    induction A7; cbn; [exact B7|constructor; assumption|constructor; assumption].
Qed.

Lemma session_new : forall c slots k s, cfg_ok c -> blank c slots -> session c slots k s ->
  exists slots' p, blank c slots' /\ flat c p /\ sim p s (start c slots' k) /\ p = past_of (gh s).
Proof.
  intros c slots k s C B H. induction H as [|s0 ls1 s1 s2 ls2 s3 s4 _ IH NL R1 T1 Q1 ST R2 T2 Q2 RS].
  - exists slots, (mkPast 0 0 0 0 [] [] []). split; [exact B|]. split; [constructor; try reflexivity; intros tid; constructor|].
    split; [apply sim_refl|reflexivity].
  - destruct IH as (sl' & p & B' & F & S & EP).
    destruct (run_sim p c ls1 s0 _ s1 S R1) as (s1' & R1' & S1).
    destruct (step_sim p c s1 s1' LStop s2 S1 ST) as (s2' & ST' & S2).
    destruct (run_sim p c ls2 s2 _ s3 S2 R2) as (s3' & R2' & S3).
    destruct (run_sim p c (restart c) s3 _ s4 S3 RS) as (s4' & RS' & S4).
    destruct (end_session c sl' k ls1 s1' s2' ls2 s3' s4' C B' R1' T1 (sim_quiet p c s1 s1' S1 Q1) ST' R2'
      (no_lap_sim p c _ _ _ S NL) T2 (sim_quiet p c s3 s3' S3 Q2) RS') as (B4 & F4 & S5).
    exists (x_slots (sh s4')), (add_past p (past_of (gh s4'))). split; [exact B4|].
    split; [apply flat_add; assumption|]. split; [eapply sim_trans; eassumption|].
    destruct S4 as (_ & (G1 & G2 & G3 & G4 & G5 & G6 & G7) & _). unfold add_past, past_of.
    cbn [pH pW pP pR p_held p_out p_started]. rewrite G1, G2, G3, G4, G5, G6, G7. reflexivity.
Qed.

(* a state of a later session and the state of a new channel it is like *)
Lemma lives_new : forall c slots k ls s, cfg_ok c -> blank c slots -> lives c slots k ls s ->
  exists slots' p s', blank c slots' /\ flat c p /\ reaches c slots' k ls s' /\
    no_lap c (start c slots' k) ls /\ sim p s s'.
Proof.
  intros c slots k ls s C B (s0 & SS & NL & R).
  destruct (session_new c slots k s0 C B SS) as (sl' & p & B' & F & S & _).
  destruct (run_sim p c ls s0 _ s S R) as (s' & R' & S'). exists sl', p, s'.
  split; [exact B'|]. split; [exact F|]. split; [exact R'|]. split; [exact (no_lap_sim p c _ _ _ S NL)|exact S'].
Qed.

Lemma sim_alike : forall p s s', sim p s s' -> alike s s'.
Proof.
  intros p s s' ((a & b & d & e & f & X) & _ & T). unfold alike. rewrite X. cbn.
  repeat (split; [reflexivity|]). induction T as [|t t' l l' (A & _) T IH]; cbn; [reflexivity|]. rewrite A, IH. reflexivity.
Qed.

Lemma alike_thr : forall s s' i t, alike s s' -> nth_error (ths s) i = Some t ->
  exists t', nth_error (ths s') i = Some t' /\ t_pc t' = t_pc t.
Proof.
  intros s s' i t (_ & _ & _ & _ & _ & _ & _ & E) H.
  assert (Q : nth_error (map t_pc (ths s)) i = Some (t_pc t)) by (rewrite nth_error_map, H; reflexivity).
  rewrite E, nth_error_map in Q. destruct (nth_error (ths s') i) as [t'|]; [|discriminate].
  exists t'. split; [reflexivity|]. cbn in Q. congruence.
Qed.

Lemma prefix_after : forall (A : Type) (a b r : list A), is_prefix a b -> is_prefix (r ++ a) (r ++ b).
Proof. intros A a b r [x ->]. exists x. apply app_assoc. Qed.
Lemma subseq_after : forall (A : Type) (a b x y : list A), subseq a b -> subseq x y -> subseq (a ++ x) (b ++ y).
Proof. intros A a b x y H. induction H; intros; cbn; [assumption|constructor; auto|constructor; auto]. Qed.

Lemma revive_n : forall c n x a b d e f,
  revive n c (put_n x a b d e f) = put_n (revive n c x) a b d e f.
Proof.
  intros c n. induction n as [|n IH]; intros; cbn [revive];
    change (x_write (put_n x a b d e f)) with (x_write x); change (x_hold (put_n x a b d e f)) with (x_hold x);
    destruct (x_write x =? x_hold x); try reflexivity.
  exact (IH (put_idx (put x (x_write x) (rec_slot c (get x (x_write x)))) (x_hold x) (nxt c (x_write x)) (x_proc x) (x_read x)) a b d e f).
Qed.

Lemma reborn_sim : forall c x x' k, sh_sim x x' ->
  sim (mkPast 0 0 0 0 [] [] []) (reborn c x' k) (reborn c x k).
Proof.
  intros c x x' k (a & b & d & e & f & ->). destruct (sim_refl (reborn c x k)) as (_ & G & T).
  split; [|split; [exact G|exact T]]. unfold reborn. rewrite revive_n. cbn [sh].
  exists (n_hold (revive (Z.to_nat (n_ring c)) c x)), (n_push (revive (Z.to_nat (n_ring c)) c x)),
    (n_proc (revive (Z.to_nat (n_ring c)) c x)), (n_bytes (revive (Z.to_nat (n_ring c)) c x)),
    (n_prio (revive (Z.to_nat (n_ring c)) c x)). reflexivity.
Qed.

Lemma sh_sim_sym : forall x x', sh_sim x x' -> sh_sim x' x.
Proof. intros x x' (a & b & d & e & f & ->). exists (n_hold x), (n_push x), (n_proc x), (n_bytes x), (n_prio x). destruct x. reflexivity. Qed.

Lemma crash_live : forall c slots k ls s k', cfg_ok c -> 20 <= log_size c -> blank c slots -> is_sync c = false ->
  lives c slots k ls s -> no_restart ls ->
  exists n s' rec, run c (reborn c (sh s) k') (repeat (LRun 0) n) = Some s' /\
    x_state (sh s') = CHANNEL_STATE_RUNNING /\
    x_hold (sh s') = x_hold (sh s) /\ x_write (sh s') = x_hold (sh s) /\
    x_proc (sh s') = x_hold (sh s) /\ x_read (sh s') = x_hold (sh s) /\
    Forall (fun x => s_mark x = 0) (x_slots (sh s')) /\
    map snd (g_out (gh s')) =
      map (fun e => line c (snd e)) (firstn (Z.to_nat (gW (gh s) - gR (gh s))) (skipn (Z.to_nat (gR (gh s))) (g_held (gh s)))) ++
      map (flag_text c) rec /\
    zlen rec = zlen (g_held (gh s)) - gW (gh s) /\
    (forall j i m x, nth_error (skipn (Z.to_nat (gW (gh s))) (g_held (gh s))) j = Some (i, m) -> nth_error rec j = Some x ->
       unfinished c (nth_error (ths s) i) m x).
Proof.
  intros c slots k ls s k' C L B SY LI NR.
  destruct (lives_new c slots k ls s C B LI) as (sl' & p & s0 & B' & F & R & NL & S).
  destruct (crash_recover c sl' k ls s0 k' C L B' SY R NL NR) as (n & s1 & rec & H0 & H1 & H2 & H3 & H4 & H5 & H6 & H7 & H8 & H9).
  pose proof (reach_inv _ _ _ _ _ C B' R NL NR) as IV. pose proof (i_ord _ _ _ _ IV) as OR.
  pose proof (sim_alike p s s0 S) as AL. destruct S as (X & G & T).
  destruct (run_sim _ c (repeat (LRun 0) n) _ (reborn c (sh s) k') s1 (reborn_sim c (sh s) (sh s0) k' X) H0) as (s2 & R2 & S2).
  exists n, s2, rec. split; [exact R2|].
  pose proof (sim_alike _ _ _ S2) as (E1 & E2 & E3 & E4 & E5 & E6 & E7 & _). destruct S2 as (_ & (_ & _ & _ & _ & _ & O2 & _) & _).
  cbn [p_out app] in O2. rewrite <- E1, <- E2, <- E3, <- E4, <- E5, <- E6, <- O2.
  pose proof AL as (K1 & _). rewrite K1.
  destruct G as (G1 & G2 & G3 & G4 & G5 & G6 & G7). destruct F as [F1 F2 F3 F4 F5 F6 F7].
  assert (SK : forall z, 0 <= z -> skipn (Z.to_nat (pH p + z)) (g_held (gh s)) = skipn (Z.to_nat z) (g_held (gh s0))).
  { intros z Z. rewrite G5, skipn_app. rewrite skipn_all2 by (unfold zlen in F4; lia).
    cbn [app]. f_equal. unfold zlen in F4. lia. }
  repeat (split; [assumption|]). split; [|split].
  - rewrite H7, G2, G4, F1, F3, SK by lia. do 4 f_equal. lia.
  - rewrite H8, G2, F1, G5. unfold zlen in *. rewrite app_length. lia.
  - intros j i m x J JX. rewrite G2, F1, SK in J by lia.
    destruct (H9 j i m x J JX) as [U|[U|(u & U & V)]]; [left; exact U|right; left; exact U|]. right. right.
    pose proof (F2_nth _ _ _ _ _ T i) as Q. rewrite U in Q. destruct (nth_error (ths s) i) as [t|]; [|contradiction].
    exists t. split; [reflexivity|]. unfold not_begun in *. destruct Q as (Q & _). rewrite Q. exact V.
Qed.
