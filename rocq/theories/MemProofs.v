(* Every access to a record is ordered by happens-before with the earlier ones:
   an invariant that says through which index or mark the accesses are handed
   on. *)
From Coq Require Import ZArith List Bool Lia ZifyBool ZifyNat ZifyN.
From Verif Require Import Base BaseFacts LoggerState Ring RingSpec RingInv RingProofs RingLive RingRun RingQuiet
  Mem MemSpec.
Import ListNotations.
Open Scope Z_scope.

(* ---- traces that grow ---- *)
Definition upto (tr : list event) (i j : nat) : Prop := i = j \/ before tr i j.

(* a thread has seen an access: it happens before (or is) one of its own *)
Definition seen (tr : list event) (w : option nat) (j : nat) : Prop :=
  exists n e, nth_error tr n = Some e /\ e_who e = w /\ upto tr j n.

(* a place carries an access: who observes the place next has seen it *)
Definition carried (tr : list event) (x : place) (j : nat) : Prop :=
  exists n e, nth_error tr n = Some e /\ e_place e = x /\ publishes (e_way e) /\
    (forall k y, (n < k)%nat -> nth_error tr k = Some y -> e_place y = x -> ~ alters (e_way y)) /\
    upto tr j n.

Lemma nth_app_l : forall {A} (l r : list A) n x, nth_error l n = Some x -> nth_error (l ++ r) n = Some x.
Proof. intros A l r n x H. rewrite nth_error_app1; [assumption|]. apply nth_error_Some. congruence. Qed.

Lemma nth_len : forall {A} (l : list A) n x, nth_error l n = Some x -> (n < length l)%nat.
Proof. intros A l n x H. apply nth_error_Some. congruence. Qed.

Lemma nth_snoc : forall {A} (l r : list A) x, nth_error (l ++ x :: r) (length l) = Some x.
Proof. intros. rewrite nth_error_app2 by lia. rewrite Nat.sub_diag. reflexivity. Qed.

Lemma before_app : forall tr l i j, before tr i j -> before (tr ++ l) i j.
Proof.
  intros tr l i j H. induction H as [i j (L & a & b & A & B & E)|i j (L & a & b & A & B & E & P & O & K)|].
  - apply b_seq. split; [assumption|]. exists a, b. auto using nth_app_l.
  - apply b_syn. split; [assumption|]. exists a, b. repeat split; auto using nth_app_l.
    intros k x KL X. apply (K k x KL). pose proof (nth_len _ _ _ B).
    rewrite nth_error_app1 in X by lia. assumption.
  - eapply b_trans; eassumption.
Qed.

Lemma upto_app : forall tr l i j, upto tr i j -> upto (tr ++ l) i j.
Proof. intros tr l i j [->|H]; [left; reflexivity|right; apply before_app; assumption]. Qed.

Lemma upto_before : forall tr i j k, upto tr i j -> before tr j k -> before tr i k.
Proof. intros tr i j k [->|A] B; [assumption|eapply b_trans; eassumption]. Qed.

Lemma seen_app : forall tr l w j, seen tr w j -> seen (tr ++ l) w j.
Proof. intros tr l w j (n & e & A & B & C). exists n, e. auto using nth_app_l, upto_app. Qed.


Lemma seen_next : forall tr w j l x, seen tr w j -> e_who x = w -> before (tr ++ x :: l) j (length tr).
Proof.
  intros tr w j l x (m & f & A & B & C) X.
  apply upto_before with m; [apply upto_app; assumption|].
  apply b_seq. split; [apply nth_len with f; assumption|]. exists f, x.
  split; [apply nth_app_l; assumption|]. split; [apply nth_snoc|congruence].
Qed.

Lemma carried_app : forall tr l x j, carried tr x j ->
  (forall e, In e l -> e_place e = x -> ~ alters (e_way e)) -> carried (tr ++ l) x j.
Proof.
  intros tr l x j (n & e & A & B & C & D & E) Q. exists n, e.
  split; [apply nth_app_l; assumption|]. split; [assumption|]. split; [assumption|].
  split; [|apply upto_app; assumption]. intros k y K Y.
  destruct (Nat.ltb k (length tr)) eqn:L.
  - apply Nat.ltb_lt in L. rewrite nth_error_app1 in Y by assumption. apply (D k y); assumption.
  - apply Nat.ltb_ge in L. rewrite nth_error_app2 in Y by assumption.
    apply Q. eapply nth_error_In. exact Y.
Qed.

(* observing a place *)
Lemma carried_seen : forall tr w line x o j, carried tr x j -> observes o ->
  seen (tr ++ [mkEvent w line x o]) w j.
Proof.
  intros tr w line x o j (n & e & A & B & C & D & E) O.
  exists (length tr), (mkEvent w line x o). split; [apply nth_snoc|]. split; [reflexivity|].
  right. apply upto_before with n; [apply upto_app; assumption|]. apply b_syn.
  split; [apply nth_len with e; assumption|].
  exists e, (mkEvent w line x o). split; [apply nth_app_l; assumption|]. split; [apply nth_snoc|].
  split; [assumption|]. split; [assumption|]. split; [assumption|].
  intros k y K Y P. rewrite nth_error_app1 in Y by lia. apply (D k y); [lia|assumption|congruence].
Qed.

(* publishing at a place *)
Lemma last_snoc : forall tr (e : event) k y, (length tr < k)%nat -> nth_error (tr ++ [e]) k = Some y -> False.
Proof. intros tr e k y L Y. apply nth_len in Y. rewrite app_length in Y. cbn in Y. lia. Qed.

Lemma seen_carried : forall tr w line x o j, seen tr w j -> publishes o ->
  carried (tr ++ [mkEvent w line x o]) x j.
Proof.
  intros tr w line x o j S P. exists (length tr), (mkEvent w line x o).
  split; [apply nth_snoc|]. split; [reflexivity|]. split; [assumption|].
  split; [|right; apply seen_next with w; [assumption|reflexivity]].
  intros k y K Y. exfalso. eapply last_snoc; eassumption.
Qed.

(* a compare-exchange hands on what the place carried *)
Lemma carried_change : forall tr w line x j, carried tr x j ->
  carried (tr ++ [mkEvent w line x Change]) x j.
Proof.
  intros tr w line x j C. destruct (carried_seen tr w line x Change j C ltac:(right; reflexivity))
    as (n & e & A & B & D).
  exists (length tr), (mkEvent w line x Change). split; [apply nth_snoc|]. split; [reflexivity|].
  split; [right; reflexivity|]. split.
  - intros k y K Y. exfalso. eapply last_snoc; eassumption.
  - destruct C as (m & f & C1 & C2 & C3 & C4 & C5). right.
    apply upto_before with m; [apply upto_app; assumption|]. apply b_syn.
    split; [apply nth_len with f; assumption|].
    exists f, (mkEvent w line x Change). split; [apply nth_app_l; assumption|]. split; [apply nth_snoc|].
    split; [assumption|]. split; [assumption|]. split; [right; reflexivity|].
    intros k y K Y P. rewrite nth_error_app1 in Y by lia. apply (C4 k y); [lia|assumption|congruence].
Qed.

(* ---- the accesses that are followed ---- *)
(* all accesses to the bytes of slot i, and those to its length except line 500,
   and line 127 on a sync channel *)
Definition followed (c : rcfg) (e : event) (i : Z) : Prop :=
  e_place e = PlText i \/
  (e_place e = PlLen i /\ e_line e <> 500 /\ (e_line e = 127 -> is_sync c = false)).

Definition at_slot (c : rcfg) (tr : list event) (i : Z) (j : nat) : Prop :=
  exists e, nth_error tr j = Some e /\ followed c e i.

(* the position whose accesses a thread must have seen *)
Definition kn (c : rcfg) (g : ghost) (t : thr) : option Z :=
  let a := t_snap t in
  match t_pc t with
  | HCas _ => if a =? gH g then Some a else None
  | HCount _ | HMark _ | FInit _ | Fill _ _ | PState _ | PTerm _ | PMark _ => Some a
  | PCas _ => if a =? gW g then Some a else None
  | CCas _ => if a =? gP g then Some a else None
  | CRead _ _ _ | CMark _ => Some a
  | CCount _ | CBytes _ => if is_sync c then None else Some a
  | RCas _ => if a =? gR g then Some a else None
  | _ => None
  end.

Record hinv (c : rcfg) (tr : list event) (s : shared) (g : ghost) (l : list thr) : Prop := mkHinv {
  h_ord : forall k i j, (i < j)%nat -> at_slot c tr k i -> at_slot c tr k j -> before tr i j;
  h_thr : forall i t a, nth_error l i = Some t -> kn c g t = Some a ->
            forall j, at_slot c tr (ix c a) j -> seen tr (Some i) j;
  h_free : forall a, gH g <= a < gR g + n_ring c ->
             forall j, at_slot c tr (ix c a) j -> carried tr PlRead j;
  h_pub : forall a, gP g <= a < gW g ->
             forall j, at_slot c tr (ix c a) j -> carried tr PlWrite j;
  h_res : forall a, gW g <= a < gH g -> s_mark (at_ c s a) = MARK_READY ->
             forall j, at_slot c tr (ix c a) j -> carried tr (PlMark (ix c a)) j;
  h_done : forall a, gR g <= a < gP g -> s_mark (at_ c s a) = MARK_INVALID ->
             forall j, at_slot c tr (ix c a) j ->
               carried tr (PlMark (ix c a)) j \/ (is_sync c = false /\ seen tr (Some 0%nat) j)
}.

(* the writer thread of an async channel counts a record that is not released *)
Lemma count_range : forall c s g l i t, (is_sync c = false -> one c 0 s g l) -> nth_error l i = Some t ->
  match t_pc t with
  | CCount _ | CBytes _ => is_sync c = false -> i = 0%nat /\ t_snap t = gP g - 1 /\ gR g = gP g - 1
  | _ => True
  end.
Proof.
  intros c s g l i t ON T. destruct (t_pc t) eqn:P; try exact I; intros SY; specialize (ON SY);
  (assert (i = 0%nat) by (apply (o_only _ _ _ _ _ ON i t T); unfold cons_pc; rewrite P; reflexivity));
  subst i; destruct (o_thr _ _ _ _ _ ON _ T) as (CO & _); unfold cons_ok in CO; rewrite P in CO; tauto.
Qed.

Lemma kn_range : forall c s g l i t a, inv c s g l -> (is_sync c = false -> one c 0 s g l) -> 0 < n_ring c -> nth_error l i = Some t -> kn c g t = Some a ->
  gR g <= a < gR g + n_ring c.
Proof.
  intros c s g l i t a IV ON N T K. pose proof (i_thr _ _ _ _ IV i t T) as TO. pose proof (i_ord _ _ _ _ IV) as OR.
  pose proof (count_range c s g l i t ON T) as CR.
  destruct t as [p m b]. unfold kn, thr_ok, owned in *. cbn [t_pc t_snap] in *.
  destruct p; try discriminate;
  try match type of K with (if ?b then _ else _) = _ => destruct b eqn:Q; [|discriminate] end;
  try injection K as <-; try lia; destruct (is_sync c); try discriminate; injection K as <-; lia.
Qed.

Lemma at_slot_app : forall c tr l k j, at_slot c tr k j -> at_slot c (tr ++ l) k j.
Proof. intros c tr l k j (e & A & B). exists e. auto using nth_app_l. Qed.

Lemma at_slot_inv : forall c tr l k j, at_slot c (tr ++ l) k j ->
  at_slot c tr k j \/ ((length tr <= j)%nat /\ exists e, nth_error l (j - length tr) = Some e /\ followed c e k).
Proof.
  intros c tr l k j (e & A & B). destruct (Nat.ltb j (length tr)) eqn:L.
  - apply Nat.ltb_lt in L. rewrite nth_error_app1 in A by assumption. left. exists e. auto.
  - apply Nat.ltb_ge in L. rewrite nth_error_app2 in A by assumption. right. split; [assumption|]. exists e. auto.
Qed.

Lemma at_slot_old : forall c tr l k j, (forall e, In e l -> ~ followed c e k) ->
  at_slot c (tr ++ l) k j -> at_slot c tr k j.
Proof.
  intros c tr l k j Q H. destruct (at_slot_inv _ _ _ _ _ H) as [A|(_ & e & A & B)]; [assumption|].
  exfalso. apply (Q e); [eapply nth_error_In; exact A|assumption].
Qed.

(* the places through which accesses are handed on *)
Definition hands_on (x : place) : Prop :=
  match x with PlRead | PlWrite | PlMark _ => True | _ => False end.

Definition same_pos (g g' : ghost) : Prop :=
  gH g' = gH g /\ gW g' = gW g /\ gP g' = gP g /\ gR g' = gR g.

Lemma kn_same : forall c g g' t, same_pos g g' -> kn c g' t = kn c g t.
Proof. intros c g g' t (A & B & C & D). unfold kn. rewrite A, B, C, D. reflexivity. Qed.

(* A step that touches no followed place and hands nothing on. *)
Lemma hinv_local : forall c tr s g l i t s' g' t' evs,
  hinv c tr s g l -> nth_error l i = Some t ->
  (forall a, s_mark (at_ c s' a) = s_mark (at_ c s a)) -> same_pos g g' ->
  (forall e k, In e evs -> ~ followed c e k) ->
  (forall e, In e evs -> hands_on (e_place e) -> ~ alters (e_way e)) ->
  (forall a, kn c g t' = Some a -> forall j, at_slot c tr (ix c a) j -> seen (tr ++ evs) (Some i) j) ->
  hinv c (tr ++ evs) s' g' (upd l i t').
Proof.
  intros c tr s g l i t s' g' t' evs H T M G F A K.
  assert (OLD : forall k j, at_slot c (tr ++ evs) k j -> at_slot c tr k j).
  { intros k j. apply at_slot_old. intros e. apply F. }
  assert (CA : forall x j, hands_on x -> carried tr x j -> carried (tr ++ evs) x j).
  { intros x j X C. apply carried_app; [assumption|]. intros e E <-. apply A; assumption. }
  pose proof (kn_same c g g') as KS. specialize (fun t => KS t G).
  destruct G as (G1 & G2 & G3 & G4). destruct H. constructor; rewrite ?G1, ?G2, ?G3, ?G4.
  - intros k a b L X Y. apply before_app. apply (h_ord0 k); auto.
  - intros j u a J KU n X. rewrite KS in KU.
    destruct (upd_inv _ _ _ _ _ J) as [[-> ->]|[N J']].
    + apply (K a); auto.
    + apply seen_app. apply (h_thr0 j u a); auto.
  - intros a L j X. apply CA; [exact I|]. apply (h_free0 a); auto.
  - intros a L j X. apply CA; [exact I|]. apply (h_pub0 a); auto.
  - intros a L Q j X. rewrite M in Q. apply CA; [exact I|]. apply (h_res0 a); auto.
  - intros a L Q j X. rewrite M in Q. destruct (h_done0 a L Q j (OLD _ _ X)) as [D|[D E]].
    + left. apply CA; [exact I|assumption].
    + right. split; [assumption|]. apply seen_app. assumption.
Qed.

(* A step that touches the record at position [p], which only this thread knows. *)
Lemma hinv_touch : forall c tr s g l i t s' g' t' evs p,
  0 < n_ring c -> inv c s g l -> (is_sync c = false -> one c 0 s g l) -> hinv c tr s g l -> nth_error l i = Some t ->
  (forall a, s_mark (at_ c s' a) = s_mark (at_ c s a)) -> same_pos g g' ->
  Forall (fun e => e_who e = Some i) evs ->
  (forall e k, In e evs -> followed c e k -> k = ix c p) ->
  (forall e, In e evs -> hands_on (e_place e) -> ~ alters (e_way e)) ->
  (forall j, at_slot c tr (ix c p) j -> seen tr (Some i) j) ->
  gR g <= p < gH g ->
  ~ (gP g <= p < gW g) ->
  ~ (gW g <= p /\ s_mark (at_ c s p) = MARK_READY) ->
  (p < gP g -> s_mark (at_ c s p) = MARK_INVALID -> is_sync c = false /\ i = 0%nat) ->
  (forall j u, nth_error l j = Some u -> kn c g u = Some p -> j = i) ->
  (kn c g t' = Some p \/ kn c g t' = None) ->
  hinv c (tr ++ evs) s' g' (upd l i t').
Proof.
  intros c tr s g l i t s' g' t' evs p N IV ON H T M G W F A S R NP NR ND EX KT.
  assert (OLD : forall a j, gR g <= a < gR g + n_ring c -> a <> p ->
            at_slot c (tr ++ evs) (ix c a) j -> at_slot c tr (ix c a) j).
  { intros a j L D. apply at_slot_old. intros e E X. apply D. apply F in X; [|assumption].
    pose proof (i_ord _ _ _ _ IV) as OR. apply (ix_eq c); [assumption|assumption|lia]. }
  assert (SN : forall a j, (length tr <= j)%nat -> nth_error evs (j - length tr) = Some a ->
            seen (tr ++ evs) (Some i) j).
  { intros a j L X. exists j, a. rewrite nth_error_app2 by assumption. split; [assumption|].
    split; [|left; reflexivity]. rewrite Forall_forall in W. apply W. eapply nth_error_In. exact X. }
  assert (CA : forall x j, hands_on x -> carried tr x j -> carried (tr ++ evs) x j).
  { intros x j X C. apply carried_app; [assumption|]. intros e E <-. apply A; assumption. }
  assert (ALL : forall j, at_slot c (tr ++ evs) (ix c p) j -> seen (tr ++ evs) (Some i) j).
  { intros j X. destruct (at_slot_inv _ _ _ _ _ X) as [O|(L & e & E & _)].
    - apply seen_app, S, O.
    - apply (SN e); assumption. }
  pose proof (i_ord _ _ _ _ IV) as OR.
  pose proof (kn_same c g g') as KS. specialize (fun t => KS t G).
  destruct G as (G1 & G2 & G3 & G4). destruct H. constructor; rewrite ?G1, ?G2, ?G3, ?G4.
  - intros k a b L X Y.
    destruct (at_slot_inv _ _ _ _ _ Y) as [Y'|(LY & e & E & FE)].
    + destruct (at_slot_inv _ _ _ _ _ X) as [X'|(LX & _)].
      * apply before_app. apply (h_ord0 k); assumption.
      * exfalso. destruct Y' as (y & Y' & _). apply nth_len in Y'. lia.
    + assert (KP : k = ix c p) by (apply (F e); [eapply nth_error_In; exact E|assumption]).
      subst k. pose proof W as W'. rewrite Forall_forall in W'.
      pose proof (W' e (nth_error_In _ _ E)) as WE.
      assert (SX : exists n f, (n < b)%nat /\ nth_error (tr ++ evs) n = Some f /\ e_who f = Some i /\
                    upto (tr ++ evs) a n).
      { destruct (at_slot_inv _ _ _ _ _ X) as [X'|(LX & f & EF & _)].
        - destruct (S a X') as (n & f & P1 & P2 & P3). exists n, f. pose proof (nth_len _ _ _ P1).
          split; [lia|]. split; [apply nth_app_l; assumption|]. split; [assumption|].
          apply upto_app. assumption.
        - exists a, f. split; [assumption|]. rewrite nth_error_app2 by assumption.
          split; [assumption|]. split; [apply W'; eapply nth_error_In; exact EF|left; reflexivity]. }
      destruct SX as (n & f & P0 & P1 & P2 & P3). apply upto_before with n; [assumption|].
      apply b_seq. split; [assumption|]. exists f, e. split; [assumption|].
      rewrite nth_error_app2 by assumption. split; [assumption|congruence].
  - intros j u a J KU n X. rewrite KS in KU.
    destruct (upd_inv _ _ _ _ _ J) as [[-> ->]|[NJ J']].
    + destruct KT as [KT|KT]; [|congruence]. assert (a = p) by congruence. subst a. apply ALL. assumption.
    + pose proof (kn_range _ _ _ _ _ _ _ IV ON N J' KU) as KR.
      apply seen_app. apply (h_thr0 j u a); try assumption. apply OLD; [assumption| |assumption].
      intros ->. apply NJ. apply (EX j u); assumption.
  - intros a L j X. apply CA; [exact I|]. apply (h_free0 a L). apply OLD; [lia|lia|assumption].
  - intros a L j X. apply CA; [exact I|]. apply (h_pub0 a L). apply OLD; [lia| |assumption].
    intros ->. apply NP. assumption.
  - intros a L Q j X. rewrite M in Q. apply CA; [exact I|]. apply (h_res0 a L Q). apply OLD; [lia| |assumption].
    intros ->. apply NR. split; [lia|assumption].
  - intros a L Q j X. rewrite M in Q. destruct (Z.eq_dec a p) as [->|D].
    + right. destruct (ND ltac:(lia) Q) as [D1 D2]. split; [assumption|]. subst i. apply ALL. assumption.
    + destruct (h_done0 a L Q j) as [C|[D1 D2]]; [apply OLD; [lia|assumption|assumption]|..].
      * left. apply CA; [exact I|assumption].
      * right. split; [assumption|]. apply seen_app. assumption.
Qed.

(* The thread that knows position [p] stores its mark. *)
Lemma hinv_mark : forall c tr s g l i t v t' p line,
  0 < n_ring c -> inv c s g l -> hinv c tr s g l -> nth_error l i = Some t ->
  (forall j, at_slot c tr (ix c p) j -> seen tr (Some i) j) ->
  gR g <= p < gH g ->
  (kn c g t' = Some p \/ kn c g t' = None) ->
  hinv c (tr ++ [mkEvent (Some i) line (PlMark (ix c p)) Release]) (put s (ix c p) v) g (upd l i t').
Proof.
  intros c tr s g l i t v t' p line N IV H T S R KT.
  set (ev := mkEvent _ _ _ _).
  pose proof (i_ord _ _ _ _ IV) as OR. pose proof (i_len _ _ _ _ IV) as LN.
  assert (OLD : forall k j, at_slot c (tr ++ [ev]) k j -> at_slot c tr k j).
  { intros k j. apply at_slot_old. intros e [<-|[]] [X|[X _]]; discriminate X. }
  assert (CA : forall x j, x <> PlMark (ix c p) -> carried tr x j -> carried (tr ++ [ev]) x j).
  { intros x j X C. apply carried_app; [assumption|]. intros e [<-|[]] E. cbn in E. congruence. }
  assert (OT : forall a, gR g <= a < gR g + n_ring c -> a <> p ->
             at_ c (put s (ix c p) v) a = at_ c s a /\ PlMark (ix c a) <> PlMark (ix c p)).
  { intros a L D. split.
    - apply at_put_other; [assumption|congruence|lia].
    - intros E. injection E as E. apply D. apply (ix_eq c); [assumption|assumption|lia]. }
  assert (SC : forall j, at_slot c tr (ix c p) j -> carried (tr ++ [ev]) (PlMark (ix c p)) j).
  { intros j X. apply seen_carried; [apply S; assumption|left; reflexivity]. }
  destruct H. constructor.
  - intros k a b L X Y. apply before_app. apply (h_ord0 k); auto.
  - intros j u a J KU n X. destruct (upd_inv _ _ _ _ _ J) as [[-> ->]|[NJ J']].
    + destruct KT as [KT|KT]; [|congruence]. assert (a = p) by congruence. subst a. apply seen_app, S. auto.
    + apply seen_app. apply (h_thr0 j u a); auto.
  - intros a L j X. apply CA; [discriminate|]. apply (h_free0 a); auto.
  - intros a L j X. apply CA; [discriminate|]. apply (h_pub0 a); auto.
  - intros a L Q j X. destruct (Z.eq_dec a p) as [->|D]; [apply SC; auto|].
    destruct (OT a ltac:(lia) D) as [O1 O2]. rewrite O1 in Q. apply CA; [assumption|]. apply (h_res0 a); auto.
  - intros a L Q j X. destruct (Z.eq_dec a p) as [->|D]; [left; apply SC; auto|].
    destruct (OT a ltac:(lia) D) as [O1 O2]. rewrite O1 in Q. destruct (h_done0 a L Q j (OLD _ _ X)) as [C|[D1 D2]].
    + left. apply CA; assumption.
    + right. split; [assumption|]. apply seen_app. assumption.
Qed.

(* What other threads must have seen does not grow when an index advances. *)
Lemma kn_later : forall c s g l i t a g', inv c s g l -> nth_error l i = Some t ->
  gH g <= gH g' -> gW g <= gW g' -> gP g <= gP g' -> gR g <= gR g' ->
  kn c g' t = Some a -> kn c g t = Some a.
Proof.
  intros c s g l i t a g' IV T H1 H2 H3 H4 K. pose proof (i_thr _ _ _ _ IV i t T) as TO.
  destruct t as [p m b]. unfold kn, thr_ok in *. cbn [t_pc t_snap] in *.
  destruct p; try discriminate; try assumption;
  match type of K with (if ?b then _ else _) = _ => destruct b eqn:Q; [|discriminate] end;
  injection K as <-;
  match goal with |- (if ?b then _ else _) = _ => destruct b eqn:Q'; [reflexivity|lia] end.
Qed.

(* A compare-exchange advances an index. *)
Lemma hinv_advance : forall c tr s g l i t s' g' t' x line,
  inv c s g l -> hinv c tr s g l -> nth_error l i = Some t ->
  x = PlHold \/ x = PlWrite \/ x = PlProc \/ x = PlRead ->
  (forall a, at_ c s' a = at_ c s a) ->
  gH g <= gH g' -> gW g <= gW g' -> gP g <= gP g' -> gR g <= gR g' ->
  gP g <= gW g ->
  (forall a j, kn c g' t' = Some a -> at_slot c tr (ix c a) j -> seen tr (Some i) j) ->
  (forall a j, gR g + n_ring c <= a < gR g' + n_ring c -> at_slot c tr (ix c a) j ->
     x = PlRead /\ seen tr (Some i) j) ->
  (forall a j, gW g <= a < gW g' -> at_slot c tr (ix c a) j -> x = PlWrite /\ seen tr (Some i) j) ->
  (forall a, gH g <= a < gH g' -> s_mark (at_ c s a) <> MARK_READY) ->
  (forall a, gP g <= a < gP g' -> s_mark (at_ c s a) <> MARK_INVALID) ->
  hinv c (tr ++ [mkEvent (Some i) line x Change]) s' g' (upd l i t').
Proof.
  intros c tr s g l i t s' g' t' x line IV H T PX AT H1 H2 H3 H4 PW KT FR PU RE DO.
  set (ev := mkEvent _ _ _ _).
  assert (OLD : forall k j, at_slot c (tr ++ [ev]) k j -> at_slot c tr k j).
  { intros k j. apply at_slot_old. intros e [<-|[]] [X|[X _]]; cbn in X;
      destruct PX as [-> |[-> |[-> | ->]]]; discriminate X. }
  assert (CA : forall y j, carried tr y j -> carried (tr ++ [ev]) y j).
  { intros y j C. assert (D : y = x \/ y <> x).
    { destruct PX as [-> |[-> |[-> | ->]]]; destruct y; (left; reflexivity) || (right; discriminate). }
    destruct D as [->|D]; [apply carried_change; assumption|].
    apply carried_app; [assumption|]. intros e [<-|[]] E. cbn in E. congruence. }
  assert (SC : forall j, seen tr (Some i) j -> carried (tr ++ [ev]) x j).
  { intros j X. apply seen_carried; [assumption|right; reflexivity]. }
  destruct H. constructor.
  - intros k a b L X Y. apply before_app. apply (h_ord0 k); auto.
  - intros j u a J KU n X. apply seen_app. destruct (upd_inv _ _ _ _ _ J) as [[-> ->]|[NJ J']].
    + apply (KT a); auto.
    + apply (h_thr0 j u a); auto. apply (kn_later c s g l j u a g'); assumption.
  - intros a L j X. destruct (Z_lt_ge_dec a (gR g + n_ring c)) as [LR|LR].
    + apply CA. apply (h_free0 a); [lia|auto].
    + destruct (FR a j ltac:(lia) (OLD _ _ X)) as [-> S]. apply SC. assumption.
  - intros a L j X. destruct (Z_lt_ge_dec a (gW g)) as [LW|LW].
    + apply CA. apply (h_pub0 a); [lia|auto].
    + destruct (PU a j ltac:(lia) (OLD _ _ X)) as [-> S]. apply SC. assumption.
  - intros a L Q j X. rewrite AT in Q. apply CA. apply (h_res0 a); auto.
    destruct (Z_lt_ge_dec a (gH g)) as [LH|LH]; [lia|]. exfalso. apply (RE a); [lia|assumption].
  - intros a L Q j X. rewrite AT in Q. destruct (h_done0 a) with (j := j) as [C|[D1 D2]]; auto.
    + destruct (Z_lt_ge_dec a (gP g)) as [LP|LP]; [lia|]. exfalso. apply (DO a); [lia|assumption].
    + right. split; [assumption|]. apply seen_app. assumption.
Qed.

(* ---- every step keeps it ---- *)
(* only the owner of a reserved record knows it *)
Lemma own_knows : forall c s g l i t j u, inv c s g l -> (is_sync c = false -> one c 0 s g l) -> nth_error l i = Some t -> own t = Some (t_snap t) ->
  gW g <= t_snap t < gH g -> s_mark (at_ c s (t_snap t)) <> MARK_READY ->
  nth_error l j = Some u -> kn c g u = Some (t_snap t) -> j = i.
Proof.
  intros c s g l i t j u IV ON T O L M U K. pose proof (count_range c s g l j u ON U) as CR. pose proof (i_ord _ _ _ _ IV) as OR.
  pose proof (i_thr _ _ _ _ IV j u U) as TO. pose proof (i_own _ _ _ _ IV j i u t (t_snap t) U T) as OW.
  set (a := t_snap t) in *. clearbody a.
  destruct u as [p m b]. unfold kn, thr_ok, own, ready in *. cbn [t_pc t_snap t_msg] in *.
  destruct p; try discriminate; try (apply OW; assumption);
  try match type of K with (if ?b then _ else _) = _ => destruct b eqn:Q; [|discriminate] end;
  try injection K as ->; try lia; destruct (is_sync c); try discriminate; injection K as ->; lia.
Qed.

(* only the thread that dispatches a record knows it *)
Lemma clm_knows : forall c s g l i t j u, inv c s g l -> (is_sync c = false -> one c 0 s g l) -> nth_error l i = Some t -> clm t = Some (t_snap t) ->
  gR g <= t_snap t < gP g -> s_mark (at_ c s (t_snap t)) = MARK_READY ->
  nth_error l j = Some u -> kn c g u = Some (t_snap t) -> j = i.
Proof.
  intros c s g l i t j u IV ON T O L M U K. pose proof (count_range c s g l j u ON U) as CR. pose proof (i_ord _ _ _ _ IV) as OR.
  pose proof (i_thr _ _ _ _ IV j u U) as TO. pose proof (i_clm _ _ _ _ IV j i u t (t_snap t) U T) as OW.
  set (a := t_snap t) in *. clearbody a.
  destruct u as [p m b]. unfold kn, thr_ok, clm, owned in *. cbn [t_pc t_snap t_msg] in *.
  destruct p; try discriminate; try (apply OW; assumption);
  try match type of K with (if ?b then _ else _) = _ => destruct b eqn:Q; [|discriminate] end;
  try injection K as ->; try lia.
  1,2: destruct (is_sync c) eqn:SY; [discriminate|]; destruct (CR eq_refl) as [-> _]; symmetry;
       apply (o_only _ _ _ _ _ (ON eq_refl) i t T); unfold cons_pc; destruct (t_pc t); discriminate || reflexivity.
  exfalso. destruct TO as (_ & _ & _ & TO). rewrite TO in M by lia. discriminate.
Qed.

(* on an async channel only the writer thread knows what is being dispatched *)
Lemma writer_knows : forall c s g l j u a, inv c s g l -> one c 0 s g l ->
  gR g <= a < gP g -> nth_error l j = Some u -> kn c g u = Some a -> j = 0%nat.
Proof.
  intros c s g l j u a IV ON L U K. pose proof (i_ord _ _ _ _ IV) as OR.
  pose proof (i_thr _ _ _ _ IV j u U) as TO. pose proof (o_only _ _ _ _ _ ON j u U) as OO.
  destruct u as [p m b]. unfold kn, thr_ok, owned, cons_pc in *. cbn [t_pc t_snap t_msg] in *.
  destruct p; try discriminate; try (apply OO; reflexivity);
  try match type of K with (if ?b then _ else _) = _ => destruct b eqn:Q; [|discriminate] end;
  injection K as ->; lia.
Qed.

Lemma put_marks : forall c s p v, s_mark v = s_mark (get s (ix c p)) -> 0 < n_ring c -> zlen (x_slots s) = n_ring c ->
  forall a, s_mark (at_ c (put s (ix c p) v) a) = s_mark (at_ c s a).
Proof.
  intros c s p v V N L a. unfold at_. pose proof (ix_bound c p N). pose proof (ix_bound c a N).
  destruct (Z.eq_dec (ix c p) (ix c a)) as [Q|Q].
  - rewrite <- Q. rewrite get_put_same by lia. assumption.
  - rewrite get_put_other by lia. reflexivity.
Qed.

Ltac in_evs :=
  let e := fresh "e" in let E := fresh "E" in
  intros e; intros; cbn [map by_] in *; repeat match goal with
  | E : In _ (_ :: _) |- _ => destruct E as [<-|E]
  | E : In _ [] |- _ => destruct E
  end; cbn in *.
(* events of a step that touches nothing that is followed *)
Ltac none := let X := fresh "X" in
  in_evs; try (intros [X|[X _]]; discriminate X); try (intros [X|(_ & X & _)]; [discriminate X|apply X; reflexivity]);
  try tauto; try (intros [X|[X|[X|X]]]; discriminate X).
Ltac hloc t := eapply (hinv_local _ _ _ _ _ _ t); try eassumption;
  [ intros; reflexivity | repeat split; reflexivity | none | none | ].

Ltac own_touch :=
  with_t ltac:(fun t => match type of t with _ =>
    eapply (hinv_touch _ _ _ _ _ _ t) with (p := t_snap t) end); tpc; try eassumption; try lia;
  [ apply put_marks; [reflexivity|assumption|assumption] | repeat split; reflexivity | once (solve [repeat constructor])
  | in_evs; match goal with X : followed _ _ _ |- _ => destruct X as [X|(X & _)]; cbn in X; congruence end
  | none
  | match goal with HT : forall a, _ -> _ -> forall j, _ -> seen _ _ _ |- _ =>
      intros j X; eapply HT; [eassumption|reflexivity|assumption] end
  | match goal with K : s_mark _ = MARK_HOLD |- _ => intros [_ Q]; rewrite K in Q; discriminate Q end
  | match goal with K : s_mark _ = MARK_HOLD |- _ =>
      with_t ltac:(fun t => intros j u; eapply (own_knows _ _ _ _ _ t j u));
        [eassumption|assumption|assumption|reflexivity|assumption|tpc; rewrite K; discriminate] end
  | left; reflexivity ].
Ltac clm_touch :=
  with_t ltac:(fun t => eapply (hinv_touch _ _ _ _ _ _ t) with (p := t_snap t)); tpc; try eassumption; try lia;
  [ repeat split; reflexivity | once (solve [repeat constructor])
  | in_evs; match goal with X : followed _ _ _ |- _ => destruct X as [X|(X & _)]; cbn in X; congruence end
  | none
  | match goal with HT : forall a, _ -> _ -> forall j, _ -> seen _ _ _ |- _ =>
      intros j X; eapply HT; [eassumption|reflexivity|assumption] end
  | match goal with K : s_mark _ = MARK_READY |- _ => intros _ Q; rewrite K in Q; discriminate Q end
  | with_t ltac:(fun t => intros j u; eapply (clm_knows _ _ _ _ _ t j u));
      [eassumption|assumption|assumption|reflexivity|assumption|assumption]
  | left; reflexivity ].

Lemma hinv_tstep : forall c tr s g l i t s' g' t',
  0 < n_ring c -> inv c s g l -> hinv c tr s g l -> (is_sync c = false -> one c 0 s g l) ->
  nth_error l i = Some t -> fresh_thr c g t ->
  tstep c i s g t = Some (s', g', t') ->
  hinv c (tr ++ map (by_ (Some i)) (touches c s t)) s' g' (upd l i t').
Proof.
  intros c tr s g l i t s' g' t' N IV HV ON T F E.
  pose proof (i_thr _ _ _ _ IV i t T) as K.
  pose proof (i_ord _ _ _ _ IV) as OR.
  pose proof (i_len _ _ _ _ IV) as LN.
  pose proof (h_thr _ _ _ _ _ HV i t) as HT.
  destruct t as [p m a]. unfold tstep in E. unfold touches. unfold thr_ok, fresh_thr, owned in *.
  destruct p; tpc; try discriminate; cbn [map by_].
  - (* HState *) injection E as <- <- <-. with_t hloc. destruct (running s); intros b KB; discriminate KB.
  - (* HLoad *) injection E as <- <- <-. with_t hloc. intros b KB; discriminate KB.
  - (* HRead *) destruct K as [K1 K2]. subst old. injection E as <- <- <-.
    rewrite nxt_ix, (i_read _ _ _ _ IV). with_t hloc.
    destruct (ix c (a + 1) =? ix c (gR g)) eqn:Q; intros b KB; [discriminate KB|].
    unfold kn in KB. tpc. destruct (a =? gH g) eqn:QA; [|discriminate]. injection KB as <-.
    intros j X. apply carried_seen; [|left; reflexivity].
    apply (h_free _ _ _ _ _ HV a); [lia|assumption].
  - (* HCas *) destruct K as (K1 & K2 & K3). subst old.
    rewrite (i_hold _ _ _ _ IV) in E |- *.
    destruct (ix c (gH g) =? ix c a) eqn:Q; cbn [cas].
    + apply Z.eqb_eq in Q. apply ix_eq in Q; [|assumption|lia]. subst a.
      injection E as <- <- <-.
      with_t ltac:(fun t => eapply (hinv_advance c tr s g l i t)); try eassumption; cbn [gH gW gP gR put_g add_held];
        try lia; [left; reflexivity|reflexivity|..].
      * intros b j KB X. cbn in KB. injection KB as <-. apply (HT (gH g)); [assumption| |assumption].
        unfold kn. tpc. rewrite Z.eqb_refl. reflexivity.
      * intros b L. assert (b = gH g) by lia. subst b. rewrite (i_free _ _ _ _ IV) by lia. discriminate.
    + injection E as <- <- <-. with_t hloc. intros b KB; discriminate KB.
  - (* HCount *) injection E as <- <- <-. with_t hloc. intros b KB j X. apply seen_app. apply (HT b); assumption.
  - (* HMark *) destruct K as (-> & K1 & K2 & K3). injection E as <- <- <-.
    with_t ltac:(fun t => eapply (hinv_mark c tr s g l i t)); try eassumption; [|lia|left; reflexivity].
    intros j X. apply (HT a); [assumption|reflexivity|assumption].
  - (* HOut *) injection E as <- <- <-. with_t hloc. destruct (running s); intros b KB; discriminate KB.
  - (* FInit *) destruct K as (-> & K1 & K2 & K3). injection E as <- <- <-. own_touch.
  - (* Fill *) destruct K as (-> & (K1 & K2 & K3) & K4). destruct rest as [|b rest]; injection E as <- <- <-.
    + cbn [map]. with_t hloc. intros b KB j X. apply seen_app. apply (HT b); assumption.
    + cbn [map by_]. own_touch.
  - (* PState *) injection E as <- <- <-. with_t hloc.
    destruct (running s); intros b KB j X; [|discriminate KB]. apply seen_app. apply (HT b); assumption.
  - (* PTerm *) destruct K as (-> & (K1 & K2 & K3) & K4). injection E as <- <- <-. own_touch.
  - (* PMark *) destruct K as (-> & (K1 & K2 & K3) & K4). injection E as <- <- <-.
    with_t ltac:(fun t => eapply (hinv_mark c tr s g l i t)); try eassumption; [|lia|right; reflexivity].
    intros j X. apply (HT a); [assumption|reflexivity|assumption].
  - (* PPrio *) injection E as <- <- <-. with_t hloc. intros b KB; discriminate KB.
  - (* PLoad *) injection E as <- <- <-. with_t hloc. intros b KB; discriminate KB.
  - (* PHold *) injection E as <- <- <-. with_t hloc. destruct (old =? x_hold s); intros b KB; discriminate KB.
  - (* PReady *) destruct K as (-> & K1 & K2). injection E as <- <- <-. fold (at_ c s a) in *. with_t hloc.
    destruct (s_mark (at_ c s a) =? MARK_READY) eqn:Q; intros b KB; [|discriminate KB].
    unfold kn in KB. tpc. destruct (a =? gW g) eqn:QA; [|discriminate]. injection KB as <-.
    intros j X. apply carried_seen; [|left; reflexivity].
    apply (h_res _ _ _ _ _ HV a); [lia|lia|assumption].
  - (* PCas *) destruct K as (-> & K1 & K2 & K3). rewrite (i_write _ _ _ _ IV) in E |- *.
    destruct (ix c (gW g) =? ix c a) eqn:Q; cbn [cas].
    + apply Z.eqb_eq in Q. apply ix_eq in Q; [|assumption|lia]. subst a.
      injection E as <- <- <-.
      with_t ltac:(fun t => eapply (hinv_advance c tr s g l i t)); try eassumption; cbn [gH gW gP gR put_g];
        try lia; [right; left; reflexivity|reflexivity|intros b j KB; discriminate KB|].
      intros b j L X. split; [reflexivity|]. assert (b = gW g) by lia. subst b.
      apply (HT (gW g)); [assumption| |assumption]. unfold kn. tpc. rewrite Z.eqb_refl. reflexivity.
    + injection E as <- <- <-. with_t hloc. intros b KB; discriminate KB.
  - (* PCount *) injection E as <- <- <-. with_t hloc. intros b KB; discriminate KB.
  - (* PWhile *) injection E as <- <- <-. with_t hloc. destruct (running s); intros b KB; discriminate KB.
  - (* PSync *) injection E as <- <- <-. destruct (is_sync c) eqn:SY; cbn [map by_ andb]; with_t hloc;
    try destruct (running s); intros b KB; discriminate KB.
  - (* CLoad *) injection E as <- <- <-. with_t hloc. intros b KB; discriminate KB.
  - (* CWrite *) destruct K as [-> K]. injection E as <- <- <-. rewrite (i_write _ _ _ _ IV). with_t hloc.
    destruct (ix c a =? ix c (gW g)) eqn:Q; intros b KB; [discriminate KB|].
    unfold kn in KB. tpc. destruct (a =? gP g) eqn:QA; [|discriminate]. injection KB as <-.
    intros j X. apply carried_seen; [|left; reflexivity].
    apply (h_pub _ _ _ _ _ HV a); [|assumption].
    destruct (Z.eq_dec a (gW g)) as [QW|D]; [rewrite QW, Z.eqb_refl in Q; discriminate|lia].
  - (* CCas *) destruct K as (-> & K1 & K2). rewrite (i_proc _ _ _ _ IV) in E |- *.
    destruct (ix c (gP g) =? ix c a) eqn:Q; cbn [cas].
    + apply Z.eqb_eq in Q. apply ix_eq in Q; [|assumption|lia]. subst a.
      injection E as <- <- <-.
      with_t ltac:(fun t => eapply (hinv_advance c tr s g l i t)); try eassumption; cbn [gH gW gP gR put_g];
        try lia; [right; right; left; reflexivity|reflexivity|..].
      * intros b j KB X. cbn in KB. injection KB as <-. apply (HT (gP g)); [assumption| |assumption].
        unfold kn. tpc. rewrite Z.eqb_refl. reflexivity.
      * intros b L. assert (b = gP g) by lia. subst b.
        destruct (i_pub _ _ _ _ IV (gP g) ltac:(lia)) as [M _]. rewrite M. discriminate.
    + injection E as <- <- <-. with_t hloc. intros b KB; discriminate KB.
  - (* CRead *) destruct K as (-> & K1 & [K2 _] & K3 & K4).
    destruct (k <? zlen (s_text (get s (ix c a)))); injection E as <- <- <-; cbn [map by_]; clm_touch.
  - (* CMark *) destruct K as (-> & K1 & K2). injection E as <- <- <-.
    with_t ltac:(fun t => eapply (hinv_mark c tr s g l i t)); try eassumption; [|lia|unfold kn; tpc; destruct (is_sync c); auto].
    intros j X. apply (HT a); [assumption|reflexivity|assumption].
  - (* CCount *) injection E as <- <- <-. with_t hloc. intros b KB j X. apply seen_app. apply (HT b); assumption.
  - (* CBytes *) injection E as <- <- <-. destruct (is_sync c) eqn:SY.
    + eapply hinv_local; try eassumption; [reflexivity|repeat split; reflexivity| |none|intros b KB; discriminate KB].
      in_evs; intros [X|(X1 & X2 & X3)]; try discriminate. rewrite X3 in SY; [discriminate|reflexivity].
    + specialize (ON eq_refl). assert (i = 0%nat).
      { eapply (o_only _ _ _ _ _ ON); [eassumption|reflexivity]. }
      subst i. destruct (o_thr _ _ _ _ _ ON _ T) as (CO & _). cbn in CO. destruct CO as (C1 & C2 & -> & C4).
      rewrite <- C1 in *.
      eapply (hinv_touch c tr s g l 0%nat) with (p := a); try eassumption; try lia;
        [intros _; exact ON|reflexivity|repeat split; reflexivity|repeat constructor|..].
      * in_evs; intros; match goal with X : followed _ _ _ |- _ => destruct X as [X|(X & _)]; cbn in X; congruence end.
      * none.
      * intros j X. apply (HT a); [assumption| |assumption]. unfold kn. tpc. rewrite SY. reflexivity.
      * intros _ _. auto.
      * intros j u U KU. eapply writer_knows; try eassumption. lia.
      * right. reflexivity.
  - (* RLoad *) injection E as <- <- <-. with_t hloc. intros b KB; discriminate KB.
  - (* RProc *) injection E as <- <- <-. with_t hloc. destruct (old =? x_proc s); intros b KB; discriminate KB.
  - (* RMark *) destruct K as (-> & K1 & K2). injection E as <- <- <-. fold (at_ c s a) in *. with_t hloc.
    destruct (s_mark (at_ c s a) =? MARK_INVALID) eqn:Q; intros b KB; [|discriminate KB].
    unfold kn in KB. tpc. destruct (a =? gR g) eqn:QA; [|discriminate]. injection KB as <-.
    intros j X. destruct (h_done _ _ _ _ _ HV a ltac:(lia) ltac:(lia) j X) as [D|[D1 D2]].
    + apply carried_seen; [assumption|left; reflexivity].
    + apply seen_app. assert (i = 0%nat); [|subst i; assumption].
      eapply (o_only _ _ _ _ _ (ON D1)); [eassumption|reflexivity].
  - (* RCas *) destruct K as (-> & K1 & K2 & K3). rewrite (i_read _ _ _ _ IV) in E |- *.
    destruct (ix c (gR g) =? ix c a) eqn:Q; cbn [cas].
    + apply Z.eqb_eq in Q. apply ix_eq in Q; [|assumption|lia]. subst a.
      injection E as <- <- <-.
      with_t ltac:(fun t => eapply (hinv_advance c tr s g l i t)); try eassumption; cbn [gH gW gP gR put_g];
        try lia; [right; right; right; reflexivity|reflexivity|intros b j KB; discriminate KB|].
      intros b j L X. split; [reflexivity|]. assert (b = gR g + n_ring c) by lia. subst b.
      rewrite ix_lap in X.
      apply (HT (gR g)); [assumption| |assumption]. unfold kn. tpc. rewrite Z.eqb_refl. reflexivity.
    + injection E as <- <- <-. with_t hloc. intros b KB; discriminate KB.
  - (* CNull *) injection E as <- <- <-.
    destruct (x_state s =? CHANNEL_STATE_NULL); cbn [map by_]; with_t hloc; intros b KB; discriminate KB.
  - (* CLoop *) injection E as <- <- <-. destruct (is_sync c) eqn:SY; cbn [map by_]; with_t hloc;
    try destruct (running s); intros b KB; discriminate KB.
  - (* CRest *) injection E as <- <- <-. with_t hloc. destruct (x_write s =? x_read s); intros b KB; discriminate KB.
  - (* CFin *) injection E as <- <- <-. with_t hloc. intros b KB; discriminate KB.
Qed.

(* ---- every schedule keeps it ---- *)
Definition hinv_st (c : rcfg) (tr : list event) (s : st) : Prop := hinv c tr (sh s) (gh s) (ths s).

Definition with_one (c : rcfg) (s : st) : Prop := is_sync c = false -> one_st c 0 s.

Lemma hinv_shared : forall c tr s g l s' evs, hinv c tr s g l -> same_ring s s' ->
  (forall e k, In e evs -> ~ followed c e k) ->
  (forall e, In e evs -> hands_on (e_place e) -> ~ alters (e_way e)) ->
  hinv c (tr ++ evs) s' g l.
Proof.
  intros c tr s g l s' evs H SR F A.
  assert (OLD : forall k j, at_slot c (tr ++ evs) k j -> at_slot c tr k j).
  { intros k j. apply at_slot_old. intros e. apply F. }
  assert (CA : forall x j, hands_on x -> carried tr x j -> carried (tr ++ evs) x j).
  { intros x j X C. apply carried_app; [assumption|]. intros e E <-. apply A; assumption. }
  assert (M : forall a, at_ c s' a = at_ c s a) by (intros; apply at_same; assumption).
  destruct H. constructor.
  - intros k a b L X Y. apply before_app. apply (h_ord0 k); auto.
  - intros j u a J KU n X. apply seen_app. apply (h_thr0 j u a); auto.
  - intros a L j X. apply CA; [exact I|]. apply (h_free0 a); auto.
  - intros a L j X. apply CA; [exact I|]. apply (h_pub0 a); auto.
  - intros a L Q j X. rewrite M in Q. apply CA; [exact I|]. apply (h_res0 a); auto.
  - intros a L Q j X. rewrite M in Q. destruct (h_done0 a L Q j (OLD _ _ X)) as [D|[D E]].
    + left. apply CA; [exact I|assumption].
    + right. split; [assumption|]. apply seen_app. assumption.
Qed.

Lemma hinv_step : forall c tr s l s', 0 < n_ring c -> inv_st c s -> x_ctl (sh s) <> 3 -> with_one c s ->
  hinv_st c tr s -> fresh c s l -> l <> LClean -> step c s l = Some s' ->
  hinv_st c (tr ++ events c s l) s'.
Proof.
  intros c tr s l s' N IV C3 ON HV F NC E. unfold hinv_st, inv_st in *. destruct l as [tid msg|tid| | | |].
  - destruct (step_log_inv _ _ _ _ _ E) as (t & T & P & ->). cbn [sh gh ths events control map].
    eapply hinv_local; try eassumption; [reflexivity|repeat split; reflexivity|none|none|].
    intros a K. discriminate K.
  - destruct (step_run_inv _ _ _ _ E) as (t & x & g & t' & T & TS & ->). cbn [sh gh ths events]. rewrite T.
    eapply hinv_tstep; try eassumption; [|apply F; assumption]. intros SY. apply (ON SY).
  - destruct (ctl_step_inv c s LStop s' (or_introl eq_refl) E) as (G & L & SR & _). rewrite G, L.
    apply (hinv_shared c tr (sh s)); try assumption; cbn [events control];
    destruct (is_sync c); [none|destruct (running (sh s)); none|none|destruct (running (sh s)); none].
  - destruct (ctl_step_inv c s LJoin s' (or_intror eq_refl) E) as (G & L & SR & _). rewrite G, L.
    apply (hinv_shared c tr (sh s)); try assumption; cbn [events control]; destruct (is_sync c); none.
  - congruence.
  - cbn [step] in E. destruct (x_ctl (sh s) =? 3) eqn:Q; [lia|discriminate].
Qed.

Lemma hinv_run : forall c ls tr s s', 0 < n_ring c -> inv_st c s -> x_ctl (sh s) <> 3 -> with_one c s ->
  hinv_st c tr s -> no_lap c s ls -> no_restart ls -> run c s ls = Some s' ->
  hinv_st c (tr ++ trace c s ls) s'.
Proof.
  intros c ls. induction ls as [|l ls IH]; intros tr s s' N IV C3 ON HV NL NR R.
  - cbn in *. injection R as <-. rewrite app_nil_r. assumption.
  - cbn [run trace] in *. destruct (step c s l) as [s1|] eqn:E; [|discriminate].
    destruct NL as [F NL]. rewrite app_assoc.
    assert (NC : l <> LClean) by (intros ->; apply NR; left; reflexivity).
    destruct (inv_step c s l s1 N IV C3 F NC E) as [IV1 C31].
    apply (IH _ s1 s'); try assumption.
    + intros SY. apply (one_step c 0%nat s l s1); auto.
    + eapply hinv_step; eassumption.
    + apply NL. assumption.
    + intros X. apply NR. right. assumption.
Qed.

Lemma hinv_start : forall c slots k, hinv_st c [] (start c slots k).
Proof.
  intros c slots k. assert (NO : forall i j, ~ at_slot c [] i j).
  { intros i j (e & E & _). destruct j; discriminate. }
  constructor.
  - intros i a b _ X. exfalso. exact (NO _ _ X).
  - intros i t a _ _ j X. exfalso. exact (NO _ _ X).
  - intros a _ j X. exfalso. exact (NO _ _ X).
  - intros a _ j X. exfalso. exact (NO _ _ X).
  - intros a _ _ j X. exfalso. exact (NO _ _ X).
  - intros a _ _ j X. exfalso. exact (NO _ _ X).
Qed.

(* Any two accesses that are followed are ordered. *)
Lemma followed_ordered : forall c slots k ls s i j a b n, cfg_ok c -> blank c slots ->
  reaches c slots k ls s -> no_lap c (start c slots k) ls -> no_restart ls ->
  (i < j)%nat ->
  nth_error (trace c (start c slots k) ls) i = Some a -> nth_error (trace c (start c slots k) ls) j = Some b ->
  followed c a n -> followed c b n ->
  before (trace c (start c slots k) ls) i j.
Proof.
  intros c slots k ls s i j a b n C B R NL NR L A D FA FB.
  assert (H : hinv_st c ([] ++ trace c (start c slots k) ls) s).
  { apply hinv_run; try assumption.
    - destruct C; lia.
    - apply inv_start; assumption.
    - cbn. discriminate.
    - intros SY. apply one_start. auto.
    - apply hinv_start. }
  apply (h_ord _ _ _ _ _ H n); [assumption|exists a; auto|exists b; auto].
Qed.

(* ---- showing that two accesses are not ordered ---- *)
Definition whob (a b : option nat) : bool :=
  match a, b with Some m, Some n => Nat.eqb m n | None, None => true | _, _ => false end.
Definition placeb (a b : place) : bool :=
  match a, b with
  | PlHold, PlHold | PlWrite, PlWrite | PlProc, PlProc | PlRead, PlRead
  | PlState, PlState | PlCount, PlCount => true
  | PlMark i, PlMark j | PlLen i, PlLen j | PlText i, PlText j => i =? j
  | _, _ => false
  end.
Definition pubb (o : way) : bool := match o with Release | Change => true | _ => false end.
Definition obsb (o : way) : bool := match o with Acquire | Change => true | _ => false end.
Definition altb (o : way) : bool := match o with Release | Change | Relaxed | Set_ => true | _ => false end.

Lemma whob_eq : forall a b, whob a b = true <-> a = b.
Proof.
  intros [m|] [n|]; cbn; split; intros H; try congruence; try discriminate.
  - apply Nat.eqb_eq in H. congruence.
  - injection H as ->. apply Nat.eqb_refl.
Qed.
Lemma placeb_eq : forall a b, placeb a b = true <-> a = b.
Proof.
  intros a b. destruct a; destruct b; cbn; split; intros H; try congruence; try discriminate;
    try (apply Z.eqb_eq in H; congruence); injection H as ->; apply Z.eqb_refl.
Qed.

(* a set of accesses, one bit for each, that contains what follows its members *)
Fixpoint later_seq (w : option nat) (l : list (event * bool)) : bool :=
  match l with
  | [] => true
  | (e, b) :: r => (negb (whob w (e_who e)) || b) && later_seq w r
  end.
Fixpoint later_syn (x : place) (l : list (event * bool)) : bool :=
  match l with
  | [] => true
  | (e, b) :: r =>
      if placeb x (e_place e)
      then (negb (obsb (e_way e)) || b) && (if altb (e_way e) then true else later_syn x r)
      else later_syn x r
  end.
Fixpoint closed (l : list (event * bool)) : bool :=
  match l with
  | [] => true
  | (e, b) :: r =>
      (if b then later_seq (e_who e) r && (if pubb (e_way e) then later_syn (e_place e) r else true) else true) &&
      closed r
  end.

Lemma later_seq_ok : forall w l n e b, later_seq w l = true -> nth_error l n = Some (e, b) -> e_who e = w -> b = true.
Proof.
  intros w l. induction l as [|[f d] l IH]; intros n e b H N W; [destruct n; discriminate|].
  cbn [later_seq] in H. apply andb_prop in H. destruct H as [H1 H2]. destruct n as [|n].
  - cbn in N. injection N as -> ->. rewrite (proj2 (whob_eq w (e_who e))) in H1 by congruence. exact H1.
  - apply (IH n e b); assumption.
Qed.

Lemma later_syn_ok : forall x l n e b, later_syn x l = true -> nth_error l n = Some (e, b) ->
  e_place e = x -> observes (e_way e) ->
  (forall k f d, (k < n)%nat -> nth_error l k = Some (f, d) -> e_place f = x -> ~ alters (e_way f)) -> b = true.
Proof.
  intros x l. induction l as [|[f d] l IH]; intros n e b H N P O Q; [destruct n; discriminate|].
  cbn [later_syn] in H. destruct n as [|n].
  - cbn in N. injection N as -> ->. rewrite (proj2 (placeb_eq x (e_place e))) in H by congruence.
    apply andb_prop in H. destruct H as [H _]. destruct O as [O|O]; rewrite O in H; exact H.
  - cbn in N. assert (Q' : forall k g h, (k < n)%nat -> nth_error l k = Some (g, h) -> e_place g = x -> ~ alters (e_way g)).
    { intros k g h K. apply (Q (S k) g h). lia. }
    destruct (placeb x (e_place f)) eqn:PF; [|apply (IH n e b); assumption].
    apply placeb_eq in PF. apply andb_prop in H. destruct H as [_ H].
    pose proof (Q 0%nat f d ltac:(lia) eq_refl (eq_sym PF)) as NA.
    destruct (altb (e_way f)) eqn:AF; [|apply (IH n e b); assumption].
    exfalso. apply NA. unfold alters. destruct (e_way f); try discriminate; tauto.
Qed.

Lemma nth_combine : forall {A B} (l : list A) (r : list B) n x y,
  nth_error l n = Some x -> nth_error r n = Some y -> nth_error (combine l r) n = Some (x, y).
Proof.
  intros A B l. induction l as [|a l IH]; intros [|b r] [|n] x y H K; try discriminate; cbn in *; [congruence|auto].
Qed.

Lemma nth_uncombine : forall {A B} (l : list A) (r : list B) n x y,
  nth_error (combine l r) n = Some (x, y) -> nth_error l n = Some x /\ nth_error r n = Some y.
Proof.
  intros A B l. induction l as [|a l IH]; intros [|b r] [|n] x y H; try discriminate; cbn in *; [split; congruence|auto].
Qed.

Lemma nth_skip : forall {A} (l : list A) n k, nth_error (skipn n l) k = nth_error l (n + k).
Proof. intros A l. induction l as [|a l IH]; intros [|n] k; cbn; try reflexivity; [destruct k; reflexivity|apply IH]. Qed.

Lemma closed_skip : forall l n e b, closed l = true -> nth_error l n = Some (e, b) -> b = true ->
  later_seq (e_who e) (skipn (S n) l) = true /\
  (publishes (e_way e) -> later_syn (e_place e) (skipn (S n) l) = true).
Proof.
  intros l. induction l as [|[f d] l IH]; intros n e b C N ->; [destruct n; discriminate|].
  cbn [closed] in C. apply andb_prop in C. destruct C as [C1 C2]. destruct n as [|n].
  - cbn in N. injection N as -> ->. cbn [skipn]. apply andb_prop in C1. destruct C1 as [C1 C3].
    split; [assumption|]. intros [P|P]; rewrite P in C3; assumption.
  - apply (IH n e true); auto.
Qed.

Lemma closed_before : forall tr bs i j b d, closed (combine tr bs) = true -> length bs = length tr ->
  before tr i j -> nth_error bs i = Some true -> nth_error bs j = Some d -> d = b -> b = true.
Proof.
  intros tr bs i j b d C LE H. revert d b. induction H as [i j (L & x & y & X & Y & E)|
    i j (L & x & y & X & Y & E & P & O & K)|i j k H1 IH1 H2 IH2]; intros d b BI BJ ->.
  - destruct (closed_skip _ i x true C (nth_combine _ _ _ _ _ X BI) eq_refl) as [Q _].
    apply (later_seq_ok _ _ (j - S i) y b Q); [|congruence]. rewrite nth_skip.
    replace (S i + (j - S i))%nat with j by lia. apply nth_combine; assumption.
  - destruct (closed_skip _ i x true C (nth_combine _ _ _ _ _ X BI) eq_refl) as [_ Q].
    apply (later_syn_ok _ _ (j - S i) y b (Q P)); try congruence.
    + rewrite nth_skip. replace (S i + (j - S i))%nat with j by lia. apply nth_combine; assumption.
    + intros k f d KL N PF. rewrite nth_skip in N. apply nth_uncombine in N. destruct N as [N _].
      apply (K (S i + k)%nat f); [lia|assumption|assumption].
  - destruct (nth_error bs j) as [dj|] eqn:BJ'.
    + assert (dj = true) by (apply (IH1 dj dj); auto). subst dj. apply (IH2 b b); auto.
    + exfalso. apply nth_error_None in BJ'. clear - BJ' LE H2.
      assert (forall i k, before tr i k -> (i < length tr)%nat).
      { intros a c H. induction H as [a c (L & x & y & X & _)|a c (L & x & y & X & _)|]; try assumption;
        eapply nth_len; exact X. }
      specialize (H _ _ H2). lia.
Qed.

(* the accesses that follow access [i] *)
Fixpoint after (ws : list (option nat)) (xs : list place) (l : list event) : list bool :=
  match l with
  | [] => []
  | e :: r =>
      let b := existsb (whob (e_who e)) ws || (obsb (e_way e) && existsb (placeb (e_place e)) xs) in
      let xs' := filter (fun x => negb (placeb x (e_place e) && altb (e_way e))) xs in
      b :: after (if b then e_who e :: ws else ws)
                 (if b && pubb (e_way e) then e_place e :: xs' else xs') r
  end.
Definition bits (tr : list event) (i : nat) : list bool :=
  match nth_error tr i with
  | None => []
  | Some e => repeat false i ++ true :: after [e_who e] (if pubb (e_way e) then [e_place e] else []) (skipn (S i) tr)
  end.

Lemma not_before : forall tr i j, closed (combine tr (bits tr i)) = true -> length (bits tr i) = length tr ->
  nth_error (bits tr i) i = Some true -> nth_error (bits tr i) j = Some false -> ~ before tr i j.
Proof.
  intros tr i j C L I J H. pose proof (closed_before tr (bits tr i) i j false false C L H I J eq_refl). discriminate.
Qed.

(* ---- which places are accessed plainly ---- *)
Lemma touches_plain : forall c s t line x o, In (line, x, o) (touches c s t) -> plain o ->
  x = PlState \/ exists i, x = PlText i \/ x = PlLen i.
Proof.
  intros c s t line x o H P. unfold touches in H.
  destruct (t_pc t) as [| | |old|old|i|i| |i|i rest|i|i|i|i| |old|old|old| | | | |old|old|i k acc|i|i|i| |old|old|old| | | | |];
    try destruct rest; unfold cas in H;
    repeat match type of H with context [if ?b then _ else _] => destruct b end; cbn [In] in H;
    repeat match type of H with _ \/ _ => destruct H as [H|H] end; try contradiction;
    injection H as <- <- <-; eauto; destruct P; discriminate.
Qed.

Lemma events_plain : forall c s l e, In e (events c s l) -> plain (e_way e) ->
  e_place e = PlState \/ exists i, e_place e = PlText i \/ e_place e = PlLen i.
Proof.
  assert (BY : forall w l e, In e (map (by_ w) l) -> exists line, In (line, e_place e, e_way e) l).
  { intros w l e H. apply in_map_iff in H. destruct H as ([[line x] o] & <- & H). exists line. assumption. }
  intros c s l e H P.
  assert (CT : forall l', In e (map (by_ None) (control c (sh s) l')) -> e_place e = PlState).
  { intros l' Q. apply BY in Q. destruct Q as [line Q]. unfold control in Q.
    destruct l'; try contradiction;
    repeat match type of Q with context [if ?b then _ else _] => destruct b end; cbn [In] in Q;
    repeat match type of Q with _ \/ _ => destruct Q as [Q|Q] end; try contradiction; congruence. }
  destruct l as [tid msg|tid| | | |]; try (left; apply (CT _ H)).
  cbn [events] in H. destruct (nth_error (ths s) tid) as [t|]; [|contradiction].
  apply BY in H. destruct H as [line H]. apply (touches_plain c (sh s) t line _ _ H P).
Qed.

Lemma trace_plain : forall c ls s e, In e (trace c s ls) -> plain (e_way e) ->
  e_place e = PlState \/ exists i, e_place e = PlText i \/ e_place e = PlLen i.
Proof.
  intros c ls. induction ls as [|l ls IH]; intros s e H P; [contradiction|].
  cbn [trace] in H. apply in_app_or in H. destruct H as [H|H]; [eapply events_plain; eassumption|].
  destruct (step c s l) as [s'|]; [|contradiction]. apply (IH s' e H P).
Qed.

(* while nothing is stopped nobody writes channel_state_ *)
Lemma state_kept : forall c s t line o, running s = true -> ended t = false ->
  In (line, PlState, o) (touches c s t) -> o = Get.
Proof.
  intros c s t line o RU EN H. unfold touches, ended in *.
  assert (NU : x_state s =? CHANNEL_STATE_NULL = false).
  { unfold running in RU. apply Z.eqb_eq in RU. rewrite RU. reflexivity. }
  destruct (t_pc t) as [| | |old|old|i|i| |i|i rest|i|i|i|i| |old|old|old| | | | |old|old|i k acc|i|i|i| |old|old|old| | | | |];
    try destruct rest; unfold cas in H; rewrite ?NU in H; try discriminate EN;
    repeat match type of H with context [if ?b then _ else _] => destruct b end; cbn [In] in H;
    repeat match type of H with _ \/ _ => destruct H as [H|H] end; try contradiction; congruence.
Qed.

Lemma trace_state : forall c ls s e, 0 < n_ring c -> inv_st c s -> live c s -> no_lap c s ls -> threads_only ls ->
  In e (trace c s ls) -> e_place e = PlState -> e_way e = Get.
Proof.
  intros c ls. induction ls as [|l ls IH]; intros s e N IV LV NL TO H P; [contradiction|].
  cbn [trace] in H. apply Forall_cons_iff in TO. destruct TO as [TL TO]. destruct NL as [F NL].
  apply in_app_or in H. destruct H as [H|H].
  - destruct l as [tid msg|tid| | | |]; try contradiction.
    cbn [events] in H. destruct (nth_error (ths s) tid) as [t|] eqn:T; [|contradiction].
    apply in_map_iff in H. destruct H as ([[line x] o] & <- & H). cbn in *. subst x.
    apply (state_kept c (sh s) t line o); try assumption.
    + apply (l_run _ _ LV).
    + apply (l_end _ _ LV tid). assumption.
  - destruct (step c s l) as [s'|] eqn:E; [|contradiction].
    apply (IH s' e); try assumption; [| |apply NL; reflexivity].
    + apply (inv_step c s l s'); try assumption.
      * rewrite (l_ctl _ _ LV). discriminate.
      * intros ->. contradiction.
    + eapply live_step; eassumption.
Qed.
