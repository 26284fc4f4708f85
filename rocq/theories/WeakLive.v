(* In weak memory no thread inside a statement or a writer loop is ever without a step. *)
From Coq Require Import String ZArith List Bool Lia ZifyBool ZifyNat ZifyN.
From Verif Require Import Base BaseFacts LoggerState Ring RingInv WeakRing WeakSpec WeakProofs WeakInv WeakOut WeakLaws WeakOne.
Import ListNotations.
Open Scope Z_scope.
Ltac Zify.zify_post_hook ::= idtac.

Definition slot (c : rcfg) (i : Z) : Prop := 0 <= i < n_ring c.
Definition okl (c : rcfg) (l : loc) : Prop := match l with LMark i | LRec i => slot c i | _ => True end.
Definition index (l : loc) : Prop := match l with LMark _ | LRec _ => False | _ => True end.
Definition topm (mem : list msg) (l : loc) : Z := fold_right (fun m a => if loc_eqb (m_loc m) l then Z.max (m_ts m) a else a) 0 mem.
Definition vle (v : view) (mem : list msg) : Prop := forall l, 0 <= v l <= topm mem l.
Definition pc_ok (c : rcfg) (p : wpc) : Prop :=
  match p with
  | WHRead i | WHCas i | WHMark i | WFill i | WPMark i | WPHold i | WPReady i | WPCas i
  | WCWrite i | WCCas i | WCRead i | WCMark i | WRProc i | WRMark i | WRCas i => slot c i
  | _ => True
  end.
Record lmem (c : rcfg) (mem : list msg) : Prop := mkLmem {
  lm_all : forall l, okl c l -> exists m, In m mem /\ m_loc m = l;
  lm_ts : forall m, In m mem -> 0 <= m_ts m;
  lm_val : forall m, In m mem -> index (m_loc m) -> slot c (m_val m);
  lm_view : forall m, In m mem -> vle (m_view m) mem
}.
Definition lthr (c : rcfg) (mem : list msg) (t : wthr) : Prop := vle (w_view t) mem /\ pc_ok c (w_pc t).

Lemma topm_in : forall mem m, In m mem -> m_ts m <= topm mem (m_loc m).
Proof.
  intros mem. induction mem as [|x mem IH]; intros m I; [contradiction|]. cbn [topm fold_right]. fold (topm mem (m_loc m)). destruct I as [-> |I]; [rewrite loc_eqb_refl; lia|].
  specialize (IH m I). destruct (loc_eqb (m_loc x) (m_loc m)); lia.
Qed.
Lemma topm_cons : forall m mem l, topm mem l <= topm (m :: mem) l.
Proof. intros m mem l. cbn [topm fold_right]. fold (topm mem l). destruct (loc_eqb (m_loc m) l); lia. Qed.
Lemma topm_0 : forall mem l, 0 <= topm mem l.
Proof. intros mem l. induction mem as [|x mem IH]; [reflexivity|]. pose proof (topm_cons x mem l). lia. Qed.
Lemma vle_cons : forall v m mem, vle v mem -> vle v (m :: mem).
Proof. intros v m mem H l. specialize (H l). pose proof (topm_cons m mem l). lia. Qed.
Lemma at_some : forall mem m, In m mem -> exists m', at_ts mem (m_loc m) (m_ts m) = Some m'.
Proof.
  intros mem m I. destruct (at_ts mem (m_loc m) (m_ts m)) as [x|] eqn:E; [exists x; reflexivity|]. exfalso. exact (at_none _ _ _ _ E I eq_refl eq_refl).
Qed.
Lemma topm_get : forall mem l, (forall m, In m mem -> 0 <= m_ts m) -> (exists m, In m mem /\ m_loc m = l) -> exists m, In m mem /\ m_loc m = l /\ m_ts m = topm mem l.
Proof.
  intros mem l. induction mem as [|x mem IH]; intros P (m & I & L); [contradiction|]. cbn [topm fold_right]. fold (topm mem l).
  assert (PM : forall y, In y mem -> 0 <= m_ts y) by (intros y Y; apply P; right; exact Y).
  destruct (loc_eqb (m_loc x) l) eqn:X.
  - apply loc_eqb_eq in X. destruct (Z_le_gt_dec (topm mem l) (m_ts x)) as [G|G]; [exists x; split; [left; reflexivity|]; split; [exact X|lia]|].
    assert (N : exists y, In y mem /\ m_loc y = l).
    { clear - G P PM X. pose proof (P x (or_introl eq_refl)) as PX. clear P. induction mem as [|y mem IH]; [cbn in G; lia|]. destruct (loc_eqb (m_loc y) l) eqn:Y; [exists y; split; [left; reflexivity|apply loc_eqb_eq; exact Y]|].
      cbn [topm fold_right] in G. rewrite Y in G. fold (topm mem l) in G. destruct (IH (fun w W => PM w (or_intror W)) G) as (z & Z1 & Z2). exists z. split; [right; exact Z1|exact Z2]. }
    destruct (IH PM N) as (y & Y1 & Y2 & Y3). exists y. split; [right; exact Y1|]. split; [exact Y2|lia].
  - destruct I as [-> |I]; [rewrite L, loc_eqb_refl in X; discriminate|]. destruct (IH PM (ex_intro _ m (conj I L))) as (y & Y1 & Y2 & Y3). exists y. split; [right; exact Y1|]. auto.
Qed.
Lemma topm_at : forall c mem l, lmem c mem -> okl c l -> exists m, at_ts mem l (topm mem l) = Some m.
Proof.
  intros c mem l M O. destruct (topm_get mem l (lm_ts c mem M) (lm_all c mem M l O)) as (m & I & L & T). rewrite <- T, <- L. exact (at_some mem m I).
Qed.
Lemma topm_free : forall mem l, at_ts mem l (topm mem l + 1) = None.
Proof.
  intros mem l. destruct (at_ts mem l (topm mem l + 1)) as [m|] eqn:E; [|reflexivity]. apply at_in in E. destruct E as (A & B & C). pose proof (topm_in mem m A) as T. rewrite B in T. lia.
Qed.

(* ---- every access is possible ---- *)
Lemma can_load : forall c mem v l, lmem c mem -> vle v mem -> okl c l -> exists m v', w_load mem v l (topm mem l) = Some (m, v').
Proof. intros c mem v l M V O. unfold w_load. destruct (topm_at c mem l M O) as (m & ->). pose proof (V l). replace (v l <=? topm mem l) with true by lia. eauto. Qed.
Lemma can_plain : forall c mem v l, lmem c mem -> vle v mem -> okl c l -> exists m v', w_plain mem v l (topm mem l) = Some (m, v').
Proof. intros c mem v l M V O. unfold w_plain. destruct (topm_at c mem l M O) as (m & ->). pose proof (V l). replace (v l <=? topm mem l) with true by lia. eauto. Qed.
Lemma can_store : forall mem v l n x, vle v mem -> exists mem' v', w_store mem v l (topm mem l + 1) n x = Some (mem', v').
Proof. intros mem v l n x V. unfold w_store. rewrite topm_free. pose proof (V l). replace (v l <? topm mem l + 1) with true by lia. eauto. Qed.
Lemma load_le : forall c mem v l t m v', lmem c mem -> vle v mem -> w_load mem v l t = Some (m, v') -> vle v' mem /\ In m mem /\ m_loc m = l.
Proof.
  intros c mem v l t m v' M V H. unfold w_load in H. destruct (at_ts mem l t) as [x|] eqn:E; [|discriminate]. destruct (v l <=? t); [|discriminate]. injection H as -> <-.
  apply at_in in E. destruct E as (A & B & _). split; [|auto]. intros k. unfold vjoin. pose proof (V k). pose proof (lm_view c mem M m A k). lia.
Qed.
Lemma can_cas : forall c mem v l old new, lmem c mem -> vle v mem -> okl c l -> exists b mem' v', w_cas mem v l (topm mem l) old new = Some (b, mem', v').
Proof.
  intros c mem v l old new M V O. unfold w_cas. destruct (can_load c mem v l M V O) as (m & v' & L). rewrite L. destruct (load_le c mem v l _ m v' M V L) as [V' _].
  destruct (m_val m =? old); [|eauto]. destruct (can_store mem v' l new [] V') as (mem' & v2 & ->). eauto.
Qed.
Lemma can_step : forall c mem t, lmem c mem -> lthr c mem t -> w_pc t <> WIdle -> exists rt wt r, wstep c mem t rt wt = Some r.
Proof.
  intros c mem t M [V P] NI.
  assert (LO : forall l (k : msg -> view -> wres), okl c l -> exists rt (wt : Z) r, match w_load mem (w_view t) l rt with Some (m, v') => Some (k m v') | None => None end = Some r).
  { intros l k O. destruct (can_load c mem (w_view t) l M V O) as (m & v' & L). exists (topm mem l), 0. rewrite L. eauto. }
  assert (ST : forall l n x (k : list msg -> view -> wres), exists (rt : Z) wt r, match w_store mem (w_view t) l wt n x with Some (m, v') => Some (k m v') | None => None end = Some r).
  { intros l n x k. destruct (can_store mem (w_view t) l n x V) as (m & v' & L). exists 0, (topm mem l + 1). rewrite L. eauto. }
  assert (CA : forall l old new (yes no : list msg -> view -> Z -> wres), okl c l -> exists rt (wt : Z) r, match w_cas mem (w_view t) l rt old new with Some (true, m, v') => Some (yes m v' rt) | Some (false, m, v') => Some (no m v' rt) | None => None end = Some r).
  { intros l old new yes no O. destruct (can_cas c mem (w_view t) l old new M V O) as (b & m & v' & L). exists (topm mem l), 0. rewrite L. destruct b; eauto. }
  assert (LA : forall l (k : msg -> view -> Z -> wres), okl c l -> exists rt (wt : Z) r, match w_load mem (w_view t) l rt with Some (m, v') => Some (k m v' rt) | None => None end = Some r).
  { intros l k O. destruct (can_load c mem (w_view t) l M V O) as (m & v' & L). exists (topm mem l), 0. rewrite L. eauto. }
  unfold wstep. cbv zeta. destruct (w_pc t) as [| |i|i|i|i|i| |i|i|i| |i|i|i|i| |i|i|i]; cbn [pc_ok] in P.
  - congruence.
  - apply (LA LHold (fun m v' rt => (mem, w_go_at t (WHRead (m_val m)) rt v', [], [])) Logic.I).
  - apply (LO LRead (fun m v' => (mem, w_go t (if nxt c i =? m_val m then WHLoad else WHCas i) v', [], [])) Logic.I).
  - apply (CA LHold i (nxt c i) (fun m v' rt => (m, w_go_at t (WHMark i) rt v', [w_msg t], [])) (fun m v' rt => (m, w_go t WHLoad v', [], [])) Logic.I).
  - apply (ST (LMark i) MARK_HOLD [] (fun m v' => (m, w_go t (WFill i) v', [], []))).
  - apply (ST (LRec i) 0 (w_msg t) (fun m v' => (m, w_go t (WPMark i) v', [], []))).
  - apply (ST (LMark i) MARK_READY [] (fun m v' => (m, w_go t WPLoad v', [], []))).
  - apply (LA LWrite (fun m v' rt => (mem, w_go_at t (WPHold (m_val m)) rt v', [], [])) Logic.I).
  - apply (LO LHold (fun m v' => (mem, w_go t (if i =? m_val m then _ else WPReady i) v', [], [])) Logic.I).
  - apply (LO (LMark i) (fun m v' => (mem, w_go t (if m_val m =? MARK_READY then WPCas i else _) v', [], [])) P).
  - apply (CA LWrite i (nxt c i) (fun m v' rt => (m, w_go_at t WPLoad rt v', [], [])) (fun m v' rt => (m, w_go t WPLoad v', [], [])) Logic.I).
  - apply (LA LProc (fun m v' rt => (mem, w_go_at t (WCWrite (m_val m)) rt v', [], [])) Logic.I).
  - apply (LO LWrite (fun m v' => (mem, w_go t (if i =? m_val m then _ else WCCas i) v', [], [])) Logic.I).
  - apply (CA LProc i (nxt c i) (fun m v' rt => (m, w_go_at t (WCRead i) rt v', [], [])) (fun m v' rt => (m, w_go t _ v', [], [])) Logic.I).
  - destruct (can_plain c mem (w_view t) (LRec i) M V P) as (m & v' & L). exists (topm mem (LRec i)), 0. rewrite L. eauto.
  - apply (ST (LMark i) MARK_INVALID [] (fun m v' => (m, w_go t WRLoad v', [], []))).
  - apply (LA LRead (fun m v' rt => (mem, w_go_at t (WRProc (m_val m)) rt v', [], [])) Logic.I).
  - apply (LO LProc (fun m v' => (mem, w_go t (if i =? m_val m then WCLoad else WRMark i) v', [], [])) Logic.I).
  - apply (LO (LMark i) (fun m v' => (mem, w_go t (if m_val m =? MARK_INVALID then WRCas i else WCLoad) v', [], [])) P).
  - apply (CA LRead i (nxt c i) (fun m v' rt => (m, w_go_at t WRLoad rt v', [], [])) (fun m v' rt => (m, w_go t WRLoad v', [], [])) Logic.I).
Qed.

(* ---- what steps keep ---- *)
Lemma lmem_store : forall c mem v l t n x mem' v', lmem c mem -> vle v mem -> (index l -> slot c n) -> w_store mem v l t n x = Some (mem', v') ->
  lmem c mem' /\ vle v' mem' /\ forall w, vle w mem -> vle w mem'.
Proof.
  intros c mem v l t n x mem' v' M V N H. unfold w_store in H. destruct (at_ts mem l t); [discriminate|]. destruct (v l <? t) eqn:L; [|discriminate]. injection H as <- <-.
  set (m0 := mkMsg l t n x (vset v l t)). assert (V0 : vle (vset v l t) (m0 :: mem)).
  { intros k. unfold vset. destruct (loc_eqb k l) eqn:K; [apply loc_eqb_eq in K; subst k; pose proof (topm_in (m0 :: mem) m0 (or_introl eq_refl)) as Q; cbn [m0 m_ts m_loc] in Q; pose proof (V l); lia|]. pose proof (V k). pose proof (topm_cons m0 mem k). lia. }
  split; [|split; [exact V0|intros w W; apply vle_cons; exact W]]. split.
  - intros k O. destruct (lm_all c mem M k O) as (m & A & B). exists m. split; [right; exact A|exact B].
  - intros m [<- |I]; [|exact (lm_ts c mem M m I)]. cbn [m0 m_ts]. pose proof (V l). lia.
  - intros m [<- |I] X; [exact (N X)|exact (lm_val c mem M m I X)].
  - intros m [<- |I]; [exact V0|]. apply vle_cons. exact (lm_view c mem M m I).
Qed.
Lemma lmem_cas : forall c mem v l t old new b mem' v', lmem c mem -> vle v mem -> slot c new -> w_cas mem v l t old new = Some (b, mem', v') ->
  lmem c mem' /\ vle v' mem' /\ forall w, vle w mem -> vle w mem'.
Proof.
  intros c mem v l t old new b mem' v' M V N H. unfold w_cas in H. destruct (w_load mem v l t) as [[m w]|] eqn:L; [|discriminate]. destruct (load_le c mem v l t m w M V L) as (W & _).
  destruct (m_val m =? old); [|injection H as <- <- <-; auto]. destruct (w_store mem w l (t + 1) new []) as [[m2 w2]|] eqn:S; [|discriminate]. injection H as <- <- <-. exact (lmem_store c mem w l _ new [] m2 w2 M W (fun _ => N) S).
Qed.
Lemma plain_le : forall mem v l t m v', vle v mem -> w_plain mem v l t = Some (m, v') -> vle v' mem.
Proof.
  intros mem v l t m v' V H. unfold w_plain in H. destruct (at_ts mem l t) as [x|] eqn:E; [|discriminate]. destruct (v l <=? t) eqn:L; [|discriminate]. injection H as -> <-.
  apply at_in in E. destruct E as (A & B & C). intros k. unfold vset. destruct (loc_eqb k l) eqn:K; [|exact (V k)]. apply loc_eqb_eq in K. subst k. pose proof (topm_in mem m A). rewrite B in *. pose proof (V l). lia.
Qed.
Lemma nxt_slot : forall c i, 0 < n_ring c -> slot c (nxt c i).
Proof. intros c i N. unfold slot, nxt. apply Z.mod_pos_bound. exact N. Qed.
Lemma wstep_keep : forall c mem t rt wt mem' t' h o, 0 < n_ring c -> lmem c mem -> lthr c mem t -> wstep c mem t rt wt = Some (mem', t', h, o) ->
  lmem c mem' /\ lthr c mem' t' /\ forall w, vle w mem -> vle w mem'.
Proof.
  intros c mem t rt wt mem' t' h o N M [V P] H.
  assert (LO : forall l (k : Z -> wpc) a, (forall m, In m mem -> m_loc m = l -> pc_ok c (k (m_val m))) ->
    match w_load mem (w_view t) l rt with Some (m, v') => Some (mem, mkW (k (m_val m)) (w_msg t) a v', [], []) | None => None end = Some (mem', t', h, o) ->
    lmem c mem' /\ lthr c mem' t' /\ forall w, vle w mem -> vle w mem').
  { intros l k a K E. destruct (w_load mem (w_view t) l rt) as [[m v']|] eqn:L; [|discriminate]. injection E as <- <- <- <-. destruct (load_le c mem _ l rt m v' M V L) as (V' & I & ML).
    split; [exact M|]. split; [|auto]. split; [exact V'|exact (K m I ML)]. }
  assert (LI : forall l (k : Z -> wpc) a, index l -> (forall i, slot c i -> pc_ok c (k i)) ->
    match w_load mem (w_view t) l rt with Some (m, v') => Some (mem, mkW (k (m_val m)) (w_msg t) a v', [], []) | None => None end = Some (mem', t', h, o) ->
    lmem c mem' /\ lthr c mem' t' /\ forall w, vle w mem -> vle w mem').
  { intros l k a X K. apply LO. intros m I ML. apply K. apply (lm_val c mem M m I). rewrite ML. exact X. }
  assert (ST : forall l n x p a, (index l -> slot c n) -> pc_ok c p ->
    match w_store mem (w_view t) l wt n x with Some (m, v') => Some (m, mkW p (w_msg t) a v', [], []) | None => None end = Some (mem', t', h, o) ->
    lmem c mem' /\ lthr c mem' t' /\ forall w, vle w mem -> vle w mem').
  { intros l n x p a X K E. destruct (w_store mem (w_view t) l wt n x) as [[m v']|] eqn:L; [|discriminate]. injection E as <- <- <- <-. destruct (lmem_store c mem _ l wt n x m v' M V X L) as (M' & V' & W). repeat (split; [assumption|]). split; [split; assumption|exact W]. }
  assert (CA : forall l old yes no a hd, pc_ok c yes -> pc_ok c no ->
    match w_cas mem (w_view t) l rt old (nxt c old) with
    | Some (true, m, v') => Some (m, mkW yes (w_msg t) rt v', hd, [])
    | Some (false, m, v') => Some (m, mkW no (w_msg t) a v', [], [])
    | None => None
    end = Some (mem', t', h, o) -> lmem c mem' /\ lthr c mem' t' /\ forall w, vle w mem -> vle w mem').
  { intros l old yes no a hd Y Q E. destruct (w_cas mem (w_view t) l rt old (nxt c old)) as [[[b m] v']|] eqn:L; [|discriminate].
    destruct (lmem_cas c mem _ l rt old _ b m v' M V (nxt_slot c old N) L) as (M' & V' & W). destruct b; injection E as <- <- <- <-; (split; [exact M'|]); (split; [split; assumption|exact W]). }
  unfold wstep, w_go, w_go_at in H. cbv zeta in H. destruct (w_pc t) as [| |i|i|i|i|i| |i|i|i| |i|i|i|i| |i|i|i]; cbn [pc_ok] in P.
  - discriminate.
  - apply (LI LHold WHRead _) in H; [exact H|exact Logic.I|auto].
  - apply (LI LRead (fun r => if nxt c i =? r then WHLoad else WHCas i) _) in H; [exact H|exact Logic.I|]. intros j J. destruct (nxt c i =? j); [exact Logic.I|exact P].
  - apply (CA LHold i _ _ _ _) in H; [exact H|exact P|exact Logic.I].
  - apply (ST (LMark i) _ _ _ _) in H; [exact H|intros []|exact P].
  - apply (ST (LRec i) _ _ _ _) in H; [exact H|intros []|exact P].
  - apply (ST (LMark i) _ _ _ _) in H; [exact H|intros []|exact Logic.I].
  - apply (LI LWrite WPHold _) in H; [exact H|exact Logic.I|auto].
  - apply (LI LHold (fun r => if i =? r then (if is_sync c then WCLoad else WIdle) else WPReady i) _) in H; [exact H|exact Logic.I|]. intros j J. destruct (i =? j); [destruct (is_sync c); exact Logic.I|exact P].
  - apply (LO (LMark i) (fun k => if k =? MARK_READY then WPCas i else (if is_sync c then WCLoad else WIdle)) _) in H; [exact H|]. intros m _ _. destruct (m_val m =? MARK_READY); [exact P|destruct (is_sync c); exact Logic.I].
  - apply (CA LWrite i _ _ _ _) in H; [exact H|exact Logic.I|exact Logic.I].
  - apply (LI LProc WCWrite _) in H; [exact H|exact Logic.I|auto].
  - apply (LI LWrite (fun r => if i =? r then (if is_sync c then WIdle else WCLoad) else WCCas i) _) in H; [exact H|exact Logic.I|]. intros j J. destruct (i =? j); [destruct (is_sync c); exact Logic.I|exact P].
  - apply (CA LProc i _ _ _ _) in H; [exact H|exact P|destruct (is_sync c); exact Logic.I].
  - destruct (w_plain mem (w_view t) (LRec i) rt) as [[m v']|] eqn:L; [|discriminate]. injection H as <- <- <- <-. split; [exact M|]. split; [|auto]. split; [exact (plain_le _ _ _ _ _ _ V L)|exact P].
  - apply (ST (LMark i) _ _ _ _) in H; [exact H|intros []|exact Logic.I].
  - apply (LI LRead WRProc _) in H; [exact H|exact Logic.I|auto].
  - apply (LI LProc (fun r => if i =? r then WCLoad else WRMark i) _) in H; [exact H|exact Logic.I|]. intros j J. destruct (i =? j); [exact Logic.I|exact P].
  - apply (LO (LMark i) (fun k => if k =? MARK_INVALID then WRCas i else WCLoad) _) in H; [exact H|]. intros m _ _. destruct (m_val m =? MARK_INVALID); [exact P|exact Logic.I].
  - apply (CA LRead i _ _ _ _) in H; [exact H|exact Logic.I|exact Logic.I].
Qed.
Definition linv (c : rcfg) (s : wst) : Prop := lmem c (w_mem s) /\ forall n t, nth_error (w_ths s) n = Some t -> lthr c (w_mem s) t.
Lemma step_linv : forall c s a s', 0 < n_ring c -> linv c s -> weak_step c s a = Some s' -> linv c s'.
Proof.
  intros c s a s' N [M T] H. destruct a as [n x|n rt wt]; cbn [weak_step] in H; destruct (nth_error (w_ths s) n) as [t|] eqn:E; try discriminate.
  - destruct (w_pc t) eqn:P; try discriminate. injection H as <-. split; [exact M|]. cbn [w_ths w_mem]. intros m u U. apply upd_inv in U. destruct U as [(-> & ->)|(D & U)]; [|exact (T m u U)].
    split; [exact (proj1 (T n t E))|exact Logic.I].
  - destruct (wstep c (w_mem s) t rt wt) as [[[[mem' t'] h] o]|] eqn:W; [|discriminate]. injection H as <-. destruct (wstep_keep c _ t rt wt mem' t' h o N M (T n t E) W) as (M' & T' & K).
    split; [exact M'|]. cbn [w_ths w_mem]. intros m u U. apply upd_inv in U. destruct U as [(-> & ->)|(D & U)]; [exact T'|]. destruct (T m u U) as [V P]. split; [exact (K _ V)|exact P].
Qed.
Lemma zero_top : forall ls l, topm (map zero_at ls) l = 0.
Proof. intros ls l. induction ls as [|x ls IH]; [reflexivity|]. cbn [map topm fold_right zero_at m_loc m_ts]. unfold topm in IH. rewrite IH. destruct (loc_eqb x l); reflexivity. Qed.
Lemma start_linv : forall c k, 0 < n_ring c -> linv c (weak_start c k).
Proof.
  intros c k N. assert (B : vle bottom (weak_mem c)) by (intros l; unfold weak_mem; rewrite zero_top; unfold bottom; lia).
  assert (Z0 : forall m, In m (weak_mem c) -> exists l, m = zero_at l) by (intros m I; apply in_map_iff in I; destruct I as (l & <- & _); eauto).
  split; [split|].
  - intros l O. exists (zero_at l). split; [|reflexivity]. apply in_map. rewrite !in_app_iff. destruct l as [| | | |i|i]; cbn [okl] in O; try (left; cbn; tauto); right; [left|right]; apply in_map; unfold slots_of; apply in_map_iff; exists (Z.to_nat i); (split; [unfold slot in O; lia|]); apply in_seq; unfold slot in O; lia.
  - intros m I. destruct (Z0 m I) as (l & ->). cbn [zero_at m_ts]. lia.
  - intros m I _. destruct (Z0 m I) as (l & ->). cbn [zero_at m_val]. unfold slot. lia.
  - intros m I. destruct (Z0 m I) as (l & ->). exact B.
  - intros n t H. apply nth_error_In in H. cbn [weak_start w_ths] in H. apply in_app_or in H. destruct H as [H|H].
    + destruct (is_sync c); [contradiction|]. destruct H as [<- |[]]. split; [exact B|exact Logic.I].
    + apply repeat_spec in H. subst t. split; [exact B|exact Logic.I].
Qed.
Lemma run_linv : forall c ls s s', 0 < n_ring c -> linv c s -> weak_run c s ls = Some s' -> linv c s'.
Proof.
  intros c ls. induction ls as [|a ls IH]; intros s s' N I H; cbn [weak_run] in H; [injection H as <-; exact I|].
  destruct (weak_step c s a) as [s1|] eqn:E; [|discriminate]. exact (IH s1 s' N (step_linv c s a s1 N I E) H).
Qed.
Theorem always_enabled : forall c k ls s n t, 0 < n_ring c -> weak_run c (weak_start c k) ls = Some s -> nth_error (w_ths s) n = Some t ->
  exists a s', weak_step c s a = Some s' /\ match a with XLog m _ => m = n /\ w_pc t = WIdle | XRun m _ _ => m = n /\ w_pc t <> WIdle end.
Proof.
  intros c k ls s n t N H E. destruct (run_linv c ls _ s N (start_linv c k N) H) as [M T].
  assert (D : w_pc t = WIdle \/ w_pc t <> WIdle) by (destruct (w_pc t); (left; reflexivity) || (right; discriminate)). destruct D as [D|D].
  - exists (XLog n []). cbn [weak_step]. rewrite E, D. eexists. split; [reflexivity|]. auto.
  - destruct (can_step c (w_mem s) t M (T n t E) D) as (rt & wt & [[[mem' t'] h] o] & W). exists (XRun n rt wt). cbn [weak_step]. rewrite E, W. eexists. split; [reflexivity|]. auto.
Qed.
