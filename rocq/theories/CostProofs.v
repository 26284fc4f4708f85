(* Proofs about the number of steps of one statement (C120). *)
From Coq Require Import ZArith List Bool Lia ZifyBool ZifyNat ZifyN.
From Verif Require Import Base BaseFacts LoggerState Ring RingSpec RingInv RingProofs RingLive RingRun RingQuiet
  NestProofs Cost.
Import ListNotations.
Open Scope Z_scope.

(* what is left of a synchronous statement behind PushChannel's loop *)
Definition tail_cost (c : rcfg) : Z := if is_sync c then 5 else 1.

(* An index that was loaded before its last advance costs a retry. *)
Definition late (snap now cost : Z) : Z := if snap =? now then 0 else cost.

(* the steps a thread still makes if no index advances and it does not find the
   queue full *)
Definition left_of (c : rcfg) (g : ghost) (t : thr) : Z :=
  let S := tail_cost c in
  let L := 3 + S in
  match t_pc t with
  | HOut => 9 + zlen (t_msg t) + L
  | HState => 8 + zlen (t_msg t) + L
  | HLoad => 7 + zlen (t_msg t) + L
  | HRead _ => 6 + zlen (t_msg t) + L + late (t_snap t) (gH g) 4
  | HCas _ => 5 + zlen (t_msg t) + L + late (t_snap t) (gH g) 4
  | HCount _ => 8 + zlen (t_msg t) + L
  | HMark _ => 7 + zlen (t_msg t) + L
  | FInit _ => 6 + zlen (t_msg t) + L
  | Fill _ rest => 5 + zlen rest + L
  | PState _ => 4 + L
  | PTerm _ => 3 + L
  | PMark _ => 2 + L
  | PPrio _ => 1 + L
  | PLoad => L
  | PHold _ => L - 1 + late (t_snap t) (gW g) 6
  | PReady _ => L - 2 + late (t_snap t) (gW g) 6
  | PCas _ => L - 3 + late (t_snap t) (gW g) 6
  | PCount => L + 2
  | PWhile => L + 1
  | PSync => S
  | CLoad => 4
  | CWrite _ => 3 + late (t_snap t) (gP g) 1
  | CCas _ => 2 + late (t_snap t) (gP g) 1
  | CRead _ k _ => log_size c - 1 - k + 11
  | CMark _ => 10
  | CCount _ => 9
  | CBytes _ => 8
  | RLoad => 7
  | RProc _ => 6 + late (t_snap t) (gR g) 4
  | RMark _ => 5 + late (t_snap t) (gR g) 4
  | RCas _ => 4 + late (t_snap t) (gR g) 4
  | CNull => 2
  | CLoop => 1
  | _ => 0
  end.

(* what the advances of the indices pay for *)
Definition paid (c : rcfg) (g : ghost) : Z :=
  4 * gH g + 6 * gW g + (if is_sync c then (log_size c + 9) * gP g + 4 * gR g else 0).

Lemma line_len : forall c m, 2 <= log_size c -> zlen (line c m) <= log_size c - 1.
Proof.
  intros c m L. unfold line, zlen. rewrite app_length, firstn_length. cbn [length]. lia.
Qed.

Lemma late_ge : forall a b k, 0 <= k -> 0 <= late a b k <= k.
Proof. intros. unfold late. destruct (a =? b); lia. Qed.

Lemma late_refl : forall a k, late a a k = 0.
Proof. intros. unfold late. rewrite Z.eqb_refl. reflexivity. Qed.

(* the indices only grow *)
Lemma ghosts_grow : forall c i s g t s' g' t', tstep c i s g t = Some (s', g', t') ->
  gH g <= gH g' /\ gW g <= gW g' /\ gP g <= gP g' /\ gR g <= gR g'.
Proof.
  intros c i s g t s' g' t' E. unfold tstep in E.
  repeat match type of E with
  | context [match ?x with _ => _ end] => destruct x
  end; try discriminate; injection E as <- <- <-; cbn; lia.
Qed.

(* an advance pays for making another thread's loaded index late *)
Lemma late_paid : forall c g g' t, 2 <= log_size c ->
  gH g <= gH g' -> gW g <= gW g' -> gP g <= gP g' -> gR g <= gR g' ->
  (is_sync c = false -> cons_pc t = false) ->
  left_of c g' t <= left_of c g t + (paid c g' - paid c g).
Proof.
  intros c g g' t LS H W P R NC. unfold left_of, paid, tail_cost.
  assert (LA : forall a b b' k, b <= b' -> 0 <= k -> late a b' k <= late a b k + k * (b' - b)).
  { intros a b b' k LE K. destruct (Z.eq_dec b b') as [->|D]; [lia|]. unfold late. destruct (a =? b'), (a =? b); nia. }
  assert (PP : 0 <= (if is_sync c then (log_size c + 9) * gP g' + 4 * gR g' else 0)
                 - (if is_sync c then (log_size c + 9) * gP g + 4 * gR g else 0)) by (destruct (is_sync c); nia).
  pose proof (LA (t_snap t) (gH g) (gH g') 4 H ltac:(lia)).
  pose proof (LA (t_snap t) (gW g) (gW g') 6 W ltac:(lia)).
  pose proof (LA (t_snap t) (gP g) (gP g') 1 P ltac:(lia)).
  pose proof (LA (t_snap t) (gR g) (gR g') 4 R ltac:(lia)).
  destruct (is_sync c).
  - destruct (t_pc t); nia.
  - specialize (NC eq_refl). unfold cons_pc in NC. destruct (t_pc t); try discriminate; nia.
Qed.

(* ---- what holds on every schedule, with laps or without ---- *)
Definition loaded (c : rcfg) (t : thr) : Prop :=
  match t_pc t with
  | HRead old | HCas old | PHold old | PReady old | PCas old
  | CWrite old | CCas old | RProc old | RMark old | RCas old => old = ix c (t_snap t)
  | Fill _ rest => zlen rest <= zlen (t_msg t)
  | _ => True
  end.

Record idx_ok (c : rcfg) (s : st) : Prop := mkIdx {
  d_hold : x_hold (sh s) = ix c (gH (gh s));
  d_write : x_write (sh s) = ix c (gW (gh s));
  d_proc : x_proc (sh s) = ix c (gP (gh s));
  d_read : x_read (sh s) = ix c (gR (gh s));
  d_thr : forall i t, nth_error (ths s) i = Some t -> loaded c t /\ ended t = false;
  d_run : running (sh s) = true
}.

Lemma idx_tstep : forall c i s g t s' g' t', 0 < n_ring c ->
  x_hold s = ix c (gH g) -> x_write s = ix c (gW g) -> x_proc s = ix c (gP g) -> x_read s = ix c (gR g) ->
  loaded c t -> tstep c i s g t = Some (s', g', t') ->
  x_hold s' = ix c (gH g') /\ x_write s' = ix c (gW g') /\ x_proc s' = ix c (gP g') /\ x_read s' = ix c (gR g') /\
  loaded c t'.
Proof.
  intros c i s g t s' g' t' N H W P R L E. unfold tstep in E. unfold loaded in *.
  destruct (t_pc t) as [| | |old|old|j|j| |j|j rest|j|j|j|j| |old|old|old| | | | |old|old|j k0 acc|j|j|j| |old|old|old| | | | |];
    try discriminate;
    try (injection E as <- <- <-; cbn; repeat split; try assumption;
         repeat match goal with |- context [if ?b then _ else _] => destruct b end; try exact I; (assumption || apply Z.le_refl)).
  - destruct (x_hold s =? old) eqn:Q; injection E as <- <- <-; cbn; repeat split; try assumption; try exact I.
    rewrite <- nxt_ix by assumption. f_equal. lia.
  - destruct rest; injection E as <- <- <-; cbn; repeat split; try assumption. unfold zlen in *. cbn [length] in L. lia.
  - destruct (x_write s =? old) eqn:Q; injection E as <- <- <-; cbn; repeat split; try assumption; try exact I.
    rewrite <- nxt_ix by assumption. f_equal. lia.
  - destruct (x_proc s =? old) eqn:Q; injection E as <- <- <-; cbn; repeat split; try assumption; try exact I.
    rewrite <- nxt_ix by assumption. f_equal. lia.
  - destruct (k0 <? zlen (s_text (get s j))); injection E as <- <- <-; cbn; repeat split; assumption.
  - destruct (x_read s =? old) eqn:Q; injection E as <- <- <-; cbn; repeat split; try assumption; try exact I.
    rewrite <- nxt_ix by assumption. f_equal. lia.
Qed.

Lemma idx_step : forall c s l s', 0 < n_ring c -> match l with LLog _ _ | LRun _ => True | _ => False end ->
  idx_ok c s -> step c s l = Some s' -> idx_ok c s'.
Proof.
  intros c s l s' N O [H W P R T RU] E. destruct l as [tid msg|tid| | | |]; try contradiction.
  - destruct (step_log_inv _ _ _ _ _ E) as (v & V & PV & ->). constructor; cbn [sh gh ths]; try assumption.
    intros i t TI. destruct (upd_inv _ _ _ _ _ TI) as [[-> ->]|[_ TI']]; [split; [exact I|reflexivity]|exact (T i t TI')].
  - destruct (step_run_inv _ _ _ _ E) as (v & x & g & v' & V & TS & ->).
    destruct (T tid v V) as [LV EV].
    destruct (idx_tstep _ _ _ _ _ _ _ _ N H W P R LV TS) as (H' & W' & P' & R' & L').
    destruct (running_step _ _ _ _ _ _ _ _ RU EV TS) as [RU' EV'].
    constructor; cbn [sh gh ths]; try assumption.
    intros i t TI. destruct (upd_inv _ _ _ _ _ TI) as [[-> ->]|[_ TI']]; [split; assumption|exact (T i t TI')].
Qed.

Lemma idx_start : forall c slots k, 0 < n_ring c -> idx_ok c (start c slots k).
Proof.
  intros c slots k N. assert (Z0 : 0 = ix c 0) by (unfold ix; symmetry; apply Z.mod_0_l; lia).
  constructor; try exact Z0; [|reflexivity].
  intros i t T. destruct (start_thr _ _ _ _ _ T) as [(_ & _ & ->)| ->]; (split; [exact I|reflexivity]).
Qed.

(* on an asynchronous channel only thread 0 is the writer *)
Definition alone_ok (c : rcfg) (s : st) : Prop :=
  is_sync c = false -> forall i t, nth_error (ths s) i = Some t -> (i = 0%nat <-> cons_pc t = true).

Lemma alone_step : forall c s l s', match l with LLog _ _ | LRun _ => True | _ => False end ->
  alone_ok c s -> step c s l = Some s' -> alone_ok c s'.
Proof.
  intros c s l s' O A E SY i t T. specialize (A SY). destruct l as [tid msg|tid| | | |]; try contradiction.
  - destruct (step_log_inv _ _ _ _ _ E) as (v & V & PV & ->). cbn [ths] in T.
    destruct (upd_inv _ _ _ _ _ T) as [[-> ->]|[_ T']]; [|exact (A i t T')].
    pose proof (A tid v V) as K. unfold cons_pc in K |- *. rewrite PV in K. cbn [t_pc]. exact K.
  - destruct (step_run_inv _ _ _ _ E) as (v & x & g & v' & V & TS & ->). cbn [ths] in T.
    destruct (upd_inv _ _ _ _ _ T) as [[-> ->]|[_ T']]; [|exact (A i t T')].
    pose proof (A tid v V) as K. destruct (cons_pc v) eqn:Q.
    + rewrite (async_cons c tid (sh s) (gh s) v x g v' SY Q TS). exact K.
    + rewrite (async_prod c tid (sh s) (gh s) v x g v' SY Q TS). exact K.
Qed.

Lemma alone_start : forall c slots k, alone_ok c (start c slots k).
Proof.
  intros c slots k SY i t T. unfold start in T. cbn [ths] in T. rewrite SY in T. destruct i as [|i].
  - cbn in T. injection T as <-. split; reflexivity.
  - cbn [nth_error] in T. apply nth_error_repeat_inv in T. subst t. cbn. split; discriminate.
Qed.

Lemma idx_run : forall c ls s s', 0 < n_ring c -> threads_only ls -> idx_ok c s -> alone_ok c s -> run c s ls = Some s' ->
  idx_ok c s' /\ alone_ok c s'.
Proof.
  intros c ls. induction ls as [|l ls IH]; intros s s' N TO D A R.
  - cbn in R. injection R as <-. auto.
  - cbn [run] in R. destruct (step c s l) as [s1|] eqn:E; [|discriminate].
    apply Forall_cons_iff in TO. destruct TO as [O TO].
    apply (IH s1 s' N TO); [exact (idx_step c s l s1 N O D E)|exact (alone_step c s l s1 O A E)|assumption].
Qed.

(* a record that a synchronous statement is dispatching is not longer than a
   record can be; without laps *)
Definition text_ok (c : rcfg) (s : shared) (t : thr) : Prop :=
  match t_pc t with
  | CRead j k _ => zlen (s_text (get s j)) <= log_size c - 1 /\ k <= zlen (s_text (get s j))
  | _ => True
  end.

Lemma inv_text : forall c s i t, 2 <= log_size c -> inv_st c s -> nth_error (ths s) i = Some t -> text_ok c (sh s) t.
Proof.
  intros c s i t LS IV T. pose proof (i_thr _ _ _ _ IV i t T) as K. unfold thr_ok, text_ok in *.
  destruct (t_pc t); try exact I.
  destruct K as (KI & KB & (_ & ii & mm & _ & TX) & KR & _).
  replace (get (sh s) i0) with (at_ c (sh s) (t_snap t)) by (unfold at_; rewrite KI; reflexivity).
  pose proof (line_len c mm LS) as LL. rewrite <- TX in LL. lia.
Qed.

Lemma async_text : forall c s t, cons_pc t = false -> text_ok c s t.
Proof. intros c s t Q. unfold cons_pc, text_ok in *. destruct (t_pc t); try exact I. discriminate. Qed.

Lemma left_pos : forall c g s t, 2 <= log_size c -> text_ok c s t -> 0 <= left_of c g t.
Proof.
  intros c g s t LS K. unfold left_of, tail_cost, text_ok in *.
  pose proof (late_ge (t_snap t) (gH g) 4 ltac:(lia)). pose proof (late_ge (t_snap t) (gW g) 6 ltac:(lia)).
  pose proof (late_ge (t_snap t) (gP g) 1 ltac:(lia)). pose proof (late_ge (t_snap t) (gR g) 4 ltac:(lia)).
  pose proof (zlen_nonneg _ (t_msg t)).
  destruct (is_sync c); destruct (t_pc t); try lia;
    try (match goal with |- context [zlen ?r] => pose proof (zlen_nonneg _ r) end; lia).
Qed.

Ltac red1 := cbn [t_pc t_msg t_snap go go_at gH gW gP gR put_g add_held add_out andb].
Ltac lf := unfold left_of; red1.

(* one step of the thread itself *)
Lemma left_step : forall c s i t x g' t', 0 < n_ring c -> 2 <= log_size c -> idx_ok c s ->
  nth_error (ths s) i = Some t -> text_ok c (sh s) t -> (is_sync c = false -> cons_pc t = false) ->
  tstep c i (sh s) (gh s) t = Some (x, g', t') ->
  1 + left_of c g' t' <= left_of c (gh s) t + (paid c g' - paid c (gh s)) +
    match t_pc t with HRead old => if nxt c old =? x_read (sh s) then 4 else 0 | _ => 0 end.
Proof.
  intros c [s g l] i t s' g' t' N LS [XH XW XP XR TH RU] T TX NC E. cbn [sh gh ths] in *.
  destruct (TH i t T) as [K EN].
  destruct t as [p m a]. unfold tstep in E. cbn [t_pc] in E |- *.
  unfold loaded in K. unfold text_ok in TX. cbn [t_pc t_snap t_msg] in K, TX.
  assert (LT : forall b k, late a b k = 0 \/ late a b k = k /\ a <> b).
  { intros b k. unfold late. destruct (a =? b) eqn:Q; [auto|right; lia]. }
  destruct p as [| | |old|old|j|j| |j|j rest|j|j|j|j| |old|old|old| | | | |old|old|j k0 acc|j|j|j| |old|old|old| | | | |];
    rewrite ?RU in E; try discriminate.
  - injection E as <- <- <-. lf. lia.
  - injection E as <- <- <-. lf. rewrite late_refl. lia.
  - injection E as <- <- <-. lf. destruct (nxt c old =? x_read s); red1; [|lia].
    pose proof (late_ge a (gH g) 4 ltac:(lia)). lia.
  - destruct (x_hold s =? old) eqn:Q; injection E as <- <- <-; lf.
    + unfold paid; red1. pose proof (late_ge a (gH g) 4 ltac:(lia)). destruct (is_sync c); lia.
    + destruct (LT (gH g) 4) as [Z|[Z D]]; [|rewrite Z; lia]. exfalso. unfold late in Z.
      destruct (a =? gH g) eqn:QA; [|discriminate]. assert (a = gH g) by lia. subst a. lia.
  - injection E as <- <- <-. lf. lia.
  - injection E as <- <- <-. lf. lia.
  - injection E as <- <- <-. lf. lia.
  - injection E as <- <- <-. lf. lia.
  - destruct rest as [|b rest]; injection E as <- <- <-; lf; unfold zlen; cbn [length]; lia.
  - injection E as <- <- <-. lf. lia.
  - injection E as <- <- <-. lf. lia.
  - injection E as <- <- <-. lf. lia.
  - injection E as <- <- <-. lf. lia.
  - injection E as <- <- <-. lf. rewrite late_refl. lia.
  - injection E as <- <- <-. lf. pose proof (late_ge a (gW g) 6 ltac:(lia)).
    destruct (old =? x_hold s); red1; lia.
  - injection E as <- <- <-. lf. pose proof (late_ge a (gW g) 6 ltac:(lia)).
    destruct (s_mark (get s old) =? MARK_READY); red1; lia.
  - destruct (x_write s =? old) eqn:Q; injection E as <- <- <-; lf.
    + unfold paid; red1. pose proof (late_ge a (gW g) 6 ltac:(lia)). destruct (is_sync c); lia.
    + destruct (LT (gW g) 6) as [Z|[Z D]]; [|rewrite Z; lia]. exfalso. unfold late in Z.
      destruct (a =? gW g) eqn:QA; [|discriminate]. assert (a = gW g) by lia. subst a. lia.
  - injection E as <- <- <-. lf. lia.
  - injection E as <- <- <-. lf. lia.
  - injection E as <- <- <-. lf. unfold tail_cost. destruct (is_sync c); red1; lia.
  - injection E as <- <- <-. lf. rewrite late_refl. lia.
  - injection E as <- <- <-. lf. pose proof (late_ge a (gP g) 1 ltac:(lia)).
    destruct (old =? x_write s); red1; lia.
  - destruct (is_sync c) eqn:SY; [|specialize (NC eq_refl); discriminate].
    destruct (x_proc s =? old) eqn:Q; injection E as <- <- <-; lf.
    + unfold paid; red1. rewrite SY. pose proof (late_ge a (gP g) 1 ltac:(lia)). lia.
    + destruct (LT (gP g) 1) as [Z|[Z D]]; [|rewrite Z; lia]. exfalso. unfold late in Z.
      destruct (a =? gP g) eqn:QA; [|discriminate]. assert (a = gP g) by lia. subst a. lia.
  - destruct (k0 <? zlen (s_text (get s j))) eqn:Q; injection E as <- <- <-; lf; unfold paid; red1; lia.
  - injection E as <- <- <-. lf. lia.
  - injection E as <- <- <-. lf. lia.
  - injection E as <- <- <-. lf. lia.
  - injection E as <- <- <-. lf. rewrite late_refl. lia.
  - injection E as <- <- <-. lf. pose proof (late_ge a (gR g) 4 ltac:(lia)).
    destruct (old =? x_proc s); red1; lia.
  - injection E as <- <- <-. lf. pose proof (late_ge a (gR g) 4 ltac:(lia)).
    destruct (s_mark (get s old) =? MARK_INVALID); red1; lia.
  - destruct (is_sync c) eqn:SY; [|specialize (NC eq_refl); discriminate].
    destruct (x_read s =? old) eqn:Q; injection E as <- <- <-; lf.
    + unfold paid; red1. rewrite SY. pose proof (late_ge a (gR g) 4 ltac:(lia)). lia.
    + destruct (LT (gR g) 4) as [Z|[Z D]]; [|rewrite Z; lia]. exfalso. unfold late in Z.
      destruct (a =? gR g) eqn:QA; [|discriminate]. assert (a = gR g) by lia. subst a. lia.
  - injection E as <- <- <-. lf. lia.
  - destruct (is_sync c) eqn:SY; [|specialize (NC eq_refl); discriminate].
    injection E as <- <- <-. lf. lia.
Qed.

(* ---- a whole schedule ---- *)
Lemma paid_mono : forall c g g', 2 <= log_size c -> gH g <= gH g' -> gW g <= gW g' -> gP g <= gP g' -> gR g <= gR g' ->
  paid c g <= paid c g'.
Proof. intros. unfold paid. destruct (is_sync c); nia. Qed.

(* laps are only excluded on synchronous channels *)
Definition lapless (c : rcfg) (s : st) (ls : list label) : Prop :=
  is_sync c = true -> inv_st c s /\ x_ctl (sh s) <> 3 /\ no_lap c s ls.

Lemma lapless_text : forall c s ls i t, 2 <= log_size c -> lapless c s ls -> nth_error (ths s) i = Some t ->
  (is_sync c = false -> cons_pc t = false) -> text_ok c (sh s) t.
Proof.
  intros c s ls i t LS NL T NC. destruct (is_sync c) eqn:SY.
  - apply (inv_text c s i t LS); [|assumption]. apply NL. assumption.
  - apply async_text. auto.
Qed.

Lemma lapless_step : forall c s l ls s', 0 < n_ring c -> match l with LLog _ _ | LRun _ => True | _ => False end ->
  lapless c s (l :: ls) -> step c s l = Some s' -> lapless c s' ls.
Proof.
  intros c s l ls s' N O NL E SY. destruct (NL SY) as (IV & C3 & F & NL').
  destruct (inv_step c s l s' N IV C3 F ltac:(intros ->; contradiction) E) as [IV1 C31]. auto.
Qed.

Lemma cost_run : forall c tid ls s s' t, cfg_ok c -> idx_ok c s -> alone_ok c s -> lapless c s ls -> threads_only ls ->
  one_statement tid ls -> nth_error (ths s) tid = Some t -> (is_sync c = false -> cons_pc t = false) ->
  run c s ls = Some s' ->
  exists t', nth_error (ths s') tid = Some t' /\ text_ok c (sh s') t' /\
    steps_of tid ls + left_of c (gh s') t' <= left_of c (gh s) t + (paid c (gh s') - paid c (gh s)) + 4 * full_of c tid s ls.
Proof.
  intros c tid ls. induction ls as [|l ls IH]; intros s s' t C IV AL NL TO ONE T NC R.
  - cbn in R. injection R as <-. exists t. split; [assumption|].
    split; [apply (lapless_text c s [] tid t ltac:(destruct C; lia) NL T NC)|]. cbn [steps_of full_of]. lia.
  - assert (N : 0 < n_ring c) by (destruct C; lia). assert (LS : 2 <= log_size c) by (destruct C; lia).
    cbn [run] in *. destruct (step c s l) as [s1|] eqn:E; [|discriminate].
    apply Forall_cons_iff in TO. destruct TO as [O TO].
    pose proof (lapless_step c s l ls s1 N O NL E) as NL1.
    pose proof (idx_step c s l s1 N O IV E) as IV1. pose proof (alone_step c s l s1 O AL E) as AL1.
    assert (ONE1 : one_statement tid ls) by (intros m H; apply (ONE m); right; exact H).
    cbn [full_of]. rewrite E.
    destruct l as [i m|i| | | |]; try contradiction.
    + destruct (step_log_inv _ _ _ _ _ E) as (v & V & PV & ES).
      assert (D : i <> tid) by (intros ->; apply (ONE m); left; reflexivity).
      assert (T1 : nth_error (ths s1) tid = Some t).
      { rewrite ES. cbn [ths]. rewrite upd_other by congruence. assumption. }
      destruct (IH s1 s' t C IV1 AL1 NL1 TO ONE1 T1 NC R) as (t' & T' & X' & B).
      exists t'. split; [assumption|]. split; [assumption|]. cbn [steps_of].
      assert (G1 : left_of c (gh s1) t = left_of c (gh s) t /\ paid c (gh s1) = paid c (gh s)).
      { rewrite ES. split; reflexivity. }
      lia.
    + destruct (step_run_inv _ _ _ _ E) as (v & x & g & v' & V & TS & ES).
      destruct (ghosts_grow _ _ _ _ _ _ _ _ TS) as (GH & GW & GP & GR).
      cbn [steps_of]. destruct (Nat.eq_dec i tid) as [->|D].
      * rewrite Nat.eqb_refl. rewrite T in V. injection V as <-.
        pose proof (left_step c s tid t x g v' N LS IV T (lapless_text c s _ tid t LS NL T NC) NC TS) as LSTEP.
        assert (T1 : nth_error (ths s1) tid = Some v') by (rewrite ES; apply upd_hit with t; assumption).
        assert (NC1 : is_sync c = false -> cons_pc v' = false).
        { intros SY. exact (async_prod c tid (sh s) (gh s) t x g v' SY (NC SY) TS). }
        destruct (IH s1 s' v' C IV1 AL1 NL1 TO ONE1 T1 NC1 R) as (t' & T' & X' & B).
        exists t'. split; [assumption|]. split; [assumption|].
        assert (FF : match t_pc t with HRead old => if nxt c old =? x_read (sh s) then 4 else 0 | _ => 0 end =
                     4 * (if finds_full c s tid then 1 else 0)).
        { unfold finds_full. rewrite T. destruct (t_pc t); try reflexivity. destruct (nxt c old =? x_read (sh s)); reflexivity. }
        cbn [andb]. replace (gh s1) with g in B by (rewrite ES; reflexivity). lia.
      * replace (Nat.eqb i tid) with false by (symmetry; apply Nat.eqb_neq; assumption). cbn [andb].
        assert (T1 : nth_error (ths s1) tid = Some t).
        { rewrite ES. cbn [ths]. rewrite upd_other by congruence. assumption. }
        destruct (IH s1 s' t C IV1 AL1 NL1 TO ONE1 T1 NC R) as (t' & T' & X' & B).
        exists t'. split; [assumption|]. split; [assumption|].
        pose proof (late_paid c (gh s) g t LS GH GW GP GR NC) as LP.
        replace (gh s1) with g in B by (rewrite ES; reflexivity). lia.
Qed.

Lemma reach_idx : forall c slots k ls s, cfg_ok c -> reaches c slots k ls s -> threads_only ls -> idx_ok c s /\ alone_ok c s.
Proof.
  intros c slots k ls s C RE TO. assert (N : 0 < n_ring c) by (destruct C; lia).
  apply (idx_run c ls (start c slots k) s N TO); [apply idx_start; assumption|apply alone_start|exact RE].
Qed.

Lemma reach_lapless : forall c slots k ls0 s ls, cfg_ok c -> blank c slots -> reaches c slots k ls0 s -> threads_only ls0 ->
  (is_sync c = true -> no_lap c (start c slots k) (ls0 ++ ls)) -> lapless c s ls.
Proof.
  intros c slots k ls0 s ls C B RE TO NL SY. destruct (no_lap_app _ _ _ _ _ (NL SY) RE) as [NL1 NL2].
  destruct (reach_live _ _ _ _ _ C B RE NL1 TO) as [IV LV].
  split; [assumption|]. split; [rewrite (l_ctl _ _ LV); discriminate|assumption].
Qed.

Lemma statement_cost : forall c slots k ls0 s tid m ls s', cfg_ok c -> blank c slots ->
  reaches c slots k ls0 s -> run c s (LLog tid m :: ls) = Some s' -> threads_only (ls0 ++ LLog tid m :: ls) ->
  (is_sync c = true -> no_lap c (start c slots k) (ls0 ++ LLog tid m :: ls)) ->
  one_statement tid ls ->
  steps_of tid ls <=
    (if is_sync c then 16 else 12) + zlen m + 4 * full_of c tid s (LLog tid m :: ls) +
    4 * (gH (gh s') - gH (gh s)) + 6 * (gW (gh s') - gW (gh s)) +
    (if is_sync c then (log_size c + 9) * (gP (gh s') - gP (gh s)) + 4 * (gR (gh s') - gR (gh s)) else 0).
Proof.
  intros c slots k ls0 s tid m ls s' C B RE R TO NL ONE.
  assert (LS : 2 <= log_size c) by (destruct C; lia). assert (N : 0 < n_ring c) by (destruct C; lia).
  unfold threads_only in TO. apply Forall_app in TO. destruct TO as [TO1 TO2].
  pose proof (reach_lapless _ _ _ _ _ _ C B RE TO1 NL) as NL1.
  destruct (reach_idx _ _ _ _ _ C RE TO1) as [IV AL].
  cbn [full_of]. cbn [run] in R. destruct (step c s (LLog tid m)) as [s1|] eqn:E; [|discriminate].
  apply Forall_cons_iff in TO2. destruct TO2 as [O TO2].
  pose proof (lapless_step c s (LLog tid m) ls s1 N Logic.I NL1 E) as NL2.
  pose proof (idx_step c s (LLog tid m) s1 N Logic.I IV E) as IV1. pose proof (alone_step c s (LLog tid m) s1 Logic.I AL E) as AL1.
  destruct (step_log_inv _ _ _ _ _ E) as (v & V & PV & ES).
  assert (T1 : nth_error (ths s1) tid = Some (mkThr HState m (t_snap v))) by (rewrite ES; apply upd_hit with v; assumption).
  destruct (cost_run c tid ls s1 s' _ C IV1 AL1 NL2 TO2 ONE T1 ltac:(reflexivity) R) as (t' & T' & X' & BB).
  pose proof (left_pos c (gh s') (sh s') t' LS X') as LP.
  assert (G1 : gh s1 = add_started (gh s) (tid, m)) by (rewrite ES; reflexivity).
  rewrite G1 in BB. unfold left_of at 2 in BB. cbn [t_pc t_msg] in BB. unfold paid in BB.
  cbn [gH gW gP gR add_started] in BB. unfold tail_cost in BB. destruct (is_sync c); lia.
Qed.

Lemma left_max : forall c g t, 2 <= log_size c -> loaded c t -> (forall j k acc, t_pc t = CRead j k acc -> 0 <= k) ->
  (is_sync c = false -> cons_pc t = false) ->
  left_of c g t <= (if is_sync c then 18 + log_size c else 14) + zlen (t_msg t).
Proof.
  intros c g t LS K KR NC. unfold left_of, tail_cost, loaded in *.
  pose proof (late_ge (t_snap t) (gH g) 4 ltac:(lia)). pose proof (late_ge (t_snap t) (gW g) 6 ltac:(lia)).
  pose proof (late_ge (t_snap t) (gP g) 1 ltac:(lia)). pose proof (late_ge (t_snap t) (gR g) 4 ltac:(lia)).
  pose proof (zlen_nonneg _ (t_msg t)). unfold cons_pc in NC.
  destruct (is_sync c).
  - destruct (t_pc t); try lia. specialize (KR _ _ _ eq_refl). lia.
  - specialize (NC eq_refl). destruct (t_pc t); try discriminate; lia.
Qed.

(* from any point on, if no index advances *)
Lemma standstill : forall c slots k ls0 s tid t ls s', cfg_ok c -> blank c slots ->
  reaches c slots k ls0 s -> run c s ls = Some s' -> threads_only (ls0 ++ ls) ->
  (is_sync c = true -> no_lap c (start c slots k) (ls0 ++ ls)) -> one_statement tid ls ->
  nth_error (ths s) tid = Some t -> (is_sync c = false -> tid <> 0%nat) ->
  gH (gh s') = gH (gh s) -> gW (gh s') = gW (gh s) -> gP (gh s') = gP (gh s) -> gR (gh s') = gR (gh s) ->
  steps_of tid ls <= (if is_sync c then 18 + log_size c else 14) + zlen (t_msg t) + 4 * full_of c tid s ls.
Proof.
  intros c slots k ls0 s tid t ls s' C B RE R TO NL ONE T NZ EH EW EP ER.
  assert (LS : 2 <= log_size c) by (destruct C; lia).
  unfold threads_only in TO. apply Forall_app in TO. destruct TO as [TO1 TO2].
  pose proof (reach_lapless _ _ _ _ _ _ C B RE TO1 NL) as NL1.
  destruct (reach_idx _ _ _ _ _ C RE TO1) as [IV AL].
  assert (NC : is_sync c = false -> cons_pc t = false).
  { intros SY. destruct (cons_pc t) eqn:Q; [|reflexivity]. exfalso. apply (NZ SY). apply (AL SY tid t T). assumption. }
  destruct (cost_run c tid ls s s' t C IV AL NL1 TO2 ONE T NC R) as (t' & T' & X' & BB).
  pose proof (left_pos c (gh s') (sh s') t' LS X') as LP.
  assert (KR : forall j k0 acc, t_pc t = CRead j k0 acc -> 0 <= k0).
  { intros j k0 acc P. destruct (is_sync c) eqn:SY.
    - destruct (NL1 SY) as (IN & _ & _). pose proof (i_thr _ _ _ _ IN tid t T) as K. unfold thr_ok in K. rewrite P in K. lia.
    - specialize (NC eq_refl). unfold cons_pc in NC. rewrite P in NC. discriminate. }
  pose proof (left_max c (gh s) t LS (proj1 (d_thr _ _ IV tid t T)) KR NC) as LM.
  unfold paid in BB. rewrite EH, EW, EP, ER in BB. lia.
Qed.

Lemma step_ready : forall c s tid t, idx_ok c s -> nth_error (ths s) tid = Some t -> t_pc t <> Idle ->
  exists x g t', tstep c tid (sh s) (gh s) t = Some (x, g, t').
Proof.
  intros c s tid t IX T NI. pose proof (proj2 (d_thr _ _ IX tid t T)) as EN. unfold ended in EN.
  assert (TS : exists r, tstep c tid (sh s) (gh s) t = Some r).
  { unfold tstep. destruct (t_pc t) as [| | | | | | | | |j rest| | | | | | | | | | | | | | | | | | | | | | | | | | |];
      try contradiction; try discriminate; try (eexists; reflexivity);
      try (destruct rest; eexists; reflexivity);
      match goal with |- context [if ?b then _ else _] => destruct b end; eexists; reflexivity. }
  destruct TS as ([[x g] t'] & TS). eauto.
Qed.

Lemma never_blocked : forall c slots k ls s tid t, cfg_ok c ->
  reaches c slots k ls s -> threads_only ls ->
  nth_error (ths s) tid = Some t -> t_pc t <> Idle -> exists s', step c s (LRun tid) = Some s'.
Proof.
  intros c slots k ls s tid t C RE TO T NI.
  destruct (reach_idx _ _ _ _ _ C RE TO) as [LV _].
  destruct (step_ready c s tid t LV T NI) as (x & g & t' & TS). cbn [step]. rewrite T, TS. eexists. reflexivity.
Qed.
