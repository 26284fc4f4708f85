(* Proofs about statements made inside statements to other channels (C121). *)
From Coq Require Import ZArith List Bool Arith Lia ZifyBool ZifyNat ZifyN.
From Verif Require Import Base BaseFacts LoggerState Ring RingSpec RingInv RingProofs RingLive RingRun RingQuiet Nest NestProofs
  Cost CostProofs Multi.
Import ListNotations.
Open Scope Z_scope.

(* ---- one channel of several ---- *)
Lemma mstep_inv : forall c s l s', mstep c s l = Some s' ->
  exists s1, step (c (fst l)) (s (fst l)) (snd l) = Some s1 /\
    s' (fst l) = s1 /\ forall ch, ch <> fst l -> s' ch = s ch.
Proof.
  intros c s l s' E. unfold mstep in E. destruct (step (c (fst l)) (s (fst l)) (snd l)) as [s1|]; [|discriminate].
  injection E as <-. exists s1. split; [reflexivity|]. cbv beta. rewrite Nat.eqb_refl. split; [reflexivity|].
  intros ch D. apply Nat.eqb_neq in D. rewrite D. reflexivity.
Qed.

Lemma proj_cons : forall ch l ls, proj ch (l :: ls) = if Nat.eqb (fst l) ch then snd l :: proj ch ls else proj ch ls.
Proof. intros ch l ls. unfold proj. cbn [filter]. destruct (Nat.eqb (fst l) ch); reflexivity. Qed.

Lemma proj_app : forall ch a b, proj ch (a ++ b) = proj ch a ++ proj ch b.
Proof. intros ch a b. unfold proj. rewrite filter_app, map_app. reflexivity. Qed.

Lemma mrun_proj : forall c ls s s' ch, mrun c s ls = Some s' -> run (c ch) (s ch) (proj ch ls) = Some (s' ch).
Proof.
  intros c ls. induction ls as [|l ls IH]; intros s s' ch R.
  - cbn in R. injection R as <-. reflexivity.
  - cbn [mrun] in R. destruct (mstep c s l) as [s1|] eqn:E; [|discriminate].
    destruct (mstep_inv _ _ _ _ E) as (x & X & S1 & S2). specialize (IH s1 s' ch R). rewrite proj_cons.
    destruct (Nat.eqb (fst l) ch) eqn:Q.
    + apply Nat.eqb_eq in Q. subst ch. cbn [run]. rewrite X, <- S1. exact IH.
    + apply Nat.eqb_neq in Q. rewrite S2 in IH by congruence. exact IH.
Qed.

Lemma mrun_app : forall c a b s, mrun c s (a ++ b) = match mrun c s a with Some s' => mrun c s' b | None => None end.
Proof.
  intros c a. induction a as [|l a IH]; intros b s; [reflexivity|]. cbn [app mrun].
  destruct (mstep c s l); [apply IH|reflexivity].
Qed.

(* a run of one channel is a run of all *)
Lemma run_mrun : forall c ch ls s x, run (c ch) (s ch) ls = Some x ->
  exists s', mrun c s (map (fun l => (ch, l)) ls) = Some s' /\ s' ch = x /\ forall j, j <> ch -> s' j = s j.
Proof.
  intros c ch ls. induction ls as [|l ls IH]; intros s x R.
  - cbn in R. injection R as <-. exists s. auto.
  - cbn [run] in R. destruct (step (c ch) (s ch) l) as [y|] eqn:E; [|discriminate].
    cbn [map mrun]. unfold mstep at 1. cbn [fst snd]. rewrite E.
    set (s1 := fun j => if Nat.eqb j ch then y else s j).
    assert (Y : s1 ch = y) by (unfold s1; rewrite Nat.eqb_refl; reflexivity).
    destruct (IH s1 x ltac:(rewrite Y; exact R)) as (s' & M & A & B). exists s'. split; [exact M|]. split; [assumption|].
    intros j J. rewrite B by assumption. unfold s1. apply Nat.eqb_neq in J. rewrite J. reflexivity.
Qed.

(* ---- a set of statements that wait for each other ---- *)
(* every channel is in a state of Ring.v's invariant and running *)
Definition all_live (c : nat -> rcfg) (s : mst) : Prop := forall ch, inv_st (c ch) (s ch) /\ live (c ch) (s ch).

Definition kept (D : node -> Prop) (s0 s : mst) : Prop :=
  forall d, D d -> exists t v, thread_of s0 d = Some t /\ thread_of s d = Some v /\
    (~ holding t -> v = t) /\
    (holding t -> holding v /\ t_msg v = t_msg t /\
       g_held (gh (s (fst d))) = g_held (gh (s0 (fst d))) /\ gH (gh (s (fst d))) = gH (gh (s0 (fst d)))).

Lemma holding_busy : forall t, holding t -> t_pc t <> Idle.
Proof. intros t H P. unfold holding in H. rewrite P in H. exact H. Qed.

Lemma fill_not_holding : forall t i rest, t_pc t = Fill i rest -> ~ holding t.
Proof. intros t i rest P H. unfold holding in H. rewrite P in H. exact H. Qed.

(* the members of the set stay inside their statements *)
Lemma kept_busy : forall par c D s0 s, deadlocked par c D s0 -> kept D s0 s ->
  forall d, D d -> exists v, thread_of s d = Some v /\ t_pc v <> Idle.
Proof.
  intros par c D s0 s DL KP d Dd. destruct (DL d Dd) as (t & T & NI & W). destruct (KP d Dd) as (t' & v & T' & V & K1 & K2).
  rewrite T in T'. injection T' as <-. exists v. split; [assumption|].
  destruct W as [[NH _]|[H _]]; [rewrite (K1 NH); assumption|]. apply holding_busy. apply (K2 H).
Qed.

(* the channel of a member that waits for a slot is full *)
Lemma kept_full : forall par c D s0 s d t, 0 < n_ring (c (fst d)) -> deadlocked par c D s0 -> all_live c s0 -> all_live c s ->
  kept D s0 s -> D d -> thread_of s0 d = Some t -> holding t ->
  gH (gh (s (fst d))) = gR (gh (s (fst d))) + n_ring (c (fst d)) - 1.
Proof.
  intros par c D s0 s d t N DL A0 A KP Dd T HT. destruct (DL d Dd) as (t' & T' & _ & W). rewrite T in T'. injection T' as <-.
  destruct W as [[NH _]|[_ (p & v & rest & DP & V & P)]]; [contradiction|].
  destruct (KP _ DP) as (v' & w & V' & W & K1 & _). rewrite V in V'. injection V' as <-.
  rewrite (K1 (fill_not_holding _ _ _ P)) in W.
  destruct (A0 (fst d)) as [IV0 _]. destruct (A (fst d)) as [IV _].
  unfold thread_of in V, W. cbn [fst snd] in V, W.
  destruct (open_held _ _ _ _ _ _ IV0 V P) as (IX & RG0 & _). pose proof (i_ord _ _ _ _ IV0) as OR0.
  destruct (open_held _ _ _ _ _ _ IV W P) as (_ & RG & _). pose proof (i_ord _ _ _ _ IV) as OR.
  assert (FULL : gH (gh (s0 (fst d))) = t_snap v + n_ring (c (fst d)) - 1).
  { rewrite (i_hold _ _ _ _ IV0), nxt_ix in IX by assumption.
    destruct (Z_lt_ge_dec (gH (gh (s0 (fst d))) + 1 - t_snap v) (n_ring (c (fst d)))) as [L|G]; [|lia].
    apply ix_eq in IX; lia. }
  destruct (KP d Dd) as (t2 & w2 & T2 & _ & _ & K3). rewrite T in T2. injection T2 as <-.
  destruct (K3 HT) as (_ & _ & _ & EH). lia.
Qed.

Lemma kept_step : forall par c D s0 s l s', (forall ch, 0 < n_ring (c ch)) -> deadlocked par c D s0 ->
  all_live c s0 -> all_live c s -> fresh (c (fst l)) (s (fst l)) (snd l) ->
  match snd l with LLog _ _ | LRun _ => True | _ => False end -> mcall_ok par s l ->
  kept D s0 s -> mstep c s l = Some s' -> kept D s0 s'.
Proof.
  intros par c D s0 s [ch l] s' N DL A0 A F O CO KP E d Dd. cbn [fst snd] in *.
  destruct (mstep_inv _ _ _ _ E) as (x & X & S1 & S2). cbn [fst snd] in *.
  destruct (DL d Dd) as (t & T & NI & W). destruct (KP d Dd) as (t' & v & T' & V & K1 & K2).
  rewrite T in T'. injection T' as <-. exists t.
  destruct (Nat.eq_dec (fst d) ch) as [EC|NC].
  2:{ exists v. unfold thread_of in *. rewrite !S2 by assumption. auto. }
  destruct d as [ch' i]. cbn [fst snd] in *. subst ch'. unfold thread_of in *. cbn [fst snd] in *. rewrite S1.
  assert (VI : t_pc v <> Idle).
  { destruct (kept_busy _ _ _ _ _ DL KP _ Dd) as (v' & V' & VI). unfold thread_of in V'. cbn [fst snd] in V'. congruence. }
  destruct l as [tid m|tid| | | |]; try contradiction.
  - destruct (step_log_inv _ _ _ _ _ X) as (u & U & PU & ->). cbn [ths gh].
    assert (tid <> i) by (intros ->; rewrite V in U; injection U as <-; contradiction).
    exists v. split; [assumption|]. split; [apply upd_some with u; (assumption || congruence)|].
    split; [assumption|]. intros HT. destruct (K2 HT) as (B1 & B2 & B3 & B4). repeat split; assumption.
  - destruct (step_run_inv _ _ _ _ X) as (u & y & g & u' & U & TS & ->). cbn [ths gh].
    destruct W as [[NH (e & De & PE)]|[H _]].
    + assert (tid <> i).
      { intros ->. unfold mcall_ok in CO. cbn [fst snd] in CO. apply CO.
        destruct (kept_busy _ _ _ _ _ DL KP _ De) as (w & WW & WI). exists e, w. auto. }
      exists v. split; [assumption|]. split; [apply upd_some with u; (assumption || congruence)|].
      split; [assumption|]. intros H'. contradiction.
    + destruct (A ch) as [IV LV]. destruct (K2 H) as (B1 & B2 & B3 & B4).
      pose proof (kept_full par c D s0 s (ch, i) t (N ch) DL A0 A KP Dd T H) as FU. cbn [fst] in FU.
      destruct (full_tstep (c ch) (sh (s ch)) (gh (s ch)) (ths (s ch)) tid u y g u' (N ch) IV U (F u U) FU TS) as [HE HH].
      destruct (Nat.eq_dec tid i) as [->|D1].
      * rewrite V in U. injection U as <-. exists u'. split; [assumption|]. split; [apply upd_hit with v; assumption|].
        split; [intros NH; contradiction|]. intros _.
        destruct (holding_tstep _ _ _ _ _ _ _ _ (l_run _ _ LV) B1 HE TS). repeat split; try assumption; congruence.
      * exists v. split; [assumption|]. split; [apply upd_some with u; (assumption || congruence)|].
        split; [assumption|]. intros _. repeat split; try assumption; congruence.
Qed.

Lemma mno_lap_cons : forall c s l ls s', mno_lap c s (l :: ls) -> mstep c s l = Some s' ->
  fresh (c (fst l)) (s (fst l)) (snd l) /\ mno_lap c s' ls.
Proof.
  intros c s l ls s' NL E. destruct (mstep_inv _ _ _ _ E) as (x & X & S1 & S2). split.
  - pose proof (NL (fst l)) as H. rewrite proj_cons, Nat.eqb_refl in H. apply H.
  - intros ch. pose proof (NL ch) as H. rewrite proj_cons in H. destruct (Nat.eqb (fst l) ch) eqn:Q.
    + apply Nat.eqb_eq in Q. subst ch. rewrite S1. apply H. assumption.
    + apply Nat.eqb_neq in Q. rewrite S2 by congruence. exact H.
Qed.

Lemma all_live_step : forall c s l s', (forall ch, 0 < n_ring (c ch)) -> all_live c s ->
  fresh (c (fst l)) (s (fst l)) (snd l) -> match snd l with LLog _ _ | LRun _ => True | _ => False end ->
  mstep c s l = Some s' -> all_live c s'.
Proof.
  intros c s l s' N A F O E ch. destruct (mstep_inv _ _ _ _ E) as (x & X & S1 & S2).
  destruct (Nat.eq_dec ch (fst l)) as [->|D]; [|rewrite S2 by assumption; apply A]. rewrite S1.
  destruct (A (fst l)) as [IV LV].
  assert (C3 : x_ctl (sh (s (fst l))) <> 3) by (rewrite (l_ctl _ _ LV); discriminate).
  split.
  - apply (inv_step (c (fst l)) (s (fst l)) (snd l) x (N _) IV C3 F); [|assumption].
    intros H. rewrite H in O. contradiction.
  - exact (live_step (c (fst l)) (s (fst l)) (snd l) x (N _) IV LV F O X).
Qed.

Lemma kept_run : forall par c D s0 ls s s', (forall ch, 0 < n_ring (c ch)) -> deadlocked par c D s0 ->
  all_live c s0 -> all_live c s -> mno_lap c s ls -> mthreads_only ls -> mnested par c s ls ->
  kept D s0 s -> mrun c s ls = Some s' -> kept D s0 s'.
Proof.
  intros par c D s0 ls. induction ls as [|l ls IH]; intros s s' N DL A0 A NL TO NE KP R.
  - cbn in R. injection R as <-. assumption.
  - cbn [mrun mnested] in *. destruct (mstep c s l) as [s1|] eqn:E; [|discriminate].
    destruct NE as [CO NE]. apply Forall_cons_iff in TO. destruct TO as [O TO].
    destruct (mno_lap_cons _ _ _ _ _ NL E) as [F NL1].
    apply (IH s1 s' N DL A0); try assumption.
    + exact (all_live_step c s l s1 N A F O E).
    + apply NE. reflexivity.
    + exact (kept_step par c D s0 s l s1 N DL A0 A F O CO KP E).
Qed.

Lemma proj_threads : forall ch ls, mthreads_only ls -> threads_only (proj ch ls).
Proof.
  intros ch ls TO. unfold threads_only, proj. apply Forall_forall. intros x H. apply in_map_iff in H.
  destruct H as (l & <- & IN). apply filter_In in IN. unfold mthreads_only in TO. rewrite Forall_forall in TO.
  apply TO. apply IN.
Qed.

Lemma mreach_live : forall c slots k ls s, (forall ch, cfg_ok (c ch) /\ blank (c ch) (slots ch)) ->
  mrun c (mstart c slots k) ls = Some s -> mno_lap c (mstart c slots k) ls -> mthreads_only ls -> all_live c s.
Proof.
  intros c slots k ls s CB R NL TO ch. destruct (CB ch) as [C B].
  apply (reach_live (c ch) (slots ch) (k ch) (proj ch ls)); try assumption.
  - exact (mrun_proj _ _ _ _ ch R).
  - exact (NL ch).
  - apply proj_threads. assumption.
Qed.

Lemma deadlock_stays : forall par c slots k ls s D, (forall ch, cfg_ok (c ch) /\ blank (c ch) (slots ch)) ->
  mrun c (mstart c slots k) ls = Some s -> mno_lap c (mstart c slots k) ls -> mthreads_only ls ->
  deadlocked par c D s ->
  forall ls2 s2, mrun c s ls2 = Some s2 -> mno_lap c s ls2 -> mthreads_only ls2 -> mnested par c s ls2 ->
  forall d, D d -> exists t v, thread_of s d = Some t /\ thread_of s2 d = Some v /\ t_msg v = t_msg t /\
    (~ holding t -> v = t) /\
    (holding t -> holding v /\ g_held (gh (s2 (fst d))) = g_held (gh (s (fst d)))).
Proof.
  intros par c slots k ls s D CB R NL TO DL ls2 s2 R2 NL2 TO2 NE2 d Dd.
  assert (N : forall ch, 0 < n_ring (c ch)) by (intros ch; destruct (CB ch) as [[] _]; lia).
  pose proof (mreach_live _ _ _ _ _ CB R NL TO) as A.
  assert (K0 : kept D s s).
  { intros e De. destruct (DL e De) as (t & T & _). exists t, t. repeat split; auto. }
  destruct (kept_run par c D s ls2 s s2 N DL A A NL2 TO2 NE2 K0 R2 d Dd) as (t & v & T & V & K1 & K2).
  exists t, v. destruct (DL d Dd) as (t' & T' & _ & W). rewrite T in T'. injection T' as <-.
  repeat split; try assumption.
  - destruct W as [[NH _]|[H _]]; [rewrite (K1 NH); reflexivity|apply K2; assumption].
  - apply K2. assumption.
  - apply K2. assumption.
Qed.

(* ---- a statement that has its slot returns by itself ---- *)
Ltac Zify.zify_post_hook ::= idtac.

Definition ahead (c : rcfg) (s : shared) (t : thr) : Z :=
  (x_hold s - x_write s) mod n_ring c +
  match t_pc t with PReady old | PCas old => if old =? x_hold s then n_ring c else 0 | _ => 0 end.

Definition meas (c : rcfg) (s : shared) (g : ghost) (t : thr) : Z := left_of c g t + 6 * ahead c s t.

Lemma ahead_next : forall n h w, 0 < n -> 0 <= h < n -> 0 <= w < n -> h <> w ->
  (h - (w + 1) mod n) mod n = (h - w) mod n - 1.
Proof.
  intros n h w N H W D. rewrite Zminus_mod_idemp_r. replace (h - (w + 1)) with (h - w - 1) by lia.
  destruct (Z_lt_ge_dec w h) as [L|G].
  - rewrite !Z.mod_small by lia. reflexivity.
  - rewrite <- (Z_mod_plus_full (h - w) 1), <- (Z_mod_plus_full (h - w - 1) 1). rewrite !Z.mod_small by lia. lia.
Qed.

Lemma alone_less : forall c s tid t x g' t', 0 < n_ring c -> 2 <= log_size c -> idx_ok c s -> is_sync c = false ->
  nth_error (ths s) tid = Some t -> ~ holding t -> cons_pc t = false ->
  tstep c tid (sh s) (gh s) t = Some (x, g', t') ->
  meas c x g' t' < meas c (sh s) (gh s) t /\ ~ holding t' /\ cons_pc t' = false.
Proof.
  intros c s tid t x g' t' N LS IX SY T NH NC E.
  pose proof (left_step c s tid t x g' t' N LS IX T (async_text c (sh s) t NC) ltac:(auto) E) as L.
  pose proof (async_prod c tid (sh s) (gh s) t x g' t' SY NC E) as NC'.
  destruct IX as [XH XW _ _ TH RU]. unfold meas, ahead, holding in *.
  assert (MB : forall a, 0 <= a mod n_ring c < n_ring c) by (intros a; apply Z.mod_pos_bound; assumption).
  unfold paid in L. rewrite SY in L.
  unfold tstep in E.
  destruct (t_pc t) as [| | |old|old|j|j| |j|j rest|j|j|j|j| |old|old|old| | | | |old|old|j k0 acc|j|j|j| |old|old|old| | | | |] eqn:P;
    try discriminate; try (exfalso; apply NH; exact I); try (exfalso; unfold cons_pc in NC; rewrite P in NC; discriminate).
  all: rewrite ?SY, ?RU in E; cbn [andb] in E.
  all: try match type of E with context [go ?w (if ?b then _ else _)] => revert E; destruct b eqn:?; intros E end.
  all: try (injection E as <- <- <-; cbn [t_pc go go_at x_hold x_write put put_n] in * ).
  all: try (repeat match goal with |- context [if ?b then _ else _] => destruct b eqn:? end;
            split; [lia|split; [intros HH; exact HH|assumption]]).
  - destruct rest; injection E as <- <- <-; cbn [t_pc go go_at x_hold x_write put put_n] in *;
      split; [lia|split; [intros HH; exact HH|assumption]| |split; [intros HH; exact HH|assumption]]; lia.
  - match goal with H : (old =? _) = false |- _ => rewrite H end. split; [lia|split; [intros HH; exact HH|assumption]].
  - split; [destruct (old =? x_hold (sh s)); lia|split; [intros HH; exact HH|assumption]].
  - split; [destruct (old =? x_hold (sh s)); lia|split; [intros HH; exact HH|assumption]].
  - destruct (x_write (sh s) =? old) eqn:Q; injection E as <- <- <-;
      cbn [t_pc go go_at x_hold x_write put_idx gH gW put_g] in *.
    + split; [|split; [intros HH; exact HH|assumption]]. assert (old = x_write (sh s)) by lia. subst old.
      unfold nxt. destruct (x_write (sh s) =? x_hold (sh s)) eqn:Q2.
      * pose proof (MB (x_hold (sh s) - (x_write (sh s) + 1) mod n_ring c)). pose proof (MB (x_hold (sh s) - x_write (sh s))). lia.
      * rewrite ahead_next; [lia|assumption|rewrite XH; apply MB|rewrite XW; apply MB|lia].
    + split; [|split; [intros HH; exact HH|assumption]]. destruct (old =? x_hold (sh s)); lia.
Qed.

Lemma meas_pos : forall c s g t, 0 < n_ring c -> 2 <= log_size c -> cons_pc t = false -> 0 <= meas c s g t.
Proof.
  intros c s g t N LS NC. unfold meas, ahead. pose proof (left_pos c g s t LS (async_text c s t NC)).
  pose proof (Z.mod_pos_bound (x_hold s - x_write s) (n_ring c) N).
  destruct (t_pc t); try lia; destruct (old =? x_hold s); lia.
Qed.

Lemma returns_alone : forall c tid, cfg_ok c -> is_sync c = false -> forall n s t, idx_ok c s ->
  nth_error (ths s) tid = Some t -> ~ holding t -> cons_pc t = false -> meas c (sh s) (gh s) t <= Z.of_nat n ->
  exists m s' v, (m <= n)%nat /\ run c s (repeat (LRun tid) m) = Some s' /\
    nth_error (ths s') tid = Some v /\ t_pc v = Idle /\
    forall j, j <> tid -> nth_error (ths s') j = nth_error (ths s) j.
Proof.
  intros c tid C SY. assert (N : 0 < n_ring c) by (destruct C; lia). assert (LS : 2 <= log_size c) by (destruct C; lia).
  induction n as [|n IH]; intros s t IX T NH NC M.
  - assert (t_pc t = Idle \/ t_pc t <> Idle) as [P|NI] by (destruct (t_pc t); ((left; reflexivity) || (right; discriminate))).
    + exists 0%nat, s, t. auto.
    + exfalso. destruct (step_ready c s tid t IX T NI) as (x & g & t' & E).
      destruct (alone_less _ _ _ _ _ _ _ N LS IX SY T NH NC E) as (L & _ & NC').
      pose proof (meas_pos c x g t' N LS NC'). lia.
  - assert (t_pc t = Idle \/ t_pc t <> Idle) as [P|NI] by (destruct (t_pc t); ((left; reflexivity) || (right; discriminate))).
    + exists 0%nat, s, t. repeat split; auto. lia.
    + destruct (step_ready c s tid t IX T NI) as (x & g & t' & E).
      destruct (alone_less _ _ _ _ _ _ _ N LS IX SY T NH NC E) as (L & NH' & NC').
      pose proof (one_run c s tid t x g t' T E) as ST.
      destruct (IH (mkSt x g (upd (ths s) tid t')) t') as (m & s' & v & ML & R & V & PV & OT).
      * exact (idx_step c s (LRun tid) _ N Logic.I IX ST).
      * apply upd_hit with t. assumption.
      * assumption.
      * assumption.
      * cbn [sh gh]. lia.
      * exists (S m), s', v. split; [lia|]. cbn [repeat run]. rewrite ST. repeat split; try assumption.
        intros j J. rewrite OT by assumption. apply upd_other. congruence.
Qed.

(* ---- statements made inside others, across channels ---- *)
Definition mnest_inv (par : node -> option node) (s : mst) : Prop :=
  forall q p t, par q = Some p -> thread_of s q = Some t -> t_pc t <> Idle -> mopen s p.

(* a step changes one node *)
Lemma mstep_thread : forall c s ch l s' n t, mstep c s (ch, l) = Some s' -> thread_of s' n = Some t ->
  match l with
  | LLog i m => (n = (ch, i) /\ t_pc t = HState /\ exists v, thread_of s n = Some v /\ t_pc v = Idle) \/
                (n <> (ch, i) /\ thread_of s n = Some t)
  | LRun i => (n = (ch, i) /\ exists v, thread_of s n = Some v /\ t_pc v <> Idle) \/
              (n <> (ch, i) /\ thread_of s n = Some t)
  | _ => True
  end.
Proof.
  intros c s ch l s' [cn i] t E T. destruct (mstep_inv _ _ _ _ E) as (x & X & S1 & S2). cbn [fst snd] in *.
  unfold thread_of in *. cbn [fst snd] in *.
  destruct l as [j m|j| | | |]; try exact I.
  - destruct (step_log_inv _ _ _ _ _ X) as (v & V & PV & EX).
    destruct (Nat.eq_dec cn ch) as [->|D].
    + rewrite S1, EX in T. cbn [ths] in T. destruct (upd_inv _ _ _ _ _ T) as [[-> ->]|[D T']].
      * left. split; [reflexivity|]. split; [reflexivity|]. exists v. auto.
      * right. split; [congruence|assumption].
    + right. rewrite S2 in T by assumption. split; [congruence|assumption].
  - destruct (step_run_inv _ _ _ _ X) as (v & y & g & v' & V & TS & EX).
    destruct (Nat.eq_dec cn ch) as [->|D].
    + rewrite S1, EX in T. cbn [ths] in T. destruct (upd_inv _ _ _ _ _ T) as [[-> ->]|[D T']].
      * left. split; [reflexivity|]. exists v. split; [assumption|].
        intros P. unfold tstep in TS. rewrite P in TS. discriminate.
      * right. split; [congruence|assumption].
    + right. rewrite S2 in T by assumption. split; [congruence|assumption].
Qed.

Lemma mstep_other : forall c s ch l s' n t i, mstep c s (ch, l) = Some s' -> (l = LRun i \/ exists m, l = LLog i m) ->
  n <> (ch, i) -> thread_of s n = Some t -> thread_of s' n = Some t.
Proof.
  intros c s ch l s' [cn j] t i E HL D T. destruct (mstep_inv _ _ _ _ E) as (x & X & S1 & S2). cbn [fst snd] in *.
  unfold thread_of in *. cbn [fst snd] in *.
  destruct (Nat.eq_dec cn ch) as [->|DC]; [|rewrite S2; assumption]. rewrite S1.
  destruct HL as [->|[m ->]].
  - destruct (step_run_inv _ _ _ _ X) as (v & y & g & v' & V & TS & ->). cbn [ths].
    apply upd_some with v; (assumption || congruence).
  - destruct (step_log_inv _ _ _ _ _ X) as (v & V & PV & ->). cbn [ths]. apply upd_some with v; (assumption || congruence).
Qed.

Lemma mnest_step : forall par c s l s', match snd l with LLog _ _ | LRun _ => True | _ => False end ->
  mcall_ok par s l -> mnest_inv par s -> mstep c s l = Some s' -> mnest_inv par s'.
Proof.
  intros par c s [ch l] s' O CO NI E q p t PQ T NID. cbn [snd] in O. unfold mcall_ok in CO. cbn [fst snd] in CO.
  pose proof (mstep_thread c s ch l s' q t E T) as MT. destruct l as [i m|i| | | |]; try contradiction.
  - assert (OP : mopen s p).
    { destruct MT as [(-> & _ & _)|(D & T')]; [rewrite PQ in CO; apply CO|exact (NI q p t PQ T' NID)]. }
    destruct OP as (u & j & rest & U & P). exists u, j, rest. split; [|assumption].
    apply (mstep_other c s ch _ s' p u i E); [right; eauto| |assumption].
    intros ->. destruct (mstep_inv _ _ _ _ E) as (x & X & _). cbn [fst snd] in X.
    destruct (step_log_inv _ _ _ _ _ X) as (v & V & PV & _). unfold thread_of in U. cbn [fst snd] in U. congruence.
  - assert (CA : exists r, thread_of s q = Some r /\ t_pc r <> Idle).
    { destruct MT as [(-> & v & V & VI)|(D & T')]; eauto. }
    destruct CA as (r & R & RI). destruct (NI q p r PQ R RI) as (u & j & rest & U & P).
    exists u, j, rest. split; [|assumption].
    apply (mstep_other c s ch _ s' p u i E); [left; reflexivity| |assumption].
    intros ->. apply CO. exists q, r. auto.
Qed.

Lemma mnest_start : forall par c slots k, mcalls_ok par c -> mnest_inv par (mstart c slots k).
Proof.
  intros par c slots k CK [ch i] p t PQ T NID. exfalso. unfold thread_of, mstart in T. cbn [fst snd] in T.
  destruct (start_thr _ _ _ _ _ T) as [(-> & SY & ->)| ->]; [|apply NID; reflexivity].
  destruct (CK ch SY) as [Z _]. congruence.
Qed.

Lemma mnest_run : forall par c ls s s', mthreads_only ls -> mnested par c s ls -> mnest_inv par s ->
  mrun c s ls = Some s' -> mnest_inv par s'.
Proof.
  intros par c ls. induction ls as [|l ls IH]; intros s s' TO NE NI R.
  - cbn in R. injection R as <-. assumption.
  - cbn [mrun mnested] in *. destruct (mstep c s l) as [s1|] eqn:E; [|discriminate].
    destruct NE as [CO NE]. apply Forall_cons_iff in TO. destruct TO as [O TO].
    apply (IH s1 s'); try assumption; [apply NE; reflexivity|]. eapply mnest_step; eassumption.
Qed.

(* a node with no statement in progress inside its own runs alone *)
Lemma malone : forall par c ch q n s s', par (ch, q) <> Some (ch, q) -> ~ mcalling par s (ch, q) ->
  mrun c s (repeat (ch, LRun q) n) = Some s' ->
  mnested par c s (repeat (ch, LRun q) n) /\ ~ mcalling par s' (ch, q).
Proof.
  intros par c ch q n. induction n as [|n IH]; intros s s' PQ NC R.
  - cbn in R. injection R as <-. split; [exact I|assumption].
  - cbn [repeat mrun mnested] in *. destruct (mstep c s (ch, LRun q)) as [s1|] eqn:E; [|discriminate].
    assert (NC1 : ~ mcalling par s1 (ch, q)).
    { intros (r & t & PR & T & NI). destruct (mstep_thread c s ch (LRun q) s1 r t E T) as [(-> & _)|(_ & T')]; [contradiction|].
      apply NC. exists r, t. auto. }
    destruct (IH s1 s' PQ NC1 R) as [A B]. split; [|assumption]. split; [exact NC|].
    intros s2 E2. injection E2 as <-. assumption.
Qed.

Lemma mnested_join : forall par c a b s s', mrun c s a = Some s' -> mnested par c s a -> mnested par c s' b ->
  mnested par c s (a ++ b).
Proof.
  intros par c a. induction a as [|l a IH]; intros b s s' R A B.
  - cbn in R. injection R as <-. exact B.
  - cbn [app mnested mrun] in *. destruct A as [F A]. destruct (mstep c s l) as [s1|] eqn:E; [|discriminate].
    split; [assumption|]. intros s2 E2. injection E2 as <-. apply (IH b s1 s'); auto.
Qed.

Lemma map_rep : forall ch q n, map (fun l => (ch, l)) (repeat (LRun q) n) = repeat ((ch, LRun q) : mlabel) n.
Proof. intros ch q n. induction n as [|n IH]; [reflexivity|]. cbn. rewrite IH. reflexivity. Qed.

Lemma holding_dec : forall t, {holding t} + {~ holding t}.
Proof. intros t. unfold holding. destruct (t_pc t); (left; exact I) || (right; intros H; exact H). Qed.

Lemma idle_dec : forall t, {t_pc t = Idle} + {t_pc t <> Idle}.
Proof. intros t. destruct (t_pc t); (left; reflexivity) || (right; discriminate). Qed.

(* one of finitely many threads, or none *)
Lemma find_thread : forall (P : nat -> thr -> Prop) (PD : forall i t, {P i t} + {~ P i t}) l,
  {exists i t, nth_error l i = Some t /\ P i t} + {forall i t, nth_error l i = Some t -> ~ P i t}.
Proof.
  intros P PD l. revert P PD. induction l as [|a l IH]; intros P PD.
  - right. intros [|i] t H; discriminate.
  - destruct (PD 0%nat a) as [Y|N0]; [left; exists 0%nat, a; auto|].
    destruct (IH (fun i => P (S i)) (fun i => PD (S i))) as [Y|N1].
    + left. destruct Y as (i & t & T & H). exists (S i), t. auto.
    + right. intros [|i] t H; [injection H as <-; assumption|exact (N1 i t H)].
Qed.

Lemma node_dec : forall a b : option node, {a = b} + {a <> b}.
Proof. repeat decide equality. Qed.

Lemma find_call : forall par s p nch, (forall q r, par q = Some r -> (fst q < nch)%nat) ->
  {mcalling par s p} + {~ mcalling par s p}.
Proof.
  intros par s p nch B.
  assert (F : forall n, {exists ch i t, (ch < n)%nat /\ par (ch, i) = Some p /\ nth_error (ths (s ch)) i = Some t /\ t_pc t <> Idle} +
                        {forall ch i t, (ch < n)%nat -> par (ch, i) = Some p -> nth_error (ths (s ch)) i = Some t -> t_pc t = Idle}).
  { induction n as [|n IH]; [right; intros; lia|]. destruct IH as [Y|N].
    - left. destruct Y as (ch & i & t & A & H). exists ch, i, t. split; [lia|assumption].
    - destruct (find_thread (fun i t => par (n, i) = Some p /\ t_pc t <> Idle)
        ltac:(intros i t; destruct (node_dec (par (n, i)) (Some p)); [|right; tauto];
              destruct (idle_dec t); [right; tauto|left; tauto]) (ths (s n))) as [Y|N1].
      + left. destruct Y as (i & t & T & A & H). exists n, i, t. split; [lia|auto].
      + right. intros ch i t L PQ T. destruct (Nat.eq_dec ch n) as [->|D]; [|apply (N ch i t); (assumption || lia)].
        destruct (idle_dec t) as [|NI]; [assumption|]. exfalso. apply (N1 i t T). auto. }
  destruct (F nch) as [Y|N].
  - left. destruct Y as (ch & i & t & _ & A & T & H). exists (ch, i), t. auto.
  - right. intros ([ch i] & t & A & T & H). apply H. apply (N ch i t); try assumption. apply (B _ _ A).
Qed.

(* a statement with a slot and no inner statement returns by itself *)
Lemma slot_returns : forall par c s ch q t, cfg_ok (c ch) -> is_sync (c ch) = false -> idx_ok (c ch) (s ch) -> alone_ok (c ch) (s ch) ->
  par (ch, q) <> Some (ch, q) -> ~ mcalling par s (ch, q) -> q <> 0%nat ->
  thread_of s (ch, q) = Some t -> ~ holding t ->
  exists m s' v, mrun c s (repeat (ch, LRun q) m) = Some s' /\ mnested par c s (repeat (ch, LRun q) m) /\
    thread_of s' (ch, q) = Some v /\ t_pc v = Idle.
Proof.
  intros par c s ch q t C SY IX AL PQ NC Q0 T NH. unfold thread_of in T. cbn [fst snd] in T.
  assert (CP : cons_pc t = false).
  { destruct (cons_pc t) eqn:CP; [|reflexivity]. exfalso. apply Q0. apply (AL SY q t T). assumption. }
  assert (MP : 0 <= meas (c ch) (sh (s ch)) (gh (s ch)) t) by (destruct C; apply meas_pos; (assumption || lia)).
  destruct (returns_alone (c ch) q C SY (Z.to_nat (meas (c ch) (sh (s ch)) (gh (s ch)) t)) (s ch) t IX T NH CP ltac:(lia))
    as (m & x & v & _ & R & V & PV & _).
  destruct (run_mrun c ch _ s x R) as (s' & M & SX & _). rewrite map_rep in M.
  exists m, s', v. split; [assumption|]. split; [apply (malone par c ch q m s s'); assumption|].
  unfold thread_of. cbn [fst snd]. rewrite SX. auto.
Qed.

Lemma rep_threads : forall q n, threads_only (repeat (LRun q) n).
Proof. intros q n. apply Forall_forall. intros l H. apply repeat_spec in H. subst l. exact I. Qed.

Definition someone_returns (par : node -> option node) (c : nat -> rcfg) (rk : nat -> nat) (r : nat) (s : mst) : Prop :=
  exists ch q u n m s' v, q <> 0%nat /\ thread_of s (ch, q) = Some u /\ t_pc u <> Idle /\ (r <= rk ch)%nat /\
    mrun c s (repeat (ch, LRun 0) n ++ repeat (ch, LRun q) m) = Some s' /\
    mnested par c s (repeat (ch, LRun 0) n ++ repeat (ch, LRun q) m) /\
    thread_of s' (ch, q) = Some v /\ t_pc v = Idle.

Lemma ordered_progress : forall par c slots k ls s nch rk,
  (forall ch, cfg_ok (c ch) /\ blank (c ch) (slots ch) /\ is_sync (c ch) = false) ->
  mrun c (mstart c slots k) ls = Some s -> mno_lap c (mstart c slots k) ls -> mthreads_only ls ->
  mcalls_ok par c -> mnested par c (mstart c slots k) ls ->
  (forall q p, par q = Some p -> (fst q < nch)%nat /\ (rk (fst p) < rk (fst q))%nat) ->
  forall d t, snd d <> 0%nat -> thread_of s d = Some t -> t_pc t <> Idle -> someone_returns par c rk (rk (fst d)) s.
Proof.
  intros par c slots k ls s nch rk CB R NL TO CK NE RK.
  pose proof (mnest_run par c ls _ s TO NE (mnest_start par c slots k CK) R) as NI.
  assert (SELF : forall p, par p <> Some p) by (intros p H; destruct (RK p p H); lia).
  assert (B : exists b, forall q p, par q = Some p -> (rk (fst q) <= b)%nat).
  { exists (list_max (map rk (seq 0 nch))). intros q p PQ. destruct (RK q p PQ) as [L _].
    pose proof (proj1 (list_max_le (map rk (seq 0 nch)) _) (Nat.le_refl _)) as F. rewrite Forall_forall in F.
    apply F. apply in_map. apply in_seq. lia. }
  destruct B as [b B].
  assert (IXA : forall ch, idx_ok (c ch) (s ch) /\ alone_ok (c ch) (s ch)).
  { intros ch. apply (reach_idx (c ch) (slots ch) (k ch) (proj ch ls)); [apply CB|exact (mrun_proj _ _ _ _ ch R)|].
    apply proj_threads. assumption. }
  (* unless it waits for an inner statement, somebody on the channel returns *)
  assert (ONE : forall ch q t, (forall p, mcalling par s (ch, p) -> someone_returns par c rk (rk ch) s) ->
    q <> 0%nat -> thread_of s (ch, q) = Some t -> t_pc t <> Idle -> someone_returns par c rk (rk ch) s).
  { intros ch q t CALL Q0 T TI. destruct (CB ch) as (C & BL & SY). destruct (IXA ch) as [IX AL].
    destruct (find_thread (fun i t => i <> 0%nat /\ t_pc t <> Idle /\ ~ holding t)
      ltac:(intros i x; destruct (Nat.eq_dec i 0); [right; tauto|]; destruct (idle_dec x); [right; tauto|];
            destruct (holding_dec x); [right; tauto|left; tauto]) (ths (s ch))) as [Y|NO].
    - destruct Y as (i & u & U & I0 & UI & UH).
      destruct (find_call par s (ch, i) nch ltac:(intros x y XY; apply (RK x y XY))) as [CA|NC]; [exact (CALL i CA)|].
      destruct (slot_returns par c s ch i u C SY IX AL (SELF _) NC I0 U UH) as (m & s' & v & M & MN & V & PV).
      exists ch, i, u, 0%nat, m, s', v. repeat (split; [(assumption || lia)|]). assumption.
    - assert (QH : holding t).
      { destruct (holding_dec t) as [|NH]; [assumption|]. exfalso. apply (NO q t T). auto. }
      assert (NOT : ~ mcalling par s (ch, q)).
      { intros (e & u & PE & U & UI). destruct (NI e (ch, q) u PE U UI) as (w & i & rest & W & P).
        rewrite T in W. injection W as <-. exact (fill_not_holding _ _ _ P QH). }
      destruct (slot_progress (c ch) (slots ch) (k ch) (proj ch ls) (s ch) q t C BL SY
        (mrun_proj _ _ _ _ ch R) (NL ch) (proj_threads ch ls TO) T QH) as (n & m & s1 & s2 & R1 & R2 & S1 & S2 & (v & i & V & PV) & _).
      { intros j u J0 JQ U. destruct (idle_dec u) as [|UI]; [left; assumption|]. right. left.
        destruct (holding_dec u) as [|NH]; [assumption|]. exfalso. apply (NO j u U). auto. }
      destruct (run_mrun c ch _ s s1 R1) as (z1 & M1 & Z1 & O1). rewrite map_rep in M1.
      rewrite <- Z1 in R2. destruct (run_mrun c ch _ z1 s2 R2) as (z2 & M2 & Z2 & O2). rewrite map_rep in M2.
      assert (N : 0 < n_ring (c ch)) by (destruct C; lia).
      destruct (idx_run (c ch) _ (s ch) s1 N (rep_threads 0 n) IX AL R1) as [IX1 AL1].
      rewrite Z1 in R2. destruct (idx_run (c ch) _ s1 s2 N (rep_threads q m) IX1 AL1 R2) as [IX2 AL2].
      assert (W0 : ~ mcalling par s (ch, 0%nat)).
      { intros (e & u & PE & _). destruct (CK ch SY) as [_ Z]. exact (Z e PE). }
      destruct (malone par c ch 0%nat n s z1 (SELF _) W0 M1) as [MN1 _].
      assert (NOT1 : ~ mcalling par z1 (ch, q)).
      { intros ([ce e] & u & PE & U & UI). apply NOT. exists (ce, e), u. split; [assumption|]. split; [|assumption].
        unfold thread_of in *. cbn [fst snd] in *. destruct (Nat.eq_dec ce ch) as [->|DC].
        - rewrite Z1, S1 in U; [assumption|]. intros ->. destruct (CK ch SY) as [Z _]. congruence.
        - rewrite O1 in U by assumption. assumption. }
      destruct (malone par c ch q m z1 z2 (SELF _) NOT1 M2) as [MN2 NOT2].
      rewrite <- Z2 in IX2, AL2.
      destruct (slot_returns par c z2 ch q v C SY IX2 AL2 (SELF _) NOT2 Q0) as (m3 & z3 & w & M3 & MN3 & W & PW).
      + unfold thread_of. cbn [fst snd]. rewrite Z2. assumption.
      + unfold holding. rewrite PV. intros H. exact H.
      + exists ch, q, t, n, (m + m3)%nat, z3, w.
        assert (M23 : mrun c z1 (repeat (ch, LRun q) (m + m3)) = Some z3).
        { rewrite repeat_app. unfold mlabel in *. rewrite mrun_app. rewrite M2. assumption. }
        repeat (split; [(assumption || lia)|]).
        split; [unfold mlabel in *; rewrite mrun_app; rewrite M1; assumption|]. split; [|auto].
        apply mnested_join with z1; [assumption|assumption|]. rewrite repeat_app.
        apply mnested_join with z2; assumption. }
  assert (GO : forall fuel d t, (b < rk (fst d) + fuel)%nat -> snd d <> 0%nat -> thread_of s d = Some t -> t_pc t <> Idle ->
    someone_returns par c rk (rk (fst d)) s).
  2:{ intros d t D0 T TI. apply (GO (S b) d t); try assumption. lia. }
  induction fuel as [|fuel IH]; intros [ch q] t L D0 T TI; cbn [fst snd] in *; apply (ONE ch q t); try assumption;
    intros p (e & u & PE & U & UI); destruct (RK _ _ PE) as [_ LT]; cbn [fst] in LT; pose proof (B _ _ PE).
  - exfalso. lia.
  - destruct (IH e u) as (ch' & q' & u' & n & m & s' & v & H0 & H1 & H2 & H3 & H4); try assumption.
    + lia.
    + destruct e as [ce e]. cbn [fst snd] in *. intros ->. destruct (CK ce (proj2 (proj2 (CB ce)))) as [Z _]. congruence.
    + exists ch', q', u', n, m, s', v. repeat (split; [assumption|]). split; [lia|assumption].
Qed.

Lemma returns_bound : forall c slots k ls s tid t, cfg_ok c -> is_sync c = false -> reaches c slots k ls s -> threads_only ls ->
  tid <> 0%nat -> nth_error (ths s) tid = Some t -> ~ holding t ->
  exists m s' v, Z.of_nat m <= 14 + zlen (t_msg t) + 12 * n_ring c /\ run c s (repeat (LRun tid) m) = Some s' /\
    nth_error (ths s') tid = Some v /\ t_pc v = Idle.
Proof.
  intros c slots k ls s tid t C SY RE TO T0 T NH. destruct (reach_idx _ _ _ _ _ C RE TO) as [IX AL].
  assert (CP : cons_pc t = false).
  { destruct (cons_pc t) eqn:CP; [|reflexivity]. exfalso. apply T0. apply (AL SY tid t T). assumption. }
  assert (N : 0 < n_ring c) by (destruct C; lia). assert (LS : 2 <= log_size c) by (destruct C; lia).
  pose proof (meas_pos c (sh s) (gh s) t N LS CP) as MP.
  destruct (returns_alone c tid C SY (Z.to_nat (meas c (sh s) (gh s) t)) s t IX T NH CP ltac:(lia))
    as (m & s' & v & ML & R & V & PV & _).
  exists m, s', v. split; [|auto].
  assert (KR : forall j k0 acc, t_pc t = CRead j k0 acc -> 0 <= k0).
  { intros j k0 acc P. unfold cons_pc in CP. rewrite P in CP. discriminate. }
  pose proof (left_max c (gh s) t LS (proj1 (d_thr _ _ IX tid t T)) KR ltac:(auto)) as LM. rewrite SY in LM.
  assert (AH : ahead c (sh s) t <= 2 * n_ring c).
  { unfold ahead. pose proof (Z.mod_pos_bound (x_hold (sh s) - x_write (sh s)) (n_ring c) N).
    destruct (t_pc t); try lia; destruct (old =? x_hold (sh s)); lia. }
  unfold meas in *. lia.
Qed.
