(* What threads logging at the same time write is what the same statements write
   one after the other. *)
From Coq Require Import String ZArith List Bool Lia ZifyBool ZifyNat ZifyN Permutation.
From Verif Require Import Base BaseFacts LoggerState Ring RingSpec RingInv RingProofs RingLive RingRun RingQuiet RingStop
  FilterSpec Stream World WorldSpec WorldProofs WorldSeq MixSpec MixProofs LinSpec.
From Verif Require PropsRing PropsMix PropsWorld.
Import ListNotations.
Open Scope Z_scope.

(* ---- rearranging by thread ---- *)
Definition sel {A : Type} (tid : nat) (l : list (nat * A)) : list (nat * A) := filter (fun e => Nat.eqb (fst e) tid) l.
Lemma sel_app : forall {A} tid (a b : list (nat * A)), sel tid (a ++ b) = sel tid a ++ sel tid b.
Proof. intros. apply filter_app. Qed.
Lemma sel_of_thread : forall (a b : list (nat * text)) tid, of_thread tid a = of_thread tid b -> sel tid a = sel tid b.
Proof.
  intros a b tid H. unfold of_thread in H. fold (sel tid a) in H. fold (sel tid b) in H.
  assert (X : forall l, Forall (fun e : nat * text => fst e = tid) (sel tid l)).
  { intros l. apply Forall_forall. intros e E. apply filter_In in E. destruct E as (_ & E). apply Nat.eqb_eq in E. exact E. }
  pose proof (X a) as FA. pose proof (X b) as FB. revert H FA FB. generalize (sel tid a) (sel tid b). clear.
  intros a. induction a as [|[x m] a IH]; intros [|[y n] b] H FA FB; cbn in H; try discriminate; [reflexivity|].
  inversion FA; inversion FB; subst. injection H as -> H. cbn in *. subst. f_equal. apply IH; assumption.
Qed.
Lemma sel_first : forall {A} (l : list (nat * A)) x r, sel (fst x) l = x :: r -> exists a b, l = a ++ x :: b /\ sel (fst x) a = [] /\ sel (fst x) b = r.
Proof.
  intros A l x r. induction l as [|y l IH]; cbn [sel filter]; [discriminate|]. destruct (Nat.eqb (fst y) (fst x)) eqn:E.
  - intros H. injection H as -> H. exists [], l. split; [reflexivity|]. split; [reflexivity|exact H].
  - intros H. destruct (IH H) as (a & b & -> & A0 & B0). exists (y :: a), b. split; [reflexivity|]. split; [cbn [sel filter]; rewrite E; exact A0|exact B0].
Qed.
Lemma sel_remove : forall {A} tid (a b : list (nat * A)) x, sel (fst x) a = [] -> forall l, (forall u, sel u (x :: l) = sel u (a ++ x :: b)) -> sel tid l = sel tid (a ++ b).
Proof.
  intros A tid a b x A0 l H. specialize (H tid). rewrite sel_app in *. cbn [sel filter] in H. fold (sel tid l) in H. fold (sel tid b) in H.
  destruct (Nat.eqb (fst x) tid) eqn:E; [|exact H]. apply Nat.eqb_eq in E. subst tid. rewrite A0 in *. cbn [app] in *. congruence.
Qed.
Lemma sel_perm : forall {A} (l l' : list (nat * A)), (forall tid, sel tid l = sel tid l') -> Permutation l l'.
Proof.
  intros A l. induction l as [|x l IH]; intros l' H.
  - destruct l' as [|y l']; [constructor|]. specialize (H (fst y)). cbn [sel filter] in H. rewrite Nat.eqb_refl in H. discriminate.
  - pose proof (H (fst x)) as Hx. cbn [sel filter] in Hx. rewrite Nat.eqb_refl in Hx. symmetry in Hx.
    destruct (sel_first l' x _ Hx) as (a & b & -> & A0 & _). apply Permutation_cons_app. apply IH. intros tid. eapply sel_remove; eassumption.
Qed.
Lemma rearrange : forall {A B} (R : nat * A -> nat * B -> Prop), (forall a e, R a e -> fst e = fst a) ->
  forall es' es (cs : list (nat * A)), Forall2 R cs es -> (forall tid, sel tid es = sel tid es') ->
  exists cs', Forall2 R cs' es' /\ forall tid, sel tid cs = sel tid cs'.
Proof.
  intros A B R RF es'. induction es' as [|e es' IH]; intros es cs F H.
  - assert (es = []) as ->. { destruct es as [|y es]; [reflexivity|]. specialize (H (fst y)). cbn [sel filter] in H. rewrite Nat.eqb_refl in H. discriminate. }
    inversion F; subst. exists []. split; [constructor|reflexivity].
  - pose proof (H (fst e)) as He. cbn [sel filter] in He. rewrite Nat.eqb_refl in He.
    destruct (sel_first es e _ He) as (x & y & -> & X0 & _).
    apply Forall2_app_inv_r in F. destruct F as (cx & cy & FX & FY & ->). inversion FY as [|a ? cy' ? RA FY']; subst.
    assert (S0 : forall tid, sel tid (x ++ y) = sel tid es').
    { intros tid. symmetry. eapply sel_remove; [exact X0|]. intros u. symmetry. exact (H u). }
    destruct (IH (x ++ y) (cx ++ cy') (Forall2_app FX FY') S0) as (cs' & F' & G). exists (a :: cs'). split; [constructor; assumption|].
    assert (CX : sel (fst a) cx = []).
    { pose proof (RF _ _ RA) as E. rewrite <- E. clear - FX X0 RF. revert X0. generalize (fst e). intros n. induction FX as [|u v cx x RU FX IHX]; [reflexivity|].
      cbn [sel filter]. rewrite (RF _ _ RU). destruct (Nat.eqb (fst u) n); [discriminate|exact IHX]. }
    intros tid. cbn [sel filter]. fold (sel tid cs'). rewrite <- G, !sel_app. cbn [sel filter]. fold (sel tid cy').
    destruct (Nat.eqb (fst a) tid) eqn:E; [|reflexivity]. apply Nat.eqb_eq in E. subst tid. rewrite CX. reflexivity.
Qed.
Lemma sel_rel : forall {A B} (R : nat * A -> nat * B -> Prop), (forall a e, R a e -> fst e = fst a) ->
  forall cs es tid, Forall2 R cs es -> length (sel tid cs) = length (sel tid es).
Proof.
  intros A B R RF cs es tid F. induction F as [|a e cs es RA F IH]; [reflexivity|]. cbn [sel filter]. rewrite (RF _ _ RA).
  destruct (Nat.eqb (fst a) tid); [cbn [length]; f_equal|]; exact IH.
Qed.
Lemma sel_prefix_eq : forall {A} (a b l : list A), is_prefix a l -> is_prefix b l -> (length a <= length b)%nat -> is_prefix a b.
Proof.
  intros A a. induction a as [|x a IH]; intros b l (r & E) (r' & E') L; [exists b; reflexivity|].
  destruct b as [|y b]; [cbn in L; lia|]. subst l. cbn in E'. injection E' as -> E'. cbn in L.
  destruct (IH b (a ++ r) (ex_intro _ r eq_refl) (ex_intro _ r' E') ltac:(lia)) as (z & ->). exists z. reflexivity.
Qed.

(* ---- histories only grow ---- *)
Lemma step_started : forall c s l s', step c s l = Some s' -> threads_only [l] ->
  g_started (gh s') = g_started (gh s) ++ logs_of [l] /\ exists h, g_held (gh s') = g_held (gh s) ++ h.
Proof.
  intros c s l s' E T. destruct l as [tid m|tid| | | |]; try (inversion T; contradiction).
  - cbn [step] in E. destruct (nth_error (ths s) tid) as [t|]; [|discriminate]. destruct (t_pc t); try discriminate. injection E as <-. split; [reflexivity|]. exists []. cbn. rewrite app_nil_r. reflexivity.
  - cbn [step] in E. destruct (nth_error (ths s) tid) as [t|]; [|discriminate].
    destruct (tstep c tid (sh s) (gh s) t) as [[[x g] t']|] eqn:TS; [|discriminate]. injection E as <-. cbn [gh logs_of]. rewrite app_nil_r.
    unfold tstep in TS. destruct (t_pc t) as [| | |old|old| | | | |i rest| | | | | |old|old|old| | | | |old|old|i k0 acc| | | | |old|old|old| | | | |];
      try discriminate TS;
      try (injection TS as <- <- <-; split; [reflexivity|exists []; rewrite app_nil_r; reflexivity]);
      try (destruct (x_hold (sh s) =? old); injection TS as <- <- <-; split; try reflexivity; [eexists; reflexivity|exists []; rewrite app_nil_r; reflexivity]);
      try (destruct rest; injection TS as <- <- <-; split; try reflexivity; exists []; rewrite app_nil_r; reflexivity);
      try (destruct (x_write (sh s) =? old); injection TS as <- <- <-; split; try reflexivity; exists []; cbn; rewrite app_nil_r; reflexivity);
      try (destruct (x_proc (sh s) =? old); injection TS as <- <- <-; split; try reflexivity; exists []; cbn; rewrite app_nil_r; reflexivity);
      try (destruct (x_read (sh s) =? old); injection TS as <- <- <-; split; try reflexivity; exists []; cbn; rewrite app_nil_r; reflexivity).
    all: destruct (k0 <? zlen (s_text (get (sh s) i))); injection TS as <- <- <-; split; try reflexivity; exists []; cbn; rewrite app_nil_r; reflexivity.
Qed.
Lemma logs_app : forall a b, logs_of (a ++ b) = logs_of a ++ logs_of b.
Proof. intros a b. induction a as [|l a IH]; [reflexivity|]. destruct l; cbn [app logs_of]; rewrite ?IH; reflexivity. Qed.
Lemma run_started : forall c ls s s', run c s ls = Some s' -> threads_only ls ->
  g_started (gh s') = g_started (gh s) ++ logs_of ls /\ exists h, g_held (gh s') = g_held (gh s) ++ h.
Proof.
  intros c ls. induction ls as [|l ls IH]; intros s s' E T.
  - injection E as <-. cbn [logs_of]. rewrite app_nil_r. split; [reflexivity|exists []; rewrite app_nil_r; reflexivity].
  - cbn [run] in E. destruct (step c s l) as [s1|] eqn:ST; [|discriminate]. inversion T as [|? ? T1 T2]; subst.
    destruct (step_started c s l s1 ST (Forall_cons _ T1 (Forall_nil _))) as (A & h & B). destruct (IH s1 s' E T2) as (A' & h' & B').
    split.
    + rewrite A', A, <- app_assoc. f_equal. change (l :: ls) with ([l] ++ ls). rewrite logs_app. reflexivity.
    + exists (h ++ h'). rewrite B', B, <- app_assoc. reflexivity.
Qed.
Lemma run_split : forall c a b s s', run c s (a ++ b) = Some s' -> exists s1, run c s a = Some s1 /\ run c s1 b = Some s'.
Proof.
  intros c a. induction a as [|l a IH]; intros b s s' E; [exists s; split; [reflexivity|exact E]|].
  cbn [app run] in *. destruct (step c s l) as [s0|]; [|discriminate]. exact (IH b s0 s' E).
Qed.

Lemma Forall2_len : forall {A B} (R : A -> B -> Prop) a b, Forall2 R a b -> length a = length b.
Proof. intros A B R a b F. induction F; cbn; congruence. Qed.

(* ---- the order in which slots are reserved ---- *)
Lemma held_order : forall c slots k ls s, cfg_ok c -> blank c slots -> reaches c slots k ls s -> no_lap c (start c slots k) ls -> threads_only ls ->
  g_started (gh s) = logs_of ls /\ (forall tid, is_prefix (sel tid (g_held (gh s))) (sel tid (logs_of ls))) /\
  (forall tid t, nth_error (ths s) tid = Some t -> t_pc t = Idle -> sel tid (g_held (gh s)) = sel tid (logs_of ls)) /\
  (forall tid, nth_error (ths s) tid = None -> sel tid (g_held (gh s)) = sel tid (logs_of ls)).
Proof.
  intros c slots k ls s C B RE NL TO. destruct (reach_live _ _ _ _ _ C B RE NL TO) as [IV LV]. pose proof (l_log _ _ LV) as LL.
  destruct (run_started c ls _ s RE TO) as (ST & _).
  assert (S0 : g_started (gh (start c slots k)) = []) by (unfold start; destruct (is_sync c); reflexivity). rewrite S0 in ST. cbn [app] in ST.
  split; [exact ST|]. rewrite <- ST. split; [|split].
  - intros tid. specialize (LL tid).
    assert (X : sel tid (g_started (gh s)) = sel tid (g_held (gh s) ++ map (fun m => (tid, m)) (pend (ths s) tid))).
    { apply sel_of_thread. rewrite LL. unfold of_thread. rewrite filter_app, map_app. f_equal. clear.
      induction (pend (ths s) tid) as [|m l IH]; [reflexivity|]. cbn [map filter fst]. rewrite Nat.eqb_refl. cbn [map snd]. f_equal. exact IH. }
    rewrite X, sel_app. eexists. reflexivity.
  - intros tid t T P. apply sel_of_thread. rewrite (LL tid). unfold pend, RingQuiet.pending. rewrite T, P, app_nil_r. reflexivity.
  - intros tid T. apply sel_of_thread. rewrite (LL tid). unfold pend. rewrite T, app_nil_r. reflexivity.
Qed.

(* the writer thread of an async channel never logs *)
Lemma writer_silent : forall c slots k ls s, is_sync c = false -> cfg_ok c -> blank c slots -> reaches c slots k ls s -> no_lap c (start c slots k) ls -> threads_only ls ->
  sel 0 (g_held (gh s)) = sel 0 (logs_of ls).
Proof.
  intros c slots k ls s SY C B RE NL TO. pose proof (threads_no_restart ls TO) as NR. destruct (held_order c slots k ls s C B RE NL TO) as (ST & _ & _ & H4).
  destruct (reach_live _ _ _ _ _ C B RE NL TO) as [IV LV]. pose proof (reach_wr _ _ _ _ _ C B RE NL NR) as WR. destruct (WR SY) as (t & T & CP).
  rewrite <- ST. apply sel_of_thread. rewrite (l_log _ _ LV 0%nat). unfold pend, RingQuiet.pending. rewrite T.
  unfold cons_pc in CP. destruct (t_pc t); try discriminate CP; rewrite app_nil_r; reflexivity.
Qed.

Lemma order_exists : forall W o c slots k ls s calls, cfg_ok c -> blank c slots -> reaches c slots k ls s -> no_lap c (start c slots k) ls -> threads_only ls -> quiet c s ->
  Forall2 (is_call W o) calls (logs_of ls) ->
  exists order, in_real_time c slots k ls calls order /\ Forall2 (is_call W o) order (g_held (gh s)).
Proof.
  intros W o c slots k ls s calls C B RE NL TO QU F.
  assert (RF : forall (a : call) e, is_call W o a e -> fst e = fst a) by (intros a e (E & _); exact E).
  destruct (held_order c slots k ls s C B RE NL TO) as (ST & HP & HI & HN).
  assert (SE : forall tid, sel tid (logs_of ls) = sel tid (g_held (gh s))).
  { intros tid. symmetry. destruct (nth_error (ths s) tid) as [t|] eqn:T; [|apply HN; assumption].
    destruct (QU tid t T) as [(SY & ->)|P]; [|eapply HI; eassumption]. eapply writer_silent; eassumption. }
  destruct (rearrange (is_call W o) RF (g_held (gh s)) (logs_of ls) calls F SE) as (order & F' & SC).
  exists order. split; [|exact F']. split; [apply sel_perm; exact SC|].
  intros ls1 ls2 s1 -> RE1 made.
  destruct (run_split c ls1 ls2 _ _ RE) as (s1' & R1 & R2). unfold reaches in RE1. rewrite RE1 in R1. injection R1 as <-.
  assert (TO1 : threads_only ls1 /\ threads_only ls2) by (apply Forall_app; exact TO). destruct TO1 as (TO1 & TO2).
  assert (NL1 : no_lap c (start c slots k) ls1) by (destruct (no_lap_app c ls1 _ ls2 NL); assumption).
  destruct (held_order c slots k ls1 s1 C B RE1 NL1 TO1) as (ST1 & HP1 & HI1 & _).
  destruct (run_started c ls2 s1 s R2 TO2) as (_ & h & HE).
  rewrite HE in F'. apply Forall2_app_inv_r in F'. destruct F' as (early & late & FE & FL & ->).
  rewrite logs_app in F. apply Forall2_app_inv_r in F. destruct F as (c1 & c2 & F1 & F2 & ->).
  assert (MD : made = c1).
  { unfold made. rewrite <- (Forall2_len _ _ _ F1). rewrite firstn_app, Nat.sub_diag, firstn_O, firstn_all, app_nil_r. reflexivity. }
  rewrite MD. exists early, late. split; [reflexivity|].
  assert (PA : forall tid, (length (sel tid early) <= length (sel tid c1))%nat -> is_prefix (sel tid early) (sel tid c1)).
  { intros tid L. specialize (SC tid). rewrite !sel_app in SC. apply (sel_prefix_eq _ _ (sel tid c1 ++ sel tid c2)); [|eexists; reflexivity|exact L].
    exists (sel tid late). etransitivity; [symmetry; exact (sel_app tid c1 c2)|exact SC]. }
  assert (LE : forall tid, length (sel tid early) = length (sel tid (g_held (gh s1))) /\ length (sel tid c1) = length (sel tid (logs_of ls1))).
  { intros tid. split; eapply sel_rel; eassumption. }
  split.
  - intros tid. change (calls_of tid early) with (sel tid early). change (calls_of tid c1) with (sel tid c1). apply PA. destruct (LE tid) as (-> & ->). destruct (HP1 tid) as (r & ->). rewrite app_length. lia.
  - intros tid t T P. change (calls_of tid early) with (sel tid early). change (calls_of tid c1) with (sel tid c1).
    destruct (LE tid) as (L1 & L2). rewrite (HI1 tid t T P) in L1. destruct (PA tid ltac:(lia)) as (r & E).
    assert (r = []) as ->. { destruct r as [|x r]; [reflexivity|]. rewrite E, app_length in L2. cbn in L2. lia. }
    rewrite app_nil_r in E. symmetry. exact E.
Qed.

(* ---- one after the other ---- *)
Lemma one_roomy : forall W w kc i l n, 1 < W_ring W -> n kc <= 0 -> Forall (fun a => t_chan (fst (snd a)) = kc) l -> roomy W w n (one_by_one kc i l).
Proof.
  intros W w kc i l. induction l as [|a l IH]; intros n WR N F; [exact I|]. inversion F as [|? ? E F']; subst.
  cbn [one_by_one flat_map app roomy]. split; [right; lia|]. apply IH; [assumption|rewrite Z.eqb_refl; lia|assumption].
Qed.
Lemma said_one : forall kc i l, said (one_by_one kc i l) = map (fun a => snd a) l.
Proof. intros kc i l. induction l as [|[t [s x]] l IH]; [reflexivity|]. cbn [one_by_one flat_map app said map fst snd]. f_equal. exact IH. Qed.
Lemma drained_one : forall kc i l, l <> [] -> drained kc (one_by_one kc i l).
Proof.
  intros kc i l N. destruct (exists_last N) as (l' & a & ->). exists (one_by_one kc i l' ++ [ALog (fst (snd a)) (snd (snd a))]), [], i.
  split; [|intros s x []]. unfold one_by_one. rewrite flat_map_app. cbn [flat_map]. rewrite app_nil_r, <- app_assoc. reflexivity.
Qed.
Lemma picked_all : forall {A} (P : A -> Prop) l ts us, picked P l ts us -> Forall P l -> us = ts.
Proof. intros A P l ts us H. induction H as [|a l t ts us PA H IH|a l t ts us NA H IH]; intros F; inversion F; subst; [reflexivity|f_equal; auto|contradiction]. Qed.

Lemma one_filed : forall W o w kc j i0 calls texts, shape W w -> relaxed W w (fun _ => []) ->
  Forall (fun a => fine W o w (ALog (fst (snd a)) (snd (snd a))) /\ goes_to w kc j (fst (snd a))) calls -> fine W o w (AProc kc i0) ->
  Forall2 (is_call W o) calls texts ->
  exists w', acts W w (one_by_one kc i0 calls) = Ret w' /\
    filed kc j (w_ev w') = filed kc j (w_ev w) ++ concat (map (fun e => WorldSpec.line W (snd e)) texts).
Proof.
  intros W o w kc j i0 calls texts SH RX F FP F2. destruct calls as [|a0 rest].
  { inversion F2; subst. exists w. split; [reflexivity|]. cbn. rewrite app_nil_r. reflexivity. }
  set (calls := a0 :: rest) in *.
  assert (WR : 1 < W_ring W) by (destruct SH as (_ & X & _); lia).
  assert (FI : Forall (fine W o w) (one_by_one kc i0 calls)).
  { clearbody calls. clear F2 RX SH. induction F as [|a l (FA & _) F IH]; [constructor|]. cbn [one_by_one flat_map app]. constructor; [exact FA|]. constructor; [exact FP|exact IH]. }
  assert (CH : Forall (fun a : call => t_chan (fst (snd a)) = kc) calls).
  { eapply Forall_impl; [|exact F]. intros a (_ & (E & _)). exact E. }
  destruct (mix_returns W o (one_by_one kc i0 calls) w (fun _ => []) SH RX FI) as (w' & R).
  { apply one_roomy; [exact WR|apply Z.le_refl|exact CH]. }
  exists w'. split; [exact R|].
  destruct (PropsMix.C106_written W o _ w (fun _ => []) w' kc SH RX FI R) as (Ts & FT & FJ).
  { left. apply drained_one. discriminate. }
  destruct (FJ j []) as (ns & PK & E); [constructor|]. rewrite E. cbn [concat app]. f_equal. rewrite said_one in *.
  rewrite (picked_all _ _ _ _ PK).
  2:{ apply Forall_map. eapply Forall_impl; [|exact F]. intros a (_ & G). exact G. }
  f_equal. clear - FT F2. revert Ts FT. induction F2 as [|a e l es (_ & TA) F2 IH]; intros Ts FT; inversion FT as [|? T ? Ts' T1 FT']; subst; [reflexivity|].
  cbn [map]. f_equal; [|apply IH; assumption]. f_equal. eapply PropsWorld.C81_determined; eassumption.
Qed.

(* ---- synchronous channels ---- *)
Lemma sync_roomy : forall W w kc ch (l : list call) n, chan_at w kc ch -> c_type ch = 1 -> Forall (fun a => t_chan (fst (snd a)) = kc) l ->
  roomy W w n (map (fun a => ALog (fst (snd a)) (snd (snd a))) l).
Proof.
  intros W w kc ch l n CA TY F. revert n. induction F as [|a l E F IH]; intros n; [exact I|]. cbn [map roomy]. rewrite E. split; [left; exists ch; split; assumption|apply IH].
Qed.
Lemma sync_order : forall W o w kc j calls c slots k ls s ch, cfg_ok c -> blank c slots -> is_sync c = true -> log_size c = e_cap (W_env W) ->
  reaches c slots k ls s -> no_lap c (start c slots k) ls -> threads_only ls -> quiet c s ->
  Forall2 (is_call W o) calls (logs_of ls) -> shape W w -> relaxed W w (fun _ => []) -> chan_at w kc ch -> c_type ch = 1 ->
  Forall (fun a => fine W o w (ALog (fst (snd a)) (snd (snd a))) /\ goes_to w kc j (fst (snd a))) calls ->
  exists order w', Permutation calls order /\ acts W w (map (fun a => ALog (fst (snd a)) (snd (snd a))) order) = Ret w' /\
    filed kc j (w_ev w') = filed kc j (w_ev w) ++ concat (map snd (g_out (gh s))).
Proof.
  intros W o w kc j calls c slots k ls s ch C B SY LS RE NL TO QU F SH RX CA TY FI.
  destruct (order_exists W o c slots k ls s calls C B RE NL TO QU F) as (o1 & (P1 & _) & FO).
  destruct (PropsRing.C23_sync_partial c slots k ls s C B SY RE NL TO QU) as (PO & _).
  apply Permutation_map_inv in PO. destruct PO as (held & OUT & PH).
  assert (FO' : Forall2 (fun e a => is_call W o a e) (g_held (gh s)) o1) by (clear - FO; induction FO; constructor; assumption).
  destruct (Permutation_Forall2 PH FO') as (order & P2 & F2). exists order.
  assert (PO : Permutation calls order) by (eapply Permutation_trans; eassumption).
  assert (FC : Forall (fun a : call => fine W o w (ALog (fst (snd a)) (snd (snd a))) /\ goes_to w kc j (fst (snd a))) order) by (eapply Permutation_Forall; eassumption).
  set (acs := map (fun a : call => ALog (fst (snd a)) (snd (snd a))) order).
  assert (FA : Forall (fine W o w) acs) by (apply Forall_map; eapply Forall_impl; [|exact FC]; intros a (X & _); exact X).
  assert (SA : said acs = map (fun a => snd a) order).
  { unfold acs. clear. induction order as [|[t [st x]] l IH]; [reflexivity|]. cbn [map said fst snd]. f_equal. exact IH. }
  destruct (mix_returns W o acs w (fun _ => []) SH RX FA) as (w' & R).
  { unfold acs. apply (sync_roomy W w kc ch); [exact CA|exact TY|]. eapply Forall_impl; [|exact FC]. intros a (_ & (E & _)). exact E. }
  exists w'. split; [exact PO|]. split; [exact R|].
  destruct (PropsMix.C106_written W o acs w (fun _ => []) w' kc SH RX FA R) as (Ts & FT & FJ); [right; exists ch; split; assumption|].
  destruct (FJ j []) as (ns & PK & E); [constructor|]. rewrite E. cbn [concat app]. f_equal. rewrite SA in *.
  rewrite (picked_all _ _ _ _ PK).
  2:{ apply Forall_map. eapply Forall_impl; [|exact FC]. intros a (_ & G). exact G. }
  rewrite OUT. f_equal. clear - FT F2 LS. revert Ts FT. induction F2 as [|e a es l (_ & TA) F2 IH]; intros Ts FT; inversion FT as [|? T ? Ts' T1 FT']; subst; [reflexivity|].
  cbn [map]. f_equal; [|apply IH; assumption]. unfold RingSpec.line, WorldSpec.line. rewrite LS. do 2 f_equal. eapply PropsWorld.C81_determined; eassumption.
Qed.
