(* Proofs about flushing (C124, C125). *)
From Coq Require Import ZArith List Bool Arith Lia ZifyBool ZifyNat ZifyN.
From Verif Require Import Base BaseFacts Flush.
Import ListNotations.
Open Scope Z_scope.

Definition txt (l : list entry) : list Z := concat (map e_txt l).
Fixpoint by_of (i : nat) (l : list entry) : Z :=
  match l with [] => 0 | e :: l' => (if Nat.eqb (e_by e) i then 1 else 0) + by_of i l' end.
Lemma by_app : forall i a b, by_of i (a ++ b) = by_of i a + by_of i b.
Proof. intros i a b. induction a as [|e a IH]; [reflexivity|]. cbn [app by_of]. rewrite IH. lia. Qed.
Lemma by_nonneg : forall i a, 0 <= by_of i a.
Proof. intros i a. induction a as [|e a IH]; cbn [by_of]; [lia|]. destruct (Nat.eqb _ _); lia. Qed.
Lemma txt_app : forall a b, txt (a ++ b) = txt a ++ txt b.
Proof. intros. unfold txt. rewrite map_app, concat_app. reflexivity. Qed.
Lemma by_zero : forall i a, by_of i a <= 0 -> forall e, In e a -> e_by e <> i.
Proof.
  intros i a H e IN E. induction a as [|x a IH]; [contradiction|]. cbn [by_of] in H. pose proof (by_nonneg i a).
  destruct IN as [->|IN]; [rewrite E, Nat.eqb_refl in H; lia|]. apply IH; [destruct (Nat.eqb _ _); lia|assumption].
Qed.

(* the writes since the last flush, counted by thread *)
Definition pend_ok (al : nat -> Z) (v : fdev) : Prop :=
  exists g1 g2 x, d_log v = g1 ++ g2 /\ d_os v = txt g1 ++ x /\ x ++ d_buf v = txt g2 /\ forall i, by_of i g2 <= al i.
Lemma pend_weaken : forall al al' v, (forall i, al i <= al' i) -> pend_ok al v -> pend_ok al' v.
Proof.
  intros al al' v H (g1 & g2 & x & A & B & C & D). exists g1, g2, x. repeat split; try assumption.
  intros i. specialize (D i). specialize (H i). lia.
Qed.
Lemma pend_total : forall al v, pend_ok al v -> d_os v ++ d_buf v = txt (d_log v).
Proof. intros al v (g1 & g2 & x & A & B & C & _). rewrite A, B, txt_app, <- app_assoc, C. reflexivity. Qed.
Lemma pend_write : forall al v i m, pend_ok al v -> pend_ok (fun k => al k + if Nat.eqb i k then 1 else 0) (fwrite_to v i m).
Proof.
  intros al v i m (g1 & g2 & x & A & B & C & D). exists g1, (g2 ++ [mkEntry i m]), x. cbn [fwrite_to d_log d_os d_buf].
  split; [rewrite A, app_assoc; reflexivity|]. split; [exact B|]. split.
  - rewrite txt_app, app_assoc, C. cbn. rewrite app_nil_r. reflexivity.
  - intros k. rewrite by_app. cbn [by_of e_by]. specialize (D k). lia.
Qed.
Lemma pend_empty : forall al v, (forall i, 0 <= al i) -> d_os v = txt (d_log v) -> d_buf v = [] -> pend_ok al v.
Proof.
  intros al v H A B. exists (d_log v), [], []. rewrite !app_nil_r. rewrite B. repeat split; assumption.
Qed.
Lemma pend_flush : forall al al' v, (forall i, 0 <= al' i) -> pend_ok al v -> pend_ok al' (fflush_it v).
Proof.
  intros al al' v H P. apply pend_empty; [exact H| |reflexivity]. cbn [fflush_it d_os d_log]. apply (pend_total al). exact P.
Qed.
Lemma pend_roll : forall al v, (forall i, 0 <= al i) -> pend_ok al v -> pend_ok al (froll_it v).
Proof.
  intros al v H P. unfold froll_it. destruct (Nat.eqb _ _); [exact P|]. apply pend_empty; [exact H| |reflexivity].
  cbn [d_os d_log]. apply (pend_total al). exact P.
Qed.
Lemma pend_spill : forall al v n, pend_ok al v -> pend_ok al (fspill_it v n).
Proof.
  intros al v n (g1 & g2 & x & A & B & C & D). exists g1, g2, (x ++ firstn n (d_buf v)). cbn [fspill_it d_log d_os d_buf].
  split; [exact A|]. split; [rewrite B, app_assoc; reflexivity|]. split; [|exact D].
  rewrite <- app_assoc, firstn_skipn. exact C.
Qed.

(* how many of its writes to device [d] a thread may have left in the buffer *)
Definition allow (c : fcfg) (d : nat) (t : fthr) : Z :=
  match f_pc t with
  | FIdle | FUdp => 0
  | FTake | FTail | FRel => f_cnt t
  | FDisp _ j => f_cnt t + if Nat.ltb d j then 1 else 0
  | FMark _ => f_cnt t + 1
  | FFlush b j _ => if Nat.ltb d j then 0 else if b then f_force c + 1 else f_cnt t
  end.
Definition cnt_ok (c : fcfg) (t : fthr) : Prop :=
  match f_pc t with
  | FIdle | FUdp => True
  | FRel => 0 <= f_cnt t <= f_force c + 1
  | FFlush true _ _ => f_cnt t = 0
  | _ => 0 <= f_cnt t <= f_force c
  end.
Record finv (c : fcfg) (s : fst_) : Prop := {
  iv_cnt : forall i, cnt_ok c (s_thr s i);
  iv_gen : forall d, f_udp c d = false -> d_gen (s_dev s d) = 0%nat -> d_log (s_dev s d) = [];
  iv_dev : forall d, (d < f_ndev c)%nat -> f_udp c d = false -> pend_ok (fun i => allow c d (s_thr s i)) (s_dev s d)
}.

Lemma allow_nonneg : forall c d t, 0 <= f_force c -> cnt_ok c t -> 0 <= allow c d t.
Proof.
  intros c d t F H. unfold cnt_ok, allow in *. destruct (f_pc t); try lia; try (destruct (Nat.ltb _ _); lia).
  destruct (Nat.ltb _ _); [lia|]. destruct force; lia.
Qed.
Lemma allow_max : forall c d t, 0 <= f_force c -> cnt_ok c t -> allow c d t <= f_force c + 1.
Proof.
  intros c d t F H. unfold cnt_ok, allow in *. destruct (f_pc t); try lia; try (destruct (Nat.ltb _ _); lia).
  destruct (Nat.ltb _ _); [lia|]. destruct force; lia.
Qed.
Lemma upd_same : forall A (f : nat -> A) i a, upd f i a i = a.
Proof. intros. unfold upd. rewrite Nat.eqb_refl. reflexivity. Qed.
Lemma upd_other : forall A (f : nat -> A) i k a, k <> i -> upd f i a k = f k.
Proof. intros A f i k a H. unfold upd. apply Nat.eqb_neq in H. rewrite H. reflexivity. Qed.

Lemma finv_start : forall c, finv c fstart.
Proof.
  intros c. constructor.
  - intros i. exact I.
  - reflexivity.
  - intros d _ _. exists [], [], []. repeat split. intros i. cbn. lia.
Qed.
Lemma bad_mono : forall c s l s', fstep c s l = Some s' -> s_bad s' = false -> s_bad s = false.
Proof.
  intros c s l s' E B. unfold fstep in E.
  destruct l as [m|i|i|i|i|i d m|i|i|d n]; try (destruct (f_pc (s_thr s i)) eqn:P; try discriminate).
  all: repeat match goal with
       | H : (if ?b then _ else _) = Some _ |- _ => destruct b
       | H : match ?h with Some _ => _ | None => _ end = Some _ |- _ => destruct h
       | H : Some (if ?b then _ else _) = Some _ |- _ => destruct b
       end; try discriminate; injection E as <-; cbn [s_bad set_thr set_dev] in *; try assumption.
  all: try (destruct (f_acc _ _ _); assumption). all: try discriminate.
Qed.

(* one thread moves, the devices stay: what is allowed must not shrink below what is there *)
Lemma finv_thr : forall c s s' i p n, finv c s -> s_thr s' = upd (s_thr s) i (mkFthr p n) -> s_dev s' = s_dev s ->
  cnt_ok c (mkFthr p n) ->
  (forall d, (d < f_ndev c)%nat -> f_udp c d = false ->
     allow c d (s_thr s i) <= allow c d (mkFthr p n) \/ (d_log (s_dev s d) = [] /\ 0 <= allow c d (mkFthr p n))) ->
  finv c s'.
Proof.
  intros c s s' i p n [IC IG ID] T D CO AL. constructor.
  - intros k. rewrite T. unfold upd. destruct (Nat.eqb k i); [exact CO|apply IC].
  - rewrite D. exact IG.
  - intros d DN DU. rewrite D, T. destruct (AL d DN DU) as [H|[H H0]].
    + apply (pend_weaken (fun k => allow c d (s_thr s k))); [|apply ID; assumption].
      intros k. unfold upd. destruct (Nat.eqb k i) eqn:K; [|lia]. apply Nat.eqb_eq in K. subst k. exact H.
    + destruct (ID d DN DU) as (g1 & g2 & x & A & B & C & E). rewrite H in A. symmetry in A. apply app_eq_nil in A.
      destruct A as [-> ->]. exists [], [], x. repeat split; try assumption.
      intros k. specialize (E k). cbn [by_of] in *. unfold upd. destruct (Nat.eqb k i); lia.
Qed.

Lemma finv_step : forall c s l s', 0 <= f_force c -> finv c s -> fstep c s l = Some s' -> s_bad s' = false -> finv c s'.
Proof.
  intros c s l s' F IV E BAD. pose proof IV as [IC IG ID]. unfold fstep in E.
  destruct l as [m|i|i|i|i|i d m|i|i|d n].
  - injection E as <-. constructor; assumption.
  - destruct (f_pc (s_thr s i)) eqn:P; try discriminate. injection E as <-.
    apply (finv_thr c s _ i FTake 0); auto; [cbn; lia|]. intros d _ _. left. unfold allow. rewrite P. cbn. lia.
  - pose proof (IC i) as CI. unfold cnt_ok in CI. destruct (f_pc (s_thr s i)) eqn:P; try discriminate.
    + (* take *) destruct (Nat.ltb _ _); [|discriminate]. injection E as <-.
      eapply (finv_thr c s _ i); [exact IV|reflexivity|reflexivity|cbn; lia|].
      intros d _ _. left. unfold allow. rewrite P. cbn. lia.
    + (* dispatch *) destruct (Nat.ltb j (f_ndev c)) eqn:J.
      * injection E as <-. set (m := nth r (q_w s) []). constructor.
        -- intros k. replace (s_thr _ k) with (upd (s_thr s) i (mkFthr (FDisp r (S j)) (f_cnt (s_thr s i))) k)
             by (destruct (f_acc c j m); reflexivity).
           unfold upd. destruct (Nat.eqb k i); [cbn; lia|apply IC].
        -- intros d DU. destruct (f_acc c j m); [|apply IG; exact DU]. cbn [set_thr set_dev s_dev]. unfold upd.
           destruct (Nat.eqb d j); [|apply IG; exact DU]. cbn [fwrite_to d_gen]. destruct (Nat.eqb (d_gen (s_dev s j)) 0) eqn:G; [discriminate|].
           intros Z0. rewrite Z0 in G. discriminate.
        -- intros d DN DU.
           assert (TH : forall k, s_thr (set_thr (if f_acc c j m then set_dev s j (fwrite_to (s_dev s j) i m) else s) i (FDisp r (S j)) (f_cnt (s_thr s i))) k
             = upd (s_thr s) i (mkFthr (FDisp r (S j)) (f_cnt (s_thr s i))) k) by (intros k; destruct (f_acc c j m); reflexivity).
           assert (AL : forall k, allow c d (s_thr s k) + (if Nat.eqb i k then if Nat.eqb d j then 1 else 0 else 0) <=
             allow c d (s_thr (set_thr (if f_acc c j m then set_dev s j (fwrite_to (s_dev s j) i m) else s) i (FDisp r (S j)) (f_cnt (s_thr s i))) k)).
           { intros k. rewrite TH. unfold upd. destruct (Nat.eqb k i) eqn:K.
             - apply Nat.eqb_eq in K. subst k. rewrite Nat.eqb_refl. unfold allow. rewrite P. cbn [f_pc f_cnt].
               destruct (Nat.eqb d j) eqn:X; destruct (Nat.ltb d j) eqn:Y; destruct (Nat.ltb d (S j)) eqn:W; lia.
             - replace (Nat.eqb i k) with false by lia. lia. }
           destruct (Nat.eqb d j) eqn:DJ.
           ++ apply Nat.eqb_eq in DJ. subst d. destruct (f_acc c j m) eqn:AC.
              ** match goal with |- pend_ok _ ?v => change v with (upd (s_dev s) j (fwrite_to (s_dev s j) i m) j) end. rewrite upd_same.
                 eapply pend_weaken; [|apply pend_write; apply ID; assumption]. intros k. cbn beta. apply AL.
              ** eapply pend_weaken; [|apply ID; assumption]. intros k. specialize (AL k). cbn beta. destruct (Nat.eqb i k); lia.
           ++ match goal with |- pend_ok _ ?v => replace v with (s_dev s d) end.
              2:{ destruct (f_acc c j m); [|reflexivity]. cbn [set_thr set_dev s_dev]. rewrite upd_other by lia. reflexivity. }
              eapply pend_weaken; [|apply ID; assumption]. intros k. specialize (AL k). cbn beta. destruct (Nat.eqb i k); lia.
      * injection E as <-. eapply (finv_thr c s _ i); [exact IV|reflexivity|reflexivity|cbn; lia|].
        intros d DN _. left. unfold allow. rewrite P. cbn [f_pc f_cnt]. destruct (Nat.ltb d j); lia.
    + (* mark *) injection E as <-. eapply (finv_thr c s _ i); [exact IV|reflexivity|reflexivity|cbn; lia|].
      intros d _ _. left. unfold allow. rewrite P. cbn [f_pc f_cnt]. lia.
    + (* release *) destruct (_ && _). { injection E as <-. constructor; assumption. }
      destruct (f_force c <? f_cnt (s_thr s i)) eqn:FC; injection E as <-.
      * eapply (finv_thr c s _ i); [exact IV|reflexivity|reflexivity|cbn; lia|].
        intros d _ _. left. unfold allow. rewrite P. cbn. lia.
      * eapply (finv_thr c s _ i); [exact IV|reflexivity|reflexivity|cbn; lia|].
        intros d _ _. left. unfold allow. rewrite P. cbn. lia.
    + (* flush *) destruct h as [g|].
      * destruct (Nat.eqb g (d_gen (s_dev s j))) eqn:G; injection E as <-; [|discriminate].
        constructor.
        -- intros k. cbn [set_thr set_dev s_thr]. unfold upd. destruct (Nat.eqb k i); [destruct force; cbn; lia|apply IC].
        -- intros d DU. cbn [set_thr set_dev s_dev]. unfold upd. destruct (Nat.eqb d j) eqn:DJ; [|apply IG; exact DU].
           apply Nat.eqb_eq in DJ. subst d. cbn [fflush_it d_gen d_log]. apply IG. exact DU.
        -- intros d DN DU. cbn [set_thr set_dev s_dev s_thr]. unfold upd at 2. destruct (Nat.eqb d j) eqn:DJ.
           ++ apply Nat.eqb_eq in DJ. subst d. eapply pend_flush; [|apply ID; assumption]. intros k.
              unfold upd. destruct (Nat.eqb k i); [|apply allow_nonneg; [exact F|apply IC]]. unfold allow. cbn [f_pc].
              replace (Nat.ltb j (S j)) with true by lia. lia.
           ++ eapply pend_weaken; [|apply ID; assumption]. intros k. cbn beta. unfold upd. destruct (Nat.eqb k i) eqn:K; [|lia].
              apply Nat.eqb_eq in K. subst k. unfold allow. rewrite P. cbn [f_pc f_cnt].
              destruct (Nat.ltb d j) eqn:X; destruct (Nat.ltb d (S j)) eqn:Y; try lia.
      * destruct (Nat.ltb j (f_ndev c)) eqn:J.
        -- destruct (Nat.eqb (d_gen (s_dev s j)) 0) eqn:G; injection E as <-.
           ++ eapply (finv_thr c s _ i); [exact IV|reflexivity|reflexivity|destruct force; cbn; lia|].
              intros d DN DU. destruct (Nat.eqb d j) eqn:DJ.
              ** right. split; [apply Nat.eqb_eq in DJ; subst d; apply IG; [exact DU|lia]|].
                 unfold allow. cbn [f_pc]. destruct (Nat.ltb d (S j)) eqn:Y; lia.
              ** left. unfold allow. rewrite P. cbn [f_pc f_cnt]. destruct (Nat.ltb d j) eqn:X; destruct (Nat.ltb d (S j)) eqn:Y; lia.
           ++ eapply (finv_thr c s _ i); [exact IV|reflexivity|reflexivity|destruct force; cbn; lia|].
              intros d DN DU. left. unfold allow. rewrite P. cbn [f_pc f_cnt]. lia.
        -- injection E as <-. eapply (finv_thr c s _ i); [exact IV|reflexivity|reflexivity|destruct force; cbn; lia|].
           intros d DN DU. left. unfold allow. rewrite P. replace (Nat.ltb d j) with true by lia. destruct force; cbn; lia.
    + (* tail *) injection E as <-. destruct (f_cnt (s_thr s i) =? 0) eqn:Z0.
      * eapply (finv_thr c s _ i); [exact IV|reflexivity|reflexivity|cbn; lia|].
        intros d _ _. left. unfold allow. rewrite P. cbn. lia.
      * eapply (finv_thr c s _ i); [exact IV|reflexivity|reflexivity|cbn; lia|].
        intros d _ _. left. unfold allow. rewrite P. cbn. lia.
  - pose proof (IC i) as CI. unfold cnt_ok in CI. destruct (f_pc (s_thr s i)) eqn:P; try discriminate. injection E as <-.
    eapply (finv_thr c s _ i); [exact IV|reflexivity|reflexivity|cbn; lia|]. intros d _ _. left. unfold allow. rewrite P. cbn. lia.
  - destruct (f_pc (s_thr s i)) eqn:P; try discriminate. destruct (_ && _); [|discriminate]. injection E as <-. constructor.
    + exact IC.
    + intros d DU. cbn [set_dev s_dev]. unfold upd. destruct (Nat.eqb d j) eqn:DJ; [|apply IG; exact DU].
      apply Nat.eqb_eq in DJ. subst d. unfold froll_it. destruct (Nat.eqb _ _); [apply IG; exact DU|]. discriminate.
    + intros d DN DU. cbn [set_dev s_dev s_thr]. unfold upd. destruct (Nat.eqb d j) eqn:DJ; [|apply ID; assumption].
      apply Nat.eqb_eq in DJ. subst d. apply pend_roll; [|apply ID; assumption]. intros k. apply allow_nonneg; [exact F|apply IC].
  - destruct (f_pc (s_thr s i)) eqn:P; try discriminate. destruct (f_udp c d) eqn:U; [|discriminate].
    destruct (Nat.ltb d (f_ndev c)); [|discriminate]. injection E as <-. constructor.
    + exact IC.
    + intros k KU. cbn [set_dev s_dev]. rewrite upd_other by congruence. apply IG. exact KU.
    + intros k KN KU. cbn [set_dev s_dev s_thr]. rewrite upd_other by congruence. apply ID; assumption.
  - destruct (f_pc (s_thr s i)) eqn:P; try discriminate. injection E as <-.
    eapply (finv_thr c s _ i); [exact IV|reflexivity|reflexivity|cbn; lia|]. intros d _ _. left. unfold allow. rewrite P. cbn. lia.
  - destruct (f_pc (s_thr s i)) eqn:P; try discriminate. injection E as <-.
    eapply (finv_thr c s _ i); [exact IV|reflexivity|reflexivity|exact I|]. intros d _ _. left. unfold allow. rewrite P. cbn. lia.
  - injection E as <-. constructor.
    + exact IC.
    + intros k KU. cbn [set_dev s_dev]. unfold upd. destruct (Nat.eqb k d) eqn:K; [|apply IG; exact KU].
      apply Nat.eqb_eq in K. subst k. cbn [fspill_it d_gen d_log]. apply IG. exact KU.
    + intros k KN KU. cbn [set_dev s_dev s_thr]. unfold upd. destruct (Nat.eqb k d) eqn:K; [|apply ID; assumption].
      apply Nat.eqb_eq in K. subst k. apply pend_spill. apply ID; assumption.
Qed.
Lemma finv_run : forall c ls s s', 0 <= f_force c -> finv c s -> frun c s ls = Some s' -> s_bad s' = false -> finv c s' /\ s_bad s = false.
Proof.
  intros c ls. induction ls as [|l ls IH]; intros s s' F IV R B; cbn [frun] in R; [injection R as <-; auto|].
  destruct (fstep c s l) as [s1|] eqn:E; [|discriminate].
  assert (B1 : s_bad s1 = false).
  { clear IV IH E. revert s1 R. induction ls as [|l2 ls IH]; intros s1 R; cbn [frun] in R; [injection R as <-; assumption|].
    destruct (fstep c s1 l2) as [s2|] eqn:E2; [|discriminate]. apply (bad_mono _ _ _ _ E2). apply IH. assumption. }
  split; [|exact (bad_mono _ _ _ _ E B1)]. apply (IH s1 s' F (finv_step _ _ _ _ F IV E B1) R B).
Qed.

(* what is in the files, by thread *)
Lemma pending_bound : forall c ls s d, 0 <= f_force c -> frun c fstart ls = Some s -> s_bad s = false ->
  (d < f_ndev c)%nat -> f_udp c d = false ->
  exists g1 g2 x, d_log (s_dev s d) = g1 ++ g2 /\ d_os (s_dev s d) = txt g1 ++ x /\ x ++ d_buf (s_dev s d) = txt g2 /\
    forall i, by_of i g2 <= f_force c + 1 /\ (f_pc (s_thr s i) = FIdle \/ f_pc (s_thr s i) = FUdp -> by_of i g2 = 0).
Proof.
  intros c ls s d F R B DN DU. destruct (finv_run c ls fstart s F (finv_start c) R B) as [[IC _ ID] _].
  destruct (ID d DN DU) as (g1 & g2 & x & A & O & P & AL). exists g1, g2, x. repeat split; try assumption.
  - pose proof (allow_max c d _ F (IC i)). specialize (AL i). cbn beta in AL. lia.
  - intros PC. specialize (AL i). cbn beta in AL. pose proof (by_nonneg i g2). unfold allow in AL.
    destruct PC as [PC|PC]; rewrite PC in AL; lia.
Qed.

(* ---- one thread ---- *)
Lemma firstn_next : forall (w : list (list Z)) r, (r < length w)%nat -> firstn (S r) w = firstn r w ++ [nth r w []].
Proof.
  induction w as [|x w IH]; intros r H; cbn [length] in H; [lia|]. destruct r as [|r]; [reflexivity|].
  cbn [firstn nth app]. f_equal. apply (IH r). lia.
Qed.
(* how many records device [d] has been offered, and how many slots can have been released *)
Definition offered (s : fst_) (d : nat) (p : fpc) : nat :=
  match p with FDisp r j => if Nat.ltb d j then S r else r | _ => q_proc s end.
Definition marked (s : fst_) (p : fpc) : nat := match p with FDisp r _ | FMark r => r | _ => q_proc s end.
Record sinv (c : fcfg) (i : nat) (s : fst_) : Prop := {
  sv_alone : forall k, k <> i -> f_pc (s_thr s k) = FIdle;
  sv_proc : (q_proc s <= length (q_w s))%nat;
  sv_cur : match f_pc (s_thr s i) with FDisp r _ | FMark r => S r = q_proc s | _ => True end;
  sv_log : forall d, (d < f_ndev c)%nat -> f_udp c d = false ->
    map e_txt (d_log (s_dev s d)) = filter (f_acc c d) (firstn (offered s d (f_pc (s_thr s i))) (q_w s));
  sv_done : forall r, q_done s r = true <-> (r < marked s (f_pc (s_thr s i)))%nat;
  sv_read : (q_read s <= marked s (f_pc (s_thr s i)))%nat;
  sv_file : match f_pc (s_thr s i) with FFlush _ j (Some g) => g = d_gen (s_dev s j) | _ => True end;
  sv_good : s_bad s = false
}.
Lemma sinv_start : forall c i, sinv c i fstart.
Proof. intros c i. constructor; cbn; try reflexivity; try exact I; try lia. Qed.

Ltac mv := cbn [set_thr set_dev s_thr s_dev q_w q_proc q_read q_done s_bad f_pc f_cnt marked offered] in *; rewrite ?upd_same in *;
           cbn [set_thr set_dev s_thr s_dev q_w q_proc q_read q_done s_bad f_pc f_cnt marked offered] in *.
Lemma sinv_step : forall c i s l s', sinv c i s -> fstep c s l = Some s' ->
  match l with FEnter k | FStep k | FMiss k | FRoll k | FGram k _ _ | FRound k | FLeave k => k = i | _ => True end ->
  sinv c i s'.
Proof.
  intros c i s l s' [SA SP SC SL SD SR SF SG] E ON. unfold fstep in E.
  assert (AL : forall p n k, k <> i -> f_pc (upd (s_thr s) i (mkFthr p n) k) = FIdle)
    by (intros p n k K; rewrite upd_other by exact K; apply SA; exact K).
  destruct l as [m|k|k|k|k|k d m|k|k|d n]; try subst k.
  - injection E as <-. constructor; cbn [s_thr s_dev q_w q_proc q_read q_done s_bad]; try assumption.
    + rewrite app_length. lia.
    + intros d DN DU. rewrite SL by assumption. f_equal. unfold offered in *. cbn [q_proc] in *.
      rewrite firstn_app. replace (_ - length (q_w s))%nat with 0%nat; [rewrite firstn_O, app_nil_r; reflexivity|].
      destruct (f_pc (s_thr s i)); try lia. destruct (Nat.ltb _ _); lia.
  - destruct (f_pc (s_thr s i)) eqn:P; try discriminate. injection E as <-. constructor; mv; auto.
  - destruct (f_pc (s_thr s i)) eqn:P; try discriminate.
    + destruct (Nat.ltb _ _) eqn:L; [|discriminate]. injection E as <-. constructor; mv; auto; try lia.
    + destruct (Nat.ltb j (f_ndev c)) eqn:J; injection E as <-.
      * set (m := nth r (q_w s) []). assert (RW : (r < length (q_w s))%nat) by lia.
        destruct (f_acc c j m) eqn:AC; constructor; mv; auto; try lia; intros d DN DU.
        -- unfold upd. destruct (Nat.eqb d j) eqn:DJ.
           ++ apply Nat.eqb_eq in DJ. subst d. replace (Nat.ltb j (S j)) with true by lia. cbn [fwrite_to d_log].
              rewrite map_app, SL by assumption. replace (Nat.ltb j j) with false by lia.
              rewrite firstn_next, filter_app by exact RW. fold m. cbn [filter map e_txt]. rewrite AC. reflexivity.
           ++ rewrite SL by assumption. replace (Nat.ltb d (S j)) with (Nat.ltb d j) by lia. reflexivity.
        -- rewrite SL by assumption. destruct (Nat.eqb d j) eqn:DJ.
           ++ apply Nat.eqb_eq in DJ. subst d. replace (Nat.ltb j (S j)) with true by lia. replace (Nat.ltb j j) with false by lia.
              rewrite firstn_next, filter_app by exact RW. fold m. cbn [filter]. rewrite AC, app_nil_r. reflexivity.
           ++ replace (Nat.ltb d (S j)) with (Nat.ltb d j) by lia. reflexivity.
      * constructor; mv; auto. intros d DN DU. rewrite SL by assumption. replace (Nat.ltb d j) with true by lia. rewrite SC. reflexivity.
    + injection E as <-. constructor; mv; auto; try lia. intros q. unfold upd. specialize (SD q). destruct (Nat.eqb q r) eqn:Q.
      * split; intros _; [lia|reflexivity].
      * rewrite SD. lia.
    + destruct (_ && _) eqn:L.
      { injection E as <-. apply andb_prop in L. destruct L as [L1 L2]. constructor; mv; auto; rewrite ?P; mv; auto; try lia. }
      destruct (f_force c <? _); injection E as <-; constructor; mv; auto.
    + destruct h as [g|].
      * rewrite SF, Nat.eqb_refl in E. injection E as <-. constructor; mv; auto.
        intros d DN DU. unfold upd. destruct (Nat.eqb d j) eqn:DJ; [|apply SL; assumption].
        apply Nat.eqb_eq in DJ. subst d. cbn [fflush_it d_log]. apply SL; assumption.
      * destruct (Nat.ltb j (f_ndev c)); [destruct (Nat.eqb (d_gen (s_dev s j)) 0)|]; injection E as <-;
          try destruct force; constructor; mv; auto.
    + injection E as <-. destruct (_ =? 0); constructor; mv; auto.
  - destruct (f_pc (s_thr s i)) eqn:P; try discriminate. injection E as <-. constructor; mv; auto.
  - destruct (f_pc (s_thr s i)) eqn:P; try discriminate. destruct (_ && _); [|discriminate]. injection E as <-.
    constructor; mv; rewrite ?P; mv; auto. intros d DN DU. unfold upd. destruct (Nat.eqb d j) eqn:DJ; [|apply SL; assumption].
    apply Nat.eqb_eq in DJ. subst d. unfold froll_it. destruct (Nat.eqb _ _); cbn [d_log]; apply SL; assumption.
  - destruct (f_pc (s_thr s i)) eqn:P; try discriminate. destruct (f_udp c d) eqn:U; [|discriminate].
    destruct (Nat.ltb _ _); [|discriminate]. injection E as <-. constructor; mv; rewrite ?P; mv; auto.
    intros k KN KU. rewrite upd_other by congruence. apply SL; assumption.
  - destruct (f_pc (s_thr s i)) eqn:P; try discriminate. injection E as <-. constructor; mv; auto.
  - destruct (f_pc (s_thr s i)) eqn:P; try discriminate. injection E as <-. constructor; mv; auto.
  - injection E as <-. constructor; cbn [set_dev s_thr s_dev q_w q_proc q_read q_done s_bad]; auto.
    + intros k KN KU. unfold upd. destruct (Nat.eqb k d) eqn:K; [|apply SL; assumption].
      apply Nat.eqb_eq in K. subst k. cbn [fspill_it d_log]. apply SL; assumption.
    + destruct (f_pc (s_thr s i)); try exact I. destruct h; [|exact I]. unfold upd. destruct (Nat.eqb _ _) eqn:K; [|assumption].
      apply Nat.eqb_eq in K. subst d. exact SF.
Qed.
Lemma sinv_run : forall c i ls s s', sinv c i s -> frun c s ls = Some s' -> only_thread i ls -> sinv c i s'.
Proof.
  intros c i ls. induction ls as [|l ls IH]; intros s s' SV R ON; cbn [frun] in R; [injection R as <-; exact SV|].
  destruct (fstep c s l) as [s1|] eqn:E; [|discriminate]. inversion ON as [|? ? O1 O2]; subst.
  apply (IH s1 s'); [|assumption|assumption]. apply (sinv_step c i s l s1 SV E). destruct l; try exact I; assumption.
Qed.

Lemma one_owner : forall i l, (forall e, In e l -> e_by e = i) -> by_of i l = Z.of_nat (length l).
Proof.
  intros i l H. induction l as [|e l IH]; [reflexivity|]. cbn [by_of length]. rewrite IH by (intros x X; apply H; right; exact X).
  rewrite (H e (or_introl eq_refl)), Nat.eqb_refl. lia.
Qed.
(* only thread [i] writes *)
Definition owned (i : nat) (s : fst_) : Prop := forall d e, In e (d_log (s_dev s d)) -> e_by e = i.
Lemma owned_step : forall c i s l s', owned i s -> fstep c s l = Some s' ->
  match l with FEnter k | FStep k | FMiss k | FRoll k | FGram k _ _ | FRound k | FLeave k => k = i | _ => True end ->
  owned i s'.
Proof.
  intros c i s l s' OW E ON. unfold fstep in E. unfold owned in *.
  assert (W : forall d0 m d e, In e (d_log (upd (s_dev s) d0 (fwrite_to (s_dev s d0) i m) d)) -> e_by e = i).
  { intros d0 m d e IN. unfold upd in IN. destruct (Nat.eqb d d0); [|eapply OW; exact IN]. cbn [fwrite_to d_log] in IN.
    apply in_app_or in IN. destruct IN as [IN|[<-|[]]]; [eapply OW; exact IN|reflexivity]. }
  destruct l as [m|k|k|k|k|k d m|k|k|d n]; try subst k;
    try match type of E with context [f_pc (s_thr s i)] => destruct (f_pc (s_thr s i)) eqn:P; try discriminate end.
  all: repeat match goal with
       | H : (if ?b then _ else _) = Some _ |- _ => destruct b
       | H : match ?h with Some _ => _ | None => _ end = Some _ |- _ => destruct h
       | H : Some (if ?b then _ else _) = Some _ |- _ => destruct b
       end; try discriminate; injection E as <-; try exact OW.
  - destruct (f_acc c j (nth r (q_w s) [])); [|exact OW]. cbn [set_thr set_dev s_dev]. apply W.
  - intros d e. cbn [set_thr set_dev s_dev]. unfold upd. destruct (Nat.eqb d j); [cbn [fflush_it d_log]|]; apply OW.
  - intros d e. cbn [set_dev s_dev]. unfold upd. destruct (Nat.eqb d j); [|apply OW]. unfold froll_it. destruct (Nat.eqb _ _); apply OW.
  - cbn [set_dev s_dev]. apply W.
  - intros k e. cbn [set_dev s_dev]. unfold upd. destruct (Nat.eqb k d); [cbn [fspill_it d_log]|]; apply OW.
Qed.
Lemma owned_run : forall c i ls s s', owned i s -> frun c s ls = Some s' -> only_thread i ls -> owned i s'.
Proof.
  intros c i ls. induction ls as [|l ls IH]; intros s s' OW R ON; cbn [frun] in R; [injection R as <-; exact OW|].
  destruct (fstep c s l) as [s1|] eqn:E; [|discriminate]. inversion ON as [|? ? O1 O2]; subst.
  apply (IH s1 s'); [|assumption|assumption]. apply (owned_step c i s l s1 OW E). destruct l; try exact I; assumption.
Qed.

Lemma map_split : forall (A B : Type) (f : A -> B) l a b, map f l = a ++ b -> exists x y, l = x ++ y /\ map f x = a /\ map f y = b.
Proof.
  intros A B f l a. revert l. induction a as [|u a IH]; intros l b H; [exists [], l; auto|].
  destruct l as [|v l]; [discriminate|]. cbn in H. injection H as <- H. destruct (IH l b H) as (x & y & -> & <- & <-).
  exists (v :: x), y. auto.
Qed.

Lemma alone_files : forall c i ls s d, 0 <= f_force c -> frun c fstart ls = Some s -> only_thread i ls ->
  (d < f_ndev c)%nat -> f_udp c d = false ->
  s_bad s = false /\ exists k l1 l2 x, (q_read s <= k)%nat /\ (k <= q_proc s <= S k)%nat /\ (q_proc s <= length (q_w s))%nat /\
    filter (f_acc c d) (firstn k (q_w s)) = l1 ++ l2 /\
    d_os (s_dev s d) = concat l1 ++ x /\ x ++ d_buf (s_dev s d) = concat l2 /\ Z.of_nat (length l2) <= f_force c + 1 /\
    (f_pc (s_thr s i) = FIdle \/ f_pc (s_thr s i) = FUdp -> k = q_proc s /\ l2 = []).
Proof.
  intros c i ls s d F R ON DN DU.
  pose proof (sinv_run c i ls fstart s (sinv_start c i) R ON) as [SA SP SC SL SD SR SF SG].
  assert (OW : owned i s) by (apply (owned_run c i ls fstart); [intros k e []|assumption|assumption]).
  split; [exact SG|]. destruct (pending_bound c ls s d F R SG DN DU) as (g1 & g2 & x & A & O & P & B).
  exists (offered s d (f_pc (s_thr s i))), (map e_txt g1), (map e_txt g2), x.
  assert (OO : by_of i g2 = Z.of_nat (length g2)).
  { apply one_owner. intros e IN. apply (OW d). rewrite A. apply in_or_app. right. exact IN. }
  split; [|split; [|split; [exact SP|split; [|split; [exact O|split; [exact P|split]]]]]].
  - unfold offered, marked in *. destruct (f_pc (s_thr s i)); try lia. destruct (Nat.ltb _ _); lia.
  - unfold offered in *. destruct (f_pc (s_thr s i)); try lia. destruct (Nat.ltb _ _); lia.
  - rewrite <- (SL d DN DU), A, map_app. reflexivity.
  - rewrite map_length. destruct (B i). lia.
  - intros PC. destruct (B i) as [_ B0]. specialize (B0 PC). rewrite OO in B0. split.
    + unfold offered. destruct PC as [-> | ->]; reflexivity.
    + destruct g2; [reflexivity|cbn [length] in B0; lia].
Qed.

Lemma filter_prefix : forall (A : Type) (f : A -> bool) n k (l : list A), (n <= k)%nat ->
  exists r, filter f (firstn k l) = filter f (firstn n l) ++ r.
Proof.
  intros A f n k l H. exists (filter f (firstn (k - n) (skipn n l))). rewrite <- filter_app. f_equal.
  rewrite <- (firstn_skipn n (firstn k l)). rewrite firstn_firstn, Nat.min_l by lia. f_equal.
  apply firstn_skipn_comm || (rewrite skipn_firstn_comm; reflexivity).
Qed.
Lemma app_cases : forall (A : Type) (a b u v : list A), a ++ b = u ++ v ->
  (exists z, a = u ++ z /\ v = z ++ b) \/ (exists z, u = a ++ z /\ b = z ++ v).
Proof.
  intros A a. induction a as [|x a IH]; intros b u v H; [right; exists u; auto|].
  destruct u as [|y u]; [left; exists (x :: a); auto|]. cbn in H. injection H as <- H.
  destruct (IH b u v H) as [(z & -> & ->)|(z & -> & ->)]; [left|right]; exists z; auto.
Qed.
(* the process dies: of the released records all but the last few are in the file *)
Lemma crash_files : forall c i ls s d, 0 <= f_force c -> frun c fstart ls = Some s -> only_thread i ls ->
  (d < f_ndev c)%nat -> f_udp c d = false ->
  exists kept lost x, filter (f_acc c d) (firstn (q_read s) (q_w s)) = kept ++ lost /\
    d_os (s_dev s d) = concat kept ++ x /\ Z.of_nat (length lost) <= f_force c + 1.
Proof.
  intros c i ls s d F R ON DN DU. destruct (alone_files c i ls s d F R ON DN DU) as (_ & k & l1 & l2 & x & RK & _ & _ & FL & O & _ & B & _).
  destruct (filter_prefix _ (f_acc c d) (q_read s) k (q_w s) RK) as (r & E). rewrite FL in E.
  destruct (app_cases _ _ _ _ _ E) as [(z & E1 & E2)|(z & E1 & E2)].
  - exists (filter (f_acc c d) (firstn (q_read s) (q_w s))), [], (concat z ++ x).
    rewrite app_nil_r. split; [reflexivity|]. split; [rewrite O, E1, concat_app, app_assoc; reflexivity|cbn; lia].
  - exists l1, z, x. split; [exact E1|]. split; [exact O|]. rewrite E2, app_length in B. lia.
Qed.

(* ---- no rolling: no FILE is closed under a flush ---- *)
Definition kept_file (s : fst_) : Prop :=
  s_bad s = false /\ forall k, match f_pc (s_thr s k) with FFlush _ j (Some g) => g <> 0%nat /\ g = d_gen (s_dev s j) | _ => True end.
Lemma kept_file_step : forall c s l s', kept_file s -> fstep c s l = Some s' -> (forall i, l <> FRoll i) -> kept_file s'.
Proof.
  intros c s l s' [B K] E NR. unfold fstep in E. unfold kept_file in *.
  assert (W : forall d i m k, match f_pc (s_thr s k) with FFlush _ j (Some g) => g <> 0%nat /\ g = d_gen (upd (s_dev s) d (fwrite_to (s_dev s d) i m) j) | _ => True end).
  { intros d i m k. specialize (K k). destruct (f_pc (s_thr s k)); try exact I. destruct h as [g|]; [|exact I]. destruct K as [G0 G1].
    split; [exact G0|]. unfold upd. destruct (Nat.eqb j d) eqn:J; [|exact G1]. apply Nat.eqb_eq in J. subst d. cbn [fwrite_to d_gen].
    rewrite <- G1. destruct (Nat.eqb g 0) eqn:Z; [lia|reflexivity]. }
  assert (T : forall p n k i, match p with FFlush _ _ (Some _) => False | _ => True end ->
     match f_pc (upd (s_thr s) i (mkFthr p n) k) with FFlush _ j (Some g) => g <> 0%nat /\ g = d_gen (s_dev s j) | _ => True end).
  { intros p n k i PP. unfold upd. destruct (Nat.eqb k i); [|apply K]. cbn [f_pc]. destruct p; try exact I. destruct h; [contradiction|exact I]. }
  destruct l as [m|i|i|i|i|i d m|i|i|d n];
    try match type of E with context [f_pc (s_thr s i)] => destruct (f_pc (s_thr s i)) eqn:P; try discriminate end.
  - injection E as <-. auto.
  - injection E as <-. split; [exact B|]. intros k. apply T. exact I.
  - destruct (Nat.ltb _ _); [|discriminate]. injection E as <-. split; [exact B|]. intros k. apply T. exact I.
  - destruct (Nat.ltb _ _); injection E as <-.
    + split; [destruct (f_acc c _ _); exact B|]. intros k. destruct (f_acc c _ _); cbn [set_thr set_dev s_thr s_dev]; [|apply T; exact I].
      unfold upd at 1. destruct (Nat.eqb k i); [exact I|]. apply W.
    + split; [exact B|]. intros k. apply T. exact I.
  - injection E as <-. split; [exact B|]. intros k. apply T. exact I.
  - destruct (_ && _); [injection E as <-; auto|]. destruct (_ <? _); injection E as <-; (split; [exact B|]; intros k; apply T; exact I).
  - destruct h as [g|].
    + pose proof (K i) as KI. rewrite P in KI. destruct KI as [G0 ->]. rewrite Nat.eqb_refl in E. injection E as <-. split; [exact B|].
      intros k. cbn [set_thr set_dev s_thr s_dev]. unfold upd at 1. destruct (Nat.eqb k i); [exact I|]. specialize (K k).
      destruct (f_pc (s_thr s k)); try exact I. destruct h; [|exact I]. unfold upd. destruct (Nat.eqb j0 j) eqn:J; [|exact K].
      apply Nat.eqb_eq in J. subst j0. exact K.
    + destruct (Nat.ltb _ _); [destruct (Nat.eqb (d_gen _) 0) eqn:G|]; injection E as <-; (split; [exact B|]; intros k).
      * apply T. exact I.
      * cbn [set_thr set_dev s_thr s_dev]. unfold upd. destruct (Nat.eqb k i); [|apply K]. cbn [f_pc]. split; [lia|reflexivity].
      * apply T. destruct force; exact I.
  - injection E as <-. split; [exact B|]. intros k. apply T. destruct (_ =? 0); exact I.
  - injection E as <-. split; [exact B|]. intros k. apply T. exact I.
  - exfalso. exact (NR i eq_refl).
  - destruct (_ && _); [|discriminate]. injection E as <-. split; [exact B|]. intros k. apply W.
  - injection E as <-. split; [exact B|]. intros k. apply T. exact I.
  - injection E as <-. split; [exact B|]. intros k. apply T. exact I.
  - injection E as <-. split; [exact B|]. intros k. cbn [set_dev s_thr s_dev]. specialize (K k).
    destruct (f_pc (s_thr s k)); try exact I. destruct h; [|exact I]. unfold upd. destruct (Nat.eqb j d) eqn:J; [|exact K].
    apply Nat.eqb_eq in J. subst j. exact K.
Qed.
Lemma kept_file_run : forall c ls s s', kept_file s -> frun c s ls = Some s' -> (forall i, ~ In (FRoll i) ls) -> kept_file s'.
Proof.
  intros c ls. induction ls as [|l ls IH]; intros s s' K R NR; cbn [frun] in R; [injection R as <-; exact K|].
  destruct (fstep c s l) as [s1|] eqn:E; [|discriminate]. apply (IH s1 s'); [|assumption|].
  - apply (kept_file_step c s l s1 K E). intros i ->. apply (NR i). left. reflexivity.
  - intros i IN. apply (NR i). right. exact IN.
Qed.

(* ---- the bound is reached ---- *)
Lemma frun_app : forall c a b s s', frun c s a = Some s' -> frun c s (a ++ b) = frun c s' b.
Proof.
  intros c a. induction a as [|l a IH]; intros b s s' R; cbn [frun app] in *; [injection R as <-; reflexivity|].
  destruct (fstep c s l); [|discriminate]. apply IH. exact R.
Qed.
Definition one_dev (F : Z) : fcfg := mkFcfg F 1 (fun _ _ => true) (fun _ => false).
Definition take_one (m : list Z) : list flabel := [FPub m; FStep 0; FStep 0; FStep 0; FStep 0; FStep 0].
Definition after_n (m : list Z) (n : nat) (s : fst_) : Prop :=
  q_w s = repeat m n /\ q_proc s = n /\ q_read s = n /\ (forall r, (n <= r)%nat -> q_done s r = false) /\
  d_os (s_dev s 0) = [] /\ d_buf (s_dev s 0) = concat (repeat m n) /\ s_bad s = false /\ f_cnt (s_thr s 0) = Z.of_nat n.
Lemma repeat_snoc : forall (A : Type) (a : A) n, repeat a n ++ [a] = repeat a (S n).
Proof. intros A a n. induction n as [|n IH]; [reflexivity|]. cbn [repeat app]. rewrite IH. reflexivity. Qed.
Lemma take_one_ok : forall F m n s, after_n m n s -> f_pc (s_thr s 0) = FTake ->
  exists s', frun (one_dev F) s (take_one m) = Some s' /\ after_n m (S n) s' /\ f_pc (s_thr s' 0) = FRel.
Proof.
  intros F m n [w pr rd dn dv th bd] (A1 & A2 & A3 & A4 & A5 & A6 & A7 & A8) PC. cbn [q_w q_proc q_read q_done s_dev s_thr s_bad] in *.
  subst w pr rd bd. unfold take_one. eexists. split; [|split].
  - cbn [frun fstep]. cbn [s_thr set_thr set_dev]. rewrite PC. cbn [q_w q_proc]. rewrite app_length, repeat_length.
    replace (Nat.ltb n (n + length [m])) with true by (symmetry; apply Nat.ltb_lt; cbn [length]; lia).
    cbn [frun fstep set_thr set_dev s_thr s_dev q_w q_proc q_read q_done s_bad]. rewrite !upd_same. cbn [f_pc f_cnt].
    cbn [one_dev f_ndev f_acc]. replace (Nat.ltb 0 1) with true by reflexivity.
    cbn [frun fstep set_thr set_dev s_thr s_dev q_w q_proc q_read q_done s_bad]. rewrite !upd_same. cbn [f_pc f_cnt].
    replace (Nat.ltb 1 1) with false by reflexivity.
    cbn [frun fstep set_thr set_dev s_thr s_dev q_w q_proc q_read q_done s_bad]. rewrite !upd_same. cbn [f_pc f_cnt].
    cbn [frun fstep set_thr set_dev s_thr s_dev q_w q_proc q_read q_done s_bad]. rewrite !upd_same. cbn [f_pc f_cnt].
    replace (Nat.ltb n (S n)) with true by lia. cbn [andb]. reflexivity.
  - unfold after_n. cbn [s_thr s_dev q_w q_proc q_read q_done s_bad]. rewrite !upd_same. cbn [f_cnt].
    split; [apply repeat_snoc|]. split; [reflexivity|]. split; [reflexivity|]. split; [|split; [|split; [|split; [reflexivity|]]]].
    + intros r H. rewrite upd_other by lia. apply A4. lia.
    + rewrite app_length, repeat_length || idtac. cbn [fwrite_to d_os]. exact A5.
    + cbn [fwrite_to d_buf]. rewrite A6, app_nth2, repeat_length, Nat.sub_diag by (rewrite repeat_length; lia). cbn [nth].
      rewrite <- repeat_snoc, concat_app. cbn. rewrite app_nil_r. reflexivity.
    + rewrite A8. lia.
  - cbn [s_thr]. rewrite upd_same. reflexivity.
Qed.
Fixpoint take_many (m : list Z) (n : nat) : list flabel :=
  match n with O => [] | S k => take_many m k ++ take_one m ++ [FStep 0] end.
Lemma take_many_ok : forall F m n, Z.of_nat n <= F -> exists s,
  frun (one_dev F) fstart (FEnter 0 :: take_many m n) = Some s /\ after_n m n s /\ f_pc (s_thr s 0) = FTake.
Proof.
  intros F m n. induction n as [|n IH]; intros H.
  - eexists. split; [reflexivity|]. split; [|reflexivity]. unfold after_n. cbn. repeat split; auto.
  - destruct IH as (s & R & A & PC); [lia|]. destruct (take_one_ok F m n s A PC) as (s1 & R1 & A1 & PC1).
    destruct A1 as (B1 & B2 & B3 & B4 & B5 & B6 & B7 & B8).
    exists (set_thr s1 0 FTake (f_cnt (s_thr s1 0))). split; [|split].
    + change (FEnter 0 :: take_many m (S n)) with ((FEnter 0 :: take_many m n) ++ take_one m ++ [FStep 0]).
      rewrite (frun_app _ _ _ _ _ R), (frun_app _ _ _ _ _ R1). cbn [frun fstep]. rewrite PC1, B2, B3.
      replace (Nat.ltb (S n) (S n)) with false by lia. cbn [andb]. rewrite B8. cbn [one_dev f_force].
      replace (F <? _) with false by lia. reflexivity.
    + unfold after_n. cbn [set_thr q_w q_proc q_read q_done s_dev s_thr s_bad]. rewrite upd_same. repeat split; assumption.
    + cbn [set_thr s_thr]. rewrite upd_same. reflexivity.
Qed.
Lemma only_app : forall i a b, only_thread i a -> only_thread i b -> only_thread i (a ++ b).
Proof. intros i a b A B. apply Forall_app. split; assumption. Qed.
Lemma only_many : forall m n, only_thread 0 (FEnter 0 :: take_many m n).
Proof.
  intros m n. constructor; [reflexivity|]. induction n as [|n IH]; [constructor|]. cbn [take_many]. apply only_app; [exact IH|].
  repeat constructor.
Qed.
Lemma bound_reached : forall F m, 0 <= F -> exists ls s,
  frun (one_dev F) fstart ls = Some s /\ only_thread 0 ls /\ q_w s = repeat m (Z.to_nat (F + 1)) /\
  q_read s = length (q_w s) /\ d_os (s_dev s 0) = [].
Proof.
  intros F m H. destruct (take_many_ok F m (Z.to_nat F) ltac:(lia)) as (s & R & A & PC).
  destruct (take_one_ok F m (Z.to_nat F) s A PC) as (s1 & R1 & (B1 & B2 & B3 & B4 & B5 & B6 & B7 & B8) & _).
  exists ((FEnter 0 :: take_many m (Z.to_nat F)) ++ take_one m), s1. split; [|split; [|split; [|split]]].
  - rewrite (frun_app _ _ _ _ _ R). exact R1.
  - apply only_app; [apply only_many|]. repeat constructor.
  - rewrite B1. f_equal. lia.
  - rewrite B1, B3, repeat_length. reflexivity.
  - exact B5.
Qed.

(* ---- a datagram waits for the next record ---- *)
Definition gram_cfg (F : Z) : fcfg := mkFcfg F 1 (fun _ _ => false) (fun _ => true).
Fixpoint idle_rounds (n : nat) : list flabel :=
  match n with O => [] | S k => FRound 0 :: FMiss 0 :: FStep 0 :: idle_rounds k end.
Lemma gram_waits : forall F m n, exists s,
  frun (gram_cfg F) fstart ([FEnter 0; FMiss 0; FStep 0; FGram 0 0 m] ++ idle_rounds n) = Some s /\
  d_os (s_dev s 0) = [] /\ d_buf (s_dev s 0) = m /\ f_pc (s_thr s 0) = FUdp /\ s_bad s = false.
Proof.
  intros F m n.
  assert (G : forall s, d_os (s_dev s 0) = [] /\ d_buf (s_dev s 0) = m /\ f_pc (s_thr s 0) = FUdp /\ s_bad s = false ->
     exists s', frun (gram_cfg F) s (idle_rounds n) = Some s' /\
       d_os (s_dev s' 0) = [] /\ d_buf (s_dev s' 0) = m /\ f_pc (s_thr s' 0) = FUdp /\ s_bad s' = false).
  { induction n as [|n IH]; intros s (A & B & C & D); [exists s; auto|]. cbn [idle_rounds frun fstep]. rewrite C.
    cbn [frun fstep set_thr s_thr]. rewrite !upd_same. cbn [f_pc f_cnt frun fstep set_thr s_thr]. rewrite !upd_same. cbn [f_pc f_cnt frun fstep set_thr s_thr].
    change (0 =? 0) with true. cbn iota. apply IH. cbn [set_thr s_dev s_thr s_bad]. rewrite upd_same. auto. }
  set (s0 := match frun (gram_cfg F) fstart [FEnter 0; FMiss 0; FStep 0; FGram 0 0 m] with Some s => s | None => fstart end).
  assert (R : frun (gram_cfg F) fstart [FEnter 0; FMiss 0; FStep 0; FGram 0 0 m] = Some s0) by reflexivity.
  rewrite (frun_app _ _ _ _ _ R). apply G. repeat split; reflexivity.
Qed.
