(* Proofs about datagrams read into the shared record. *)
From Coq Require Import ZArith List Bool Arith Lia ZifyBool ZifyNat.
From Verif Require Import Base BaseFacts NumFmt UdpRace UdpRaceSpec.
Import ListNotations.
Open Scope Z_scope.
Ltac Zify.zify_post_hook ::= idtac.

Lemma gset_eq : forall f i p, gpc_set f i p i = p.
Proof. intros. unfold gpc_set. rewrite Nat.eqb_refl. reflexivity. Qed.
Lemma gset_ne : forall f i p j, j <> i -> gpc_set f i p j = f j.
Proof. intros. unfold gpc_set. destruct (Nat.eqb_spec j i); [contradiction|reflexivity]. Qed.
Lemma arrivals_app : forall a b, arrivals (a ++ b) = arrivals a ++ arrivals b.
Proof. induction a as [|[m|i] a IH]; intros b; cbn [app arrivals]; rewrite ?IH; reflexivity. Qed.
Lemma gruns_snoc : forall cap ls l s, gruns cap s (ls ++ [l]) = (let! s := gruns cap s ls in gstep cap s l).
Proof.
  intros cap ls l. induction ls as [|x ls IH]; intros s; cbn [app gruns bind].
  - destruct (gstep cap s l); reflexivity.
  - destruct (gstep cap s x); cbn [bind]; [apply IH|reflexivity|reflexivity].
Qed.
Lemma slice0 : forall (b : text) n, 0 <= n <= zlen b -> slice b 0 n = Ret (firstn (Z.to_nat n) b).
Proof. intros b n H. unfold slice. destruct (_ || _) eqn:E; [lia|]. reflexivity. Qed.
Lemma wr_ok : forall (b : list Z) i v, 0 <= i < zlen b -> exists b', wr b i v = Ret b'.
Proof. intros b i v H. unfold wr. rewrite blit_ret by (change (zlen [v]) with 1; lia). eauto. Qed.

(* ---- one thread ---- *)
Definition handed (cap : Z) (t : list text) : list text := map (fitted cap) (filter some_text t).
Lemma handed_app : forall cap a b, handed cap (a ++ b) = handed cap a ++ handed cap b.
Proof.
  intros. unfold handed. induction a as [|x a IH]; cbn [app filter map]; [reflexivity|]. destruct (some_text x); cbn [map app]; rewrite IH; reflexivity.
Qed.
Definition front (b t : text) : Prop := exists rest, b = t ++ rest.
Definition phase (cap : Z) (s : gstate) (m : text) (p : gpc) : Prop :=
  let t := firstn (Z.to_nat cap) m in
  match p with
  | GStart | GInit | GRead => False
  | GStore l => l = zlen t /\ front (gr_buf s) t
  | GFull => gr_len s = zlen t /\ front (gr_buf s) t
  | GNewline => gr_len s = cap /\ cap <= zlen m /\ gr_buf s = t
  | GZero => gr_len s = cap /\ cap <= zlen m /\ exists x, gr_buf s = firstn (Z.to_nat (cap - 2)) m ++ [10; x]
  | GTest => gr_len s = zlen (fitted cap m) /\ front (gr_buf s) (fitted cap m)
  | GPut => gr_len s = zlen (fitted cap m) /\ front (gr_buf s) (fitted cap m) /\ m <> []
  end.
Definition alone (cap : Z) (i : nat) (arr : list text) (s : gstate) : Prop :=
  zlen (gr_buf s) = cap /\ (forall j, j <> i -> gr_pc s j = GStart) /\
  exists taken d, arr = taken ++ d ++ gr_queue s /\ gr_out s = handed cap taken /\
  match gr_pc s i with
  | GStart => d = []
  | GInit | GRead => d = [] /\ gr_len s = 0
  | p => exists m, (d = [] /\ m = [] \/ d = [m]) /\ phase cap s m p
  end.

Lemma zlen_cut : forall (m : text) n, 0 <= n -> zlen (firstn (Z.to_nat n) m) = Z.min n (zlen m).
Proof. intros m n H. unfold zlen. rewrite firstn_length. lia. Qed.
Lemma fitted_short : forall cap m, zlen m < cap -> fitted cap m = m.
Proof. intros cap m H. unfold fitted. destruct (zlen m <? cap) eqn:E; [reflexivity|lia]. Qed.
Lemma fitted_long : forall cap m, cap <= zlen m -> fitted cap m = firstn (Z.to_nat (cap - 2)) m ++ [10; 0].
Proof. intros cap m H. unfold fitted. destruct (zlen m <? cap) eqn:E; [lia|reflexivity]. Qed.
Lemma blit_front : forall (b t : text), zlen t <= zlen b -> exists b', blit b 0 t = Ret b' /\ zlen b' = zlen b /\ front b' t.
Proof.
  intros b t H. rewrite blit_ret by lia. eexists. split; [reflexivity|]. split.
  - eapply blit_len. apply blit_ret; lia.
  - cbn [Z.to_nat firstn app]. eexists. reflexivity.
Qed.
Lemma front_take : forall (b t : text), front b t -> firstn (Z.to_nat (zlen t)) b = t.
Proof.
  intros b t (r & ->). unfold zlen. rewrite Nat2Z.id, firstn_app, firstn_all, Nat.sub_diag. cbn [firstn]. apply app_nil_r.
Qed.
Lemma front_len : forall (b t : text), front b t -> zlen t <= zlen b.
Proof. intros b t (r & ->). rewrite zlen_app. pose proof (zlen_nonneg _ r). lia. Qed.
Lemma handed_one : forall cap m, m <> [] -> handed cap [m] = [fitted cap m].
Proof. intros cap [|x m] H; [congruence|]. reflexivity. Qed.

Lemma alone_step : forall cap i arr s l, 2 <= cap -> alone cap i arr s -> (forall j, l = GRun j -> j = i) ->
  exists s', gstep cap s l = Ret s' /\ alone cap i (arr ++ match l with Arrive m => [m] | GRun _ => [] end) s'.
Proof.
  intros cap i arr s l C (BL & O & taken & d & A & OUT & P) ONLY. destruct l as [m|j].
  - eexists. split; [reflexivity|]. split; [exact BL|]. split; [exact O|]. exists taken, d. cbn [gr_queue gr_out gr_pc].
    split; [rewrite A, <- !app_assoc; reflexivity|]. split; [exact OUT|]. exact P.
  - rewrite (ONLY j eq_refl) in *. rewrite app_nil_r. unfold gstep. revert P. destruct (gr_pc s i) as [| | |l| | | | |] eqn:E; intros P.
    + destruct (wr_ok (gr_buf s) 0 0 ltac:(lia)) as (b & W). pose proof (wr_rd _ _ _ _ _ W) as (WL & _). rewrite W. cbn [bind]. eexists. split; [reflexivity|].
      split; [cbn [gr_buf]; lia|]. split; [intros; cbn [gr_pc]; rewrite gset_ne by assumption; auto|]. exists taken, d. cbn [gr_queue gr_out gr_pc gr_len]. rewrite gset_eq. auto.
    + destruct P as (P & L). destruct (wr_ok (gr_buf s) (gr_len s) 0 ltac:(lia)) as (b & W). pose proof (wr_rd _ _ _ _ _ W) as (WL & _). rewrite W. cbn [bind]. eexists. split; [reflexivity|].
      split; [cbn [gr_buf]; lia|]. split; [intros; cbn [gr_pc]; rewrite gset_ne by assumption; auto|]. exists taken, d. cbn [gr_queue gr_out gr_pc gr_len]. rewrite gset_eq. auto.
    + destruct P as (-> & L). destruct (gr_queue s) as [|m q] eqn:Q.
      * eexists. split; [reflexivity|]. split; [exact BL|]. split; [intros; cbn [gr_pc]; rewrite gset_ne by assumption; auto|]. exists taken, []. cbn [gr_queue gr_out gr_pc gr_len]. rewrite gset_eq.
        split; [exact A|]. split; [exact OUT|]. exists []. split; [left; auto|]. cbn [phase]. rewrite firstn_nil. split; [reflexivity|]. exists (gr_buf s). reflexivity.
      * destruct (blit_front (gr_buf s) (firstn (Z.to_nat cap) m)) as (b & W & WL & F); [rewrite zlen_cut by lia; lia|].
        rewrite W. cbn [bind]. eexists. split; [reflexivity|]. split; [cbn [gr_buf]; lia|]. split; [intros; cbn [gr_pc]; rewrite gset_ne by assumption; auto|]. exists taken, [m]. cbn [gr_queue gr_out gr_pc gr_len]. rewrite gset_eq.
        split; [exact A|]. split; [exact OUT|]. exists m. split; [right; reflexivity|]. cbn [phase]. split; [reflexivity|exact F].
    + destruct P as (m & D & (L & F)). eexists. split; [reflexivity|]. split; [exact BL|]. split; [intros; cbn [gr_pc]; rewrite gset_ne by assumption; auto|]. exists taken, d. cbn [gr_queue gr_out gr_pc gr_len]. rewrite gset_eq.
      split; [exact A|]. split; [exact OUT|]. exists m. split; [exact D|]. cbn [phase]. auto.
    + destruct P as (m & D & (L & F)). eexists. split; [reflexivity|]. split; [exact BL|]. split; [intros; cbn [gr_pc]; rewrite gset_ne by assumption; auto|]. exists taken, d. cbn [gr_queue gr_out gr_pc gr_len]. rewrite gset_eq.
      split; [exact A|]. split; [exact OUT|]. rewrite zlen_cut in L by lia. destruct (gr_len s =? cap) eqn:T.
      * exists m. split; [exact D|]. cbn [phase gr_len gr_buf]. split; [lia|]. split; [lia|]. destruct F as (r & F). rewrite F in BL |- *. rewrite zlen_app, zlen_cut in BL by lia.
        assert (zlen r = 0) as R by lia. destruct r; [apply app_nil_r|unfold zlen in R; cbn [length] in R; lia].
      * exists m. split; [exact D|]. cbn [phase gr_len gr_buf]. assert (zlen m < cap) as SH by lia. rewrite (fitted_short cap m SH). split; [lia|]. rewrite firstn_all2 in F by (unfold zlen in SH; lia). exact F.
    + destruct P as (m & D & (L & G & F)). 
      assert (exists x y, gr_buf s = firstn (Z.to_nat (cap - 2)) m ++ [x; y]) as (x & y & SP).
      { rewrite F. replace (Z.to_nat cap) with (Z.to_nat (cap - 2) + 2)%nat by lia.
        assert (forall n (u : text), (n + 2 <= length u)%nat -> exists x y, firstn (n + 2) u = firstn n u ++ [x; y]) as H.
        { induction n as [|n IH]; intros u U.
          - destruct u as [|a [|b u]]; cbn [length] in U; try lia. exists a, b. reflexivity.
          - destruct u as [|a u]; cbn [length] in U; [lia|]. destruct (IH u ltac:(lia)) as (x & y & H). exists x, y. cbn [plus firstn app]. rewrite H. reflexivity. }
        apply H. unfold zlen in G. lia. }
      rewrite L, SP. assert (zlen (firstn (Z.to_nat (cap - 2)) m) = cap - 2) as FL by (rewrite zlen_cut by lia; lia).
      assert (wr (firstn (Z.to_nat (cap - 2)) m ++ [x; y]) (cap - 2) 10 = Ret (firstn (Z.to_nat (cap - 2)) m ++ [10; y])) as ->.
      { unfold wr. exact (blit_splice _ (firstn (Z.to_nat (cap - 2)) m) [x] [y] [10] (cap - 2) FL eq_refl). }
      cbn [bind]. eexists. split; [reflexivity|]. split; [cbn [gr_buf]; rewrite SP in BL; rewrite zlen_app in BL |- *; exact BL|]. split; [intros; cbn [gr_pc]; rewrite gset_ne by assumption; auto|].
      exists taken, d. cbn [gr_queue gr_out gr_pc gr_len]. rewrite gset_eq. split; [exact A|]. split; [exact OUT|]. exists m. split; [exact D|]. cbn [phase gr_len gr_buf]. split; [reflexivity|]. split; [exact G|]. exists y. reflexivity.
    + destruct P as (m & D & (L & G & x & F)). rewrite L, F. assert (zlen (firstn (Z.to_nat (cap - 2)) m) = cap - 2) as FL by (rewrite zlen_cut by lia; lia).
      assert (wr (firstn (Z.to_nat (cap - 2)) m ++ [10; x]) (cap - 1) 0 = Ret (firstn (Z.to_nat (cap - 2)) m ++ [10; 0])) as ->.
      { unfold wr. replace (firstn (Z.to_nat (cap - 2)) m ++ [10; x]) with ((firstn (Z.to_nat (cap - 2)) m ++ [10]) ++ [x] ++ []) by (rewrite <- app_assoc; reflexivity).
        rewrite (blit_splice _ (firstn (Z.to_nat (cap - 2)) m ++ [10]) [x] [] [0] (cap - 1)); [rewrite <- app_assoc; reflexivity| |reflexivity]. rewrite zlen_app, FL. change (zlen [10]) with 1. lia. }
      cbn [bind]. eexists. split; [reflexivity|]. split; [cbn [gr_buf]; rewrite F in BL; rewrite zlen_app in BL |- *; exact BL|]. split; [intros; cbn [gr_pc]; rewrite gset_ne by assumption; auto|].
      exists taken, d. cbn [gr_queue gr_out gr_pc gr_len]. rewrite gset_eq. split; [exact A|]. split; [exact OUT|]. exists m. split; [exact D|]. cbn [phase gr_len gr_buf]. rewrite (fitted_long cap m G). split.
      * rewrite zlen_app, FL. change (zlen [10; 0]) with 2. lia.
      * exists []. rewrite app_nil_r. reflexivity.
    + destruct P as (m & D & (L & F)). eexists. split; [reflexivity|]. split; [exact BL|]. split; [intros; cbn [gr_pc]; rewrite gset_ne by assumption; auto|].
      assert (m = [] \/ m <> [] /\ zlen (fitted cap m) <> 0) as MM.
      { destruct m as [|a m]; [left; reflexivity|right]. split; [discriminate|]. unfold fitted. pose proof (zlen_nonneg _ m). destruct (_ <? _); [rewrite zlen_cons; lia|]. rewrite zlen_app. change (zlen [10; 0]) with 2.
        pose proof (zlen_nonneg _ (firstn (Z.to_nat (cap - 2)) (a :: m))). lia. }
      destruct (gr_len s =? 0) eqn:T.
      * destruct MM as [->|(_ & MM)]; [|lia]. exists (taken ++ d), []. cbn [gr_queue gr_out gr_pc gr_len]. rewrite gset_eq. split; [rewrite A, <- app_assoc; reflexivity|]. split; [|reflexivity].
        rewrite handed_app. destruct D as [(-> & _)| ->]; rewrite OUT; symmetry; apply app_nil_r.
      * assert (m <> []) as NE. { intros ->. rewrite L in T. rewrite fitted_short in T by (rewrite zlen_nil; lia). discriminate. }
        exists taken, d. cbn [gr_queue gr_out gr_pc gr_len]. rewrite gset_eq. split; [exact A|]. split; [exact OUT|]. exists m. split; [exact D|]. cbn [phase gr_len gr_buf]. auto.
    + destruct P as (m & D & (L & F & NE)). pose proof (front_len _ _ F). pose proof (zlen_nonneg _ (fitted cap m)). rewrite slice0 by lia. cbn [bind]. rewrite L, (front_take _ _ F).
      eexists. split; [reflexivity|]. split; [exact BL|]. split; [intros; cbn [gr_pc]; rewrite gset_ne by assumption; auto|].
      destruct D as [(_ & D)| ->]; [contradiction|]. exists (taken ++ [m]), []. cbn [gr_queue gr_out gr_pc gr_len]. rewrite gset_eq. split; [rewrite A, <- app_assoc; reflexivity|]. split; [|reflexivity].
      rewrite handed_app, handed_one, OUT by exact NE. reflexivity.
Qed.
Lemma alone_runs : forall cap i ls, 2 <= cap -> only_reader i ls -> exists s, gruns cap (gram0 cap) ls = Ret s /\ alone cap i (arrivals ls) s.
Proof.
  intros cap i ls C. induction ls as [|l ls IH] using rev_ind; intros ONLY.
  - eexists. split; [reflexivity|]. split; [cbn; unfold zlen; rewrite repeat_length; lia|]. split; [reflexivity|]. exists [], []. repeat split.
  - destruct IH as (s & R & INV). { intros j H. apply ONLY. apply in_or_app. left. exact H. }
    destruct (alone_step cap i (arrivals ls) s l C INV) as (s' & ST & INV'). { intros j ->. apply ONLY. apply in_or_app. right. left. reflexivity. }
    exists s'. rewrite gruns_snoc, R. cbn [bind]. split; [exact ST|]. rewrite arrivals_app. destruct l; exact INV'.
Qed.

Lemma one_reader : forall cap i ls, 2 <= cap -> only_reader i ls -> exists s taken d, gruns cap (gram0 cap) ls = Ret s /\
  arrivals ls = taken ++ d ++ gr_queue s /\ gr_out s = map (fitted cap) (filter some_text taken) /\ (length d <= 1)%nat /\ (at_rest s -> d = []).
Proof.
  intros cap i ls C ONLY. destruct (alone_runs cap i ls C ONLY) as (s & R & _ & _ & taken & d & A & OUT & P). exists s, taken, d. split; [exact R|]. split; [exact A|]. split; [exact OUT|].
  split.
  - destruct (gr_pc s i); try (rewrite P; cbn; lia); try (destruct P as (-> & _); cbn; lia); destruct P as (m & [(-> & _)| ->] & _); cbn; lia.
  - intros REST. rewrite (REST i) in P. exact P.
Qed.

(* ---- any number of threads, datagrams that leave a byte free ---- *)
Definition column (A : list text) (b : text) : Prop := forall k v, rd b k = Ret v -> v = 0 \/ exists m, In m A /\ rd m k = Ret v.
Definition length_of (A : list text) (n : Z) : Prop := n = 0 \/ exists m, In m A /\ zlen m = n.
Definition mixed (cap : Z) (A : list text) (s : gstate) : Prop :=
  zlen (gr_buf s) = cap /\ column A (gr_buf s) /\ length_of A (gr_len s) /\ (forall m, In m (gr_queue s) -> In m A) /\
  (forall i, match gr_pc s i with GStore l => length_of A l | GNewline | GZero => False | _ => True end) /\
  (forall o, In o (gr_out s) -> length_of A (zlen o) /\ column A o).

Lemma length_lt : forall cap A n, 0 < cap -> Forall (fun m => zlen m < cap) A -> length_of A n -> 0 <= n < cap.
Proof.
  intros cap A n C F [->|(m & I & <-)]; [lia|]. rewrite Forall_forall in F. specialize (F m I). pose proof (zlen_nonneg _ m). lia.
Qed.
Lemma column_wr0 : forall A b i b', column A b -> wr b i 0 = Ret b' -> column A b' /\ zlen b' = zlen b.
Proof.
  intros A b i b' CO W. destruct (wr_rd _ _ _ _ _ W) as (L & H). split; [|exact L]. intros k v R. rewrite H in R. destruct (k =? i); [left; congruence|]. exact (CO k v R).
Qed.
Lemma pc_keep : forall (A : list text) (s : gstate) i p,
  (forall i, match gr_pc s i with GStore l => length_of A l | GNewline | GZero => False | _ => True end) ->
  match p with GStore l => length_of A l | GNewline | GZero => False | _ => True end ->
  forall j, match gpc_set (gr_pc s) i p j with GStore l => length_of A l | GNewline | GZero => False | _ => True end.
Proof. intros A s i p H P j. unfold gpc_set. destruct (Nat.eqb j i); [exact P|apply H]. Qed.
Lemma rd_app_or : forall (a b : text) k v, rd (a ++ b) k = Ret v -> rd a k = Ret v \/ zlen a <= k /\ rd b (k - zlen a) = Ret v.
Proof.
  intros a b k v H. destruct (Z_lt_le_dec k (zlen a)); [left; rewrite rd_app_l in H by assumption; exact H|right]. rewrite rd_app_r in H by assumption. auto.
Qed.
Lemma rd_firstn : forall (b : text) n k v, rd (firstn n b) k = Ret v -> rd b k = Ret v.
Proof.
  intros b n k v H. rewrite <- (firstn_skipn n b). assert (k < zlen (firstn n b)) by (apply rd_inv in H; lia). rewrite rd_app_l by assumption. exact H.
Qed.
Lemma rd_skipn : forall (b : text) n k v, Z.of_nat n <= zlen b -> 0 <= k -> rd (skipn n b) k = Ret v -> rd b (Z.of_nat n + k) = Ret v.
Proof.
  intros b n k v L K H. rewrite <- (firstn_skipn n b). assert (zlen (firstn n b) = Z.of_nat n) as F by (unfold zlen in *; rewrite firstn_length; lia).
  rewrite rd_app_r by lia. rewrite F. replace (Z.of_nat n + k - Z.of_nat n) with k by lia. exact H.
Qed.

Lemma mixed_step : forall cap A s l, 0 < cap -> Forall (fun m => zlen m < cap) A -> (forall m, l = Arrive m -> In m A) -> mixed cap A s ->
  exists s', gstep cap s l = Ret s' /\ mixed cap A s'.
Proof.
  intros cap A s l C SH ARR (BL & CO & LN & Q & PC & OUT). pose proof (length_lt cap A _ C SH LN) as LB. destruct l as [m|i].
  - eexists. split; [reflexivity|]. repeat split; cbn [gr_buf gr_len gr_queue gr_pc gr_out]; auto; try apply OUT; auto.
    intros x H. apply in_app_or in H. destruct H as [H|[<-|[]]]; [auto|]. apply ARR. reflexivity.
  - unfold gstep. pose proof (PC i) as PI. destruct (gr_pc s i) as [| | |l| | | | |] eqn:E.
    + destruct (wr_ok (gr_buf s) 0 0 ltac:(lia)) as (b & W). rewrite W. cbn [bind]. destruct (column_wr0 _ _ _ _ CO W) as (CO' & L'). eexists. split; [reflexivity|].
      repeat split; cbn [gr_buf gr_len gr_queue gr_pc gr_out]; auto; try lia; try apply OUT; auto. { left. reflexivity. } apply pc_keep; [exact PC|exact Logic.I].
    + destruct (wr_ok (gr_buf s) (gr_len s) 0 ltac:(lia)) as (b & W). rewrite W. cbn [bind]. destruct (column_wr0 _ _ _ _ CO W) as (CO' & L'). eexists. split; [reflexivity|].
      repeat split; cbn [gr_buf gr_len gr_queue gr_pc gr_out]; auto; try lia; try apply OUT; auto. apply pc_keep; [exact PC|exact Logic.I].
    + destruct (gr_queue s) as [|m q] eqn:QQ.
      * eexists. split; [reflexivity|]. repeat split; cbn [gr_buf gr_len gr_queue gr_pc gr_out]; auto; try lia; try apply OUT; auto. apply pc_keep; [exact PC|left; reflexivity].
      * assert (In m A) as MA by (apply Q; left; reflexivity). assert (zlen m < cap) as ML by (rewrite Forall_forall in SH; apply SH; exact MA).
        assert (firstn (Z.to_nat cap) m = m) as CUT by (apply firstn_all2; unfold zlen in ML; lia). rewrite CUT. pose proof (zlen_nonneg _ m).
        destruct (blit_front (gr_buf s) m) as (b & W & WL & F); [lia|]. assert (column A b) as CO'.
        { intros k v R. apply blit_inv in W. destruct W as (_ & _ & ->). cbn [Z.to_nat firstn app] in R. apply rd_app_or in R. destruct R as [R|(K & R)]; [right; eauto|].
          apply rd_skipn in R; [|lia|lia]. apply (CO k). replace k with (Z.of_nat (Z.to_nat (0 + zlen m)) + (k - zlen m)) by lia. exact R. }
        rewrite W. cbn [bind]. eexists. split; [reflexivity|].
        repeat split; cbn [gr_buf gr_len gr_queue gr_pc gr_out]; auto; try lia; try apply OUT; auto.
        -- intros x H'. apply Q. right. exact H'.
        -- apply pc_keep; [exact PC|right; eauto].
    + eexists. split; [reflexivity|]. repeat split; cbn [gr_buf gr_len gr_queue gr_pc gr_out]; auto; try lia; try apply OUT; auto. apply pc_keep; [exact PC|exact Logic.I].
    + destruct (gr_len s =? cap) eqn:T; [lia|]. eexists. split; [reflexivity|]. repeat split; cbn [gr_buf gr_len gr_queue gr_pc gr_out]; auto; try lia; try apply OUT; auto. apply pc_keep; [exact PC|exact Logic.I].
    + contradiction.
    + contradiction.
    + eexists. split; [reflexivity|]. repeat split; cbn [gr_buf gr_len gr_queue gr_pc gr_out]; auto; try lia; try apply OUT; auto. apply pc_keep; [exact PC|]. destruct (gr_len s =? 0); exact Logic.I.
    + rewrite slice0 by lia. cbn [bind]. eexists. split; [reflexivity|].
      assert (forall o, In o (gr_out s ++ [firstn (Z.to_nat (gr_len s)) (gr_buf s)]) -> length_of A (zlen o) /\ column A o) as OO.
      { intros o H. apply in_app_or in H. destruct H as [H|[<-|[]]]; [auto|]. split; [rewrite zlen_cut by lia; rewrite Z.min_l by lia; exact LN|]. intros k v R. apply rd_firstn in R. exact (CO k v R). }
      repeat split; cbn [gr_buf gr_len gr_queue gr_pc gr_out]; auto; try lia; try apply OO; auto. apply pc_keep; [exact PC|exact Logic.I].
Qed.
Lemma mixed_runs : forall cap A ls, 0 < cap -> Forall (fun m => zlen m < cap) A -> (forall m, In (Arrive m) ls -> In m A) -> exists s, gruns cap (gram0 cap) ls = Ret s /\ mixed cap A s.
Proof.
  intros cap A ls C SH. induction ls as [|l ls IH] using rev_ind; intros ARR.
  - eexists. split; [reflexivity|]. split; [|split; [|split; [|split; [|split]]]].
    + cbn [gr_buf gram0]. unfold zlen. rewrite repeat_length. lia.
    + intros k v R. left. cbn [gr_buf gram0] in R. apply rd_inv in R. assert (In v (repeat 0 (Z.to_nat cap))) as I. { apply (nth_error_In _ (Z.to_nat k)). apply R. } apply repeat_spec in I. exact I.
    + left. reflexivity.
    + intros m [].
    + intros i. exact Logic.I.
    + intros o [].
  - destruct IH as (s & R & INV). { intros m H. apply ARR. apply in_or_app. left. exact H. }
    destruct (mixed_step cap A s l C SH) as (s' & ST & INV'); [intros m ->; apply ARR; apply in_or_app; right; left; reflexivity|exact INV|].
    exists s'. rewrite gruns_snoc, R. cbn [bind]. auto.
Qed.
Lemma arrive_in : forall ls m, In (Arrive m) ls -> In m (arrivals ls).
Proof.
  induction ls as [|l ls IH]; intros m H; [destruct H|]. destruct H as [->|H]; [left; reflexivity|]. destruct l; cbn [arrivals]; [right|]; auto.
Qed.
Lemma short_grams : forall cap ls, 0 < cap -> Forall (fun m => zlen m < cap) (arrivals ls) -> exists s, gruns cap (gram0 cap) ls = Ret s /\
  forall o, In o (gr_out s) -> (o = [] \/ exists m, In m (arrivals ls) /\ zlen m = zlen o) /\
    forall k v, rd o k = Ret v -> v = 0 \/ exists m, In m (arrivals ls) /\ rd m k = Ret v.
Proof.
  intros cap ls C SH. destruct (mixed_runs cap (arrivals ls) ls C SH (arrive_in ls)) as (s & R & M). exists s. split; [exact R|]. intros o H. destruct M as (_ & _ & _ & _ & _ & M).
  destruct (M o H) as (L & CO). split; [|exact CO]. destruct L as [L|L]; [left|right; exact L]. destruct o; [reflexivity|]. rewrite zlen_cons in L. pose proof (zlen_nonneg _ o). lia.
Qed.
Lemma never_ran : forall cap ls i s, ~ In (GRun i) ls -> gruns cap (gram0 cap) ls = Ret s -> gr_pc s i = GStart.
Proof.
  intros cap ls i. induction ls as [|l ls IH] using rev_ind; intros s N R.
  - injection R as <-. reflexivity.
  - rewrite gruns_snoc in R. destruct (bind_ret_inv _ _ _ _ _ R) as (s0 & R0 & ST). assert (gr_pc s0 i = GStart) as P. { apply IH; [|exact R0]. intros I. apply N. apply in_or_app. left. exact I. }
    destruct l as [m|j]; [injection ST as <-; exact P|]. assert (i <> j) as NE. { intros ->. apply N. apply in_or_app. right. left. reflexivity. }
    unfold gstep in ST. destruct (gr_pc s0 j); try (destruct (gr_queue s0)); try (destruct (bind_ret_inv _ _ _ _ _ ST) as (? & _ & ST')); try (injection ST as <-); try (injection ST' as <-); cbn [gr_pc]; rewrite gset_ne by exact NE; exact P.
Qed.
