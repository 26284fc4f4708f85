(* Proofs about the socket of a UDP input. *)
From Coq Require Import ZArith List Bool Arith Lia.
From Verif Require Sys.
From Verif Require Import Base Socket SocketSpec.
Import ListNotations.
Open Scope Z_scope.

Lemma upd_eq : forall A (f : nat -> A) i x, upd f i x i = x.
Proof. intros. unfold upd. rewrite Nat.eqb_refl. reflexivity. Qed.
Lemma upd_ne : forall A (f : nat -> A) i x j, j <> i -> upd f i x j = f j.
Proof. intros. unfold upd. destruct (Nat.eqb_spec j i); [contradiction|reflexivity]. Qed.
Lemma sruns_snoc : forall ls l s, sruns s (ls ++ [l]) = match sruns s ls with Some s => sstep s l | None => None end.
Proof.
  induction ls as [|x ls IH]; intros l s; cbn [app sruns].
  - destruct (sstep s l); reflexivity.
  - destruct (sstep s x); [apply IH|reflexivity].
Qed.

Definition owned (s : sstate) (p : spc) : Prop :=
  match p with
  | SClose3 _ => forall fd, k_fds s fd <> KSock
  | SOpen4 r => k_h s = None /\ forall fd, k_fds s fd = KSock <-> r = Some fd
  | SOpen1 | SOpen2 | SOpen3 => no_leak s /\ k_h s = None
  | _ => no_leak s
  end.
Definition sole (i : nat) (s : sstate) : Prop := k_foreign s = false /\ owned s (k_pc s i).

(* the rest of the process uses other descriptors *)
Lemma other_sock : forall (f : nat -> fdkind) fd x y, x <> KSock -> f fd <> KSock -> (upd f fd x y = KSock <-> f y = KSock).
Proof. intros f fd x y X F. destruct (Nat.eq_dec y fd) as [->|N]; [rewrite upd_eq; split; congruence|rewrite upd_ne by exact N; tauto]. Qed.
Lemma owned_same : forall s s' p, k_h s' = k_h s -> (forall y, k_fds s' y = KSock <-> k_fds s y = KSock) -> owned s p -> owned s' p.
Proof.
  intros s s' p H F O. destruct p; cbn [owned] in *; unfold no_leak in *; rewrite ?H; try (intros y; rewrite F; apply O).
  - destruct O as (O & N). split; [intros y; rewrite F; apply O|exact N].
  - destruct O as (O & N). split; [intros y; rewrite F; apply O|exact N].
  - destruct O as (O & N). split; [intros y; rewrite F; apply O|exact N].
  - destruct O as (N & O). split; [exact N|intros y; rewrite F; apply O].
Qed.

Lemma sole_step : forall i s l s', sole i s -> (forall j fd ok, l = SRun j fd ok -> j = i) -> sstep s l = Some s' -> sole i s'.
Proof.
  intros i s l s' (FG & O) ONLY ST. destruct l as [t|b|fd|fd|j fd ok].
  - injection ST as <-. split; [exact FG|]. apply (owned_same s); [reflexivity| |exact O]. tauto.
  - injection ST as <-. split; [exact FG|]. apply (owned_same s); [reflexivity| |exact O]. tauto.
  - cbn [sstep] in ST. destruct (k_fds s fd) eqn:K; try discriminate. injection ST as <-. split; [exact FG|]. apply (owned_same s); [reflexivity| |exact O]. intros y. cbn. apply other_sock; congruence.
  - cbn [sstep] in ST. destruct (k_fds s fd) eqn:K; try discriminate. injection ST as <-. split; [exact FG|]. apply (owned_same s); [reflexivity| |exact O]. intros y. cbn. apply other_sock; congruence.
  - rewrite (ONLY j fd ok eq_refl) in *. cbn [sstep] in ST. unfold is_open in ST. revert O ST. destruct (k_pc s i) as [| |d|d|d| | | | |r| | | |] eqn:E; intros O ST; cbn [owned] in O.
    + injection ST as <-. split; [exact FG|]. cbn [go k_pc]. rewrite upd_eq. destruct (k_able s); exact O.
    + injection ST as <-. split; [exact FG|]. cbn [go k_pc]. rewrite upd_eq. destruct (k_h s); exact O.
    + injection ST as <-. split; [exact FG|]. cbn [go k_pc]. rewrite upd_eq. destruct (k_h s), d; exact O.
    + destruct (k_h s) as [f|] eqn:H.
      * assert (k_fds s f = KSock) as KS by (apply O; exact H). rewrite KS in ST. injection ST as <-. split; [exact FG|]. cbn [go with_fds k_pc k_fds owned]. rewrite upd_eq. cbn [owned]. intros y. cbn [go with_fds k_fds].
        destruct (Nat.eq_dec y f) as [->|N]; [rewrite upd_eq; discriminate|]. rewrite upd_ne by exact N. intros Y. apply O in Y. congruence.
      * injection ST as <-. split; [exact FG|]. cbn [go k_pc]. rewrite upd_eq. cbn [owned go k_fds]. intros y Y. apply O in Y. congruence.
    + injection ST as <-. split; [exact FG|]. cbn [k_pc]. rewrite upd_eq. assert (forall y, k_fds s y = KSock <-> None = Some y) as Q by (intros y; split; intros Y; [destruct (O y Y)|discriminate]). destruct d; exact Q.
    + injection ST as <-. split; [exact FG|]. cbn [go k_pc]. rewrite upd_eq. destruct (k_h s) eqn:H; [exact O|]. split; [exact O|exact H].
    + destruct O as (O & N). injection ST as <-. split; [exact FG|]. cbn [go k_pc]. rewrite upd_eq. destruct (_ <=? _); [exact O|]. split; [exact O|exact N].
    + destruct O as (O & N). injection ST as <-. split; [exact FG|]. cbn [k_pc]. rewrite upd_eq. split; [exact O|exact N].
    + destruct O as (O & N). destruct fd as [f|].
      * destruct (k_fds s f) eqn:K; try discriminate. injection ST as <-. split; [exact FG|]. cbn [go with_fds k_pc]. rewrite upd_eq. cbn [owned go with_fds k_h k_fds]. split; [exact N|].
        intros y. destruct (Nat.eq_dec y f) as [->|NE]; [rewrite upd_eq; tauto|]. rewrite upd_ne by exact NE. split; intros Y; [apply O in Y; congruence|congruence].
      * injection ST as <-. split; [exact FG|]. cbn [go k_pc]. rewrite upd_eq. cbn [owned go k_h k_fds]. split; [exact N|]. intros y. rewrite <- N. apply O.
    + destruct O as (N & O). injection ST as <-. split; [exact FG|]. cbn [k_pc]. rewrite upd_eq. exact O.
    + injection ST as <-. split; [exact FG|]. cbn [go k_pc]. rewrite upd_eq. destruct (k_h s); exact O.
    + injection ST as <-. split; [exact FG|]. cbn [go k_pc]. rewrite upd_eq. destruct ok; exact O.
    + injection ST as <-. split; [exact FG|]. cbn [go k_pc]. rewrite upd_eq. destruct (k_h s); exact O.
    + destruct (k_h s) as [f|] eqn:H.
      * assert (k_fds s f = KSock) as KS by (apply O; exact H). rewrite KS in ST. injection ST as <-. split; [exact FG|]. cbn [go with_fds k_pc]. rewrite upd_eq. exact O.
      * injection ST as <-. split; [exact FG|]. cbn [go with_fds k_pc]. rewrite upd_eq. exact O.
Qed.
Lemma sole_runs : forall i t fds ls s, (forall fd, fds fd <> KSock) -> only_runs i ls -> sruns (sock0 t fds) ls = Some s -> sole i s.
Proof.
  intros i t fds ls. induction ls as [|l ls IH] using rev_ind; intros s F ONLY R.
  - injection R as <-. split; [reflexivity|]. cbn. intros y. cbn. split; [intros Y; destruct (F y Y)|discriminate].
  - rewrite sruns_snoc in R. destruct (sruns (sock0 t fds) ls) as [s0|] eqn:E; [|discriminate]. apply (sole_step i s0 l s).
    + apply IH; [exact F| |reflexivity]. intros j fd ok H. apply (ONLY j fd ok). apply in_or_app. left. exact H.
    + intros j fd ok ->. apply (ONLY j fd ok). apply in_or_app. right. left. reflexivity.
    + exact R.
Qed.
Lemma one_thread_socket : forall i t fds ls s, (forall fd, fds fd <> KSock) -> only_runs i ls -> sruns (sock0 t fds) ls = Some s ->
  k_foreign s = false /\ single s /\ (resting s -> no_leak s).
Proof.
  intros i t fds ls s F ONLY R. destruct (sole_runs i t fds ls s F ONLY R) as (FG & O). split; [exact FG|]. split.
  - assert (exists r, forall fd, k_fds s fd = KSock -> r = Some fd) as (r & H).
    { unfold owned, no_leak in O. destruct (k_pc s i); try (exists (k_h s); intros fd; apply O); try (destruct O as (O & N); exists (k_h s); intros fd; apply O).
      - exists None. intros fd Y. destruct (O fd Y).
      - destruct O as (_ & O). eexists. intros y. apply O. }
    intros a b X Y. apply H in X, Y. congruence.
  - intros REST. rewrite (REST i) in O. exact O.
Qed.

(* ---- a socket that is open already ---- *)
Definition settled (f : nat) (s : sstate) : Prop :=
  k_h s = Some f /\ no_leak s /\ k_able s = true /\ k_foreign s = false /\
  forall i, match k_pc s i with SStart | SEn | SUse | SRecv => True | _ => False end.
Lemma settled_step : forall f s l s', settled f s -> l <> SAble false -> sstep s l = Some s' -> settled f s'.
Proof.
  intros f s l s' (H & O & AB & FG & PC) NA ST.
  assert (forall i p, match p with SStart | SEn | SUse | SRecv => True | _ => False end -> forall j, match upd (k_pc s) i p j with SStart | SEn | SUse | SRecv => True | _ => False end) as UP.
  { intros i p P j. unfold upd. destruct (Nat.eqb j i); [exact P|apply PC]. }
  destruct l as [t|b|fd|fd|i fd ok].
  - injection ST as <-. repeat split; auto; apply O.
  - injection ST as <-. repeat split; auto; try apply O. cbn. destruct b; congruence.
  - cbn [sstep] in ST. destruct (k_fds s fd) eqn:K; try discriminate. injection ST as <-. split; [exact H|]. split; [|auto]. intros y. cbn. rewrite other_sock by congruence. apply O.
  - cbn [sstep] in ST. destruct (k_fds s fd) eqn:K; try discriminate. injection ST as <-. split; [exact H|]. split; [|auto]. intros y. cbn. rewrite other_sock by congruence. apply O.
  - cbn [sstep] in ST. unfold is_open in ST. rewrite H, AB in ST. assert (k_fds s f = KSock) as KS by (apply O; exact H). rewrite KS in ST. pose proof (PC i) as P.
    destruct (k_pc s i); try contradiction; injection ST as <-; (split; [exact H|]; split; [exact O|]; split; [exact AB|]; split; [exact FG|]; apply UP; exact Logic.I).
Qed.
Lemma settled_runs : forall f ls s s', settled f s -> stays_enabled ls -> sruns s ls = Some s' -> settled f s'.
Proof.
  intros f ls. induction ls as [|l ls IH]; intros s s' I E R; cbn [sruns] in R; [injection R as <-; exact I|].
  destruct (sstep s l) as [s1|] eqn:ST; [|discriminate]. apply (IH s1).
  - apply (settled_step f s l); [exact I| |exact ST]. intros ->. apply E. left. reflexivity.
  - intros X. apply E. right. exact X.
  - exact R.
Qed.
Lemma open_stays : forall f ls s s', resting s -> k_h s = Some f -> no_leak s -> k_able s = true -> k_foreign s = false -> stays_enabled ls -> sruns s ls = Some s' ->
  k_h s' = Some f /\ no_leak s' /\ k_foreign s' = false.
Proof.
  intros f ls s s' REST H O AB FG E R. destruct (settled_runs f ls s s') as (H' & O' & _ & FG' & _); [|exact E|exact R|auto].
  repeat split; auto; try apply O. intros i. rewrite (REST i). exact Logic.I.
Qed.
(* a thread that never comes stays where it is *)
Lemma absent : forall i ls s s', (forall fd ok, ~ In (SRun i fd ok) ls) -> sruns s ls = Some s' -> k_pc s' i = k_pc s i.
Proof.
  intros i ls. induction ls as [|l ls IH]; intros s s' N R; cbn [sruns] in R; [injection R as <-; reflexivity|].
  destruct (sstep s l) as [s1|] eqn:ST; [|discriminate]. rewrite (IH s1 s'); [|intros fd ok I; apply (N fd ok); right; exact I|exact R].
  destruct l as [t|b|fd|fd|j fd ok]; cbn [sstep] in ST.
  - injection ST as <-. reflexivity.
  - injection ST as <-. reflexivity.
  - destruct (k_fds s fd); try discriminate. injection ST as <-. reflexivity.
  - destruct (k_fds s fd); try discriminate. injection ST as <-. reflexivity.
  - assert (i <> j) as NE by (intros ->; apply (N fd ok); left; reflexivity).
    destruct (k_pc s j); repeat match type of ST with context [match ?x with _ => _ end = Some _] => destruct x; try discriminate end; injection ST as <-; cbn [go with_fds k_pc]; apply upd_ne; exact NE.
Qed.
Lemma seen : forall (o : option sstate) (P : sstate -> Prop), match o with Some s => P s | None => False end -> exists s, o = Some s /\ P s.
Proof. intros [s|] P H; [eauto|contradiction]. Qed.
Definition thread_of (l : slabel) : nat := match l with SRun i _ _ => i | _ => 0%nat end.
Lemma all_rest : forall n ls t fds s, forallb (fun l => Nat.ltb (thread_of l) n) ls = true -> sruns (sock0 t fds) ls = Some s ->
  forallb (fun i => match k_pc s i with SStart => true | _ => false end) (seq 0 n) = true -> resting s.
Proof.
  intros n ls t fds s LT R P i. rewrite forallb_forall in LT, P. destruct (lt_dec i n) as [L|L].
  - specialize (P i ltac:(apply in_seq; lia)). destruct (k_pc s i); [reflexivity|discriminate..].
  - rewrite (absent i ls (sock0 t fds) s); [reflexivity| |exact R]. intros fd ok I. apply LT in I. cbn [thread_of] in I. apply Nat.ltb_lt in I. lia.
Qed.

(* an undisturbed visit is a round of Sys.v *)
Lemma upd_same : forall A (f : nat -> A) i x, upd f i x i = x.
Proof. intros. unfold upd. now rewrite Nat.eqb_refl. Qed.
Lemma visit_S : forall n s i fd ok, visit (S n) s i fd ok = match sstep s (SRun i fd ok) with None => None | Some s => match k_pc s i with SStart => Some s | _ => visit n s i fd ok end end.
Proof. reflexivity. Qed.
Ltac red_ := repeat (progress (cbn [sstep go k_pc k_able k_h k_ts k_now k_fds k_foreign is_open with_fds]; rewrite ?upd_same)).
Ltac vs := rewrite visit_S; red_.
Lemma visit_round : forall s i fd ok addr, k_pc s i = SStart -> (forall x, fd = Some x -> k_fds s x = KFree) ->
  exists s', visit 12 s i fd ok = Some s' /\ k_pc s' i = SStart /\
    as_sys s' addr = fst (Sys.in_round (Sys.mkRoundIo (k_now s) (k_able s) addr (match fd with Some _ => true | None => false end) ok) (as_sys s addr)) /\
    (k_h s = None -> k_h s' = None \/ k_h s' = fd) /\ (k_able s = true -> forall f, k_h s = Some f -> k_h s' = Some f /\ forall x, k_fds s' x = k_fds s x) /\
    (forall f, k_h s = Some f -> k_able s = false -> k_fds s' f = KFree).
Proof.
  intros [h ts now able fds fg pc] i fd ok addr P F. cbn in P, F.
  assert (START : forall n h ts now able fds fg, visit (S n) (mkSs h ts now able fds fg pc) i fd ok = visit n (mkSs h ts now able fds fg (upd pc i (if able then SEn else SDis))) i fd ok).
  { intros. rewrite visit_S. cbn [sstep k_pc]. rewrite P. cbn [go k_pc k_able k_h k_ts k_now k_fds k_foreign]. rewrite upd_same. destruct able0; reflexivity. }
  rewrite START. clear START. destruct able, h as [f|].
  - vs. vs. vs. eexists; split; [reflexivity|]. red_. split; [reflexivity|]. split; [reflexivity|]. split; [discriminate|]. split; [|discriminate]. intros _ f' [= ->]. auto.
  - vs. vs. unfold as_sys, Sys.in_round, Sys.udp_open. cbn [negb Sys.ri_able Sys.ri_now Sys.ri_sock Sys.ri_bind Sys.ri_addr Sys.is_open Sys.u_sock Sys.u_ts k_ts k_h k_now].
    destruct (now <=? ts + 2).
    + vs. vs. eexists; split; [reflexivity|]. red_. repeat split; auto; discriminate.
    + vs. destruct fd as [x|].
      * rewrite visit_S. red_. rewrite (F x eq_refl). red_. vs. vs. destruct ok; vs.
        -- vs. vs. eexists; split; [reflexivity|]. red_. repeat split; auto; discriminate.
        -- vs. vs. vs. vs. eexists; split; [reflexivity|]. red_. repeat split; auto; discriminate.
      * vs. vs. vs. vs. eexists; split; [reflexivity|]. red_. repeat split; auto; discriminate.
  - vs. vs. vs. vs. eexists; split; [reflexivity|]. red_. split; [reflexivity|]. split; [reflexivity|]. split; [discriminate|]. split; [discriminate|]. intros f' [= ->] _. apply upd_same.
  - vs. eexists; split; [reflexivity|]. red_. repeat split; auto; discriminate.
Qed.
