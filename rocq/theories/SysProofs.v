(* Proofs about Sys.v. *)
From Coq Require Import String ZArith List Bool Lia ZifyBool ZifyNat ZifyN.
From Verif Require Import Base BaseFacts ParseVal Sys SysSpec.
Import ListNotations.
Open Scope Z_scope.

Lemma read_loop_all : forall fuel bufsiz rest content, (0 < bufsiz)%nat -> (length rest < fuel)%nat -> read_loop fuel bufsiz rest content = Ret (content ++ rest).
Proof.
  intros fuel. induction fuel as [|fuel IH]; intros bufsiz rest content B L; [lia|]. cbn [read_loop]. destruct (Nat.eqb_spec (length (firstn bufsiz rest)) bufsiz) as [E | E].
  - rewrite firstn_length in E. rewrite IH; [|exact B|rewrite skipn_length; lia]. rewrite <- app_assoc, firstn_skipn. reflexivity.
  - rewrite firstn_length in E. rewrite firstn_all2 by lia. reflexivity.
Qed.

Lemma fgets_all : forall n s, ~ In 10 s -> (length s <= n)%nat -> forall r, exists r', fgets n (s ++ 0 :: r) = s ++ r' /\ (r' = [] \/ exists r'', r' = 0 :: r'').
Proof.
  intros n. induction n as [|n IH]; intros s NL L r; destruct s as [|c s]; cbn [length] in L; try lia.
  - exists []. auto.
  - cbn [app fgets]. change (0 =? 10) with false. cbn iota. eexists. split; [reflexivity|]. right. eexists. reflexivity.
  - cbn [app fgets]. destruct (Z.eqb_spec c 10) as [-> | _]; [exfalso; apply NL; left; reflexivity|]. destruct (IH s (fun I => NL (or_intror I)) ltac:(lia) r) as (r' & E & R). exists r'. rewrite E. auto.
Qed.
Lemma c_string_all : forall s r, ~ In 0 s -> r = [] \/ (exists r'', r = 0 :: r'') -> c_string (s ++ r) = s.
Proof.
  intros s. induction s as [|c s IH]; intros r NZ R.
  - destruct R as [-> | [r'' ->]]; reflexivity.
  - cbn [app c_string]. destruct (Z.eqb_spec c 0) as [-> | _]; [exfalso; apply NZ; left; reflexivity|]. rewrite IH; [reflexivity|intros I; apply NZ; right; exact I|exact R].
Qed.
Lemma existsb_not : forall x (l : text), ~ In x l -> existsb (Z.eqb x) l = false.
Proof. intros x l N. destruct (existsb (Z.eqb x) l) eqn:E; [|reflexivity]. apply existsb_exists in E. destruct E as (y & I & Q). assert (x = y) by lia. subst y. contradiction. Qed.
Lemma after_last_base : forall d b, ~ In 47 b -> after_last 47 (d ++ 47 :: b) = b.
Proof.
  intros d b N. induction d as [|c d IH]; cbn [app after_last].
  - rewrite (existsb_not 47 b N). reflexivity.
  - replace (existsb (Z.eqb 47) (d ++ 47 :: b)) with true; [exact IH|]. symmetry. apply existsb_exists. exists 47. split; [apply in_or_app; right; left; reflexivity|reflexivity].
Qed.
Lemma after_last_none : forall b, ~ In 47 b -> after_last 47 b = b.
Proof.
  intros [|c b] N; [reflexivity|]. cbn [after_last]. rewrite (existsb_not 47 b) by (intros I; apply N; right; exact I). destruct (Z.eqb_spec c 47) as [-> | _]; [exfalso; apply N; left; reflexivity|reflexivity].
Qed.
Lemma name_base : forall argv0 args b, ~ In 0 argv0 -> ~ In 10 argv0 -> zlen argv0 <= 499 -> base_name argv0 b ->
  process_name (Some (mkStream (argv0 ++ 0 :: args) None)) = b /\ logger_name (Some (mkStream (argv0 ++ 0 :: args) None)) = firstn 249 b.
Proof.
  intros argv0 args b NZ NL L [NB BN]. assert (E : process_name (Some (mkStream (argv0 ++ 0 :: args) None)) = b); [|split; [exact E|unfold logger_name; rewrite E; reflexivity]].
  unfold process_name, read_line, readable. cbn [f_bad f_bytes]. destruct (fgets_all 499 argv0 NL ltac:(unfold zlen in L; lia) args) as (r & -> & R). rewrite (c_string_all argv0 r NZ R).
  destruct BN as [-> | [d ->]]; [apply after_last_none, NB|apply after_last_base, NB].
Qed.

(* ---- directories ---- *)
Lemma create_kept : forall {F} isd mkd rest pre (fs : F) fs' r l q, keeps isd mkd -> create_from isd mkd pre rest fs = (fs', r, l) -> isd fs q = true -> isd fs' q = true.
Proof.
  intros F isd mkd rest. induction rest as [|c rest IH]; intros pre fs fs' r l q K H Q; cbn [create_from] in H; [injection H as <- _ _; exact Q|].
  destruct (c =? 47); [|exact (IH _ _ _ _ _ q K H Q)]. destruct ((0 <? zlen pre) && negb (isd fs pre)); [|exact (IH _ _ _ _ _ q K H Q)].
  pose proof (k_kept isd mkd K fs pre q Q) as Q1. destruct (mkd fs pre) as [fs1 [|]]; cbn [fst] in Q1; [|injection H as <- _ _; exact Q1].
  destruct (create_from isd mkd (pre ++ [c]) rest fs1) as [[fs2 r2] l2] eqn:H2. injection H as <- _ _. exact (IH _ _ _ _ _ q K H2 Q1).
Qed.
Lemma create_true : forall {F} isd mkd rest pre (fs : F) fs' l, keeps isd mkd -> create_from isd mkd pre rest fs = (fs', true, l) ->
  forall a b, rest = a ++ 47 :: b -> pre ++ a <> [] -> isd fs' (pre ++ a) = true.
Proof.
  intros F isd mkd rest. induction rest as [|c rest IH]; intros pre fs fs' l K H a b E NE; [destruct a; discriminate|]. cbn [create_from] in H.
  destruct a as [|x a]; cbn [app] in E.
  - injection E as -> ->. rewrite app_nil_r in *. change (47 =? 47) with true in H. cbn iota in H.
    assert (PZ : 0 <? zlen pre = true) by (destruct pre; [congruence|rewrite zlen_cons; pose proof (zlen_nonneg _ pre); lia]). rewrite PZ in H. cbn [andb] in H.
    destruct (isd fs pre) eqn:D; cbn [negb] in H; [exact (create_kept isd mkd _ _ _ _ _ _ pre K H D)|].
    destruct (mkd fs pre) as [fs1 [|]] eqn:M; [|discriminate]. destruct (create_from isd mkd (pre ++ [47]) b fs1) as [[fs2 r2] l2] eqn:H2. injection H as <- _ _.
    exact (create_kept isd mkd _ _ _ _ _ _ pre K H2 (k_made isd mkd K fs pre fs1 M)).
  - injection E as -> E. replace (pre ++ x :: a) with ((pre ++ [x]) ++ a) by (rewrite <- app_assoc; reflexivity). assert (NE2 : (pre ++ [x]) ++ a <> []) by (destruct pre; discriminate).
    destruct (x =? 47); [|exact (IH _ _ _ _ K H a b E NE2)]. destruct ((0 <? zlen pre) && negb (isd fs pre)); [|exact (IH _ _ _ _ K H a b E NE2)].
    destruct (mkd fs pre) as [fs1 [|]]; [|discriminate]. destruct (create_from isd mkd (pre ++ [x]) rest fs1) as [[fs2 r2] l2] eqn:H2. injection H as <- -> _. exact (IH _ _ _ _ K H2 a b E NE2).
Qed.
Lemma create_made : forall {F} isd mkd rest pre (fs : F) fs' r l, keeps isd mkd -> create_from isd mkd pre rest fs = (fs', r, l) ->
  forall q, In q l -> isd fs q = false /\ isd fs' q = true /\ exists a b, rest = a ++ 47 :: b /\ q = pre ++ a /\ q <> [].
Proof.
  intros F isd mkd rest. induction rest as [|c rest IH]; intros pre fs fs' r l K H q I; cbn [create_from] in H; [injection H as _ _ <-; destruct I|].
  assert (STEP : forall fs1 l1 r1 fs2, create_from isd mkd (pre ++ [c]) rest fs1 = (fs2, r1, l1) -> (forall x, isd fs x = true -> isd fs1 x = true) -> In q l1 ->
    isd fs q = false /\ isd fs2 q = true /\ exists a b, c :: rest = a ++ 47 :: b /\ q = pre ++ a /\ q <> []).
  { intros fs1 l1 r1 fs2 H1 MO I1. destruct (IH _ _ _ _ _ K H1 q I1) as (A & B & a & b & E1 & E2 & E3). split; [destruct (isd fs q) eqn:D; [rewrite (MO q D) in A; discriminate|reflexivity]|]. split; [exact B|].
    exists (c :: a), b. cbn [app]. rewrite E1. split; [reflexivity|]. split; [rewrite E2, <- app_assoc; reflexivity|exact E3]. }
  destruct (Z.eqb_spec c 47) as [C | C]; [|exact (STEP fs l r fs' H (fun _ x => x) I)]. destruct ((0 <? zlen pre) && negb (isd fs pre)) eqn:G; [|exact (STEP fs l r fs' H (fun _ x => x) I)].
  assert (MO : forall x, isd fs x = true -> isd (fst (mkd fs pre)) x = true) by (intros x; apply (k_kept isd mkd K)).
  destruct (mkd fs pre) as [fs1 [|]] eqn:M; cbn [fst] in MO; [|injection H as _ _ <-; destruct I]. destruct (create_from isd mkd (pre ++ [c]) rest fs1) as [[fs2 r2] l2] eqn:H2. injection H as <- _ <-.
  destruct I as [<- | I]; [|exact (STEP fs1 l2 r2 fs2 H2 MO I)]. apply andb_prop in G. destruct G as [G1 G2]. split; [destruct (isd fs pre); [discriminate|reflexivity]|].
  split; [exact (create_kept isd mkd _ _ _ _ _ _ pre K H2 (k_made isd mkd K fs pre fs1 M))|]. exists [], rest. cbn [app]. rewrite C, app_nil_r. split; [reflexivity|]. split; [reflexivity|]. intros ->. discriminate G1.
Qed.
Lemma create_false : forall {F} isd mkd rest pre (fs : F) fs' l, create_from isd mkd pre rest fs = (fs', false, l) ->
  exists a b f1 f2, rest = a ++ 47 :: b /\ pre ++ a <> [] /\ isd f1 (pre ++ a) = false /\ mkd f1 (pre ++ a) = (f2, false) /\ fs' = f2.
Proof.
  intros F isd mkd rest. induction rest as [|c rest IH]; intros pre fs fs' l H; cbn [create_from] in H; [discriminate|].
  assert (STEP : forall fs1 l1, create_from isd mkd (pre ++ [c]) rest fs1 = (fs', false, l1) -> exists a b f1 f2, c :: rest = a ++ 47 :: b /\ pre ++ a <> [] /\ isd f1 (pre ++ a) = false /\ mkd f1 (pre ++ a) = (f2, false) /\ fs' = f2).
  { intros fs1 l1 H1. destruct (IH _ _ _ _ H1) as (a & b & f1 & f2 & E & NE & A & B & C). exists (c :: a), b, f1, f2. rewrite <- app_assoc in NE, A, B. cbn [app] in *. rewrite E. auto. }
  destruct (Z.eqb_spec c 47) as [C | C]; [|exact (STEP fs l H)]. destruct ((0 <? zlen pre) && negb (isd fs pre)) eqn:G; [|exact (STEP fs l H)].
  destruct (mkd fs pre) as [fs1 [|]] eqn:M.
  - destruct (create_from isd mkd (pre ++ [c]) rest fs1) as [[fs2 r2] l2] eqn:H2. injection H as -> -> _. exact (STEP fs1 l2 H2).
  - injection H as <- _. apply andb_prop in G. exists [], rest, fs, fs1. cbn [app]. rewrite app_nil_r, C. split; [reflexivity|]. split; [intros ->; destruct G; discriminate|]. split; [destruct (isd fs pre); [destruct G; discriminate|reflexivity]|]. auto.
Qed.

(* [dir] ends with a slash or is empty, [s] is the component so far *)
Lemma create_total : forall {F} isd mkd rest dir s (fs : F), keeps isd mkd -> makes isd mkd -> ~ In 47 s -> (dir = [] \/ exists d, dir = d ++ [47] /\ isd fs dir = true) ->
  snd (fst (create_from isd mkd (dir ++ s) rest fs)) = true.
Proof.
  intros F isd mkd rest. induction rest as [|c rest IH]; intros dir s fs K M NS D; cbn [create_from]; [reflexivity|].
  destruct (Z.eqb_spec c 47) as [-> | C].
  - (* at a slash *)
    assert (NEXT : forall f, (dir ++ s = [] \/ isd f (dir ++ s) = true) -> snd (fst (create_from isd mkd ((dir ++ s) ++ [47]) rest f)) = true).
    { intros f DS. rewrite <- (app_nil_r ((dir ++ s) ++ [47])). apply IH; [exact K|exact M|intros []|]. right. exists (dir ++ s). split; [reflexivity|].
      destruct DS as [-> | DS]; [apply (m_root isd mkd M)|]. destruct (dir ++ s) as [|y l] eqn:Q; [apply (m_root isd mkd M)|]. rewrite (m_slash isd mkd M); [exact DS|discriminate]. }
    destruct ((0 <? zlen (dir ++ s)) && negb (isd fs (dir ++ s))) eqn:G.
    + apply andb_prop in G. destruct G as [G1 G2]. apply negb_true_iff in G2.
      assert (MK : snd (mkd fs (dir ++ s)) = true).
      { destruct D as [-> | (d & -> & D)].
        - cbn [app] in *. apply (m_first isd mkd M); [intros ->; discriminate G1|exact NS|exact G2].
        - rewrite <- app_assoc in *. cbn [app] in *. destruct s as [|y s].
          + rewrite D in G2. discriminate G2.
          + apply (m_next isd mkd M); [exact D|discriminate|exact NS|exact G2]. }
      destruct (mkd fs (dir ++ s)) as [fs1 [|]] eqn:MM; [|discriminate MK]. specialize (NEXT fs1 (or_intror (k_made isd mkd K fs _ fs1 MM))). destruct (create_from isd mkd ((dir ++ s) ++ [47]) rest fs1) as [[fs2 r2] l2]. exact NEXT.
    + apply NEXT. destruct (dir ++ s) as [|y l] eqn:Q; [left; reflexivity|]. right. rewrite zlen_cons in G. pose proof (zlen_nonneg _ l). destruct (isd fs (y :: l)); [reflexivity|]. exfalso. cbn [negb] in G. lia.
  - rewrite <- app_assoc. apply IH; [exact K|exact M| |exact D]. intros I. apply in_app_or in I. destruct I as [I | [I | []]]; [exact (NS I)|exact (C I)].
Qed.

(* ---- sockets ---- *)
Lemma out_spaced : forall l u, steady (u_ts u) (map li_now l) ->
  spaced (u_ts u) (map (fun x => li_now (fst (fst (fst x)))) (filter (fun x => snd (fst (fst x))) (out_lines l u))).
Proof.
  intros l. induction l as [|i l IH]; intros u S; cbn [out_lines]; [exact I|]. cbn [map steady] in S. destruct S as [S1 S2]. unfold out_line.
  assert (W : forall t l, steady t l -> forall t', t' <= t -> steady t' l) by (intros t [|x l0] Q t' T; [exact I|]; cbn in *; split; [lia|tauto]).
  assert (WS : forall t l, spaced t l -> forall t', t' <= t -> spaced t' l) by (intros t [|x l0] Q t' T; [exact I|]; cbn in *; split; [lia|tauto]).
  destruct (is_open u) eqn:O.
  - rewrite O. cbn [filter fst snd]. apply IH. exact (W _ _ S2 _ S1).
  - unfold udp_open. destruct (Z.leb_spec (li_now i) (u_ts u + 2)).
    + rewrite O. cbn [filter fst snd]. apply IH. exact (W _ _ S2 _ S1).
    + destruct (li_sock i); cbn [is_open u_sock filter fst snd map spaced]; (split; [lia|]); apply (IH (mkUdp (li_now i) _)); exact S2.
Qed.
Lemma out_handed : forall l u, Forall (fun x => let '(i, asked, handed, lost) := x in lost = if handed && (0 <? li_sent i) then 0 else 1) (out_lines l u).
Proof.
  intros l. induction l as [|i l IH]; intros u; cbn [out_lines]; [constructor|]. unfold out_line.
  destruct (if is_open u then (u, false) else udp_open (li_now i) (li_sock i) u) as [u' asked]. destruct (is_open u'); (constructor; [|apply IH]).
  - cbn [andb]. destruct (Z.leb_spec (li_sent i) 0); destruct (Z.ltb_spec 0 (li_sent i)); lia.
  - reflexivity.
Qed.
(* every line is handed over from the first for which there is a socket *)
Lemma out_open : forall l u, is_open u = true -> Forall (fun x => snd (fst x) = true /\ snd (fst (fst x)) = false) (out_lines l u).
Proof. intros l. induction l as [|i l IH]; intros u O; cbn [out_lines]; [constructor|]. unfold out_line. rewrite O. rewrite O. constructor; [split; reflexivity|apply IH, O]. Qed.
Lemma out_retry : forall i l u, is_open u = false -> u_ts u + 3 <= li_now i -> li_sock i = true ->
  Forall (fun x => snd (fst x) = true) (out_lines (i :: l) u).
Proof.
  intros i l u O T S. cbn [out_lines]. unfold out_line. rewrite O. unfold udp_open. replace (li_now i <=? u_ts u + 2) with false by lia. rewrite S. cbn [is_open u_sock].
  constructor; [reflexivity|]. eapply Forall_impl; [|apply out_open; reflexivity]. intros x [A _]. exact A.
Qed.

Lemma in_bound : forall l u a, bound_to a u -> Forall (fun i => ri_addr i = a) l ->
  Forall (fun x => bound_to a (snd x) /\ (ri_able (fst (fst x)) = false -> u_sock (snd x) = None)) (in_rounds l u).
Proof.
  intros l. induction l as [|i l IH]; intros u a B A; cbn [in_rounds]; [constructor|]. inversion A as [|? ? A1 A2]; subst.
  assert (G : forall u' asked, in_round i u = (u', asked) -> bound_to (ri_addr i) u' /\ (ri_able i = false -> u_sock u' = None)).
  { intros u' asked H. unfold in_round in H. destruct (ri_able i); cbn [negb] in H; [|injection H as <- _; split; [left; reflexivity|reflexivity]]. split; [|discriminate].
    destruct (is_open u) eqn:O; [injection H as <- _; exact B|]. unfold udp_open in H. destruct (ri_now i <=? u_ts u + 2).
    - rewrite O in H. injection H as <- _. exact B.
    - destruct (ri_sock i); cbn [is_open u_sock u_ts] in H; [|injection H as <- _; left; reflexivity]. injection H as <- _. unfold bound_to. cbn [u_sock]. destruct (ri_bind i); auto. }
  destruct (in_round i u) as [u' asked] eqn:R. destruct (G u' asked eq_refl) as [B' N]. constructor; [split; [exact B'|exact N]|]. apply IH; [exact B'|exact A2].
Qed.
Lemma in_spaced : forall l u, steady (u_ts u) (map ri_now l) ->
  spaced (u_ts u) (map (fun x => ri_now (fst (fst x))) (filter (fun x => snd (fst x)) (in_rounds l u))).
Proof.
  intros l. induction l as [|i l IH]; intros u S; cbn [in_rounds]; [exact I|]. cbn [map steady] in S. destruct S as [S1 S2].
  assert (W : forall t l, steady t l -> forall t', t' <= t -> steady t' l) by (intros t [|x l0] Q t' T; [exact I|]; cbn in *; split; [lia|tauto]).
  unfold in_round. destruct (negb (ri_able i)).
  - cbn [filter fst snd]. apply (IH (mkUdp (u_ts u) None)). exact (W _ _ S2 _ S1).
  - destruct (is_open u) eqn:O; [cbn [filter fst snd]; apply IH; exact (W _ _ S2 _ S1)|]. unfold udp_open. destruct (Z.leb_spec (ri_now i) (u_ts u + 2)).
    + rewrite O. cbn [filter fst snd]. apply IH. exact (W _ _ S2 _ S1).
    + destruct (ri_sock i); cbn [is_open u_sock u_ts filter fst snd map spaced]; (split; [lia|]); apply (IH (mkUdp (ri_now i) _)); exact S2.
Qed.
Lemma in_retry : forall i u, is_open u = false -> u_ts u + 3 <= ri_now i -> ri_able i = true -> ri_sock i = true -> ri_bind i = true -> u_sock (fst (in_round i u)) = Some (Some (ri_addr i)).
Proof. intros i u O T A S B. unfold in_round. rewrite A, O. cbn [negb]. unfold udp_open. replace (ri_now i <=? u_ts u + 2) with false by lia. rewrite S, B. reflexivity. Qed.
