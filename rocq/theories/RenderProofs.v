(* Where there is room a value is rendered as plain text. *)
From Coq Require Import String ZArith List Bool Lia ZifyBool ZifyNat ZifyN.
From Verif Require Import Base BaseFacts NumFmt NumSpec NumFacts NumFmtProofs DateFmt DateSpec CalendarFacts DateProofs
  DblFmt DblSpec DblProofs Stream StreamSpec StreamProofs.
Import ListNotations.
Open Scope Z_scope.
Ltac Zify.zify_post_hook ::= Z.div_mod_to_equations.

(* streaming [v] appends the text [t] to any record with room for it *)
Definition renders (E : env) (o : Z) (v : sval) (t : text) : Prop :=
  forall T st, ready E o T st -> zlen T + zlen t + 41 <= e_cap E ->
    exists st', stream_val E st v = Ret st' /\ ready E o (T ++ t) st'.
Definition settled (E : env) (o : Z) : Prop :=
  e_zone E = fixed_zone o /\ - 86400 <= o <= 86400 /\ libc_ok (e_libc E).

Fixpoint tjoin (sep : text) (l : list text) : text :=
  match l with
  | [] => []
  | [x] => x
  | x :: l' => x ++ sep ++ tjoin sep l'
  end.

Definition ptext (ps : list piece) : text := concat (map piece_text ps).
Lemma ptext_app : forall a b, ptext (a ++ b) = ptext a ++ ptext b.
Proof. intros. unfold ptext. rewrite map_app, concat_app. reflexivity. Qed.
Lemma ptext_join : forall l, ptext (join sep l) = tjoin (s2z ", ") (map ptext l).
Proof.
  induction l as [|x l IH]; [reflexivity|]. destruct l as [|y l]; [reflexivity|].
  change (join sep (x :: y :: l)) with (x ++ sep ++ join sep (y :: l)).
  change (tjoin (s2z ", ") (map ptext (x :: y :: l))) with (ptext x ++ s2z ", " ++ tjoin (s2z ", ") (map ptext (y :: l))).
  rewrite !ptext_app, IH. reflexivity.
Qed.

Lemma goes_renders : forall E o v ps, goes E o v ps -> no_align v = true -> renders E o v (ptext ps).
Proof.
  intros E o v ps (S & R) N T st RD L. destruct (R T st RD) as (st' & X & H & C). exists st'. split; [assumption|].
  split; [|assumption]. rewrite feed_all_fits in H; [exact H|eapply shows_small; eassumption|exact L].
Qed.

Lemma vals_ok_forall : forall o l, vals_ok o l -> Forall (val_ok o) l.
Proof. intros o l H. induction H; constructor; assumption. Qed.

Lemma container_renders : forall E o name elems, settled E o -> val_ok o (SCont name elems) -> forallb no_align elems = true ->
  exists size ts, is_numeral 10 0 (zlen elems) size /\ Forall2 (renders E o) (firstn 5 elems) ts /\
    renders E o (SCont name elems)
      (name ++ s2z "(" ++ size ++ s2z ")[" ++ tjoin (s2z ", ") ts ++ (if 5 <? zlen elems then s2z "..., " else []) ++ s2z "]").
Proof.
  intros E o name elems (EZ & Ho & HL) V NA. inversion V as [| | | | | | | | |? ? Hn VS| | | |]; subst.
  assert (F: Forall (val_runs E o) elems).
  { apply vals_ok_forall in VS. eapply Forall_impl; [|exact VS]. intros v. apply val_runs_ok; assumption. }
  destruct (cont_goes E o name elems F Hn) as (size & ps & N & G & GC).
  exists size, (map ptext ps). split; [assumption|]. split.
  - assert (NA5: forallb no_align (firstn 5 elems) = true).
    { apply forallb_forall. intros x X. rewrite forallb_forall in NA. apply NA. rewrite <- (firstn_skipn 5 elems). apply in_or_app. left. exact X. }
    revert NA5 G. generalize (firstn 5 elems). clear. intros l NA G. induction G as [|v p l ps Gv G IH]; [constructor|].
    cbn [forallb] in NA. apply andb_true_iff in NA as (A & B). cbn [map]. constructor; [apply goes_renders; assumption|auto].
  - apply goes_renders in GC; [|exact NA]. unfold cont_pieces in GC. rewrite !ptext_app, ptext_join in GC.
    replace (ptext [PCut name; PCut (s2z "("); PWhole 30 size; PCut (s2z ")[")]) with (name ++ s2z "(" ++ size ++ s2z ")[") in GC
      by (unfold ptext; cbn [map concat piece_text]; rewrite app_nil_r; reflexivity).
    replace (ptext (if 5 <? zlen elems then [PCut (s2z "..., ")] else [])) with (if 5 <? zlen elems then s2z "..., " else []) in GC
      by (destruct (5 <? zlen elems); reflexivity).
    change (ptext [PCut (s2z "]")]) with (s2z "]") in GC. rewrite <- !app_assoc in GC. exact GC.
Qed.

Lemma pair_renders : forall E o a b, settled E o -> val_ok o (SPair a b) -> no_align (SPair a b) = true ->
  exists ta tb, renders E o a ta /\ renders E o b tb /\ renders E o (SPair a b) (s2z "<" ++ ta ++ s2z ":" ++ tb ++ s2z ">").
Proof.
  intros E o a b (EZ & Ho & HL) V NA. inversion V as [| | | | | | | |? ? Va Vb| | | | |]; subst.
  cbn [no_align] in NA. apply andb_true_iff in NA as (NA & NB).
  destruct (val_runs_ok E o EZ Ho HL a Va) as (pa & Ga). destruct (val_runs_ok E o EZ Ho HL b Vb) as (pb & Gb).
  exists (ptext pa), (ptext pb). split; [apply goes_renders; assumption|]. split; [apply goes_renders; assumption|].
  apply goes_renders in Ga; [|assumption]. apply goes_renders in Gb; [|assumption].
  intros T st R L. cbn [stream_val]. rewrite !zlen_app in L.
  change (zlen (s2z "<")) with 1 in L. change (zlen (s2z ":")) with 1 in L. change (zlen (s2z ">")) with 1 in L.
  pose proof (zlen_nonneg _ (ptext pa)). pose proof (zlen_nonneg _ (ptext pb)). pose proof (zlen_nonneg _ T).
  assert (ONE: forall c T st, ready E o T st -> zlen T + 1 <= e_cap E -> exists st', write_buffer E st [c] 1 = Ret st' /\ ready E o (T ++ [c]) st').
  { clear. intros c T st R L. destruct (run_wb E o T st [c] 1 R eq_refl) as (s & X & Hh & C). exists s. split; [assumption|].
    split; [|assumption]. cbn [feed_all fold_left feed] in Hh. rewrite firstn_all2 in Hh; [assumption|]. cbn [length]. lia. }
  destruct (ONE 60 T st R ltac:(lia)) as (s1 & -> & R1). cbn [bind].
  destruct (Ga _ s1 R1) as (s2 & -> & R2); [rewrite zlen_app; change (zlen [60]) with 1; lia|]. cbn [bind].
  destruct (ONE 58 _ s2 R2) as (s3 & -> & R3); [rewrite !zlen_app; change (zlen [60]) with 1; lia|]. cbn [bind].
  destruct (Gb _ s3 R3) as (s4 & -> & R4); [rewrite !zlen_app; change (zlen [60]) with 1; change (zlen [58]) with 1; lia|]. cbn [bind].
  destruct (ONE 62 _ s4 R4) as (s5 & -> & R5); [rewrite !zlen_app; change (zlen [60]) with 1; change (zlen [58]) with 1; lia|].
  exists s5. split; [reflexivity|]. rewrite <- !app_assoc in R5. exact R5.
Qed.

Lemma dump_goes : forall E o a d, settled E o -> val_ok o (SBin a d) ->
  exists ps, dump_rows (Z.to_nat (zlen d / 32 + 1)) a d ps /\
    forall T st, ready E o T st -> exists st', stream_val E st (SBin a d) = Ret st' /\
      ready E o (feed_all (e_cap E) T ([PCut bar] ++ ps ++ [PCut [13; 10; 9; 93; 13; 10; 9]])) st'.
Proof.
  intros E o a d (EZ & Ho & HL) V. destruct (val_runs_ok E o EZ Ho HL _ V) as (ps & S & R).
  inversion S as [| | | | | | | | | | | | | | |? ? qs DR]; subst. exists qs. split; [assumption|].
  intros T st RD. destruct (R T st RD) as (st' & X & H & C). exists st'. split; [assumption|]. split; assumption.
Qed.

(* all bytes of the data appear in the rows, in order *)
Lemma stream_done : forall E o vs T st, settled E o -> Forall (val_ok o) vs -> ready E o T st ->
  exists pss st', Forall2 (shows o (e_libc E)) vs pss /\ stream_all E st vs = Ret st' /\
    (let text := feed_all (e_cap E) T (concat pss) in
     ready E o text st' /\ zlen text <= e_cap E /\ exists added, text = T ++ added).
Proof.
  intros E o vs T st (EZ & Ho & HL) V R. destruct (stream_all_ok E o EZ Ho HL vs V) as (pss & S & RR).
  destruct (RR T st R) as (st' & X & H & C). exists pss, st'. split; [assumption|]. split; [assumption|].
  cbv zeta. split; [split; assumption|]. split.
  - apply holds_len in H. lia.
  - destruct (feed_all_prefix (e_cap E) (concat pss) T) as (a & A). eauto.
Qed.
