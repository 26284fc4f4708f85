(* Lemmas about Base.v. *)
From Coq Require Import String Ascii ZArith List Bool Lia ZifyBool ZifyNat ZifyN.
From Verif Require Import Base.
Import ListNotations.
Open Scope Z_scope.
Ltac Zify.zify_post_hook ::= Z.div_mod_to_equations.

Lemma zlen_nonneg : forall A (l : list A), 0 <= zlen l.
Proof. intros; unfold zlen; lia. Qed.
Lemma zlen_app : forall A (a b : list A), zlen (a ++ b) = zlen a + zlen b.
Proof. intros; unfold zlen; rewrite app_length; lia. Qed.
Lemma zlen_cons : forall A x (a : list A), zlen (x :: a) = 1 + zlen a.
Proof. intros; unfold zlen; simpl length; lia. Qed.
Lemma zlen_nil : forall A, zlen (@nil A) = 0.
Proof. reflexivity. Qed.
Lemma zlen_firstn : forall A n (l : list A), 0 <= n <= zlen l -> zlen (firstn (Z.to_nat n) l) = n.
Proof. intros; unfold zlen in *; rewrite firstn_length; lia. Qed.
Lemma zlen_skipn : forall A n (l : list A), 0 <= n <= zlen l -> zlen (skipn (Z.to_nat n) l) = zlen l - n.
Proof. intros; unfold zlen in *; rewrite skipn_length; lia. Qed.

Lemma bind_ret_inv : forall A B (m : outcome A) (f : A -> outcome B) b,
  bind m f = Ret b -> exists a, m = Ret a /\ f a = Ret b.
Proof. intros A B [a| |] f b H; simpl in H; try discriminate; eauto. Qed.

Lemma blit_ret : forall A (l : list A) off bs,
  0 <= off -> off + zlen bs <= zlen l ->
  blit l off bs = Ret (firstn (Z.to_nat off) l ++ bs ++ skipn (Z.to_nat (off + zlen bs)) l).
Proof.
  intros. unfold blit.
  destruct ((off <? 0) || (zlen l <? off + zlen bs)) eqn:E; [lia|reflexivity].
Qed.

Lemma blit_inv : forall A (l : list A) off bs r,
  blit l off bs = Ret r ->
  0 <= off /\ off + zlen bs <= zlen l /\
  r = firstn (Z.to_nat off) l ++ bs ++ skipn (Z.to_nat (off + zlen bs)) l.
Proof.
  intros A l off bs r H. unfold blit in H.
  destruct ((off <? 0) || (zlen l <? off + zlen bs)) eqn:E; [discriminate|].
  inversion H; subst. repeat split; lia.
Qed.

Lemma blit_len : forall A (l : list A) off bs r,
  blit l off bs = Ret r -> zlen r = zlen l.
Proof.
  intros A l off bs r H. apply blit_inv in H. destruct H as (H1 & H2 & ->).
  pose proof (zlen_nonneg _ bs).
  rewrite !zlen_app, zlen_firstn, zlen_skipn by lia. lia.
Qed.

(* A write is a splice: with l = a ++ m ++ c and |a| = off, |m| = |bs|. *)
Lemma blit_splice : forall A (a m c bs : list A) off,
  zlen a = off -> zlen m = zlen bs ->
  blit (a ++ m ++ c) off bs = Ret (a ++ bs ++ c).
Proof.
  intros A a m c bs off Ha Hm.
  pose proof (zlen_nonneg _ c). pose proof (zlen_nonneg _ a). pose proof (zlen_nonneg _ m).
  rewrite blit_ret by (rewrite ?zlen_app; lia).
  f_equal.
  assert (E1: firstn (Z.to_nat off) (a ++ m ++ c) = a).
  { rewrite firstn_app. replace (Z.to_nat off) with (length a) by (unfold zlen in *; lia).
    rewrite Nat.sub_diag, firstn_all. simpl. apply app_nil_r. }
  assert (E2: skipn (Z.to_nat (off + zlen bs)) (a ++ m ++ c) = c).
  { rewrite app_assoc. rewrite skipn_app.
    replace (Z.to_nat (off + zlen bs)) with (length (a ++ m)) by (rewrite app_length; unfold zlen in *; lia).
    rewrite Nat.sub_diag, skipn_all. reflexivity. }
  rewrite E1, E2. reflexivity.
Qed.

Lemma split_at : forall A (l : list A) n, 0 <= n <= zlen l ->
  exists a b, l = a ++ b /\ zlen a = n.
Proof.
  intros A l n H. exists (firstn (Z.to_nat n) l), (skipn (Z.to_nat n) l).
  split; [symmetry; apply firstn_skipn | apply zlen_firstn; lia].
Qed.

(* Consecutive writes compose. *)
Lemma blit_compose : forall A (l : list A) off x y,
  0 <= off -> off + zlen x + zlen y <= zlen l ->
  bind (blit l off x) (fun l' => blit l' (off + zlen x) y) = blit l off (x ++ y).
Proof.
  intros A l off x y H0 H.
  pose proof (zlen_nonneg _ x). pose proof (zlen_nonneg _ y).
  destruct (split_at _ l off ltac:(lia)) as (a & r1 & -> & Ha).
  rewrite zlen_app in H.
  destruct (split_at _ r1 (zlen x) ltac:(lia)) as (m & r2 & -> & Hm).
  rewrite zlen_app in H.
  destruct (split_at _ r2 (zlen y) ltac:(lia)) as (n & c & -> & Hn).
  rewrite blit_splice by assumption. simpl.
  replace (a ++ x ++ n ++ c) with ((a ++ x) ++ n ++ c) by (rewrite <- app_assoc; reflexivity).
  rewrite blit_splice by (rewrite ?zlen_app; lia).
  replace (a ++ m ++ n ++ c) with (a ++ (m ++ n) ++ c) by (rewrite <- app_assoc; reflexivity).
  rewrite blit_splice by (rewrite ?zlen_app; lia).
  rewrite <- !app_assoc. reflexivity.
Qed.

Lemma blit_nil : forall A (l : list A) off, 0 <= off <= zlen l -> blit l off [] = Ret l.
Proof.
  intros. rewrite blit_ret by (rewrite ?zlen_nil; lia). simpl. rewrite zlen_nil, Z.add_0_r.
  rewrite firstn_skipn. reflexivity.
Qed.

Lemma rd_ret : forall A (l : list A) i v, 0 <= i ->
  nth_error l (Z.to_nat i) = Some v -> rd l i = Ret v.
Proof. intros A l i v H E. unfold rd. destruct (i <? 0) eqn:F; [lia|]. rewrite E. reflexivity. Qed.

Lemma rd_inv : forall A (l : list A) i v, rd l i = Ret v ->
  0 <= i < zlen l /\ nth_error l (Z.to_nat i) = Some v.
Proof.
  intros A l i v H. unfold rd in H. destruct (i <? 0) eqn:E; [discriminate|].
  destruct (nth_error l (Z.to_nat i)) eqn:F; inversion H; subst.
  assert (nth_error l (Z.to_nat i) <> None) by congruence.
  apply nth_error_Some in H0. unfold zlen. split; [lia|reflexivity].
Qed.

Lemma rd_in : forall A (l : list A) i, 0 <= i < zlen l -> exists v, rd l i = Ret v.
Proof.
  intros A l i H. unfold rd. destruct (i <? 0) eqn:E; [lia|].
  destruct (nth_error l (Z.to_nat i)) eqn:F; [eauto|].
  apply nth_error_None in F. unfold zlen in H. lia.
Qed.

Lemma rd_app_mid : forall A (a c : list A) x i, zlen a = i -> rd (a ++ x :: c) i = Ret x.
Proof.
  intros A a c x i H. pose proof (zlen_nonneg _ a). apply rd_ret; [lia|].
  rewrite nth_error_app2 by (unfold zlen in *; lia).
  replace (Z.to_nat i - length a)%nat with 0%nat by (unfold zlen in *; lia). reflexivity.
Qed.

(* First element / tail through rd *)
Lemma rd_app_l : forall A (a c : list A) i, i < zlen a -> rd (a ++ c) i = rd a i.
Proof.
  intros A a c i H. unfold rd. destruct (i <? 0) eqn:E; [reflexivity|].
  rewrite nth_error_app1; [reflexivity|]. unfold zlen in H. lia.
Qed.
Lemma rd_app_r : forall A (a c : list A) i, zlen a <= i -> rd (a ++ c) i = rd c (i - zlen a).
Proof.
  intros A a c i H. pose proof (zlen_nonneg _ a). unfold rd.
  destruct (i <? 0) eqn:E; [lia|]. destruct (i - zlen a <? 0) eqn:E2; [lia|].
  rewrite nth_error_app2 by (unfold zlen in *; lia).
  replace (Z.to_nat i - length a)%nat with (Z.to_nat (i - zlen a)) by (unfold zlen in *; lia).
  reflexivity.
Qed.

(* Exhaustive checks over an initial segment of Z. *)
Lemma forall_below : forall (P : Z -> bool) (n : nat),
  forallb (fun k => P (Z.of_nat k)) (seq 0 n) = true ->
  forall z, 0 <= z < Z.of_nat n -> P z = true.
Proof.
  intros P n H z Hz. rewrite forallb_forall in H.
  specialize (H (Z.to_nat z)). rewrite Z2Nat.id in H by lia.
  apply H. apply in_seq. lia.
Qed.
Lemma wr_rd : forall A (l : list A) i v l', wr l i v = Ret l' ->
  zlen l' = zlen l /\ forall j, rd l' j = if j =? i then Ret v else rd l j.
Proof.
  intros A l i v l' H. split; [apply (blit_len _ l i [v] l' H)|]. intros j. unfold wr in H. apply blit_inv in H.
  destruct H as (H1 & H2 & ->). change (zlen [v]) with 1 in *.
  destruct (split_at _ l i ltac:(lia)) as (a & r & -> & A1). rewrite zlen_app in H2.
  destruct r as [|x r]; [rewrite zlen_nil in H2; lia|].
  assert (F : firstn (Z.to_nat i) (a ++ x :: r) = a).
  { rewrite firstn_app. replace (Z.to_nat i) with (length a) by (unfold zlen in *; lia).
    rewrite Nat.sub_diag, firstn_all, firstn_O. apply app_nil_r. }
  assert (G : skipn (Z.to_nat (i + 1)) (a ++ x :: r) = r).
  { rewrite skipn_app. replace (Z.to_nat (i + 1)) with (S (length a)) by (unfold zlen in *; lia).
    replace (S (length a) - length a)%nat with 1%nat by lia. rewrite skipn_all2 by lia. reflexivity. }
  rewrite F, G. cbn [app]. destruct (j =? i) eqn:Q.
  - apply Z.eqb_eq in Q. subst j. apply rd_app_mid. assumption.
  - apply Z.eqb_neq in Q. destruct (Z_lt_dec j (zlen a)).
    + rewrite !rd_app_l by assumption. reflexivity.
    + rewrite !rd_app_r by lia. unfold rd. destruct (j - zlen a <? 0) eqn:N; [lia|].
      destruct (Z.to_nat (j - zlen a)) eqn:W; [lia|]. reflexivity.
Qed.
