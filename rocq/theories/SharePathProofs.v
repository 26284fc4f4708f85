(* Proofs about devices that share a path (C135). *)
From Coq Require Import ZArith List Bool Arith Lia.
From Verif Require Import Base SharePath SharePathSpec.
Import ListNotations.
Open Scope Z_scope.

Lemma hput_same : forall A (f : nat -> A) i x, hput f i x i = x.
Proof. intros. unfold hput. now rewrite Nat.eqb_refl. Qed.
Lemma hput_other : forall A (f : nat -> A) i j x, j <> i -> hput f i x j = f j.
Proof. intros. unfold hput. apply Nat.eqb_neq in H. now rewrite H. Qed.

(* ---- every device writes at most [limit] bytes to a file ---- *)
Fixpoint total (devs : list nat) (h : nat -> Z) : Z := match devs with [] => 0 | i :: devs => h i + total devs h end.
Lemma total_bound : forall devs h m, (forall i, h i <= m) -> total devs h <= Z.of_nat (length devs) * m.
Proof. induction devs as [|i devs IH]; intros h m H; cbn [total length]; [lia|]. pose proof (H i). pose proof (IH h m H). lia. Qed.
Lemma total_ext : forall devs h h', (forall i, In i devs -> h i = h' i) -> total devs h = total devs h'.
Proof. induction devs as [|i devs IH]; intros h h' H; cbn [total]; [reflexivity|]. rewrite (H i) by (left; reflexivity). rewrite (IH h h'); [reflexivity|]. intros j J. apply H. right. exact J. Qed.
Lemma total_put : forall devs h i x, NoDup devs -> In i devs -> total devs (hput h i (h i + x)) = total devs h + x.
Proof.
  induction devs as [|j devs IH]; intros h i x N I; [destruct I|]. inversion N as [|? ? NI N']; subst. cbn [total]. destruct I as [->|I].
  - rewrite hput_same, (total_ext devs (hput h i (h i + x)) h); [lia|]. intros j J. apply hput_other. intros ->. contradiction.
  - rewrite IH by assumption. rewrite hput_other; [lia|]. intros ->. contradiction.
Qed.

(* [g i f]: the bytes that device i has written to file f *)
Record ginv (limit : Z) (devs : list nat) (base : nat -> Z) (s : hstate) (g : nat -> nat -> Z) : Prop := mkGinv {
  g_size : forall f, h_size s f = base f + total devs (fun i => g i f);
  g_range : forall i f, 0 <= g i f <= limit;
  g_count : forall i f, h_open s i = Some f -> g i f <= h_count s i;
  g_none : forall i f, h_open s i = None -> g i f = 0;
  g_new : forall i f, (h_next s <= f)%nat -> g i f = 0 /\ base f = 0;
  g_open : forall i f, h_open s i = Some f -> (f < h_next s)%nat;
  g_dir : Forall (fun f => (f < h_next s)%nat) (h_dir s);
  g_pos : forall f, 0 <= h_size s f
}.
(* device i writes to file f *)
Definition gput (g : nat -> nat -> Z) (i f : nat) (len : Z) : nat -> nat -> Z := fun j k => if Nat.eqb j i && Nat.eqb k f then g j k + len else g j k.
Lemma gput_total : forall devs g i f len k, NoDup devs -> In i devs -> total devs (fun j => gput g i f len j k) = total devs (fun j => g j k) + (if Nat.eqb k f then len else 0).
Proof.
  intros devs g i f len k N I. destruct (Nat.eqb k f) eqn:E.
  - rewrite <- (total_put devs (fun j => g j k) i len N I). apply total_ext. intros j _. unfold gput, hput. rewrite E, andb_true_r. destruct (Nat.eqb_spec j i) as [->|]; reflexivity.
  - rewrite Z.add_0_r. apply total_ext. intros j _. unfold gput. rewrite E, andb_false_r. reflexivity.
Qed.
Lemma gput_spec : forall g i f len j k, gput g i f len j k = g j k + (if Nat.eqb j i && Nat.eqb k f then len else 0).
Proof. intros. unfold gput. destruct (_ && _); lia. Qed.
Lemma write_ginv : forall n limit stuff devs base s g w, NoDup devs -> In (o_dev w) devs -> 0 <= o_len w <= limit -> ginv limit devs base s g -> exists g', ginv limit devs base (hwrite n limit stuff s w) g'.
Proof.
  intros n limit stuff devs base s g [i len seen] N I L [GS GR GC GN GW GO GD GP]. cbn [o_dev o_len] in I, L. unfold hwrite. cbn [o_dev o_len o_seen]. cbv zeta.
  destruct (limit <? h_count s i + len) eqn:OUT.
  - rewrite orb_true_r. (* a new file *)
    exists (gput g i (h_next s) len). pose proof (GW i (h_next s) (Nat.le_refl _)) as [G0 B0]. constructor; cbn [h_size h_open h_count h_next h_dir].
    + intros f. rewrite gput_total by assumption. destruct (Nat.eqb_spec f (h_next s)) as [->|D]; [rewrite hput_same|rewrite hput_other by exact D; rewrite GS; lia].
      rewrite (total_ext devs (fun j => g j (h_next s)) (fun _ => 0)) by (intros j _; apply GW; lia). rewrite B0. clear. induction devs; cbn [total]; lia.
    + intros j f. rewrite gput_spec. pose proof (GR j f). destruct (Nat.eqb_spec j i) as [->|]; destruct (Nat.eqb_spec f (h_next s)) as [->|]; cbn [andb]; lia.
    + intros j f O. rewrite gput_spec. destruct (Nat.eqb_spec j i) as [->|D].
      * rewrite hput_same in O. injection O as <-. rewrite hput_same, Nat.eqb_refl. cbn [andb]. lia.
      * rewrite hput_other in O |- * by exact D. cbn [andb]. pose proof (GC j f O). lia.
    + intros j f O. rewrite gput_spec. destruct (Nat.eqb_spec j i) as [->|D]; [rewrite hput_same in O; discriminate O|]. rewrite hput_other in O by exact D. cbn [andb]. rewrite (GN j f O). lia.
    + intros j f F. rewrite gput_spec. destruct (GW j f ltac:(lia)) as [A B]. destruct (Nat.eqb_spec f (h_next s)); [lia|]. rewrite andb_false_r. lia.
    + intros j f O. destruct (Nat.eq_dec j i) as [->|D]; [rewrite hput_same in O; injection O as <-; lia|]. rewrite hput_other in O by exact D. pose proof (GO j f O). lia.
    + constructor; [lia|]. apply Forall_forall. intros f F. rewrite Forall_forall in GD. specialize (GD f). assert (In f (h_dir s)) by (rewrite <- (firstn_skipn n (h_dir s)); apply in_or_app; left; exact F). pose proof (GD H). lia.
    + intros f. destruct (Nat.eq_dec f (h_next s)) as [->|D]; [rewrite hput_same; lia|rewrite hput_other by exact D; apply GP].
  - apply Z.ltb_ge in OUT. destruct (h_open s i) as [f0|] eqn:OI.
    + (* the open file *)
      exists (gput g i f0 len). pose proof (GC i f0 OI) as C0. pose proof (GO i f0 OI) as F0. constructor; cbn [h_size h_open h_count h_next h_dir]; try assumption.
      * intros f. rewrite gput_total by assumption. destruct (Nat.eqb_spec f f0) as [->|D]; [rewrite hput_same, GS; lia|rewrite hput_other by exact D; rewrite GS; lia].
      * intros j f. rewrite gput_spec. pose proof (GR j f). destruct (Nat.eqb_spec j i) as [->|]; destruct (Nat.eqb_spec f f0) as [->|]; cbn [andb]; lia.
      * intros j f O. rewrite gput_spec. destruct (Nat.eqb_spec j i) as [->|D].
        -- rewrite OI in O. injection O as <-. rewrite hput_same, Nat.eqb_refl. cbn [andb]. lia.
        -- rewrite hput_other by exact D. cbn [andb]. pose proof (GC j f O). lia.
      * intros j f O. rewrite gput_spec. destruct (Nat.eqb_spec j i) as [->|D]; [congruence|]. cbn [andb]. rewrite (GN j f O). lia.
      * intros j f F. rewrite gput_spec. destruct (GW j f F) as [A B]. destruct (Nat.eqb_spec f f0); [lia|]. rewrite andb_false_r. lia.
      * intros f. destruct (Nat.eq_dec f f0) as [->|D]; [rewrite hput_same; pose proof (GP f0); lia|rewrite hput_other by exact D; apply GP].
    + destruct (if negb stuff || false then None else hd_error (h_dir s)) as [f0|] eqn:HD.
      * (* a file that is there *)
        assert (F0 : (f0 < h_next s)%nat).
        { destruct (negb stuff || false); [discriminate HD|]. destruct (h_dir s); [discriminate HD|]. injection HD as <-. exact (Forall_inv GD). }
        exists (gput g i f0 len). pose proof (GN i f0 OI) as G0. pose proof (GP f0) as P0. constructor; cbn [h_size h_open h_count h_next h_dir]; try assumption.
        -- intros f. rewrite gput_total by assumption. destruct (Nat.eqb_spec f f0) as [->|D]; [rewrite hput_same, GS; lia|rewrite hput_other by exact D; rewrite GS; lia].
        -- intros j f. rewrite gput_spec. pose proof (GR j f). destruct (Nat.eqb_spec j i) as [->|]; destruct (Nat.eqb_spec f f0) as [->|]; cbn [andb]; lia.
        -- intros j f O. rewrite gput_spec. destruct (Nat.eqb_spec j i) as [->|D].
           ++ rewrite hput_same in O. injection O as <-. rewrite hput_same, Nat.eqb_refl. cbn [andb]. lia.
           ++ rewrite hput_other in O |- * by exact D. cbn [andb]. pose proof (GC j f O). lia.
        -- intros j f O. rewrite gput_spec. destruct (Nat.eqb_spec j i) as [->|D]; [rewrite hput_same in O; discriminate O|]. rewrite hput_other in O by exact D. cbn [andb]. rewrite (GN j f O). lia.
        -- intros j f F. rewrite gput_spec. destruct (GW j f F) as [A B]. destruct (Nat.eqb_spec f f0); [lia|]. rewrite andb_false_r. lia.
        -- intros j f O. destruct (Nat.eq_dec j i) as [->|D]; [rewrite hput_same in O; injection O as <-; exact F0|]. rewrite hput_other in O by exact D. exact (GO j f O).
        -- intros f. destruct (Nat.eq_dec f f0) as [->|D]; [rewrite hput_same; lia|rewrite hput_other by exact D; apply GP].
      * (* a new file *)
        exists (gput g i (h_next s) len). pose proof (GW i (h_next s) (Nat.le_refl _)) as [G0 B0]. constructor; cbn [h_size h_open h_count h_next h_dir].
        -- intros f. rewrite gput_total by assumption. destruct (Nat.eqb_spec f (h_next s)) as [->|D]; [rewrite hput_same|rewrite hput_other by exact D; rewrite GS; lia].
           rewrite (total_ext devs (fun j => g j (h_next s)) (fun _ => 0)) by (intros j _; apply GW; lia). rewrite B0. clear. induction devs; cbn [total]; lia.
        -- intros j f. rewrite gput_spec. pose proof (GR j f). destruct (Nat.eqb_spec j i) as [->|]; destruct (Nat.eqb_spec f (h_next s)) as [->|]; cbn [andb]; lia.
        -- intros j f O. rewrite gput_spec. destruct (Nat.eqb_spec j i) as [->|D].
           ++ rewrite hput_same in O. injection O as <-. rewrite hput_same, Nat.eqb_refl. cbn [andb]. lia.
           ++ rewrite hput_other in O |- * by exact D. cbn [andb]. pose proof (GC j f O). lia.
        -- intros j f O. rewrite gput_spec. destruct (Nat.eqb_spec j i) as [->|D]; [rewrite hput_same in O; discriminate O|]. rewrite hput_other in O by exact D. cbn [andb]. rewrite (GN j f O). lia.
        -- intros j f F. rewrite gput_spec. destruct (GW j f ltac:(lia)) as [A B]. destruct (Nat.eqb_spec f (h_next s)); [lia|]. rewrite andb_false_r. lia.
        -- intros j f O. destruct (Nat.eq_dec j i) as [->|D]; [rewrite hput_same in O; injection O as <-; lia|]. rewrite hput_other in O by exact D. pose proof (GO j f O). lia.
        -- constructor; [lia|]. apply Forall_forall. intros f F. rewrite Forall_forall in GD. specialize (GD f). assert (In f (h_dir s)) by (rewrite <- (firstn_skipn n (h_dir s)); apply in_or_app; left; exact F). pose proof (GD H). lia.
        -- intros f. destruct (Nat.eq_dec f (h_next s)) as [->|D]; [rewrite hput_same; lia|rewrite hput_other by exact D; apply GP].
Qed.
Lemma run_ginv : forall n limit stuff devs base ops s g, NoDup devs -> fitting limit devs ops -> ginv limit devs base s g -> exists g', ginv limit devs base (hrun n limit stuff s ops) g'.
Proof.
  intros n limit stuff devs base. induction ops as [|w ops IH]; intros s g N F G; [exists g; exact G|]. destruct (Forall_inv F) as [I L].
  destruct (write_ginv n limit stuff devs base s g w N I L G) as (g' & G'). exact (IH _ g' N (Forall_inv_tail F) G').
Qed.
Lemma shared_bound : forall n limit stuff devs s ops, 0 <= limit -> begins s -> NoDup devs -> fitting limit devs ops ->
  forall f, h_size s f <= h_size (hrun n limit stuff s ops) f <= h_size s f + Z.of_nat (length devs) * limit.
Proof.
  intros n limit stuff devs s ops LP [BO BC BS BN BD] N F f.
  assert (G0 : ginv limit devs (h_size s) s (fun _ _ => 0)).
  { assert (T0 : total devs (fun _ => 0) = 0) by (clear; induction devs; cbn [total]; lia).
    constructor; try assumption; intros; try lia; [congruence|split; [reflexivity|auto]|congruence]. }
  destruct (run_ginv n limit stuff devs (h_size s) ops s _ N F G0) as (g & [GS GR _ _ _ _ _ _]). rewrite GS.
  pose proof (total_bound devs (fun i => g i f) limit (fun i => proj2 (GR i f))).
  assert (0 <= total devs (fun i => g i f)). { clear - GR. induction devs as [|i devs IH]; cbn [total]; [lia|]. pose proof (GR i f). lia. } lia.
Qed.

(* ---- without stuff_up nobody shares a file ---- *)
Record oinv (limit : Z) (s0 s : hstate) : Prop := mkOinv {
  o_old : forall f, (f < h_next s0)%nat -> h_size s f = h_size s0 f;
  o_new : forall f, (h_next s0 <= f)%nat -> h_size s f <= limit;
  o_open : forall i f, h_open s i = Some f -> (h_next s0 <= f < h_next s)%nat /\ h_count s i = h_size s f;
  o_one : forall i j f, h_open s i = Some f -> h_open s j = Some f -> i = j;
  o_next : (h_next s0 <= h_next s)%nat
}.
Lemma write_oinv : forall n limit s0 s w, 0 <= o_len w <= limit -> oinv limit s0 s -> oinv limit s0 (hwrite n limit false s w).
Proof.
  intros n limit s0 s [i len seen] L [OO ON OP O1 NX]. cbn [o_len] in L. unfold hwrite. cbn [o_dev o_len o_seen]. cbv zeta.
  assert (NEW : oinv limit s0 (mkH (h_next s :: firstn n (h_dir s)) (S (h_next s)) (hput (h_size s) (h_next s) len) (hput (h_open s) i (Some (h_next s))) (hput (h_count s) i len))).
  { constructor; cbn [h_size h_open h_count h_next h_dir].
    - intros f F. rewrite hput_other by lia. auto.
    - intros f F. destruct (Nat.eq_dec f (h_next s)) as [->|D]; [rewrite hput_same; lia|rewrite hput_other by exact D; auto].
    - intros j f O. destruct (Nat.eq_dec j i) as [->|D].
      + rewrite hput_same in O. injection O as <-. rewrite !hput_same. split; [lia|reflexivity].
      + rewrite hput_other in O |- * by exact D. destruct (OP j f O) as [A B]. rewrite hput_other by lia. split; [lia|exact B].
    - intros j k f J K. destruct (Nat.eq_dec j i) as [->|DJ]; destruct (Nat.eq_dec k i) as [->|DK]; [reflexivity|..].
      + rewrite hput_same in J. injection J as <-. rewrite hput_other in K by exact DK. destruct (OP k _ K). lia.
      + rewrite hput_same in K. injection K as <-. rewrite hput_other in J by exact DJ. destruct (OP j _ J). lia.
      + rewrite hput_other in J, K by assumption. eauto.
    - lia. }
  destruct (limit <? h_count s i + len) eqn:OUT; [exact NEW|]. apply Z.ltb_ge in OUT. destruct (h_open s i) as [f0|] eqn:OI; [|exact NEW].
  destruct (OP i f0 OI) as [F0 C0]. constructor; cbn [h_size h_open h_count h_next h_dir].
  - intros f F. rewrite hput_other by lia. auto.
  - intros f F. destruct (Nat.eq_dec f f0) as [->|D]; [rewrite hput_same; lia|rewrite hput_other by exact D; auto].
  - intros j f O. destruct (OP j f O) as [A B]. split; [exact A|]. destruct (Nat.eq_dec j i) as [->|D].
    + rewrite OI in O. injection O as <-. rewrite !hput_same. lia.
    + rewrite hput_other by exact D. rewrite hput_other; [exact B|]. intros ->. apply D. eapply O1; eassumption.
  - exact O1.
  - exact NX.
Qed.
Lemma own_files : forall n limit s ops, 0 <= limit -> begins s -> Forall (fun w => 0 <= o_len w <= limit) ops -> let s' := hrun n limit false s ops in
  (forall f, (f < h_next s)%nat -> h_size s' f = h_size s f) /\ (forall f, (h_next s <= f)%nat -> h_size s' f <= limit) /\
  (forall i j f, h_open s' i = Some f -> h_open s' j = Some f -> i = j).
Proof.
  intros n limit s ops LP [BO BC BS BN BD] F. cbv zeta.
  assert (O0 : oinv limit s s).
  { constructor; intros; auto; [rewrite BN by assumption; lia|congruence|congruence]. }
  assert (R : forall u, oinv limit s u -> oinv limit s (hrun n limit false u ops)).
  { clear O0. induction F as [|w ops W F IH]; intros u U; [exact U|]. apply IH. apply write_oinv; assumption. }
  destruct (R s O0) as [A B _ C _]. auto.
Qed.

(* ---- every record is in one file ---- *)
Definition below (s : hstate) : Prop := (forall i f, h_open s i = Some f -> (f < h_next s)%nat) /\ Forall (fun f => (f < h_next s)%nat) (h_dir s).
Lemma sum_put : forall l h f x, NoDup l -> In f l -> fold_right Z.add 0 (map (hput h f (h f + x)) l) = fold_right Z.add 0 (map h l) + x.
Proof.
  assert (K : forall l h, fold_right Z.add 0 (map h l) = total l h) by (induction l as [|j l IH]; intros h; cbn; [reflexivity|rewrite IH; reflexivity]).
  intros. rewrite !K. apply total_put; assumption.
Qed.
Lemma sum_ext : forall l (h h' : nat -> Z), (forall f, In f l -> h f = h' f) -> fold_right Z.add 0 (map h l) = fold_right Z.add 0 (map h' l).
Proof. intros l h h' H. f_equal. apply map_ext_in. exact H. Qed.
Lemma sum_app : forall a b, fold_right Z.add 0 (a ++ b) = fold_right Z.add 0 a + fold_right Z.add 0 b.
Proof. induction a as [|x a IH]; intros b; cbn; [reflexivity|rewrite IH; lia]. Qed.
Lemma write_bytes : forall n limit stuff s w, below s -> below (hwrite n limit stuff s w) /\ all_bytes (hwrite n limit stuff s w) = all_bytes s + o_len w.
Proof.
  intros n limit stuff s [i len seen] [BO BD]. unfold hwrite. cbn [o_dev o_len o_seen]. cbv zeta.
  assert (NEW : let u := mkH (h_next s :: firstn n (h_dir s)) (S (h_next s)) (hput (h_size s) (h_next s) len) (hput (h_open s) i (Some (h_next s))) (hput (h_count s) i len) in
    below u /\ all_bytes u = all_bytes s + len).
  { cbv zeta. unfold below, all_bytes. cbn [h_size h_open h_count h_next h_dir]. split; [split|].
    - intros j f O. destruct (Nat.eq_dec j i) as [->|D]; [rewrite hput_same in O; injection O as <-; lia|]. rewrite hput_other in O by exact D. pose proof (BO j f O). lia.
    - constructor; [lia|]. apply Forall_forall. intros f F. rewrite Forall_forall in BD. assert (I : In f (h_dir s)) by (rewrite <- (firstn_skipn n (h_dir s)); apply in_or_app; left; exact F). pose proof (BD f I). lia.
    - rewrite seq_S, map_app, sum_app. cbn [map fold_right Nat.add]. rewrite hput_same.
      rewrite (sum_ext (seq 0 (h_next s)) _ (h_size s)); [lia|]. intros f F. apply in_seq in F. apply hput_other. lia. }
  assert (PUT : forall f, (f < h_next s)%nat -> fold_right Z.add 0 (map (hput (h_size s) f (h_size s f + len)) (seq 0 (h_next s))) = all_bytes s + len).
  { intros f F. apply sum_put; [apply seq_NoDup|apply in_seq; lia]. }
  destruct (if limit <? h_count s i + len then None else h_open s i) as [f0|] eqn:E.
  - assert (F0 : (f0 < h_next s)%nat) by (destruct (limit <? _); [discriminate E|exact (BO i f0 E)]).
    split; [split; assumption|]. exact (PUT f0 F0).
  - destruct (if negb stuff || _ then None else hd_error (h_dir s)) as [f0|] eqn:HD; [|exact NEW].
    assert (F0 : (f0 < h_next s)%nat).
    { destruct (negb stuff || _); [discriminate HD|]. destruct (h_dir s); [discriminate HD|]. injection HD as <-. exact (Forall_inv BD). }
    split; [|exact (PUT f0 F0)]. split; [|exact BD]. cbn [h_open h_next]. intros j f O.
    destruct (Nat.eq_dec j i) as [->|D]; [rewrite hput_same in O; injection O as <-; exact F0|]. rewrite hput_other in O by exact D. exact (BO j f O).
Qed.
Lemma run_bytes : forall n limit stuff ops s, below s -> all_bytes (hrun n limit stuff s ops) = all_bytes s + op_bytes ops.
Proof.
  intros n limit stuff. induction ops as [|w ops IH]; intros s B; [unfold op_bytes; cbn; lia|]. destruct (write_bytes n limit stuff s w B) as [B' E].
  change (hrun n limit stuff s (w :: ops)) with (hrun n limit stuff (hwrite n limit stuff s w) ops). rewrite (IH _ B'), E. unfold op_bytes. cbn [map fold_right]. lia.
Qed.
Lemma kept_bytes : forall n limit stuff s ops, begins s -> all_bytes (hrun n limit stuff s ops) = all_bytes s + op_bytes ops.
Proof. intros n limit stuff s ops [BO _ _ _ BD]. apply run_bytes. split; [intros i f O; rewrite BO in O; discriminate O|exact BD]. Qed.
(* at most the log file and [n] backups *)
Lemma dir_length : forall n limit stuff ops s, (length (h_dir s) <= S n)%nat -> (length (h_dir (hrun n limit stuff s ops)) <= S n)%nat.
Proof.
  intros n limit stuff. induction ops as [|[i len seen] ops IH]; intros s B; [exact B|]. apply IH. unfold hwrite. cbn [o_dev o_len o_seen]. cbv zeta.
  destruct (if _ <? _ then None else _); [exact B|]. destruct (if _ || _ then None else _); [exact B|]. cbn [h_dir length]. rewrite firstn_length. lia.
Qed.

(* ---- how large a file of [d] devices gets ---- *)
Definition openings (d : nat) : list hop := map (fun i => mkOp i 1 0) (seq 0 d).
Definition fillings (limit : Z) (d : nat) : list hop := map (fun i => mkOp i (limit - 1) 0) (seq 0 d).
Lemma hrun_app : forall n limit stuff s a b, hrun n limit stuff s (a ++ b) = hrun n limit stuff (hrun n limit stuff s a) b.
Proof. intros. apply fold_left_app. Qed.
Lemma openings_run : forall n limit s d, begins s -> h_dir s = [] -> 1 <= limit -> let u := hrun n limit true s (openings (S d)) in
  h_dir u = [h_next s] /\ h_size u (h_next s) = Z.of_nat (S d) /\
  (forall i, (i < S d)%nat -> h_open u i = Some (h_next s) /\ h_count u i = 1) /\
  (forall i, (S d <= i)%nat -> h_open u i = None /\ h_count u i = 0).
Proof.
  intros n limit s d [BO BC BS BN BD] D0 L. induction d as [|d IH]; cbv zeta.
  - cbn [openings map seq hrun fold_left]. unfold hwrite. cbn [o_dev o_len o_seen]. rewrite BC, BO, D0. cbn [negb orb hd_error].
    replace (limit <? 0 + 1) with false by (symmetry; apply Z.ltb_ge; lia). cbn [h_dir h_size h_open h_count]. rewrite hput_same, firstn_nil.
    split; [reflexivity|]. split; [lia|]. split; intros i I.
    + replace i with 0%nat by lia. rewrite !hput_same. auto.
    + rewrite !hput_other by lia. auto.
  - destruct IH as (UD & US & UA & UB). unfold openings in *. rewrite seq_S, map_app, hrun_app. cbn [map Nat.add].
    set (u := hrun n limit true s (map (fun i => mkOp i 1 0) (seq 0 (S d)))) in *. destruct (UB (S d) ltac:(lia)) as [OD CD].
    cbn [hrun fold_left]. unfold hwrite. cbn [o_dev o_len o_seen]. rewrite OD, CD, UD. replace (limit <? 0 + 1) with false by (symmetry; apply Z.ltb_ge; lia). cbn [negb orb hd_error h_dir h_size h_open h_count].
    rewrite hput_same, US. split; [reflexivity|]. split; [lia|]. split; intros i I.
    + destruct (Nat.eq_dec i (S d)) as [->|NE]; [rewrite !hput_same; split; [reflexivity|lia]|]. rewrite !hput_other by exact NE. apply UA. lia.
    + rewrite !hput_other by lia. apply UB. lia.
Qed.
Lemma fillings_run : forall n limit f u d k, (k <= d)%nat -> 1 <= limit -> (forall i, (i < d)%nat -> h_open u i = Some f /\ h_count u i = 1) ->
  let v := hrun n limit true u (fillings limit k) in
  h_size v f = h_size u f + Z.of_nat k * (limit - 1) /\
  (forall i, (k <= i < d)%nat -> h_open v i = Some f /\ h_count v i = 1).
Proof.
  intros n limit f u d. induction k as [|k IH]; intros KD L H; cbv zeta; [cbn; split; [lia|intros i I; apply H; lia]|].
  destruct (IH ltac:(lia) L H) as [VS VA]. unfold fillings in *. rewrite seq_S, map_app, hrun_app. cbn [map Nat.add].
  set (v := hrun n limit true u (map (fun i => mkOp i (limit - 1) 0) (seq 0 k))) in *. destruct (VA k ltac:(lia)) as [OK CK].
  cbn [hrun fold_left]. unfold hwrite. cbn [o_dev o_len o_seen]. rewrite OK, CK. replace (limit <? _) with false by (symmetry; apply Z.ltb_ge; lia). cbn [h_size h_open h_count].
  rewrite hput_same. split; [nia|]. intros i I. rewrite hput_other by lia. apply VA. lia.
Qed.
Lemma shared_reached : forall n limit d s, (0 < d)%nat -> 1 <= limit -> begins s -> h_dir s = [] -> exists ops, fitting limit (seq 0 d) ops /\
  h_size (hrun n limit true s ops) (h_next s) = Z.of_nat d * limit.
Proof.
  intros n limit d s D L B D0. destruct d as [|d]; [lia|]. exists (openings (S d) ++ fillings limit (S d)). split.
  - unfold fitting, openings, fillings. apply Forall_app. split; apply Forall_forall; intros w W; apply in_map_iff in W; destruct W as (i & <- & I); cbn [o_dev o_len]; (split; [exact I|]); lia.
  - rewrite hrun_app. destruct (openings_run n limit s d B D0 L) as (_ & US & UA & _).
    destruct (fillings_run n limit (h_next s) _ (S d) (S d) (Nat.le_refl _) L UA) as [V _]. rewrite V, US. lia.
Qed.

(* ---- where the files are ---- *)
Definition placed (n next0 : nat) (s : hstate) : Prop := (next0 <= h_next s)%nat /\ forall j, (j <= n)%nat -> (j < h_next s - next0)%nat -> nth_error (h_dir s) j = Some (h_next s - S j)%nat.
Lemma nth_error_firstn_lt : forall A (l : list A) n j, (j < n)%nat -> nth_error (firstn n l) j = nth_error l j.
Proof. intros A. induction l as [|x l IH]; intros [|n] [|j] H; cbn; try reflexivity; try lia. apply IH. lia. Qed.
Lemma write_placed : forall n limit stuff next0 s w, placed n next0 s -> placed n next0 (hwrite n limit stuff s w).
Proof.
  intros n limit stuff next0 s [i len seen] [NX P]. unfold hwrite. cbn [o_dev o_len o_seen]. cbv zeta.
  destruct (if _ <? _ then None else _); [split; assumption|]. destruct (if _ || _ then None else _); [split; assumption|].
  split; cbn [h_next h_dir]; [lia|]. intros [|j] J1 J2; cbn [nth_error]; [f_equal; lia|]. rewrite nth_error_firstn_lt by lia.
  rewrite P by lia. f_equal.
Qed.
Lemma file_place : forall n limit stuff s ops k, (length (h_dir s) <= S n)%nat -> let s' := hrun n limit stuff s ops in
  (h_next s <= k < h_next s')%nat -> if Nat.leb (h_next s' - k) (S n) then nth_error (h_dir s') (h_next s' - S k) = Some k else ~ In k (h_dir s').
Proof.
  intros n limit stuff s ops k LD s' K. subst s'.
  assert (P : forall ops u, placed n (h_next s) u -> placed n (h_next s) (hrun n limit stuff u ops)).
  { clear. induction ops as [|w ops IH]; intros u U; [exact U|]. apply IH. apply write_placed. exact U. }
  destruct (P ops s ltac:(split; [lia|intros; lia])) as [NX Q]. pose proof (dir_length n limit stuff ops s LD) as LL.
  set (u := hrun n limit stuff s ops) in *. destruct (Nat.leb_spec (h_next u - k) (S n)).
  - rewrite Q by lia. f_equal. lia.
  - intros I. apply In_nth_error in I. destruct I as [j J]. assert (JL : (j < length (h_dir u))%nat) by (apply nth_error_Some; congruence).
    rewrite Q in J by lia. injection J as J. lia.
Qed.

(* ---- a device on its own ---- *)
Lemma alone_count : forall n limit stuff s w ops, begins s -> Forall (fun v => o_dev v = o_dev w) ops -> (forall f, hd_error (h_dir s) = Some f -> h_size s f <= o_seen w) ->
  let s' := hrun n limit stuff s (w :: ops) in exists f, h_open s' (o_dev w) = Some f /\ h_count s' (o_dev w) = h_size s' f.
Proof.
  intros n limit stuff s w ops [BO BC BS BN BD] D SEE s'. subst s'. change (hrun n limit stuff s (w :: ops)) with (hrun n limit stuff (hwrite n limit stuff s w) ops).
  assert (NEW : forall u i len, exists f, h_open (mkH (h_next u :: firstn n (h_dir u)) (S (h_next u)) (hput (h_size u) (h_next u) len) (hput (h_open u) i (Some (h_next u))) (hput (h_count u) i len)) i = Some f /\
    h_count (mkH (h_next u :: firstn n (h_dir u)) (S (h_next u)) (hput (h_size u) (h_next u) len) (hput (h_open u) i (Some (h_next u))) (hput (h_count u) i len)) i =
    h_size (mkH (h_next u :: firstn n (h_dir u)) (S (h_next u)) (hput (h_size u) (h_next u) len) (hput (h_open u) i (Some (h_next u))) (hput (h_count u) i len)) f).
  { intros u i len. exists (h_next u). cbn [h_open h_count h_size]. rewrite !hput_same. auto. }
  assert (FIRST : exists f, h_open (hwrite n limit stuff s w) (o_dev w) = Some f /\ h_count (hwrite n limit stuff s w) (o_dev w) = h_size (hwrite n limit stuff s w) f).
  { unfold hwrite. cbv zeta. rewrite BO. destruct (limit <? _); [rewrite orb_true_r; apply NEW|]. destruct (if negb stuff || false then None else hd_error (h_dir s)) as [f|] eqn:H; [|apply NEW].
    assert (HD : hd_error (h_dir s) = Some f) by (destruct (negb stuff || false); [discriminate H|exact H]). exists f. cbn [h_open h_count h_size]. rewrite !hput_same. split; [reflexivity|].
    pose proof (SEE f HD). pose proof (BS f). lia. }
  revert FIRST. generalize (hwrite n limit stuff s w) as u. clear - D NEW. induction ops as [|v ops IH]; intros u U; [exact U|].
  change (hrun n limit stuff u (v :: ops)) with (hrun n limit stuff (hwrite n limit stuff u v) ops). apply IH; [exact (Forall_inv_tail D)|]. pose proof (Forall_inv D) as DV. cbv beta in DV. destruct U as (f & O & C).
  unfold hwrite. cbv zeta. rewrite DV, O. destruct (limit <? _); [rewrite orb_true_r; apply NEW|]. exists f. cbn [h_open h_count h_size]. rewrite !hput_same. split; [exact O|lia].
Qed.
