(* Properties of accepted configurations, line by line: C70, C71. *)
From Coq Require Import String ZArith List Bool Lia ZifyBool ZifyNat ZifyN.
From Verif Require Import Base BaseFacts LoggerState ParseVal Lexer ParseCfg TextSpec ValSpec ReportSpec ReportProofs AcceptSpec AcceptProofs.
Import ListNotations.
Open Scope Z_scope.
Local Definition ex_lines (l : list string) : text := concat (map (fun s => s2z s ++ [10]) l).

(* the text starts with a UTF-8 byte order mark *)
Definition marked (t : text) : Prop := firstn 3 t = [239; 187; 191].
Lemma unmarked : forall t, ~ marked t -> has_bom t = false.
Proof.
  intros t M. unfold has_bom, marked in *. destruct t as [|c0 [|c1 [|c2 t]]]; cbn [starts]; repeat match goal with |- context [?a =? ?b] => destruct (Z.eqb_spec a b) end; try reflexivity; subst.
  exfalso. apply M. reflexivity.
Qed.

(* ---- C71: misspelt keys ---- *)
(* Every line of an accepted configuration, its definitions replaced, is empty, a
   comment, or a key that begins like a documented one.  Missing: the other
   letters of the key (C71_misspelt_refuted). *)
Theorem C71_lines_partial : forall fuel e shm t s, ~ In 0 t -> ~ marked t -> parse_logger fuel e shm t = Ret (0, s) ->
  forall n p, line_start (s_text s) n p -> p <= zlen (s_text s) -> exists x, line_text (s_text s) p x /\
    (gap_line x \/ exists k d, key_line k x /\ 2 <= zlen k /\ In d (map fst documented) /\ hd 0 d = hd 0 k).
Proof.
  intros fuel e shm t s N M H n p LS P. destruct (accepted_lines fuel e shm t s N (unmarked t M) H) as [AL _].
  destruct (Z.eq_dec p (zlen (s_text s))) as [E|E].
  - exists []. split; [exists (s_text s), []; split; [rewrite app_nil_r; reflexivity|]; split; [exact E|split; [constructor|left; reflexivity]]|]. left. exists [], []. split; [reflexivity|split; [constructor|left; reflexivity]].
  - destruct (AL n p LS ltac:(lia)) as (x & LT & [G|(k & r & KL & PR & NR)]); exists x; (split; [exact LT|]); [left; exact G|right].
    destruct (reserve_letter k r PR NR) as (L & d & I & HD). exists k, d. split; [exact KL|]. split; [exact L|]. split; [|exact HD]. apply in_map_iff. exists (d, r). auto.
Qed.
Print Assumptions C71_lines_partial.
(* the keys of definitions *)
Definition defining (k : text) : Prop := hd 0 k = 118 \/ hd 0 k = 100 /\ nth 2 k 0 = 102.
(* So a text without definitions is rejected for one line whose key is short or
   begins with another letter, wherever the line is. *)
Theorem C71_rejected_partial : forall fuel e shm t code s n p k x, ~ In 0 t -> ~ marked t ->
  (forall m q y j, line_start t m q -> line_text t q y -> key_line j y -> ~ defining j) ->
  line_start t n p -> line_text t p x -> key_line k x ->
  zlen k < 2 \/ (forall d, In d (map fst documented) -> hd 0 d <> hd 0 k) ->
  parse_logger fuel e shm t = Ret (code, s) -> code <> 0.
Proof.
  intros fuel e shm t code s n p k x N M ND LS LT KL BAD H ->.
  assert (TE : s_text s = t).
  { apply (text_kept fuel e shm t 0 s N (unmarked t M)); [|exact H]. intros m q y j L1 L2 L3. specialize (ND m q y j L1 L2 L3). destruct (reserve_define j) as [R1 R2]. unfold defining in ND.
    split; intros R; apply ND; [right; exact (R1 R)|left; exact (R2 R)]. }
  assert (P : p <= zlen (s_text s)). { rewrite TE. destruct LT as (a & y & -> & -> & _). rewrite zlen_app. pose proof (zlen_nonneg _ (x ++ y)). lia. }
  rewrite <- TE in LS, LT. destruct (C71_lines_partial fuel e shm t s N M H n p LS P) as (x' & LT' & F). rewrite (line_text_det _ _ _ _ LT' LT) in F.
  destruct F as [G|(k' & d & KL' & L & I & HD)]; [exact (key_line_gap _ _ KL G)|]. rewrite (key_line_det _ _ _ KL' KL) in *. destruct BAD as [B|B]; [lia|exact (B d I HD)].
Qed.
Print Assumptions C71_rejected_partial.
Example C71_rejected_example : let t := ex_lines ["- channel: 0"; "  name: x # no such key"]%string in
  (exists s, parse_logger 300 std_env 0 t = Ret (23, s)) /\
  line_start t 2 13 /\ line_text t 13 (s2z "  name: x # no such key") /\ key_line (s2z "name") (s2z "  name: x # no such key") /\
  forall d, In d (map fst documented) -> hd 0 d <> hd 0 (s2z "name").
Proof.
  cbv zeta. split; [eexists; vm_compute; reflexivity|]. split.
  - apply (ls_next _ 1 0); [constructor|]. exists [], (s2z "- channel: 0"), [10], (s2z "  name: x # no such key" ++ [10]). split; [reflexivity|]. split; [reflexivity|].
    split; [|split; [|reflexivity]]; [vm_compute; repeat (constructor; [split; discriminate|]); constructor|]. apply nl_lf. discriminate.
  - split; [exists (s2z "- channel: 0" ++ [10]), [10]; split; [reflexivity|]; split; [reflexivity|]; split; [vm_compute; repeat (constructor; [split; discriminate|]); constructor|right; left; reflexivity]|].
    split.
    + exists (s2z "  "), [], (s2z " x # no such key"). split; [reflexivity|]. split; [vm_compute; repeat (constructor; [right; left; reflexivity|]); constructor|]. split; [|constructor].
      exists 110, (s2z "ame"). split; [reflexivity|]. split; [unfold lower; lia|]. vm_compute. repeat (constructor; [left; split; discriminate|]). constructor.
    + intros d I. vm_compute in I. repeat (destruct I as [<- |I]; [vm_compute; discriminate|]). destruct I.
Qed.

(* ---- C70: at least one channel ---- *)
(* The last line of an accepted configuration decides: if it has a key, there is
   a channel.  Missing: an empty text, and a comment or an empty line at the end
   (C70_has_channel_refuted). *)
Theorem C70_keyed_partial : forall fuel e shm t s n p x k, ~ In 0 t -> ~ marked t -> parse_logger fuel e shm t = Ret (0, s) ->
  line_start (s_text s) n p -> behind_line (s_text s) n (zlen t) -> line_text (s_text s) p x -> key_line k x -> s_chs s <> [].
Proof.
  intros fuel e shm t s n p x k N M H LS BE LT KL C. destruct (accepted_lines fuel e shm t s N (unmarked t M) H) as [_ TG].
  pose proof (en_shape _ _ _ (parse_lines fuel e shm t 0 s N (unmarked t M) H)) as SH. rewrite <- (shaped_len _ _ SH) in BE.
  destruct (TG C) as [E|(n' & p' & x' & LS' & BE' & LT' & G)].
  - rewrite E in LT. destruct LT as (a & y & LT & _). symmetry in LT. apply app_eq_nil in LT. destruct LT as [_ LT]. apply app_eq_nil in LT. destruct LT as [-> _].
    destruct KL as (s0 & w & v & KL & _). symmetry in KL. apply app_eq_nil in KL. destruct KL as [_ KL]. apply app_eq_nil in KL. destruct KL as [_ KL]. apply app_eq_nil in KL. destruct KL as [_ KL]. discriminate KL.
  - assert (ON : forall m q, line_start (s_text s) m q -> behind_line (s_text s) m (zlen (s_text s)) -> on_line (s_text s) m q).
    { intros m q L (q' & [L' Q'] & _). rewrite (line_start_det _ _ _ L _ L') in *. split; assumption. }
    pose proof (ON _ _ LS BE) as O1. pose proof (ON _ _ LS' BE') as O2.
    assert (p = p').
    { destruct (Z.lt_trichotomy p p') as [D|[D|D]]; [exfalso|exact D|exfalso].
      - exact (starts_between _ _ _ _ O1 BE _ _ LS' D (proj2 O2)).
      - exact (starts_between _ _ _ _ O2 BE' _ _ LS D (proj2 O1)). }
    subst p'. rewrite (line_text_det _ _ _ _ LT' LT) in G. exact (key_line_gap _ _ KL G).
Qed.
Print Assumptions C70_keyed_partial.
(* Of an accepted configuration without channel the last line is empty or a comment. *)
Theorem C70_channelless : forall fuel e shm t s, ~ In 0 t -> ~ marked t -> parse_logger fuel e shm t = Ret (0, s) -> s_chs s = [] ->
  t = [] \/ exists n p x, line_start (s_text s) n p /\ behind_line (s_text s) n (zlen t) /\ line_text (s_text s) p x /\ gap_line x.
Proof.
  intros fuel e shm t s N M H C. destruct (accepted_lines fuel e shm t s N (unmarked t M) H) as [_ TG].
  pose proof (shaped_len _ _ (en_shape _ _ _ (parse_lines fuel e shm t 0 s N (unmarked t M) H))) as SL.
  destruct (TG C) as [E|R]; [left; rewrite E in SL; destruct t; [reflexivity|unfold zlen in SL; cbn [length] in SL; lia]|]. right. rewrite SL in R. exact R.
Qed.
Print Assumptions C70_channelless.
Example C70_keyed_example : let t := ex_lines ["# one channel"; "- channel: 0"]%string in
  (exists s, parse_logger 300 std_env 0 t = Ret (0, s) /\ s_text s = t /\ zlen (s_chs s) = 1) /\
  line_start t 2 14 /\ behind_line t 2 (zlen t) /\ line_text t 14 (s2z "- channel: 0") /\ key_line (s2z "channel") (s2z "- channel: 0").
Proof.
  cbv zeta. split; [eexists; split; [vm_compute; reflexivity|split; reflexivity]|].
  assert (L2 : line_start (ex_lines ["# one channel"; "- channel: 0"]%string) 2 14).
  { apply (ls_next _ 1 0); [constructor|]. exists [], (s2z "# one channel"), [10], (s2z "- channel: 0" ++ [10]). split; [reflexivity|]. split; [reflexivity|].
    split; [|split; [|reflexivity]]; [vm_compute; repeat (constructor; [split; discriminate|]); constructor|]. apply nl_lf. discriminate. }
  split; [exact L2|]. split.
  - exists 14. split; [split; [exact L2|reflexivity]|]. left. exists (s2z "# one channel" ++ [10]), (s2z "- channel: 0"), [10], []. split; [reflexivity|]. split; [reflexivity|].
    split; [|split; [|reflexivity]]; [vm_compute; repeat (constructor; [split; discriminate|]); constructor|]. apply nl_lf. discriminate.
  - split; [exists (s2z "# one channel" ++ [10]), [10]; split; [reflexivity|]; split; [reflexivity|]; split; [vm_compute; repeat (constructor; [split; discriminate|]); constructor|right; left; reflexivity]|].
    exists (s2z "- "), [], (s2z " 0"). split; [reflexivity|]. split; [vm_compute; constructor; [left; reflexivity|constructor; [right; left; reflexivity|constructor]]|]. split; [|constructor].
    exists 99, (s2z "hannel"). split; [reflexivity|]. split; [unfold lower; lia|]. vm_compute. repeat (constructor; [left; split; discriminate|]). constructor.
Qed.
