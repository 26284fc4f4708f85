(* Reading files, names, directories and sockets: C94-C100. *)
From Coq Require Import String ZArith List Bool Lia ZifyBool ZifyNat ZifyN.
From Verif Require Import Base BaseFacts LoggerState ParseVal Lexer ParseCfg PropsParse Sys SysSpec SysProofs.
Import ListNotations.
Open Scope Z_scope.

(* ---- C94: a configuration file is read whole ---- *)
Theorem C94_content : forall fuel bufsiz t, (0 < bufsiz)%nat -> (length t < fuel)%nat -> read_content fuel bufsiz (Some (mkStream t None)) = Ret t.
Proof. intros fuel bufsiz t B L. exact (read_loop_all fuel bufsiz t [] B L). Qed.
Print Assumptions C94_content.
Example C94_ex : read_content 100 4 (Some (mkStream (s2z "channel: 0") None)) = Ret (s2z "channel: 0") /\ read_content 100 5 (Some (mkStream (s2z "channel: 0") None)) = Ret (s2z "channel: 0").
Proof. split; vm_compute; reflexivity. Qed.

(* ---- C95: an error while reading ---- *)
(* missing: the error itself, of which nothing is left in the result *)
Theorem C95_prefix_partial : forall fuel bufsiz t n, (0 < bufsiz)%nat -> (length t < fuel)%nat -> read_content fuel bufsiz (Some (mkStream t (Some n))) = Ret (firstn n t).
Proof.
  intros fuel bufsiz t n B L. unfold read_content, readable. cbn [f_bad f_bytes]. rewrite (read_loop_all fuel bufsiz (firstn n t) [] B); [reflexivity|]. rewrite firstn_length. lia.
Qed.
Print Assumptions C95_prefix_partial.
Definition ex_full : text := ex_lines ["channel: 0"; "  sync: sync"; "  priority: alarm"; "channel: 1"; "  sync: sync"]%string.
(* the rest of the file cannot be read: the logger takes what came before it *)
Theorem C95_error_refuted : exists t n t' s s', read_content 1000 64 (Some (mkStream t (Some n))) = Ret t' /\ t' <> t /\
  parse_logger 500 std_env 0 t = Ret (0, s) /\ parse_logger 500 std_env 0 t' = Ret (0, s') /\
  map (fun c => nth 0 (pc_cfg c) 0) (s_chs s) = [PRIORITY_ALARM; 0] /\ map (fun c => nth 0 (pc_cfg c) 0) (s_chs s') = [0].
Proof. exists ex_full, 24%nat. eexists _, _, _. split; [vm_compute; reflexivity|]. split; [vm_compute; discriminate|]. split; [vm_compute; reflexivity|]. split; [vm_compute; reflexivity|]. split; vm_compute; reflexivity. Qed.
Print Assumptions C95_error_refuted.

(* ---- C96: the logger is called like the program ---- *)
(* missing: paths of 500 bytes and more and paths with a newline *)
Theorem C96_name_partial : forall argv0 args b, ~ In 0 argv0 -> ~ In 10 argv0 -> zlen argv0 <= 499 -> base_name argv0 b ->
  process_name (Some (mkStream (argv0 ++ 0 :: args) None)) = b /\ logger_name (Some (mkStream (argv0 ++ 0 :: args) None)) = firstn 249 b.
Proof. exact name_base. Qed.
Print Assumptions C96_name_partial.
Example C96_ex : base_name (s2z "/usr/bin/server") (s2z "server") /\ process_name (Some (mkStream (s2z "/usr/bin/server" ++ 0 :: s2z "-d" ++ [0]) None)) = s2z "server".
Proof.
  split; [|vm_compute; reflexivity]. split; [vm_compute; intuition discriminate|]. right. exists (s2z "/usr/bin"). reflexivity.
Qed.
(* a program in two directories with names of 250 bytes is called like the second *)
Theorem C96_long_refuted : exists argv0 b, ~ In 0 argv0 /\ ~ In 10 argv0 /\ base_name argv0 b /\ b = s2z "server" /\
  logger_name (Some (mkStream (argv0 ++ [0]) None)) = repeat 98 248.
Proof.
  exists (47 :: repeat 97 249 ++ 47 :: repeat 98 250 ++ 47 :: s2z "server"), (s2z "server").
  assert (N : forall x, In x (47 :: repeat 97 249 ++ 47 :: repeat 98 250 ++ 47 :: s2z "server") -> 47 <= x).
  { intros x I. assert (F : Forall (fun x => 47 <= x) (47 :: repeat 97 249 ++ 47 :: repeat 98 250 ++ 47 :: s2z "server")) by (apply Forall_forall; intros y J; apply (proj1 (Z.leb_le 47 y)); revert y J; apply forallb_forall; vm_compute; reflexivity). rewrite Forall_forall in F. exact (F x I). }
  split; [intros I; specialize (N _ I); lia|]. split; [intros I; specialize (N _ I); lia|]. split; [|split; [reflexivity|vm_compute; reflexivity]].
  split; [vm_compute; intuition discriminate|]. right. exists (47 :: repeat 97 249 ++ 47 :: repeat 98 250). cbn [app]. rewrite <- app_assoc. reflexivity.
Qed.
Print Assumptions C96_long_refuted.

(* ---- C97: the directories of a log file ---- *)
Theorem C97_made : forall F (isd : F -> text -> bool) mkd path fs fs' r l, keeps isd mkd -> create_dir isd mkd path fs = (fs', r, l) ->
  (r = true -> forall a, on_the_way path a -> isd fs' a = true) /\
  (r = false -> exists a f, on_the_way path a /\ isd f a = false /\ snd (mkd f a) = false) /\
  (forall a, In a l -> on_the_way path a /\ isd fs a = false /\ isd fs' a = true).
Proof.
  intros F isd mkd path fs fs' r l K H. unfold create_dir in H. split; [|split].
  - intros -> a [NE (b & ->)]. exact (create_true isd mkd _ [] fs fs' l K H a b eq_refl NE).
  - intros ->. destruct (create_false isd mkd _ [] fs fs' l H) as (a & b & f1 & f2 & E & NE & A & B & _). exists a, f1. cbn [app] in *. split; [split; [exact NE|exists b; exact E]|]. split; [exact A|rewrite B; reflexivity].
  - intros a I. destruct (create_made isd mkd _ [] fs fs' r l K H a I) as (A & B & x & b & E & -> & NE). cbn [app] in *. split; [split; [exact NE|exists b; exact E]|]. auto.
Qed.
Print Assumptions C97_made.

(* a file system: the directories as lists of components; the root and the working
   directory are one *)
Fixpoint comps_from (cur p : text) : list text :=
  match p with
  | [] => match cur with [] => [] | _ => [cur] end
  | c :: p => if c =? 47 then match cur with [] => [] | _ => [cur] end ++ comps_from [] p else comps_from (cur ++ [c]) p
  end.
Definition comps := comps_from [].
Definition there (fs : list (list text)) (k : list text) : bool := match k with [] => true | _ => if in_dec (list_eq_dec (list_eq_dec Z.eq_dec)) k fs then true else false end.
Definition tree_dir (fs : list (list text)) (p : text) : bool := there fs (comps p).
Definition tree_mk (fs : list (list text)) (p : text) : list (list text) * bool :=
  if negb (tree_dir fs p) && there fs (removelast (comps p)) then (comps p :: fs, true) else (fs, false).
Lemma comps_slash : forall a cur s, comps_from cur (a ++ 47 :: s) = comps_from cur a ++ comps_from [] s.
Proof.
  intros a. induction a as [|c a IH]; intros cur s; cbn [app comps_from]; [reflexivity|]. destruct (c =? 47); [rewrite IH, app_assoc; reflexivity|apply IH].
Qed.
Lemma comps_word : forall s cur, ~ In 47 s -> cur ++ s <> [] -> comps_from cur s = [cur ++ s].
Proof.
  intros s. induction s as [|c s IH]; intros cur N E; cbn [comps_from].
  - rewrite app_nil_r in *. destruct cur; [congruence|reflexivity].
  - destruct (Z.eqb_spec c 47) as [-> | _]; [exfalso; apply N; left; reflexivity|]. rewrite IH, <- app_assoc; [reflexivity|intros I; apply N; right; exact I|]. rewrite <- app_assoc. exact E.
Qed.
Lemma there_in : forall fs k, there fs k = true <-> k = [] \/ In k fs.
Proof. intros fs [|c k]; cbn [there]; [tauto|]. destruct (in_dec (list_eq_dec (list_eq_dec Z.eq_dec)) (c :: k) fs); split; auto; [discriminate|]. intros [H | H]; [discriminate|contradiction]. Qed.
Example tree_keeps : keeps tree_dir tree_mk.
Proof.
  split.
  - intros fs p fs' H. unfold tree_mk in H. destruct (negb (tree_dir fs p) && there fs (removelast (comps p))); [|discriminate]. injection H as <-. apply there_in. right. left. reflexivity.
  - intros fs p q Q. unfold tree_mk. destruct (negb (tree_dir fs p) && there fs (removelast (comps p))); cbn [fst]; [|exact Q]. apply there_in in Q. apply there_in. destruct Q as [Q | Q]; [left; exact Q|right; right; exact Q].
Qed.
Example tree_makes : makes tree_dir tree_mk.
Proof.
  split.
  - intros fs. reflexivity.
  - intros fs a _. unfold tree_dir, comps. rewrite comps_slash. cbn [comps_from]. rewrite app_nil_r. reflexivity.
  - intros fs s NE NS D. unfold tree_mk. rewrite D. unfold comps. rewrite comps_word by auto. reflexivity.
  - intros fs a s D NE NS N. unfold tree_mk. rewrite N. cbn [negb andb]. unfold tree_dir, comps in *. rewrite comps_slash in *. cbn [comps_from] in D. rewrite app_nil_r in D. rewrite (comps_word s []) by auto. cbn [app]. rewrite removelast_last, D. reflexivity.
Qed.
Example C97_ex : create_dir tree_dir tree_mk (s2z "/var/log//app/x/") [[s2z "var"]] =
  ([[s2z "var"; s2z "log"; s2z "app"; s2z "x"]; [s2z "var"; s2z "log"; s2z "app"]; [s2z "var"; s2z "log"]; [s2z "var"]], true, [s2z "/var/log"; s2z "/var/log//app"; s2z "/var/log//app/x"]).
Proof. vm_compute. reflexivity. Qed.

(* ---- C98: nothing but a failure keeps a directory from being made ---- *)
(* missing: other processes that make the same directory, directories that may be
   entered but not listed *)
Theorem C98_total_partial : forall F (isd : F -> text -> bool) mkd path fs, keeps isd mkd -> makes isd mkd -> snd (fst (create_dir isd mkd path fs)) = true.
Proof. intros F isd mkd path fs K M. exact (create_total isd mkd path [] [] fs K M (fun I => I) (or_introl eq_refl)). Qed.
Print Assumptions C98_total_partial.
Example C98_ex : forall path fs, snd (fst (create_dir tree_dir tree_mk path fs)) = true.
Proof. intros path fs. exact (C98_total_partial _ tree_dir tree_mk path fs tree_keeps tree_makes). Qed.
(* another process makes the directory between opendir and mkdir: mkdir fails, and
   the directories below are not made, though they could be *)
Definition race_mk (fs : list (list text)) (p : text) : list (list text) * bool :=
  if negb (tree_dir fs (s2z "a")) then (comps (s2z "a") :: fs, false) else tree_mk fs p.
Theorem C98_race_refuted : exists path fs', keeps tree_dir race_mk /\ create_dir tree_dir race_mk path [] = (fs', false, []) /\
  tree_dir fs' (s2z "a") = true /\ tree_dir fs' (s2z "a/b") = false /\ snd (race_mk fs' (s2z "a/b")) = true /\ path = s2z "a/b/".
Proof.
  exists (s2z "a/b/"). eexists. split.
  - split.
    + intros fs p fs' H. unfold race_mk in H. destruct (negb (tree_dir fs (s2z "a"))); [discriminate|]. exact (k_made _ _ tree_keeps fs p fs' H).
    + intros fs p q Q. unfold race_mk. destruct (negb (tree_dir fs (s2z "a"))); [|exact (k_kept _ _ tree_keeps fs p q Q)]. cbn [fst]. apply there_in in Q. apply there_in. destruct Q as [Q | Q]; [left; exact Q|right; right; exact Q].
  - split; [vm_compute; reflexivity|]. repeat split.
Qed.
Print Assumptions C98_race_refuted.

(* ---- C99: sockets of UDP outputs ---- *)
Theorem C99_output : forall l u, steady (u_ts u) (map li_now l) ->
  (* a socket is asked for at most every three seconds *)
  spaced (u_ts u) (map (fun x => li_now (fst (fst (fst x)))) (filter (fun x => snd (fst (fst x))) (out_lines l u))) /\
  (* a line is counted as lost unless sendto takes it *)
  Forall (fun x => let '(i, asked, handed, lost) := x in lost = if handed && (0 <? li_sent i) then 0 else 1) (out_lines l u) /\
  (* with a socket every line is handed over and no other socket is asked for *)
  (is_open u = true -> Forall (fun x => snd (fst x) = true /\ snd (fst (fst x)) = false) (out_lines l u)) /\
  (* after three seconds the next line tries again *)
  (forall i l', l = i :: l' -> is_open u = false -> u_ts u + 3 <= li_now i -> li_sock i = true -> Forall (fun x => snd (fst x) = true) (out_lines l u)).
Proof.
  intros l u S. split; [exact (out_spaced l u S)|]. split; [exact (out_handed l u)|]. split; [exact (out_open l u)|]. intros i l' -> O T K. exact (out_retry i l' u O T K).
Qed.
Print Assumptions C99_output.
(* A device that was never opened tries at its first line, unless the clock is
   within three seconds of 1970. *)
Theorem C99_first : forall i l, li_sock i = true ->
  (3 <= li_now i -> Forall (fun x => snd (fst x) = true) (out_lines (i :: l) udp0)) /\
  (li_now i < 3 -> exists r, out_lines (i :: l) udp0 = (i, false, false, 1) :: r).
Proof.
  intros i l K. split; intros T.
  - exact (out_retry i l udp0 eq_refl T K).
  - cbn [out_lines]. unfold out_line, udp_open, udp0. cbn [is_open u_sock u_ts]. replace (li_now i <=? 0 + 2) with true by lia. cbn [is_open u_sock]. eexists. reflexivity.
Qed.
Print Assumptions C99_first.
Definition ex_io : list line_io := [mkLineIo 100 false 5; mkLineIo 102 true 5; mkLineIo 103 true 5; mkLineIo 103 true (-1)].
Example C99_ex : steady 0 (map li_now ex_io) /\ map (fun x => (snd (fst (fst x)), snd (fst x), snd x)) (out_lines ex_io udp0) = [(true, false, 1); (false, false, 1); (true, true, 0); (false, true, 1)].
Proof. split; [cbn; lia|vm_compute; reflexivity]. Qed.

(* ---- C100: an input listens on the configured address ---- *)
(* missing: an address that changes while the socket is open *)
Theorem C100_listens_partial : forall l u a, bound_to a u -> Forall (fun i => ri_addr i = a) l ->
  Forall (fun x => bound_to a (snd x) /\ (ri_able (fst (fst x)) = false -> u_sock (snd x) = None)) (in_rounds l u) /\
  (steady (u_ts u) (map ri_now l) -> spaced (u_ts u) (map (fun x => ri_now (fst (fst x))) (filter (fun x => snd (fst x)) (in_rounds l u)))) /\
  (forall i, is_open u = false -> u_ts u + 3 <= ri_now i -> ri_able i = true -> ri_sock i = true -> ri_bind i = true -> u_sock (fst (in_round i u)) = Some (Some (ri_addr i))).
Proof. intros l u a B A. split; [exact (in_bound l u a B A)|]. split; [exact (in_spaced l u)|]. intros i. exact (in_retry i u). Qed.
Print Assumptions C100_listens_partial.
Definition ex_round (now : Z) (able bind : bool) (port : Z) : round_io := mkRoundIo now able (1, port) true bind.
Example C100_ex : map (fun x => u_sock (snd x)) (in_rounds [ex_round 100 true false 9; ex_round 101 true true 9; ex_round 103 true true 9; ex_round 104 false true 9; ex_round 106 true true 9] udp0) =
  [None; None; Some (Some (1, 9)); None; Some (Some (1, 9))].
Proof. vm_compute. reflexivity. Qed.
(* a hot update of the address: the socket stays on the old one *)
Theorem C100_moved_refuted : exists l u, map (fun x => u_sock (snd x)) (in_rounds l u) = [Some (Some (1, 9)); Some (Some (1, 9)); Some (Some (1, 9))] /\
  map ri_addr l = [(1, 9); (1, 10); (1, 10)] /\ map ri_now l = [100; 200; 300] /\ Forall (fun i => ri_able i = true /\ ri_sock i = true /\ ri_bind i = true) l.
Proof. exists [ex_round 100 true true 9; ex_round 200 true true 10; ex_round 300 true true 10], udp0. split; [vm_compute; reflexivity|]. split; [reflexivity|]. split; [reflexivity|]. repeat constructor. Qed.
Print Assumptions C100_moved_refuted.
