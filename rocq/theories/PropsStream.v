(* Properties C13-C18, C56, C60, C63: log streams, prefixes, LOG_FORMAT. *)
From Coq Require Import String ZArith List Bool Lia Permutation.
From Verif Require Import Base BaseFacts NumSpec DateFmt DateSpec DateProofs DblFmt DblSpec DblProofs Stream StreamSpec
  StreamProofs RenderProofs PrefixProofs StreamUnique Moves MovesProofs.
Import ListNotations.
Open Scope Z_scope.

(* [ready E o T st]: the record holds the text T inside a buffer of exactly
   e_cap E bytes, and the thread's date cache is one that printing timestamps
   produces.  [settled E o]: constant offset from UTC, gcvt writes at most 23
   bytes.  [val_ok]: operands as the C++ types allow, except LLONG_MIN, dumps of
   zero bytes, and timestamps outside C11_date_partial. *)

(* C13.  Undefined behaviour (in particular a write outside the buffer) is a
   distinct outcome of the model, so [Ret] says it does not happen. *)
Theorem C13_stream_partial : forall E o vs T st, settled E o -> Forall (val_ok o) vs -> ready E o T st ->
  exists pss st', Forall2 (shows o (e_libc E)) vs pss /\ stream_all E st vs = Ret st' /\
    (let text := feed_all (e_cap E) T (concat pss) in
     ready E o text st' /\ zlen text <= e_cap E /\ exists added, text = T ++ added).
Proof. exact stream_done. Qed.
Print Assumptions C13_stream_partial.

(* The pieces are determined by the values, so there is one possible result. *)
Theorem C13_determined : forall o L vs pss pss', Forall2 (shows o L) vs pss -> Forall2 (shows o L) vs pss' -> pss = pss'.
Proof. exact shows_all_unique. Qed.
Print Assumptions C13_determined.

(* C12, all doubles: the text, determined by the value, and where it goes. *)
Theorem C12_any : forall L d, libc_ok L -> is_double d -> exists t junk, dbl_text L d t /\ (forall t', dbl_text L d t' -> t' = t) /\
  zlen (t ++ junk) <= 30 /\ forall pre old post, zlen old = zlen (t ++ junk) ->
    write_double L (pre ++ old ++ post) (zlen pre) d = Ret (pre ++ t ++ junk ++ post, zlen t).
Proof.
  intros L d HL Hd. destruct (w_dbl L d HL Hd) as (t & junk & T & Ln & Wr). exists t, junk. split; [exact T|].
  split; [intros t' T'; exact (dbl_text_unique L d t' t T' T)|]. split; [exact Ln|exact Wr].
Qed.
Print Assumptions C12_any.
(* 2^-14 = 0.000061 goes to printf, 2^-30 and 2^61 to gcvt, 2^-1023 is shown as 0 *)
Example C12_any_ex : fixed_range (2 ^ 52) (-66) /\ gcvt_range (2 ^ 52) (-82) /\ gcvt_range (2 ^ 52) 9 /\ subnormal_range (2 ^ 51) (-1074).
Proof. unfold fixed_range, gcvt_range, subnormal_range. split; [split; vm_compute; reflexivity|]. split; [left; split; vm_compute; congruence|]. split; [right; vm_compute; reflexivity|vm_compute; reflexivity]. Qed.

(* a nested value in a buffer of 60 bytes: the second number is skipped *)
Definition ex_env (cap : Z) : env := mkEnv (fixed_zone 28800) (mkLibc (fun _ => s2z "1e99") (fun _ => [])) cap.
Definition ex_vals : list sval :=
  [SStr (s2z "abc"); SCont (s2z "vector:") [SLL (-7); SPair (SULL 1) (SBool true)]; SStr (s2z "end"); SULL 12345; SStr (s2z "yes!")].
Definition ex_strm (cap : nat) : strm := mkStrm (repeat 0 cap) 0 cache_init.
Lemma ex_settled : forall cap, settled (ex_env cap) 28800.
Proof. intros cap. split; [reflexivity|]. split; [lia|]. intros d. vm_compute. congruence. Qed.
Lemma ex_ready : forall cap, ready (ex_env (Z.of_nat cap)) 28800 [] (ex_strm cap).
Proof.
  intros cap. split; [|apply cache_init_fine]. exists (repeat 0 cap). split; [reflexivity|]. split; [reflexivity|].
  cbn. unfold zlen. rewrite repeat_length. reflexivity.
Qed.
Example C13_hypotheses : settled (ex_env 60) 28800 /\ Forall (val_ok 28800) ex_vals /\ ready (ex_env 60) 28800 [] (ex_strm 60).
Proof.
  split; [apply ex_settled|]. split; [|apply (ex_ready 60)].
  unfold ex_vals. repeat first [apply Forall_nil | apply Forall_cons | apply vo_str | apply vo_cont | apply vso_nil | apply vso_cons
    | apply vo_ll | apply vo_ull | apply vo_pair | apply vo_bool]; vm_compute; repeat split; congruence.
Qed.
Example C13_result : exists st, stream_all (ex_env 60) (ex_strm 60) ex_vals = Ret st /\
  firstn (Z.to_nat (s_len st)) (s_buf st) = s2z "abcvector:(2)[-7, <1:true>]end12345yes!".
Proof. eexists. split; [vm_compute; reflexivity|]. vm_compute. reflexivity. Qed.
Example C13_result_full : exists st, stream_all (ex_env 40) (ex_strm 40) ex_vals = Ret st /\
  firstn (Z.to_nat (s_len st)) (s_buf st) = s2z "abcvector:()[, <:true>]endyes!".
Proof. eexists. split; [vm_compute; reflexivity|]. vm_compute. reflexivity. Qed.

(* Not for every operand: LLONG_MIN and a dump containing a zero byte are
   undefined whatever the record looks like, if there is room. *)
Theorem C13_stream_refuted :
  (exists E st, ready E 0 [] st /\ stream_all E st [SLL LLONG_MIN] = Ub) /\
  (exists E st, ready E 0 [] st /\ stream_all E st [SBin 4096 [0]] = Ub).
Proof.
  split.
  - exists (mkEnv (fixed_zone 0) (mkLibc (fun _ => []) (fun _ => [])) 40), (ex_strm 40). split.
    + split; [|apply cache_init_fine]. exists (repeat 0 40). repeat split.
    + vm_compute. reflexivity.
  - exists (mkEnv (fixed_zone 0) (mkLibc (fun _ => []) (fun _ => [])) 200), (ex_strm 200). split.
    + split; [|apply cache_init_fine]. exists (repeat 0 200). repeat split.
    + vm_compute. reflexivity.
Qed.
Print Assumptions C13_stream_refuted.

(* C14.  [T] is the streamed text, at most as long as the buffer. *)
Theorem C14_push : forall E T rest c, zlen (T ++ rest) = e_cap E -> 2 <= e_cap E ->
  exists buf len post, push_text E (mkStrm (T ++ rest) (zlen T) c) = Ret (mkStrm buf len c) /\
    buf = firstn (Z.to_nat (e_cap E - 2)) T ++ [10; 0] ++ post /\
    len = zlen (firstn (Z.to_nat (e_cap E - 2)) T ++ [10]) /\ len <= e_cap E - 1 /\ zlen buf = e_cap E.
Proof.
  intros E T rest c HL Hc.
  destruct (push_text_ok E T (mkStrm (T ++ rest) (zlen T) c)) as (st' & post & R & B & L & C); [|assumption|].
  { exists rest. split; [reflexivity|]. split; [reflexivity|exact HL]. }
  assert (CC: s_cache st' = c).
  { unfold push_text in R. cbn [s_buf s_len s_cache] in R. apply bind_ret_inv in R as (b1 & _ & R).
    apply bind_ret_inv in R as (b2 & _ & R). injection R as <-. reflexivity. }
  exists (s_buf st'), (s_len st'), post. split; [|split; [exact B|split; [exact L|split; [|exact C]]]].
  - rewrite R. destruct st'. cbn in *. subst. reflexivity.
  - rewrite L, zlen_app. unfold zlen at 1. rewrite firstn_length. change (zlen [10]) with 1. lia.
Qed.
Print Assumptions C14_push.
Example C14_example : push_text (ex_env 6) (mkStrm (s2z "abcdef") 6 cache_init) = Ret (mkStrm (s2z "abcd" ++ [10; 0]) 5 cache_init).
Proof. reflexivity. Qed.

(* C15.  [head_ok] asks for the space: 150 bytes plus logger name, description,
   shortened path and function name. *)
Theorem C15_prefix : forall E o h st, e_zone E = fixed_zone o -> - 86400 <= o <= 86400 -> head_ok E o h ->
  h_prefix h <> 0 -> ready E o [] st ->
  exists t st', prefix_text o h t /\ write_prefix E h st = Ret (st', zlen t) /\ ready E o t st' /\ zlen t + 80 <= e_cap E.
Proof. exact write_prefix_ok. Qed.
Print Assumptions C15_prefix.
Theorem C15_no_prefix : forall E o h T st, ready E o T st -> h_prefix h = 0 -> write_prefix E h st = Ret (st, zlen T).
Proof. intros E o h T st ((r & _ & L & _) & _) H. unfold write_prefix. rewrite H. cbn. rewrite L. reflexivity. Qed.
Print Assumptions C15_no_prefix.

Definition ex_head (func : text) : head :=
  mkHead 127 1709164799 5 4 77 (s2z "app????") 3 (s2z "d") 1 (Some (s2z "/a/b/c/d.cpp")) 12 42 (Some func) (zlen func).
Example C15_hypotheses : head_ok (ex_env 400) 28800 (ex_head (s2z "main")).
Proof.
  constructor.
  - split; [unfold ex_head; cbn [h_ts]; lia|]. split; [cbn [ex_head h_ts]; lia|].
    exists 2024, 2, 29. unfold valid_date. vm_compute. repeat split; congruence.
  - cbn [ex_head h_precise]. lia.
  - cbn [ex_head h_priority]. lia.
  - cbn [ex_head h_thread]. lia.
  - vm_compute. split; congruence.
  - vm_compute. split; congruence.
  - intros f E. injection E as <-. vm_compute. congruence.
  - cbn [ex_head h_line]. lia.
  - intros f E. injection E as <-. vm_compute. congruence.
  - intros f F. assert (f = s2z "b/c/d.cpp") as ->.
    { eapply file_text_unique; [exact F|]. apply (ft_cut (s2z "/a/b/c/d.cpp") 12 (s2z "/a") 47); [lia|reflexivity|reflexivity|reflexivity]. }
    vm_compute. congruence.
Qed.
Example C15_result : exists st, write_prefix (ex_env 400) (ex_head (s2z "main")) (ex_strm 400) = Ret (st, 63) /\
  firstn (Z.to_nat (s_len st)) (s_buf st) = s2z "[20240229 07:59:59.005][ERROR][77][app][d][b/c/d.cpp:42](main) ".
Proof. eexists. split; vm_compute; reflexivity. Qed.

(* Without that space the constructor writes outside the record. *)
Theorem C15_unbounded_refuted : exists E h st, ready E 28800 [] st /\ e_cap E = 100 /\
  h_func_len h = 200 /\ write_prefix E h st = Ub.
Proof.
  exists (ex_env 100), (ex_head (repeat 102 200)), (ex_strm 100). split; [apply (ex_ready 100)|].
  split; [reflexivity|]. split; vm_compute; reflexivity.
Qed.
Print Assumptions C15_unbounded_refuted.

(* C16.  The path may be followed by anything ([rest], possibly nothing). *)
Theorem C16_short_path : forall a rest, exists k,
  short_path (Some (a ++ rest)) (zlen a) = Ret k /\ 0 <= k <= zlen a /\
  ((k = 0 /\ seps a < 3) \/
   (exists b c s, a = b ++ [c] ++ s /\ is_sep c = true /\ seps s = 2 /\ k = zlen b + 1)).
Proof. exact short_path_ok. Qed.
Print Assumptions C16_short_path.
(* without a path, or without a positive length, nothing is skipped and nothing is read *)
Theorem C16_no_path : forall path len, path = None \/ len <= 0 -> short_path path len = Ret 0.
Proof. intros path len [->|L]; [reflexivity|]. destruct path; [|reflexivity]. cbn [short_path]. destruct (Z.leb_spec len 0); [reflexivity|lia]. Qed.
Print Assumptions C16_no_path.
Example C16_example : short_path (Some (s2z "/a\b/c.cpp")) 10 = Ret 1 /\ short_path (Some (s2z "a/b/c")) 5 = Ret 0 /\
  short_path (Some (s2z "x///")) 4 = Ret 2.
Proof. repeat split. Qed.

(* C17.  [renders E o v t]: streaming v appends t wherever there is room for t
   and 41 more bytes.  Nested containers: apply the theorem to the elements. *)
Theorem C17_container : forall E o name elems, settled E o -> val_ok o (SCont name elems) -> forallb no_align elems = true ->
  exists size ts, is_numeral 10 0 (zlen elems) size /\ Forall2 (renders E o) (firstn 5 elems) ts /\
    renders E o (SCont name elems)
      (name ++ s2z "(" ++ size ++ s2z ")[" ++ tjoin (s2z ", ") ts ++ (if 5 <? zlen elems then s2z "..., " else []) ++ s2z "]").
Proof. exact container_renders. Qed.
Print Assumptions C17_container.
Theorem C17_pair : forall E o a b, settled E o -> val_ok o (SPair a b) -> no_align (SPair a b) = true ->
  exists ta tb, renders E o a ta /\ renders E o b tb /\ renders E o (SPair a b) (s2z "<" ++ ta ++ s2z ":" ++ tb ++ s2z ">").
Proof. exact pair_renders. Qed.
Print Assumptions C17_pair.
Example C17_example : exists st,
  stream_val (ex_env 200) (ex_strm 200) (SCont (s2z "list:") (map SLL [1; 2; 3; 4; 5; 6; 7])) = Ret st /\
  firstn (Z.to_nat (s_len st)) (s_buf st) = s2z "list:(7)[1, 2, 3, 4, 5..., ]".
Proof. eexists. split; vm_compute; reflexivity. Qed.
Example C17_hypotheses : val_ok 28800 (SCont (s2z "list:") (map SLL [1; 2; 3; 4; 5; 6; 7])).
Proof.
  cbn [map]. repeat first [apply vo_cont | apply vso_nil | apply vso_cons | apply vo_ll]; vm_compute; repeat split; congruence.
Qed.

(* C18.  [T] may already fill the record; [snprintf_may]: a text of at most
   INT_MAX bytes, or a negative return value and any bytes left behind. *)
Theorem C18_format : forall E T rest c r, zlen (T ++ rest) = e_cap E -> 1 <= e_cap E -> snprintf_may r ->
  exists st' rest', log_format E (mkStrm (T ++ rest) (zlen T) c) r = Ret st' /\
    (let text := firstn (Z.to_nat (e_cap E - 1)) (T ++ formatted r) in
     s_buf st' = text ++ rest' /\ s_len st' = zlen text /\ zlen text < e_cap E /\ zlen (s_buf st') = e_cap E).
Proof.
  intros E T rest c r HL Hc M.
  destruct (log_format_any E T (mkStrm (T ++ rest) (zlen T) c) r) as (st' & R & (rest' & B & L & C)); try assumption.
  { exists rest. split; [reflexivity|]. split; [reflexivity|exact HL]. }
  exists st', rest'. split; [exact R|]. cbv zeta. split; [exact B|]. split; [exact L|]. split; [|exact C].
  unfold zlen. rewrite firstn_length. lia.
Qed.
Print Assumptions C18_format.
Example C18_example : exists st, log_format (ex_env 8) (mkStrm (s2z "ab" ++ repeat 0 6) 2 cache_init) (SnOk (s2z "cdefghijk")) = Ret st /\
  s_len st = 7 /\ s_buf st = s2z "abcdefg" ++ [0].
Proof. eexists. repeat split. Qed.
Example C18_example_error : exists st, log_format (ex_env 8) (mkStrm (s2z "ab" ++ repeat 0 6) 2 cache_init) (SnErr (-1) (s2z "xy")) = Ret st /\
  s_len st = 2.
Proof. eexists. repeat split. Qed.

(* C56.  [held ops]: the slots reserved.  At any time each reservation is either
   pushed, with its own index, or owned by one living object. *)
Theorem C56_moves : forall ops s, sop_run (mkSheap [] []) ops = Ret s ->
  Permutation (map (fun h => (h, h)) (held ops))
    (sh_pushed s ++ flat_map (fun ob => match so_data ob with Some d => [(d, so_hold ob)] | None => [] end)
                             (filter so_alive (sh_objs s))).
Proof.
  intros ops s H. pose proof (sop_run_perm _ _ _ H) as P. pose proof (sop_run_dead _ _ _ H (Forall_nil _)) as D.
  cbn [sh_pushed sh_objs owned flat_map app] in P. change (fun h : Z => (h, h)) with dup. rewrite P. apply Permutation_app_head.
  clear -D. induction D as [|ob l Ho D IH]; [reflexivity|]. cbn [owned flat_map filter]. destruct (so_alive ob) eqn:A.
  - cbn [flat_map]. apply Permutation_app_head. exact IH.
  - rewrite Ho by reflexivity. exact IH.
Qed.
Print Assumptions C56_moves.
(* when every object is gone, the pushes are exactly the reservations *)
Theorem C56_all_destroyed : forall ops s, sop_run (mkSheap [] []) ops = Ret s ->
  Forall (fun ob => so_alive ob = false) (sh_objs s) -> Permutation (map (fun h => (h, h)) (held ops)) (sh_pushed s).
Proof.
  intros ops s H A. rewrite (C56_moves ops s H).
  replace (filter so_alive (sh_objs s)) with (@nil sobj); [rewrite app_nil_r; reflexivity|].
  induction A as [|ob l Ho A IH]; [reflexivity|]. cbn [filter]. rewrite Ho. exact IH.
Qed.
Print Assumptions C56_all_destroyed.
(* destroying an object that owns nothing pushes nothing *)
Theorem C56_moved_from : forall s i s1 s2, sop_step s (Move i) = Ret s1 -> sop_step s1 (Destroy i) = Ret s2 -> sh_pushed s2 = sh_pushed s.
Proof.
  intros [objs ps] i s1 s2 H1 H2. cbn [sop_step sh_objs sh_pushed] in H1.
  apply bind_ret_inv in H1 as (ob & R & H1). destruct (so_alive ob); [|discriminate].
  apply rd_split in R as (a & b & -> & <-). rewrite wr_split in H1. injection H1 as <-.
  cbn [sop_step sh_objs sh_pushed] in H2. rewrite <- app_assoc in H2. cbn [app] in H2.
  rewrite rd_app_mid in H2 by reflexivity. cbn [bind so_alive so_data] in H2. rewrite wr_split in H2. injection H2 as <-. reflexivity.
Qed.
Print Assumptions C56_moved_from.
Example C56_example : exists s,
  sop_run (mkSheap [] []) [New 5; Move 0; New (-1); Move 1; Destroy 0; New 5; Destroy 3; Destroy 1; Destroy 2; Destroy 4] = Ret s /\
  sh_pushed s = [(5, 5); (5, 5)] /\ Forall (fun ob => so_alive ob = false) (sh_objs s).
Proof. eexists. split; [vm_compute; reflexivity|]. split; [reflexivity|]. repeat constructor. Qed.

(* an order of constructions, moves and destructions is defined exactly when no
   step touches an object that does not exist yet or any more *)
Theorem C56_defined : forall ops,
  (exists s, sop_run (mkSheap [] []) ops = Ret s) <-> (forall a op b, ops = a ++ op :: b -> may_follow a op).
Proof.
  intros ops. apply (sop_run_life ops [] (mkSheap [] [])).
  - split; [reflexivity|]. intros i ob R. unfold rd in R. cbn [sh_objs] in R. destruct (i <? 0); [discriminate|]. destruct (Z.to_nat i); discriminate.
  - intros i [].
Qed.
Print Assumptions C56_defined.
Example C56_defined_ex : (exists s, sop_run (mkSheap [] []) [New 5; Move 0; Destroy 1; Destroy 0] = Ret s) /\
  sop_run (mkSheap [] []) [New 5; Destroy 0; Destroy 0] = Ub /\ ~ may_follow [New 5; Destroy 0] (Destroy 0) /\
  may_follow [New 5; Move 0; Destroy 1] (Destroy 0).
Proof.
  split; [eexists; vm_compute; reflexivity|]. split; [reflexivity|]. split; [intros (_ & H); apply H; cbn [In]; auto|].
  split; [unfold made; vm_compute; split; [discriminate|reflexivity]|]. cbn [In]. intros [H|[H|[H|[]]]]; discriminate.
Qed.

(* C60.  Rows of 32 bytes; a length that is a multiple of 32 gives one more,
   empty, row.  Missing: data containing a zero byte (refuted). *)
Theorem C60_dump_partial : forall E o a d, settled E o -> val_ok o (SBin a d) ->
  exists ps, dump_rows (Z.to_nat (zlen d / 32 + 1)) a d ps /\
    forall T st, ready E o T st -> exists st', stream_val E st (SBin a d) = Ret st' /\
      ready E o (feed_all (e_cap E) T ([PCut bar] ++ ps ++ [PCut [13; 10; 9; 93; 13; 10; 9]])) st'.
Proof. exact dump_goes. Qed.
Print Assumptions C60_dump_partial.
Example C60_example : val_ok 0 (SBin 4096 (s2z "hello" ++ [7; 255])).
Proof.
  apply vo_bin; [lia|vm_compute; congruence|]. repeat (apply Forall_cons; [vm_compute; split; congruence|]). apply Forall_nil.
Qed.
Theorem C60_dump_refuted : exists E st d, ready E 0 [] st /\ Forall (fun c => 0 <= c <= 255) d /\ stream_val E st (SBin 4096 d) = Ub.
Proof.
  exists (mkEnv (fixed_zone 0) (mkLibc (fun _ => []) (fun _ => [])) 400), (ex_strm 400), (s2z "ab" ++ [0]).
  split; [|split; [repeat (apply Forall_cons; [vm_compute; split; congruence|]); apply Forall_nil|vm_compute; reflexivity]].
  split; [|apply cache_init_fine]. exists (repeat 0 400). repeat split.
Qed.
Print Assumptions C60_dump_refuted.

(* C63.  LogPercent of a float ratio of at least 0.000001 prints one hundred
   times its value and a percent sign. *)
Theorem C63_percent_partial : forall E o m e, settled E o -> is_float (DFin false m e) -> ~ low_ratio (DFin false m e) ->
  exists m' e' t, m' * 2 ^ (e' + 1074) = 100 * (m * 2 ^ (e + 1074)) /\ dbl_text (e_libc E) (DFin false m' e') t /\
    renders E o (SPercent (DFin false m e)) (t ++ s2z "%").
Proof.
  intros E o m e (EZ & Ho & HL) F NL.
  destruct (val_runs_ok E o EZ Ho HL (SPercent (DFin false m e)) (vo_percent o _ F)) as (ps & G).
  pose proof (goes_renders E o _ ps G eq_refl) as R. destruct G as (S & _).
  inversion S as [| | | | | | | | | | |? LR|? ? SP|? ? m' e' t ? EQ DT| |]; subst; [tauto|destruct SP; discriminate|].
  exists m', e', t. split; [assumption|]. split; [assumption|]. unfold ptext in R. cbn [map concat piece_text] in R. rewrite app_nil_r in R. exact R.
Qed.
Print Assumptions C63_percent_partial.
Example C63_example : is_float (DFin false 8388608 (-24)) /\ ~ low_ratio (DFin false 8388608 (-24)) /\ (* 0.5 *)
  exists st, stream_val (ex_env 200) (ex_strm 200) (SPercent (DFin false 8388608 (-24))) = Ret st /\
    firstn (Z.to_nat (s_len st)) (s_buf st) = s2z "50%".
Proof.
  split; [cbn; lia|]. split; [|eexists; split; vm_compute; reflexivity].
  intros [X|X]; [discriminate|]. vm_compute in X. discriminate.
Qed.
(* Every negative ratio prints as zero. *)
Theorem C63_negative : forall E o m e, settled E o -> is_float (DFin true m e) -> renders E o (SPercent (DFin true m e)) (s2z "00.00%").
Proof.
  intros E o m e (EZ & Ho & HL) F.
  destruct (val_runs_ok E o EZ Ho HL (SPercent (DFin true m e)) (vo_percent o _ F)) as (ps & G).
  pose proof (goes_renders E o _ ps G eq_refl) as R. destruct G as (S & _).
  inversion S as [| | | | | | | | | | |? LR|? ? SP| | |]; subst; [exact R|destruct SP; discriminate].
Qed.
Print Assumptions C63_negative.
(* -0.5 is shown as zero percent *)
Theorem C63_percent_refuted : exists m e, m * 2 ^ (e + 25) = 2 ^ 24 /\ is_float (DFin true m e) /\
  forall E o, settled E o -> renders E o (SPercent (DFin true m e)) (s2z "00.00%").
Proof.
  exists 8388608, (-24). split; [reflexivity|]. split; [cbn; lia|]. intros E o S. apply C63_negative; [exact S|cbn; lia].
Qed.
Print Assumptions C63_percent_refuted.
