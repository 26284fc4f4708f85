(* C134: processes that write to the same log file. *)
From Coq Require Import ZArith List Bool Arith Lia.
From Verif Require Import Base RollRace RollRaceSpec RollRaceProofs.
Import ListNotations.
Open Scope nat_scope.

(* any number of processes, any interleaving: the backups stay numbered from the newest to the
   oldest, and no number is larger than the setting *)
Theorem C134_order : forall n s sched, all_idle s -> in_order s -> tidy n s -> in_order (rruns n s sched) /\ tidy n (rruns n s sched).
Proof. exact order_kept. Qed.
Print Assumptions C134_order.

(* any interleaving: a process that has just ended a roll has the log file open, its own or the
   one that another process has made meanwhile *)
Theorem C134_opened : forall n s sched i, r_pc (rruns n s (sched ++ [i])) i = RIdle ->
  exists x, r_dir (rruns n s (sched ++ [i])) 0 = Some x /\ r_open (rruns n s (sched ++ [i])) i = Some x.
Proof. exact opened_last. Qed.
Print Assumptions C134_opened.

(* any interleaving: a roll ends after 2 * n + 4 steps of the process itself, whatever the others do *)
Theorem C134_ends : forall n s sched i, r_pc s i = RIdle -> 2 * n + 4 <= count_occ Nat.eq_dec sched i -> exists a b, sched = a ++ i :: b /\ r_pc (rruns n s (a ++ [i])) i = RIdle.
Proof. exact wait_free. Qed.
Print Assumptions C134_ends.

(* a process that is not disturbed while it rolls: the files without a gap go one up, the one
   beyond the setting is removed, and the process has the new file open; m is the first number
   without a file, or n + 1 *)
Theorem C134_alone_partial : forall n s i m, r_pc s i = RIdle -> m <= n + 1 -> (forall k, k < m -> r_dir s k <> None) -> (m = n + 1 \/ r_dir s m = None) ->
  exists s', until_idle (2 * n + 7) n s i = Some s' /\ r_pc s' i = RIdle /\ r_dir s' 0 = Some (r_next s) /\ (forall k, k < m -> k < n -> r_dir s' (S k) = r_dir s k) /\
    (forall k, Nat.min m n < k -> r_dir s' k = r_dir s k) /\ r_open s' i = Some (r_next s) /\ r_next s' = S (r_next s) /\ (forall j, j <> i -> r_open s' j = r_open s j).
Proof. exact alone_roll. Qed.
Print Assumptions C134_alone_partial.

(* a log file and a backup *)
Definition two_files : rstate := mkR (fun k => match k with 0 => Some 1 | 1 => Some 0 | _ => None end) 2 (fun _ => None) (fun _ => RIdle).
Definition seen (s : rstate) : list (option nat) := map (r_dir s) [0; 1; 2; 3].
Lemma two_files_ok : all_idle two_files /\ in_order two_files /\ tidy 3 two_files.
Proof.
  split; [intros i; reflexivity|]. split.
  - intros [|[|a]] [|[|b]] x y L A B; cbn in *; try lia; try discriminate. injection A as <-. injection B as <-. lia.
  - intros [|[|k]] x K; cbn in *; try discriminate; injection K as <-; lia.
Qed.
Example C134_order_hypotheses : all_idle two_files /\ in_order two_files /\ tidy 3 two_files /\ seen (rruns 3 two_files [7; 7; 7; 7; 7; 7; 7; 5; 5; 5]) = [Some 2; Some 1; Some 0; None].
Proof. destruct two_files_ok as (A & B & C). split; [exact A|]. split; [exact B|]. split; [exact C|]. vm_compute. reflexivity. Qed.
(* four files with a setting of 3: all ten steps are needed *)
Definition four_files : rstate := mkR (fun k => if k <? 4 then Some (3 - k) else None) 4 (fun _ => None) (fun _ => RIdle).
Example C134_ends_hypotheses : r_pc four_files 7 = RIdle /\ 2 * 3 + 4 <= count_occ Nat.eq_dec [7; 7; 5; 7; 7; 7; 7; 7; 7; 5; 7; 7] 7 /\
  r_pc (rruns 3 four_files (repeat 7 9)) 7 <> RIdle /\ r_pc (rruns 3 four_files (repeat 7 10)) 7 = RIdle.
Proof. split; [reflexivity|]. split; [vm_compute; lia|]. split; [vm_compute; discriminate|vm_compute; reflexivity]. Qed.
Example C134_alone_hypotheses : r_pc two_files 7 = RIdle /\ 2 <= 3 + 1 /\ (forall k, k < 2 -> r_dir two_files k <> None) /\ r_dir two_files 2 = None /\
  option_map seen (until_idle 13 3 two_files 7) = Some [Some 2; Some 1; Some 0; None].
Proof. split; [reflexivity|]. split; [lia|]. split; [intros [|[|k]] K; try lia; discriminate|]. split; [reflexivity|vm_compute; reflexivity]. Qed.

(* any number of processes that roll one after the other: a file that has no gap below it goes up
   by one each time, and is in the directory exactly as long as its number is in the setting *)
Theorem C134_serial_partial : forall n who s k x, all_idle s -> in_order s -> tidy n s -> full_to s k -> r_dir s k = Some x ->
  exists s', one_by_one n s who = Some s' /\ all_idle s' /\ (listed s' x <-> k + length who <= n) /\ (k + length who <= n -> r_dir s' (k + length who) = Some x).
Proof. exact serial_rolls. Qed.
Print Assumptions C134_serial_partial.
Example C134_serial_hypotheses : all_idle two_files /\ in_order two_files /\ tidy 3 two_files /\ full_to two_files 1 /\ r_dir two_files 1 = Some 0 /\
  option_map seen (one_by_one 3 two_files [4; 9]) = Some [Some 3; Some 2; Some 1; Some 0] /\ option_map seen (one_by_one 3 two_files [4; 9; 4]) = Some [Some 4; Some 3; Some 2; Some 1].
Proof. destruct two_files_ok as (A & B & C). split; [exact A|]. split; [exact B|]. split; [exact C|]. split; [intros [|[|k]] K; try lia; discriminate|]. split; [reflexivity|]. split; vm_compute; reflexivity. Qed.

(* the full statement is false.  Two processes roll at the same time: the full log file is lost,
   though there is room for three backups *)
Definition one_file : rstate := mkR (fun k => match k with 0 => Some 0 | _ => None end) 1 (fun _ => None) (fun _ => RIdle).
Definition both : list nat := [4; 4; 4; 9; 9; 9; 4; 4; 9; 9].
(* the two processes move the file away before either opens, so process 9 opens the file of 4 *)
Definition shared : list nat := [4; 4; 4; 4; 9; 9; 4; 9].
Example C134_opened_hypotheses : let s := rruns 3 one_file shared in r_pc s 9 = RIdle /\ r_pc s 4 = RIdle /\ r_open s 9 = Some 1 /\ r_open s 4 = Some 1 /\ seen s = [Some 1; Some 0; None; None].
Proof. vm_compute. auto 6. Qed.
Lemma not_listed : forall n s sched x, all_idle s -> in_order s -> tidy n s -> forallb (fun k => match r_dir (rruns n s sched) k with Some y => negb (y =? x) | None => true end) (seq 0 (S n)) = true ->
  ~ listed (rruns n s sched) x.
Proof.
  intros n s sched x A O T H (k & K). destruct (order_kept n s sched A O T) as [_ T']. destruct (T' k x K) as [L _].
  rewrite forallb_forall in H. specialize (H k). rewrite K, Nat.eqb_refl in H. discriminate H. apply in_seq. lia.
Qed.
Lemma one_file_ok : forall n, all_idle one_file /\ in_order one_file /\ tidy n one_file.
Proof.
  intros n. split; [intros i; reflexivity|]. split.
  - intros [|a] [|b] x y L A B; cbn in *; try lia; discriminate.
  - intros [|k] x K; cbn in *; try discriminate; injection K as <-; lia.
Qed.
Theorem C134_lost_refuted : exists s sched, all_idle s /\ in_order s /\ tidy 3 s /\ listed s 0 /\ ~ listed (rruns 3 s sched) 0 /\ r_next (rruns 3 s sched) = 3 /\ all_idle (rruns 3 s sched).
Proof.
  destruct (one_file_ok 3) as (A & B & C). exists one_file, both. split; [exact A|]. split; [exact B|]. split; [exact C|]. split; [exists 0; reflexivity|].
  split; [apply (not_listed 3 one_file both 0 A B C); vm_compute; reflexivity|]. split; [vm_compute; reflexivity|].
  intros i. do 10 (destruct i as [|i]; [vm_compute; reflexivity|]). reflexivity.
Qed.
Print Assumptions C134_lost_refuted.
(* also one after the other: process 0 goes on writing to a file that process 1 has removed *)
Theorem C134_removed_refuted : exists s a b, until_idle 9 1 one_file 0 = Some s /\ until_idle 9 1 s 1 = Some a /\ until_idle 9 1 a 1 = Some b /\
  r_pc b 0 = RIdle /\ r_open b 0 = Some 1 /\ ~ listed b 1.
Proof.
  assert (E : forall fuel n s i, exists k, match until_idle fuel n s i with Some s' => s' = rruns n s (repeat i k) | None => True end).
  { induction fuel as [|fuel IH]; intros n s i; [exists 0; exact I|]. cbn [until_idle]. destruct (IH n (rstep n s i) i) as (k & K).
    destruct (r_pc (rstep n s i) i) eqn:P; [exists 1; reflexivity|..]; exists (S k); exact K. }
  destruct (E 9 1 one_file 0) as (k0 & K0). destruct (until_idle 9 1 one_file 0) as [s|] eqn:S0; [|vm_compute in S0; discriminate].
  destruct (E 9 1 s 1) as (k1 & K1). destruct (until_idle 9 1 s 1) as [a|] eqn:S1.
  2: { exfalso. assert (X : match until_idle 9 1 one_file 0 with Some s => until_idle 9 1 s 1 <> None | None => False end) by (vm_compute; discriminate). rewrite S0 in X. contradiction. }
  destruct (E 9 1 a 1) as (k2 & K2). destruct (until_idle 9 1 a 1) as [b|] eqn:S2.
  2: { exfalso. assert (X : match until_idle 9 1 one_file 0 with Some s => match until_idle 9 1 s 1 with Some a => until_idle 9 1 a 1 <> None | None => False end | None => False end) by (vm_compute; discriminate). rewrite S0, S1 in X. contradiction. }
  exists s, a, b. split; [reflexivity|]. split; [exact S1|]. split; [exact S2|].
  assert (X : match until_idle 9 1 one_file 0 with Some s => match until_idle 9 1 s 1 with Some a => match until_idle 9 1 a 1 with Some b => r_pc b 0 = RIdle /\ r_open b 0 = Some 1 /\ map (r_dir b) [0; 1] = [Some 3; Some 2] | None => False end | None => False end | None => False end) by (vm_compute; auto).
  rewrite S0, S1, S2 in X. destruct X as (X1 & X2 & X3). split; [exact X1|]. split; [exact X2|].
  destruct (one_file_ok 1) as (A & B & C). assert (R : b = rruns 1 one_file (repeat 0 k0 ++ repeat 1 k1 ++ repeat 1 k2)).
  { unfold rruns in *. rewrite !fold_left_app. rewrite <- K0, <- K1, <- K2. reflexivity. }
  rewrite R. apply (not_listed 1 one_file _ 1 A B C). rewrite <- R. cbn [seq forallb]. cbn [map] in X3. injection X3 as Y0 Y1. rewrite Y0, Y1. reflexivity.
Qed.
Print Assumptions C134_removed_refuted.
