(* C135: file devices that share a path. *)
From Coq Require Import ZArith List Bool Arith Lia.
From Verif Require Import Base SharePath SharePathSpec SharePathProofs.
Import ListNotations.
Open Scope Z_scope.

(* without stuff_up every device makes its own files: none is written by two devices, none gets
   larger than the limit, and the files of an earlier run stay as they are *)
Theorem C135_own_partial : forall n limit s ops, 0 <= limit -> begins s -> Forall (fun w => 0 <= o_len w <= limit) ops -> let s' := hrun n limit false s ops in
  (forall f, (f < h_next s)%nat -> h_size s' f = h_size s f) /\ (forall f, (h_next s <= f)%nat -> h_size s' f <= limit) /\
  (forall i j f, h_open s' i = Some f -> h_open s' j = Some f -> i = j).
Proof. exact own_files. Qed.
Print Assumptions C135_own_partial.
(* with stuff_up a file grows by at most the limit for each device *)
Theorem C135_bound_partial : forall n limit stuff devs s ops, 0 <= limit -> begins s -> NoDup devs -> fitting limit devs ops ->
  forall f, h_size s f <= h_size (hrun n limit stuff s ops) f <= h_size s f + Z.of_nat (length devs) * limit.
Proof. exact shared_bound. Qed.
Print Assumptions C135_bound_partial.
(* every byte is written to one file, whether it is still there or not, *)
Theorem C135_bytes : forall n limit stuff s ops, begins s -> all_bytes (hrun n limit stuff s ops) = all_bytes s + op_bytes ops.
Proof. exact kept_bytes. Qed.
Print Assumptions C135_bytes.
(* and there are never more backups than set *)
Theorem C135_backups : forall n limit stuff ops s, (length (h_dir s) <= S n)%nat -> (length (h_dir (hrun n limit stuff s ops)) <= S n)%nat.
Proof. exact dir_length. Qed.
Print Assumptions C135_backups.
(* where a file is that was made in this run: backup j if j files were made after it, and removed
   once these are more than the setting, whether or not a device still writes to it *)
Theorem C135_place : forall n limit stuff s ops k, (length (h_dir s) <= S n)%nat -> let s' := hrun n limit stuff s ops in
  (h_next s <= k < h_next s')%nat -> if Nat.leb (h_next s' - k) (S n) then nth_error (h_dir s') (h_next s' - S k) = Some k else ~ In k (h_dir s').
Proof. exact file_place. Qed.
Print Assumptions C135_place.
(* a device that has the path for itself: if fstat sees all of the file at the first open, the size
   field is the size of the file from then on *)
Theorem C135_count_partial : forall n limit stuff s w ops, begins s -> Forall (fun v => o_dev v = o_dev w) ops -> (forall f, hd_error (h_dir s) = Some f -> h_size s f <= o_seen w) ->
  let s' := hrun n limit stuff s (w :: ops) in exists f, h_open s' (o_dev w) = Some f /\ h_count s' (o_dev w) = h_size s' f.
Proof. exact alone_count. Qed.
Print Assumptions C135_count_partial.

Definition nothing : hstate := mkH [] 0 (fun _ => 0) (fun _ => None) (fun _ => 0).
Lemma nothing_begins : begins nothing.
Proof. constructor; intros; try reflexivity. constructor. Qed.
(* fstat sees all of the file *)
Definition taking_turns : list hop := [mkOp 0 1 1000; mkOp 1 1 1000; mkOp 0 99 0; mkOp 1 98 0; mkOp 0 5 0; mkOp 1 60 0].
Example C135_hypotheses : begins nothing /\ NoDup [0%nat; 1%nat] /\ fitting 100 [0%nat; 1%nat] taking_turns /\
  h_dir (hrun 3 100 false nothing taking_turns) = [3%nat; 2%nat; 1%nat; 0%nat] /\ map (h_size (hrun 3 100 false nothing taking_turns)) [0%nat; 1%nat; 2%nat; 3%nat] = [100; 99; 5; 60] /\
  h_dir (hrun 3 100 true nothing taking_turns) = [2%nat; 1%nat; 0%nat] /\ map (h_size (hrun 3 100 true nothing taking_turns)) [0%nat; 1%nat; 2%nat] = [199; 5; 60].
Proof.
  split; [exact nothing_begins|]. split; [repeat constructor; cbn; intuition discriminate|]. split; [repeat constructor; cbn; auto; discriminate|]. repeat split; vm_compute; reflexivity.
Qed.
(* the files of an earlier run, which are removed in the end *)
Definition earlier : hstate := mkH [1%nat; 0%nat] 2 (fun f => match f with 0%nat => 90 | 1%nat => 40 | _ => 0 end) (fun _ => None) (fun _ => 0).
Lemma earlier_begins : begins earlier.
Proof. constructor; cbn; intros; try reflexivity; [destruct f as [|[|f]]; discriminate|destruct f as [|[|f]]; [lia|lia|reflexivity]|repeat constructor]. Qed.
Example C135_bytes_hypotheses : begins earlier /\ all_bytes earlier = 130 /\ (length (h_dir earlier) <= 2)%nat /\
  h_dir (hrun 1 100 true earlier taking_turns) = [5%nat; 4%nat] /\ all_bytes (hrun 1 100 true earlier taking_turns) = 394 /\
  (h_next earlier <= 4 < h_next (hrun 1 100 true earlier taking_turns))%nat /\ Nat.leb (h_next (hrun 1 100 true earlier taking_turns) - 4) 2 = true /\ Nat.leb (h_next (hrun 1 100 true earlier taking_turns) - 3) 2 = false.
Proof. split; [exact earlier_begins|]. repeat split; vm_compute; auto. Qed.
Example C135_count_hypotheses : begins earlier /\ Forall (fun v => o_dev v = 4%nat) [mkOp 4 50 0; mkOp 4 30 0] /\ (forall f, hd_error (h_dir earlier) = Some f -> h_size earlier f <= 40) /\
  let s := hrun 3 100 true earlier [mkOp 4 10 40; mkOp 4 50 0; mkOp 4 30 0] in map (h_size s) (h_dir s) = [30; 100; 90] /\ h_count s 4%nat = 30.
Proof. split; [exact earlier_begins|]. split; [repeat constructor|]. split; [intros f H; injection H as <-; cbn; lia|]. vm_compute. auto. Qed.

(* the full statement is false: [d] devices fill a file to d * limit bytes,
   the bound, if what the others write before they open it is still in their buffers, *)
Theorem C135_reached : forall n limit d s, (0 < d)%nat -> 1 <= limit -> begins s -> h_dir s = [] -> exists ops, fitting limit (seq 0 d) ops /\
  h_size (hrun n limit true s ops) (h_next s) = Z.of_nat d * limit.
Proof. exact shared_reached. Qed.
Print Assumptions C135_reached.
Example C135_reached_hypotheses : (0 < 2)%nat /\ 1 <= 100 /\ begins nothing /\ h_dir nothing = [].
Proof. repeat split; try lia; try apply nothing_begins. Qed.
(* two of them to almost twice the limit if it is not, *)
Theorem C135_limit_refuted : exists ops f, fitting 100 [0%nat; 1%nat] ops /\ h_size (hrun 3 100 true nothing ops) f = 199.
Proof. exists taking_turns, 0%nat. split; [repeat constructor; cbn; auto; discriminate|vm_compute; reflexivity]. Qed.
Print Assumptions C135_limit_refuted.
(* and with or without stuff_up a device goes on writing to a file that another one has removed *)
Theorem C135_removed_refuted : exists ops, fitting 100 [0%nat; 1%nat] ops /\
  forall stuff, let s := hrun 1 100 stuff nothing (ops ++ [mkOp 0 10 0]) in h_open s 0%nat = Some 0%nat /\ ~ In 0%nat (h_dir s) /\ h_count s 0%nat = h_count (hrun 1 100 stuff nothing ops) 0%nat + 10.
Proof.
  exists [mkOp 0 10 0; mkOp 1 80 0; mkOp 1 80 0; mkOp 1 80 0]. split; [repeat constructor; cbn; auto; discriminate|].
  intros [|]; (split; [vm_compute; reflexivity|split; [vm_compute; intuition discriminate|vm_compute; reflexivity]]).
Qed.
Print Assumptions C135_removed_refuted.
