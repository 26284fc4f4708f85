(* C131: log files after a power failure. *)
From Coq Require Import ZArith List Bool Arith Lia.
From Verif Require Import Base Durable DurableSpec DurableProofs.
Import ListNotations.
Open Scope Z_scope.

(* after close a power failure leaves the text up to any point from where the process, killed
   just before, would have left it *)
Theorem C131_exact : forall ops t, opened false ops = true ->
  failure (prun (ops ++ [DClose])) t <-> (exists u, t = killed (prun ops) ++ u) /\ (exists u, texts false ops = t ++ u).
Proof. exact close_exact. Qed.
Print Assumptions C131_exact.
(* ten bytes, of which stdio hands over eight when its buffer is full *)
Definition part_handed : list pop := [DOpen; DWrite [1; 2; 3; 4; 5]; DWrite [6; 7; 8; 9; 10]; DSpill 8].
Example C131_exact_hypotheses : opened false part_handed = true /\ killed (prun part_handed) = [1; 2; 3; 4; 5; 6; 7; 8] /\
  texts false part_handed = [1; 2; 3; 4; 5; 6; 7; 8; 9; 10] /\ failure (prun (part_handed ++ [DClose])) [1; 2; 3; 4; 5; 6; 7; 8; 9].
Proof. repeat split. exists 9%nat. split; [cbn; lia|reflexivity]. Qed.

(* a process that is killed after the file was opened again, or closed, leaves all of the text *)
Theorem C131_reopened : forall ops o, opened false ops = true -> o = DOpen \/ o = DClose -> killed (prun (ops ++ [o])) = texts false ops.
Proof. exact reopen_all. Qed.
Print Assumptions C131_reopened.
Example C131_reopened_hypotheses : opened false part_handed = true /\ killed (prun part_handed) <> texts false part_handed.
Proof. split; [reflexivity|]. vm_compute. discriminate. Qed.

(* at any time, a power failure leaves a first part of what was written, *)
Theorem C131_first_part : forall ops t, failure (prun ops) t -> exists u, texts false ops = t ++ u.
Proof. exact failure_first. Qed.
Print Assumptions C131_first_part.
(* and at least what one at an earlier time could have left *)
Theorem C131_grows : forall ops more t, failure (prun (ops ++ more)) t -> exists a u, failure (prun ops) a /\ t = a ++ u.
Proof. exact failure_later. Qed.
Print Assumptions C131_grows.
Example C131_first_part_hypotheses : failure (prun (part_handed ++ [DBack 4])) [1; 2; 3; 4].
Proof. exists 4%nat. split; [cbn; lia|reflexivity]. Qed.

(* what was flushed before the file was closed is on the disk *)
Theorem C131_flushed_partial : forall ops mid t, opened false ops = true -> opened true mid = true ->
  failure (prun (ops ++ DFlush :: mid ++ [DClose])) t -> exists u, t = texts false ops ++ u.
Proof. exact flushed_kept. Qed.
Print Assumptions C131_flushed_partial.
(* the whole file, if nothing was written after the flush *)
Theorem C131_whole_partial : forall ops mid t, opened false ops = true -> opened true mid = true -> existsb is_write mid = false ->
  failure (prun (ops ++ DFlush :: mid ++ [DClose])) t -> t = texts false ops.
Proof. exact flushed_all. Qed.
Print Assumptions C131_whole_partial.
Example C131_flushed_hypotheses : opened false part_handed = true /\ opened true [DBack 3] = true /\ existsb is_write [DBack 3] = false /\
  failure (prun (part_handed ++ DFlush :: [DBack 3] ++ [DClose])) [1; 2; 3; 4; 5; 6; 7; 8; 9; 10].
Proof. repeat split. exists 10%nat. split; [cbn; lia|reflexivity]. Qed.

(* the full statement is false: fsync comes before stdio hands its buffer over, so the end of
   a file that is closed, or all of it, can be lost, ... *)
Theorem C131_closed_refuted : exists text, text <> [] /\ texts false [DOpen; DWrite text; DClose] = text /\ failure (prun [DOpen; DWrite text; DClose]) [].
Proof. exists [1; 2; 3]. split; [discriminate|]. split; [reflexivity|]. exists 0%nat. split; [cbn; lia|reflexivity]. Qed.
Print Assumptions C131_closed_refuted.
(* ... and what was closed so stays in danger until the file is opened and closed again *)
Theorem C131_later_refuted : exists ops, opened false ops = false /\ texts false ops = [1; 2; 3] /\
  (forall n, failure (prun (ops ++ repeat DClose n)) []) /\ forall t, failure (prun (ops ++ [DOpen; DClose])) t -> t = [1; 2; 3].
Proof.
  exists [DOpen; DWrite [1; 2; 3]; DClose]. split; [reflexivity|]. split; [reflexivity|]. split.
  - intros n. rewrite prun_app. assert (E : forall m s, p_open s = false -> fold_left pstep (repeat DClose m) s = s).
    { induction m as [|m IH]; intros s O; [reflexivity|]. cbn [repeat fold_left]. cbn [pstep]. rewrite O. apply IH. exact O. }
    rewrite E by reflexivity. exists 0%nat. split; [cbn; lia|reflexivity].
  - intros t (k & K & ->). cbn in K. apply firstn_all2. cbn. lia.
Qed.
Print Assumptions C131_later_refuted.
