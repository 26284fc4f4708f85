(* C133: rolling when remove and rename fail. *)
From Coq Require Import String ZArith List Bool Lia.
From Verif Require Import Base BaseFacts LoggerState FileName FileDev FileDevSpec RollProofs RollFail RollFailProofs.
Import ListNotations.
Open Scope Z_scope.

(* which file is where after a roll in which some calls fail *)
Theorem C133_exact : forall p ok n f fuel, log_path p -> 1 <= n < INT_MAX -> n + 1 < Z.of_nat fuel ->
  exists f' m, roll_fail fuel ok f p 1 n = Ret f' /\ 0 <= m <= n + 1 /\ (forall k, 0 <= k < m -> exists_at f p k) /\ (m = n + 1 \/ ~ exists_at f p m) /\
    (forall k q q', 1 <= k <= Z.min m n -> backup p k q -> backup p (k - 1) q' -> ok k = true -> f' q = f q') /\
    (forall k q, 0 <= k <= Z.min m n -> backup p k q -> (k = 0 \/ ok k = false) -> f' q = if (k <? m) && ok (k + 1) then None else f q) /\
    (forall q, (forall k, 0 <= k <= Z.min m n -> ~ backup p k q) -> f' q = f q).
Proof. exact fail_exact. Qed.
Print Assumptions C133_exact.
(* without failures it is the roll of C35 *)
Theorem C133_no_failure : forall n fuel f path d, roll_fail fuel (fun _ => true) f path d n = rollback fuel f path d n.
Proof. exact all_ok. Qed.
Print Assumptions C133_no_failure.
(* a file is kept unless its own rename fails and the rename of the file before it does not *)
Theorem C133_kept_partial : forall p ok n f fuel f' k q c, log_path p -> 1 <= n -> roll_fail fuel ok f p 1 n = Ret f' ->
  0 <= k < n -> backup p k q -> f q = Some c -> (ok k = true -> 1 <= k -> ok (k + 1) = true) ->
  exists j q', (j = k \/ j = k + 1) /\ backup p j q' /\ f' q' = Some c.
Proof. exact fail_kept. Qed.
Print Assumptions C133_kept_partial.

(* a.log and two backups, the most that are kept *)
Definition three : fs := fset (fset (fset (fun _ => None) (s2z "a.log") (Some [3])) (s2z "a.log.1") (Some [2])) (s2z "a.log.2") (Some [1]).
Definition listing (f : fs) : list (option text) := map f [s2z "a.log"; s2z "a.log.1"; s2z "a.log.2"; s2z "a.log.3"].
Definition show (o : outcome fs) : list (option text) := match o with Ret f => listing f | _ => [] end.
(* the directory cannot be written to from the second call on *)
Example C133_example : log_path (s2z "a.log") /\ show (roll_fail 10 (fun d => d =? 3) three (s2z "a.log") 1 2) = [Some [3]; Some [2]; None; None] /\
  backup (s2z "a.log") 0 (s2z "a.log") /\ three (s2z "a.log") = Some [3] /\ (((1 =? 3) = true) -> 1 <= 1 -> (2 =? 3) = true).
Proof. split; [exists (s2z "a"); reflexivity|]. split; [vm_compute; reflexivity|]. split; [left; auto|]. split; [reflexivity|discriminate]. Qed.

(* the full statement is false: if a rename fails, the next one overwrites the file that stayed; with the
   oldest, which had been removed before, two of three files are gone *)
Theorem C133_overwritten_refuted : exists f p ok n f', log_path p /\ listing f = [Some [3]; Some [2]; Some [1]; None] /\ n = 2 /\
  roll_fail 10 ok f p 1 n = Ret f' /\ ok 2 = false /\ (forall d, d <> 2 -> ok d = true) /\ listing f' = [None; Some [3]; None; None].
Proof.
  assert (A : show (roll_fail 10 (fun d => negb (d =? 2)) three (s2z "a.log") 1 2) = [None; Some [3]; None; None]) by (vm_compute; reflexivity).
  destruct (roll_fail 10 (fun d => negb (d =? 2)) three (s2z "a.log") 1 2) as [f'| |] eqn:E; try discriminate.
  exists three, (s2z "a.log"), (fun d => negb (d =? 2)), 2, f'. split; [exists (s2z "a"); reflexivity|]. split; [vm_compute; reflexivity|]. split; [reflexivity|]. split; [exact E|].
  split; [reflexivity|]. split; [|exact A]. intros d D. apply negb_true_iff, Z.eqb_neq. exact D.
Qed.
Print Assumptions C133_overwritten_refuted.
