(* C132: rolling and killed processes. *)
From Coq Require Import String ZArith List Bool Lia.
From Verif Require Import Base BaseFacts LoggerState FileName FileDev FileDevSpec RollProofs RollCut RollCutSpec RollCutProofs.
Import ListNotations.
Open Scope Z_scope.

(* the next roll completes a roll that was cut short, wherever it was: all files are as after one roll *)
Theorem C132_resume : forall p n f fuel todo f1 alive f', log_path p -> 1 <= n < INT_MAX -> n + 1 < Z.of_nat fuel ->
  killed_roll fuel todo f p n = Ret (f1, alive) -> rollback fuel f p 1 n = Ret f' ->
  exists f'', rollback fuel f1 p 1 n = Ret f'' /\ forall q, f'' q = f' q.
Proof. exact resume. Qed.
Print Assumptions C132_resume.
(* also if that happens several times in a row *)
Theorem C132_again : forall p n fuel f f1, log_path p -> 1 <= n < INT_MAX -> n + 1 < Z.of_nat fuel -> cut_short fuel p n f f1 -> forall f', rollback fuel f p 1 n = Ret f' ->
  exists f'', rollback fuel f1 p 1 n = Ret f'' /\ forall q, f'' q = f' q.
Proof. exact resume_all. Qed.
Print Assumptions C132_again.
(* there is always a result *)
Theorem C132_total : forall p n f fuel todo, log_path p -> 1 <= n < INT_MAX -> n + 1 < Z.of_nat fuel -> exists f1 alive, killed_roll fuel todo f p n = Ret (f1, alive).
Proof. exact killed_total. Qed.
Print Assumptions C132_total.
(* meanwhile every file but the oldest is there, under its number or the next *)
Theorem C132_kept : forall p n f fuel todo f1 alive k q c, log_path p -> 1 <= n < INT_MAX -> killed_roll fuel todo f p n = Ret (f1, alive) ->
  0 <= k < n -> backup p k q -> f q = Some c -> exists j q', (j = k \/ j = k + 1) /\ backup p j q' /\ f1 q' = Some c.
Proof. exact kept. Qed.
Print Assumptions C132_kept.

(* a.log and two backups, the most that are kept *)
Definition three : fs := fset (fset (fset (fun _ => None) (s2z "a.log") (Some [3])) (s2z "a.log.1") (Some [2])) (s2z "a.log.2") (Some [1]).
Definition listing (f : fs) : list (option text) := map f [s2z "a.log"; s2z "a.log.1"; s2z "a.log.2"; s2z "a.log.3"].
Definition show (o : outcome (fs * bool)) : list (option text) * bool := match o with Ret (f, b) => (listing f, b) | _ => ([], false) end.
Example C132_example : log_path (s2z "a.log") /\
  map (fun todo => show (killed_roll 10 todo three (s2z "a.log") 2)) [0; 1; 2; 3]%nat =
  [([Some [3]; Some [2]; Some [1]; None], false);
   ([Some [3]; Some [2]; None; None], false);
   ([Some [3]; None; Some [2]; None], false);
   ([None; Some [3]; Some [2]; None], true)] /\
  backup (s2z "a.log") 0 (s2z "a.log") /\ three (s2z "a.log") = Some [3].
Proof. split; [exists (s2z "a"); reflexivity|]. split; [vm_compute; reflexivity|]. split; [left; auto|reflexivity]. Qed.
(* killed twice, then a roll *)
Example C132_again_example : exists f1 f2, killed_roll 10 1 three (s2z "a.log") 2 = Ret (f1, false) /\ killed_roll 10 1 f1 (s2z "a.log") 2 = Ret (f2, false) /\
  cut_short 10 (s2z "a.log") 2 three f2 /\ match rollback 10 f2 (s2z "a.log") 1 2 with Ret f => listing f = [None; Some [3]; Some [2]; None] | _ => False end.
Proof.
  destruct (killed_roll 10 1 three (s2z "a.log") 2) as [[f1 a1]| |] eqn:E1; [|vm_compute in E1; discriminate|vm_compute in E1; discriminate].
  assert (A1 : show (killed_roll 10 1 three (s2z "a.log") 2) = ([Some [3]; Some [2]; None; None], false)) by (vm_compute; reflexivity).
  assert (A2 : match killed_roll 10 1 three (s2z "a.log") 2 with Ret (f, _) => show (killed_roll 10 1 f (s2z "a.log") 2) | _ => ([], true) end = ([Some [3]; None; Some [2]; None], false)) by (vm_compute; reflexivity).
  assert (A3 : match killed_roll 10 1 three (s2z "a.log") 2 with Ret (f, _) => match killed_roll 10 1 f (s2z "a.log") 2 with Ret (g, _) => match rollback 10 g (s2z "a.log") 1 2 with Ret h => listing h | _ => [] end | _ => [] end | _ => [] end = [None; Some [3]; Some [2]; None]) by (vm_compute; reflexivity).
  rewrite E1 in A1, A2, A3. cbn [show] in A1. assert (a1 = false) by congruence. subst a1.
  destruct (killed_roll 10 1 f1 (s2z "a.log") 2) as [[f2 a2]| |] eqn:E2; [|discriminate|discriminate]. cbn [show] in A2. assert (a2 = false) by congruence. subst a2.
  exists f1, f2. split; [reflexivity|]. split; [exact E2|]. split.
  - apply (Cut_one _ _ _ _ 1 f1 false); [exact E1|]. apply (Cut_one _ _ _ _ 1 f2 false); [exact E2|]. apply Cut_none.
  - destruct (rollback 10 f2 (s2z "a.log") 1 2); [exact A3|discriminate|discriminate].
Qed.
