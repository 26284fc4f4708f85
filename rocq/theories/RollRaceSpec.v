(* Directories of log files (C134). *)
From Coq Require Import ZArith List Bool Arith.
From Verif Require Import Base RollRace.
Import ListNotations.
Open Scope nat_scope.

(* backups are numbered from the newest to the oldest *)
Definition in_order (s : rstate) : Prop := forall a b x y, a < b -> r_dir s a = Some x -> r_dir s b = Some y -> y < x.
(* no entry beyond backup n, none for a file that does not exist *)
Definition tidy (n : nat) (s : rstate) : Prop := forall k x, r_dir s k = Some x -> k <= n /\ x < r_next s.
Definition all_idle (s : rstate) : Prop := forall i, r_pc s i = RIdle.
(* file x is in the directory *)
Definition listed (s : rstate) (x : nat) : Prop := exists k, r_dir s k = Some x.
(* process i, undisturbed, goes on until it is idle again *)
Fixpoint until_idle (fuel n : nat) (s : rstate) (i : nat) : option rstate :=
  match fuel with
  | O => None
  | S fuel => let s := rstep n s i in match r_pc s i with RIdle => Some s | _ => until_idle fuel n s i end
  end.
(* the processes of [who] roll one after the other, each undisturbed *)
Fixpoint one_by_one (n : nat) (s : rstate) (who : list nat) : option rstate :=
  match who with
  | [] => Some s
  | i :: who => match until_idle (2 * n + 7) n s i with Some s' => one_by_one n s' who | None => None end
  end.
(* entry k and all below it are there *)
Definition full_to (s : rstate) (k : nat) : Prop := forall a, a <= k -> r_dir s a <> None.
