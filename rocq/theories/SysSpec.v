(* What the helpers around the operating system are to do. *)
From Coq Require Import String ZArith List Bool.
From Verif Require Import Base ParseVal Sys.
Import ListNotations.
Open Scope Z_scope.

(* the last component of a path *)
Definition base_name (path b : text) : Prop :=
  ~ In 47 b /\ (path = b \/ exists d, path = d ++ 47 :: b).
(* the directories on the way to what [path] names *)
Definition on_the_way (path a : text) : Prop := a <> [] /\ exists b, path = a ++ 47 :: b.
(* a file system in which directories stay: opendir and mkdir *)
Record keeps {F : Type} (isd : F -> text -> bool) (mkd : F -> text -> F * bool) : Prop := mkKeeps {
  k_made : forall fs p fs', mkd fs p = (fs', true) -> isd fs' p = true;
  k_kept : forall fs p q, isd fs q = true -> isd (fst (mkd fs p)) q = true
}.
(* a directory can be made in another one, unless something is in the way; a slash
   at the end makes no difference *)
Record makes {F : Type} (isd : F -> text -> bool) (mkd : F -> text -> F * bool) : Prop := mkMakes {
  m_root : forall fs, isd fs [47] = true;
  m_slash : forall fs a, a <> [] -> isd fs (a ++ [47]) = isd fs a;
  m_first : forall fs s, s <> [] -> ~ In 47 s -> isd fs s = false -> snd (mkd fs s) = true;
  m_next : forall fs a s, isd fs (a ++ [47]) = true -> s <> [] -> ~ In 47 s -> isd fs (a ++ 47 :: s) = false -> snd (mkd fs (a ++ 47 :: s)) = true
}.
(* times that do not go back *)
Fixpoint steady (t : Z) (l : list Z) : Prop :=
  match l with [] => True | x :: l => t <= x /\ steady x l end.
(* [l] has no two values less than 3 apart, nor one less than 3 behind [t] *)
Fixpoint spaced (t : Z) (l : list Z) : Prop :=
  match l with [] => True | x :: l => t + 3 <= x /\ spaced x l end.
(* closed, or open and bound to the address *)
Definition bound_to (a : Z * Z) (u : udp) : Prop := u_sock u = None \/ u_sock u = Some (Some a).
