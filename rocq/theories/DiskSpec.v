(* What the files of a logger should hold. *)
From Coq Require Import String ZArith List Bool.
From Verif Require Import Base LoggerState DateFmt FileName FileDev FileDevSpec Disk.
Import ListNotations.
Open Scope Z_scope.

(* no two devices of [ds] ever write to files of the same name *)
Definition apart (e : denv) (conf : did -> dconf) (ds : list did) : Prop :=
  forall a b t u p, In a ds -> In b ds -> a <> b -> dev_path e (conf a) t = Ret p -> dev_path e (conf b) u = Ret p -> False.
(* the files of a device: what it ever writes to, and the backups *)
Definition belongs (e : denv) (c : dconf) (q : text) : Prop :=
  exists t p k, dev_path e c t = Ret p /\ backup p k q.
(* open files belong to their device *)
Definition in_order (e : denv) (conf : did -> dconf) (ds : list did) (d : disk) : Prop :=
  forall a p, In a ds -> k_open d a = Some p -> exists t, dev_path e (conf a) t = Ret p.
(* the records for device a *)
Definition meant_for (a : did) (x : did * (drec * io)) : bool := (fst (fst x) =? fst a) && (snd (fst x) =? snd a).
Definition part (a : did) (l : list (did * (drec * io))) : list (drec * io) := map snd (filter (meant_for a) l).
