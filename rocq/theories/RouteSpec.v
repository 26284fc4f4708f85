(* Where the settings of a configuration send a statement. *)
From Coq Require Import String ZArith List Bool Sorted.
From Verif Require Import Base LoggerState ParseVal Lexer ParseCfg Filter FilterSpec Load.
Import ListNotations.
Open Scope Z_scope.

(* settings block of a device and of a channel of a configuration *)
Definition dev_takes (d : pdev) (p c i : Z) : Prop :=
  let f k := nth k (pd_cfg d) 0 in
  f 0%nat <> 0 /\ pd_in d = 0 /\ accepts (f 1%nat) (f 2%nat) (f 3%nat) (f 4%nat) (f 5%nat) (f 6%nat) (f 7%nat) p c i.
Definition chan_lets (w : pchan) (p c i : Z) : Prop :=
  let f k := nth k (pc_cfg w) 0 in
  accepts (f 0%nat) (f 1%nat) (f 2%nat) (f 3%nat) (f 4%nat) (f 5%nat) (f 6%nat) p c i.
(* masks are only asked about bits they have, and windows do not overflow *)
Definition dev_scope (d : pdev) (c i : Z) : Prop :=
  let f k := nth k (pd_cfg d) 0 in in_scope (f 2%nat) (f 3%nat) (f 4%nat) (f 5%nat) (f 6%nat) (f 7%nat) c i.
Definition chan_scope (w : pchan) (c i : Z) : Prop :=
  let f k := nth k (pc_cfg w) 0 in
  in_scope (f 1%nat) (f 2%nat) (f 3%nat) (f 4%nat) (f 5%nat) (f 6%nat) c i /\ Forall (fun d => dev_scope d c i) (pc_devs w).
(* channel [k] of logger [l] treats statements as the configuration [w] says: what
   some device takes is admitted, and it goes to the devices that take it and to
   no other, in their order *)
Definition routed (l : logger) (k : nat) (w : pchan) : Prop := forall p c i, chan_scope w c i ->
  (exists b, block_input l (Z.of_nat k) p c i = Ret b /\
     (b = false <-> chan_lets w p c i /\ exists d, In d (pc_devs w) /\ dev_takes d (Z.min p 6) c i)) /\
  (exists ch ids, nth_error (g_chs l) k = Some ch /\ dispatch ch (mkRec p c i) = Ret ids /\ StronglySorted Z.lt ids /\
     forall j, In j ids <-> exists n d, j = Z.of_nat n /\ nth_error (pc_devs w) n = Some d /\ dev_takes d p c i).
(* the memory for the channels is there or can be had *)
Definition has_memory (e : lenv) (g : lg) (key : Z) : Prop :=
  lg_shm g <> None \/ key <= 0 \/ exists m, y_attach e key = (0, Some m).
