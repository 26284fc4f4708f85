(* Model of who owns a reserved slot: construction, move and destruction of
   LogStream objects (src/include/fn_stream.h:76-113, 176-200). *)
From Coq Require Import String ZArith List Bool.
From Verif Require Import Base.
Import ListNotations.
Open Scope Z_scope.

(* fn_stream.h:462-464; [so_data] is log_data_ (the slot's position, None for
   nullptr), [so_hold] is hold_idx_.  [so_alive]: the destructor has not run. *)
Record sobj := mkSobj { so_alive : bool; so_data : option Z; so_hold : Z }.

Inductive sop :=
| New (hold : Z)       (* constructor; [hold] is what HoldChannel returned *)
| Move (i : Z)         (* a new object move-constructed from object i *)
| Destroy (i : Z).     (* destructor of object i *)

(* objects in order of construction, and the calls of PushLog so far: the slot
   of the record and the index passed *)
Record sheap := mkSheap { sh_objs : list sobj; sh_pushed : list (Z * Z) }.

(* Using an object after its destructor is undefined.  InitLogData
   (fn_channel.h:274-324) does not throw, so the catch of fn_stream.h:101-105
   is not modelled.  The virtual device call is in VirtualHook (C05). *)
Definition sop_step (s : sheap) (op : sop) : outcome sheap :=
  match op with
  | New hold =>
      (* 90-97, 107-109 *)
      let ob := if hold <? 0 then mkSobj true None (-1) else mkSobj true (Some hold) hold in
      Ret (mkSheap (sh_objs s ++ [ob]) (sh_pushed s))
  | Move i =>
      (* 76-84 *)
      let! ob := rd (sh_objs s) i in
      if so_alive ob then
        let! objs := wr (sh_objs s) i (mkSobj true None (-1)) in
        Ret (mkSheap (objs ++ [mkSobj true (so_data ob) (so_hold ob)]) (sh_pushed s))
      else Ub
  | Destroy i =>
      (* 176-200 *)
      let! ob := rd (sh_objs s) i in
      if so_alive ob then
        let! objs := wr (sh_objs s) i (mkSobj false None (-1)) in
        match so_data ob with
        | Some slot => Ret (mkSheap objs (sh_pushed s ++ [(slot, so_hold ob)]))
        | None => Ret (mkSheap objs (sh_pushed s))
        end
      else Ub
  end.
Fixpoint sop_run (s : sheap) (ops : list sop) : outcome sheap :=
  match ops with
  | [] => Ret s
  | op :: ops' => let! s := sop_step s op in sop_run s ops'
  end.
