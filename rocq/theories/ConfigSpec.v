(* The configuration of a logger as a plain table, and what each call does to it. *)
From Coq Require Import ZArith List Bool.
From Verif Require Import Base LoggerState ConfigApi.
Import ListNotations.
Open Scope Z_scope.

(* table of settings: channel -> field, channel -> device -> field *)
Record table := mkTable { t_chan : Z -> Z -> Z; t_dev : Z -> Z -> Z -> Z }.

(* the settings stored in a logger *)
Definition view (lg : logger) : table :=
  let ch c := nth (Z.to_nat c) (g_chs lg) (mkChannel 0 0 0 0 [] [] [] []) in
  mkTable (fun c f => nth (Z.to_nat f) (c_cfg (ch c)) 0)
          (fun c d f => nth (Z.to_nat f) (d_cfg (nth (Z.to_nat d) (c_devs (ch c)) (mkDevice 0 0 []))) 0).

(* what the calls never change: sizes, states, types, statistics *)
Definition shape (lg : logger) :=
  (g_shm lg, g_state lg, g_size lg,
   map (fun ch => (c_type ch, c_virtual ch, c_size ch, c_state ch, c_log ch, c_dlog ch,
                   length (c_cfg ch),
                   map (fun d => (d_in d, d_out d, length (d_cfg d))) (c_devs ch))) (g_chs lg)).

Definition nchan (lg : logger) : Z := g_size lg.
Definition chan (lg : logger) (c : Z) : channel := nth (Z.to_nat c) (g_chs lg) (mkChannel 0 0 0 0 [] [] [] []).
Definition ndev (lg : logger) (c : Z) : Z := c_size (chan lg c).
Definition dev_out (lg : logger) (c d : Z) : Z := d_out (nth (Z.to_nat d) (c_devs (chan lg c)) (mkDevice 0 0 [])).

Definition valid_chan lg c := 0 <= c < nchan lg.
Definition valid_dev lg c d := valid_chan lg c /\ 0 <= d < ndev lg c.

(* expected value of a channel / device setting after one call *)
Definition chan_after (lg : logger) (o : cfg_op) (c f : Z) (old : Z) : Z :=
  match o with
  | SetChannel c' f' v => if (c' =? c) && (f' =? f) then v else old
  | BatchChannel f' v => if f' =? f then v else old
  | _ => old
  end.
Definition dev_after (lg : logger) (o : cfg_op) (c d f : Z) (old : Z) : Z :=
  match o with
  | SetDevice c' d' f' v => if (c' =? c) && (d' =? d) && (f' =? f) then v else old
  | BatchDevice t f' v => if (f' =? f) && ((t =? 0) || (dev_out lg c d =? t)) then v else old
  | _ => old
  end.

(* arguments: enums are not negative; the batch calls need an existing field *)
Definition args_ok (o : cfg_op) : Prop :=
  match o with
  | SetChannel _ f _ => 0 <= f
  | SetDevice _ _ f _ => 0 <= f
  | BatchChannel f _ => 0 <= f < 7
  | BatchDevice _ f _ => 0 <= f < 15
  end.

(* a started logger: the arrays have their declared sizes *)
Definition started (lg : logger) : Prop :=
  g_shm lg = true /\ 0 <= g_size lg <= zlen (g_chs lg) /\
  Forall (fun ch => zlen (c_cfg ch) = 7 /\ zlen (c_log ch) = 25 /\
                    0 <= c_size ch <= zlen (c_devs ch) /\ zlen (c_dlog ch) = zlen (c_devs ch) /\
                    Forall (fun l => zlen l = 18) (c_dlog ch) /\
                    Forall (fun d => zlen (d_cfg d) = 15) (c_devs ch)) (g_chs lg).
