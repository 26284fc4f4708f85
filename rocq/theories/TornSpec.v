(* Mixtures of old and new settings (C126). *)
From Coq Require Import ZArith List Bool.
From Verif Require Import Base LoggerState.
Import ListNotations.
Open Scope Z_scope.

(* channel [k] of a running logger *)
Definition running (lg : logger) (k : Z) (ch : channel) : Prop :=
  g_shm lg = true /\ g_state lg = 2 /\ 0 <= k < g_size lg /\ nth_error (g_chs lg) (Z.to_nat k) = Some ch /\ c_state ch = 1 /\
  g_size lg <= zlen (g_chs lg).
(* every setting of [x] is the one of [ch] or the one of [ch'] *)
Definition mixture (ch ch' x : channel) : Prop :=
  c_state x = c_state ch /\ c_size x = c_size ch /\ length (c_devs x) = length (c_devs ch) /\
  map d_in (c_devs x) = map d_in (c_devs ch) /\
  (forall a, (a < 7)%nat -> nth a (c_cfg x) 0 = nth a (c_cfg ch) 0 \/ nth a (c_cfg x) 0 = nth a (c_cfg ch') 0) /\
  (forall j a, (j < Z.to_nat (c_size ch))%nat -> (a < 15)%nat ->
     let f y := nth a (d_cfg (nth j (c_devs y) (mkDevice 0 0 []))) 0 in f x = f ch \/ f x = f ch').
