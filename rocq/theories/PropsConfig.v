(* Property theorems C06, C61: the run-time configuration calls. *)
From Coq Require Import ZArith List Bool Lia.
From Verif Require Import Base BaseFacts LoggerState ConfigApi ConfigSpec ConfigProofs.
Import ListNotations.
Open Scope Z_scope.

(* C06.  For every started logger and every sequence of calls (ids of any kind,
   fields as args_ok says) the run is defined, changes nothing but settings,
   and every setting equals the last matching write; entries that no existing
   channel/device/field names keep their value. *)
Theorem C06_settings : forall ops lg, started lg -> Forall args_ok ops ->
  exists lg', cfg_run lg ops = Ret lg' /\ started lg' /\ shape lg' = shape lg /\
  (forall c f, 0 <= c -> 0 <= f ->
     t_chan (view lg') c f =
       if (c <? nchan lg) && (f <? 7)
       then fold_left (fun x o => chan_after lg o c f x) ops (t_chan (view lg) c f)
       else t_chan (view lg) c f) /\
  (forall c d f, 0 <= c -> 0 <= d -> 0 <= f ->
     t_dev (view lg') c d f =
       if (c <? nchan lg) && (d <? ndev lg c) && (f <? 15)
       then fold_left (fun x o => dev_after lg o c d f x) ops (t_dev (view lg) c d f)
       else t_dev (view lg) c d f).
Proof. exact cfg_run_refines. Qed.
Print Assumptions C06_settings.

(* the getters show the table, and 0 for anything that does not exist *)
Theorem C06_get_device_config : forall lg c d f, started lg -> 0 <= f ->
  get_device_config lg c d f =
    Ret (if (0 <=? c) && (c <? nchan lg) && (0 <=? d) && (d <? ndev lg c) && (f <? 15)
         then t_dev (view lg) c d f else 0).
Proof. exact get_device_config_view. Qed.
Print Assumptions C06_get_device_config.

Theorem C06_get_channel_log : forall lg c f, started lg -> 0 <= f ->
  get_channel_log lg c f = Ret (if (0 <=? c) && (c <? nchan lg) && (f <? 25) then nth (Z.to_nat f) (c_log (chan lg c)) 0 else 0).
Proof. exact get_channel_log_view. Qed.
Print Assumptions C06_get_channel_log.

Theorem C06_get_device_log : forall lg c d f, started lg -> 0 <= f ->
  get_device_log lg c d f =
    Ret (if (0 <=? c) && (c <? nchan lg) && (0 <=? d) && (d <? ndev lg c) && (f <? 18)
         then nth (Z.to_nat f) (nth (Z.to_nat d) (c_dlog (chan lg c)) []) 0 else 0).
Proof. exact get_device_log_view. Qed.
Print Assumptions C06_get_device_log.

Definition ex_cfg_dev o := mkDevice 0 o (repeat 0 15).
Definition ex_cfg_ch := mkChannel 0 0 2 1 (repeat 0 7) [ex_cfg_dev 1; ex_cfg_dev 2; ex_cfg_dev 2]
                          (repeat 8 25) (repeat (repeat 5 18) 3).
Definition ex_cfg_lg := mkLogger true 2 2 [ex_cfg_ch; ex_cfg_ch].
Definition ex_cfg_ops :=
  [SetDevice 1 0 3 77; SetDevice 1 2 3 78; SetDevice 0 (-1) 3 79; SetDevice 0 0 15 80;
   BatchDevice 2 0 1; BatchChannel 6 9; SetChannel 1 6 10; SetChannel 7 6 11].

(* device 2 of each channel lies beyond device_size_ = 2 and stays untouched *)
Example C06_example :
  started ex_cfg_lg /\ Forall args_ok ex_cfg_ops /\
  exists lg', cfg_run ex_cfg_lg ex_cfg_ops = Ret lg' /\
    get_device_config lg' 1 0 3 = Ret 77 /\ get_device_config lg' 0 1 0 = Ret 1 /\
    get_device_config lg' 0 0 0 = Ret 0 /\ t_dev (view lg') 1 2 3 = 0 /\ t_dev (view lg') 1 2 0 = 0 /\
    t_chan (view lg') 0 6 = 9 /\ t_chan (view lg') 1 6 = 10 /\
    get_channel_log lg' 1 24 = Ret 8 /\ get_device_log lg' 1 1 17 = Ret 5 /\ get_device_log lg' 1 2 17 = Ret 0.
Proof.
  split.
  { split; [reflexivity|]. split; [vm_compute; split; congruence|].
    repeat constructor; try reflexivity; vm_compute; congruence. }
  split. { repeat constructor; vm_compute; congruence. }
  eexists. split; [vm_compute; reflexivity|]. repeat split; vm_compute; reflexivity.
Qed.

(* C61 is false: the batch calls index the settings arrays with an unchecked
   field, and every call dereferences shm_ before the first start. *)
Theorem C61_any_argument_refuted :
  (exists lg, started lg /\ batch_set_channel_config lg CHANNEL_CFG_MAX_ID 1 = Ub) /\
  (exists lg, started lg /\ batch_set_device_config lg DEVICE_OUT_NULL DEVICE_CFG_MAX_ID 1 = Ub) /\
  (exists lg, g_shm lg = false /\ get_device_config lg 0 0 0 = Ub /\ set_device_config lg 0 0 0 1 = Ub).
Proof.
  destruct C06_example as (S & _).
  split; [exists ex_cfg_lg; split; [exact S|vm_compute; reflexivity]|].
  split; [exists ex_cfg_lg; split; [exact S|vm_compute; reflexivity]|].
  exists (mkLogger false 0 0 []). repeat split; vm_compute; reflexivity.
Qed.
Print Assumptions C61_any_argument_refuted.

(* what does hold: the indexed calls are defined for every id and field >= 0 *)
Theorem C61_indexed_calls_partial : forall lg o, started lg ->
  match o with SetChannel _ f _ | SetDevice _ _ f _ => 0 <= f | _ => False end ->
  exists lg', cfg_step lg o = Ret lg' /\ started lg' /\ shape lg' = shape lg.
Proof.
  intros lg o Hs Ho. destruct (cfg_step_refines lg o Hs) as (lg' & R & A & B & _).
  - destruct o; cbn in *; tauto.
  - exists lg'. auto.
Qed.
Print Assumptions C61_indexed_calls_partial.

Example C61_example : started ex_cfg_lg /\ cfg_step ex_cfg_lg (SetDevice (-5) 99 1000 1) = Ret ex_cfg_lg.
Proof. split; [exact (proj1 C06_example)|reflexivity]. Qed.
