(* Properties of all log files together (C104, C105). *)
From Coq Require Import String ZArith List Bool Lia ZifyBool ZifyNat ZifyN.
From Verif Require Import Base BaseFacts LoggerState FilterSpec DateFmt DateProofs Stream FileName FileDev FileDevSpec World WorldSpec WorldProofs WorldSeq
  Disk DiskSpec DiskProofs DiskSeq.
From Verif Require PropsFile PropsWorld.
Import ListNotations.
Open Scope Z_scope.

(* C104.  [apart]: no two devices ever use the same file name.  [part a l]: the
   records for device a.  After the records of all devices, in any order, each
   device has the files, the handle and the counters it would have alone; files
   that are no device's stay as they were. *)
Theorem C104_alone : forall e conf ds l d d', apart e conf ds -> in_order e conf ds d -> Forall (fun x => In (fst x) ds) l ->
  disk_run e conf d l = Ret d' ->
  (forall q, (forall a, In a ds -> ~ belongs e (conf a) q) -> k_fs d' q = k_fs d q) /\
  forall a, In a ds -> exists s', dev_run e (conf a) (mkDstate (k_fs d) (k_open d a) (k_log d a)) (part a l) = Ret s' /\
    k_open d' a = d_open s' /\ k_log d' a = d_log s' /\ forall q, belongs e (conf a) q -> k_fs d' q = d_fs s' q.
Proof.
  intros e conf ds l d d' AP IO IN R. destruct (disk_alone e conf ds l d d' AP IO IN R) as (_ & NB & AL). split; [exact NB|]. intros a A.
  destruct (AL a (dev_at d a) A) as (s' & RS & L1 & L2 & L3); [repeat split; intros q _; reflexivity|].
  exists s'. split; [exact RS|]. cbn in L1, L2, L3. split; [congruence|]. split; [congruence|]. exact L3.
Qed.
Print Assumptions C104_alone.

(* two devices, the first with a limit of 8 bytes and two backups *)
Definition dx_ds : list did := [(0, 0); (0, 2)].
Definition dx_name (a : did) : text := if snd a =? 0 then s2z "x" else s2z "x.log.1".
Definition dx_conf (a : did) : dconf := PropsFile.ex_conf (if snd a =? 0 then 8 else 0) 2 0 0 0 (dx_name a).
Definition dx_path (a : did) : text := dx_name a ++ s2z ".log".
Definition dx_env (n : nat) : denv := mkDenv (mkEnv (s2z "app") 42) (fixed_zone 28800) (S n).
Definition dx_disk (f : fs) : disk := mkDisk f (fun _ => None) (fun _ _ => 0).
Lemma dx_paths : forall n a t, dev_path (dx_env n) (dx_conf a) t = Ret (dx_path a).
Proof. intros n a t. unfold dx_conf, dx_path, dx_name. destruct (snd a =? 0); reflexivity. Qed.
Lemma dx_apart : forall n, apart (dx_env n) dx_conf dx_ds.
Proof.
  intros n a b t u p A B N P1 P2. rewrite dx_paths in P1, P2. apply N.
  destruct A as [<-|[<-|[]]], B as [<-|[<-|[]]]; try reflexivity; cbn in *; congruence.
Qed.
Definition dx_rec (j ts : Z) (t : string) : did * (drec * FileDev.io) := ((0, j), (mkRec ts 2 (s2z t), FileDev.mkIo true 1000)).
Definition dx_recs : list (did * (drec * FileDev.io)) :=
  [dx_rec 0 100 "12345"; dx_rec 2 100 "a"; dx_rec 0 101 "6789"; dx_rec 2 101 "b"; dx_rec 0 102 "abcdef"].
Example C104_hypotheses : apart (dx_env 300) dx_conf dx_ds /\ in_order (dx_env 300) dx_conf dx_ds (dx_disk (fun _ => None)) /\
  Forall (fun x => In (fst x) dx_ds) dx_recs.
Proof.
  split; [apply dx_apart|]. split; [intros a p _ X; discriminate|]. unfold dx_recs, dx_ds. repeat first [apply Forall_nil|apply Forall_cons]; cbn; tauto.
Qed.
Example C104_result : exists d, disk_run (dx_env 300) dx_conf (dx_disk (fun _ => None)) dx_recs = Ret d /\
  map (fun q => k_fs d (s2z q)) ["x.log"; "x.log.1"; "x.log.2"; "x.log.1.log"]%string = [Some (s2z "abcdef"); Some (s2z "6789"); Some (s2z "12345"); Some (s2z "ab")].
Proof. eexists. split; [vm_compute; reflexivity|vm_compute; reflexivity]. Qed.

(* C105.  From the statements to the bytes in the files.  Synchronous channels at
   rest ([calm], C82); the file devices [ds] have fixed, different, short enough
   names; nothing fails while writing.  Then for every file device the lines of
   the statements it accepts, in order, are behind what the files held: the
   current file and its backups together are that text, except for a beginning
   that went with the oldest backups, and only if all backups are in use. *)
Theorem C105_end_to_end : forall W o conf ds fi (p : did -> text), (forall a, In a ds -> rolls (conf a) < INT_MAX) -> exists F, forall e l w d,
  (F <= e_fuel e)%nat -> ~ In 36 (v_name (e_env e)) -> shape W w -> calm W w ->
  (forall k j ch dv, chan_at w k ch -> has_device ch j dv -> d_out dv = 2 -> In (k, j) ds) ->
  (forall a, In a ds -> zlen (p a) < 250 /\ (forall t, dev_path e (conf a) t = Ret (p a)) /\ forall b, In b ds -> p a = p b -> a = b) ->
  io_open fi = true -> e_cap (W_env W) <= io_wr fi ->
  (forall a, In a ds -> k_open d a = None /\ k_log d a DEVICE_LOG_LAST_TRY_CREATE_TIMESTAMP = 0) ->
  Forall (fun a => in_sense w (t_chan (fst a)) (t_cat (fst a)) (t_ident (fst a)) /\ well_formed W o (snd a) (fst a) /\ 0 <= t_prio (fst a) <= 6 /\
                   5 <= World.io_ts (snd a) /\ forall e x y, World.io_file (snd a) e x y = true) l ->
  exists w' d' Ts, log_and_write W e conf fi w d l = Ret (w', d') /\ Forall2 (fun a T => statement_text W o (snd a) (fst a) T) l Ts /\
    (forall q, (forall a, In a ds -> ~ belongs e (conf a) q) -> k_fs d' q = k_fs d q) /\
    forall k j cur bs, In (k, j) ds -> chain (k_fs d) (p (k, j)) cur bs -> zlen bs <= Z.max 1 (rolls (conf (k, j))) ->
    exists us cur' bs' lost, picked (fun a => goes_to w k j (fst a)) l (map (line W) Ts) us /\
      chain (k_fs d') (p (k, j)) cur' bs' /\ whole cur bs ++ concat us = lost ++ whole cur' bs' /\
      zlen bs' <= Z.max 1 (rolls (conf (k, j))) /\ (lost = [] \/ zlen bs' = Z.max 1 (rolls (conf (k, j)))).
Proof. exact disk_end. Qed.
Print Assumptions C105_end_to_end.

(* channel 0 with file devices 0 and 2 (the latter from priority 5 on) *)
Definition dx_world : world := PropsWorld.wx_world 400 PropsWorld.wx_sync.
Example C105_hypotheses : (forall a, In a dx_ds -> rolls (dx_conf a) < INT_MAX) /\
  shape (PropsWorld.wx_cfg 400 None) dx_world /\ calm (PropsWorld.wx_cfg 400 None) dx_world /\
  (forall k j ch dv, chan_at dx_world k ch -> has_device ch j dv -> d_out dv = 2 -> In (k, j) dx_ds) /\
  (forall n a, In a dx_ds -> zlen (dx_path a) < 250 /\ (forall t, dev_path (dx_env n) (dx_conf a) t = Ret (dx_path a)) /\ forall b, In b dx_ds -> dx_path a = dx_path b -> a = b) /\
  (in_sense dx_world 0 0 0 /\ well_formed (PropsWorld.wx_cfg 400 None) 28800 PropsWorld.wx_io (PropsWorld.wx_stmt 0 4 127 PropsWorld.wx_vals) /\ 5 <= World.io_ts PropsWorld.wx_io) /\
  chain (fun _ => None) (dx_path (0, 0)) None [].
Proof.
  split. { intros a [<-|[<-|[]]]; vm_compute; reflexivity. }
  split; [exact (proj1 PropsWorld.C82_hypotheses)|]. split; [exact (proj1 (proj2 PropsWorld.C82_hypotheses))|].
  split.
  { intros k j ch dv (K & C) (J & D) O. change (g_size (w_lg dx_world)) with 1 in K. assert (k = 0) as -> by lia. cbn in C. injection C as <-. assert (JJ : 0 <= j < 3) by exact J.
    assert (j = 0 \/ j = 1 \/ j = 2) as [->|[->| ->]] by lia; cbn in D; injection D as <-; [left; reflexivity|discriminate O|right; left; reflexivity]. }
  split.
  { intros n a A. split; [destruct A as [<-|[<-|[]]]; reflexivity|]. split; [intros t; apply dx_paths|].
    intros b B E. destruct A as [<-|[<-|[]]], B as [<-|[<-|[]]]; try reflexivity; discriminate E. }
  split; [split; [|split; [apply PropsWorld.wx_well_formed, PropsWorld.wx_vals_ok|vm_compute; congruence]]|].
  { apply (PropsWorld.wx_sense 0). }
  split; [reflexivity|]. intros k q K _. destruct (Z.to_nat (k - 1)); reflexivity.
Qed.
Example C105_result : exists w d, log_and_write (PropsWorld.wx_cfg 400 None) (dx_env 300) dx_conf (FileDev.mkIo true 1000) dx_world (dx_disk (fun _ => None))
    [(PropsWorld.wx_stmt 0 4 0 PropsWorld.wx_vals, PropsWorld.wx_io); (PropsWorld.wx_stmt 0 5 0 PropsWorld.wx_vals, PropsWorld.wx_io);
     (PropsWorld.wx_stmt 0 6 0 [SStr (s2z "bye")], PropsWorld.wx_io)] = Ret (w, d) /\
  map (fun q => k_fs d (s2z q)) ["x.log"; "x.log.1"; "x.log.2"; "x.log.1.log"]%string =
    [Some (s2z "bye" ++ [10]); Some (s2z "x=5" ++ [10] ++ s2z "x=5" ++ [10]); None; Some (s2z "x=5" ++ [10] ++ s2z "bye" ++ [10])].
Proof. eexists. eexists. split; [vm_compute; reflexivity|vm_compute; reflexivity]. Qed.
