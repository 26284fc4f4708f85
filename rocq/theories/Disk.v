(* All file devices of a logger on one file system.  Each device has its own
   FileHandler and its own log fields (Logger::file_handles_ and
   Channel::device_log_fields_, fn_data.h:327, 431); a record goes
   through EnterProcOutFileDevice of one device at a time (FileDev.v).
   An open file is known by its path, which is right as long as nobody else
   renames it (see DiskSpec.apart). *)
From Coq Require Import String ZArith List Bool.
From Verif Require Import Base LoggerState DateFmt FileName FileDev World WorldSpec.
Import ListNotations.
Open Scope Z_scope.

(* channel and device number *)
Definition did := (Z * Z)%type.
Definition same (a b : did) : bool := (fst a =? fst b) && (snd a =? snd b).
Record disk := mkDisk {
  k_fs : fs;
  k_open : did -> option text;
  k_log : did -> Z -> Z
}.
Definition dev_at (d : disk) (a : did) : dstate := mkDstate (k_fs d) (k_open d a) (k_log d a).
Definition dev_put (d : disk) (a : did) (s : dstate) : disk :=
  mkDisk (d_fs s) (fun b => if same b a then d_open s else k_open d b) (fun b => if same b a then d_log s else k_log d b).

(* EnterProcOutFileDevice for device [a], fn_out_file_device.h:319-339 *)
Definition disk_step (e : denv) (conf : did -> dconf) (d : disk) (a : did) (r : drec) (i : FileDev.io) : outcome disk :=
  let! s := dev_step e (conf a) (dev_at d a) r i in Ret (dev_put d a s).
Fixpoint disk_run (e : denv) (conf : did -> dconf) (d : disk) (l : list (did * (drec * FileDev.io))) : outcome disk :=
  match l with
  | [] => Ret d
  | (a, (r, i)) :: l => let! d := disk_step e conf d a r i in disk_run e conf d l
  end.

(* What the events of a statement (World.v) bring to the file devices: its
   timestamp and priority are those of the record, fn_out_file_device.h:319-339. *)
Fixpoint disk_writes (ts prio : Z) (i : FileDev.io) (evs : list event) : list (did * (drec * FileDev.io)) :=
  match evs with
  | [] => []
  | EFile k j t :: evs => ((k, j), (mkRec ts prio t, i)) :: disk_writes ts prio i evs
  | _ :: evs => disk_writes ts prio i evs
  end.
(* One statement after the other, each with the files it writes. *)
Fixpoint log_and_write (W : wcfg) (e : denv) (conf : did -> dconf) (i : FileDev.io) (w : world) (d : disk)
    (l : list (stmt * World.io)) : outcome (world * disk) :=
  match l with
  | [] => Ret (w, d)
  | (s, o) :: l =>
      let! (w', _) := log_stmt W o w s in
      let! d := disk_run e conf d (disk_writes (io_ts o) (t_prio s) i (skipn (length (w_ev w)) (w_ev w'))) in
      log_and_write W e conf i w' d l
  end.
