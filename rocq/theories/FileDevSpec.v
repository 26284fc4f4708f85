(* What rolling and writing log files should do. *)
From Coq Require Import String ZArith List Bool.
From Verif Require Import Base NumSpec LoggerState DateFmt DateSpec FileName FileDev.
Import ListNotations.
Open Scope Z_scope.

Definition log_path (p : text) : Prop := exists b, p = b ++ s2z ".log".

(* q is backup number k of p: p itself, p.1, p.2, ... *)
Definition backup (p : text) (k : Z) (q : text) : Prop :=
  (k = 0 /\ q = p) \/ (1 <= k /\ exists d, is_numeral 10 1 k d /\ q = p ++ [46] ++ d).

Definition exists_at (f : fs) (p : text) (k : Z) : Prop := exists q c, backup p k q /\ f q = Some c.

(* the chain p, p.1, ..., p.(m-1) has moved up by one, keeping at most n backups *)
Definition shifted (f : fs) (p : text) (n m : Z) (f' : fs) : Prop :=
  f' p = None /\
  (forall k q q', 1 <= k <= Z.min m n -> backup p k q -> backup p (k - 1) q' -> f' q = f q') /\
  (forall q, (forall k, 0 <= k <= Z.min m n -> ~ backup p k q) -> f' q = f q).

(* ---- device ---- *)
Definition lines (s : dstate) : Z := d_log s DEVICE_LOG_TOTAL_WRITE_LINE.
Definition bytes (s : dstate) : Z := d_log s DEVICE_LOG_TOTAL_WRITE_BYTE.
Definition cur_size (s : dstate) : Z := d_log s DEVICE_LOG_CUR_FILE_SIZE.
Definition last_try (s : dstate) : Z := d_log s DEVICE_LOG_LAST_TRY_CREATE_TIMESTAMP.
Definition limit (c : dconf) : Z := fld (dc_cfg c) DEVICE_CFG_FILE_LIMIT_SIZE.
Definition rolls (c : dconf) : Z := fld (dc_cfg c) DEVICE_CFG_FILE_ROLLBACK.
Definition daily (c : dconf) : bool := negb (fld (dc_cfg c) DEVICE_CFG_FILE_ROLLDAILY =? 0).
Definition hourly (c : dconf) : bool := negb (fld (dc_cfg c) DEVICE_CFG_FILE_ROLLHOURLY =? 0).
Definition stuff_up (c : dconf) : bool := negb (fld (dc_cfg c) DEVICE_CFG_FILE_STUFF_UP =? 0).

Definition valid_prio (r : drec) : Prop := 0 <= r_prio r < 7.
Definition full_write (ri : drec * io) : Prop := zlen (r_text (fst ri)) <= io_wr (snd ri).

(* the record was counted as written *)
Definition took (s s' : dstate) : bool := negb (lines s' =? lines s).

(* a run, with the bytes of the records counted as written *)
Inductive drun (e : denv) (c : dconf) : dstate -> list (drec * io) -> list text -> dstate -> Prop :=
| drun_nil : forall s, drun e c s [] [] s
| drun_cons : forall s r i s1 l t s2, dev_step e c s r i = Ret s1 -> drun e c s1 l t s2 ->
    drun e c s ((r, i) :: l) (if took s s1 then r_text r :: t else t) s2.

(* all backups of p: the current file, then p.1, p.2, ... without a gap *)
Definition chain (f : fs) (p : text) (cur : option text) (bs : list text) : Prop :=
  f p = cur /\
  forall k q, 1 <= k -> backup p k q -> f q = nth_error bs (Z.to_nat (k - 1)).
Definition whole (cur : option text) (bs : list text) : text :=
  concat (rev bs) ++ match cur with Some c => c | None => [] end.

(* the file is of its size or holds a single record *)
Definition fits (lim : Z) (l : list (drec * io)) (c : text) : Prop :=
  zlen c <= lim \/ exists r i rest, In (r, i) l /\ r_text r = c ++ rest.

(* calendar fields of a local time given in seconds *)
Definition local_clock (l : Z) (t : clock) : Prop :=
  valid_date (k_year t + 1900) (k_mon t + 1) (k_mday t) /\
  day_number (k_year t + 1900) (k_mon t + 1) (k_mday t) = l / 86400 /\
  k_hour t = l mod 86400 / 3600 /\ k_min t = l mod 3600 / 60 /\ k_sec t = l mod 60.
(* the directory part of a path: '/' for every backslash, and one at the end *)
Definition dir_of (p d : text) : Prop :=
  exists q, Forall2 (fun a b => (a = 92 -> b = 47) /\ (a <> 92 -> b = a)) p q /\
    ((p = [] /\ d = []) \/ ((exists x, q = x ++ [47]) /\ d = q) \/
     (q <> [] /\ ~ (exists x, q = x ++ [47]) /\ d = q ++ [47])).
(* a record that leaves the open file within its size, with no rolling by time *)
Definition stays (c : dconf) (s : dstate) (r : drec) : Prop :=
  (limit c <= 0 \/ rolls c <= 0 \/ cur_size s + zlen (r_text r) <= limit c) /\ daily c = false /\ hourly c = false.
