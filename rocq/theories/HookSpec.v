(* What a log statement with a user hook does, independently of World.v's functions:
   the record the hook sees, the channels it is transmitted to, the own channel. *)
From Coq Require Import String ZArith List Bool Lia.
From Verif Require Import Base DateFmt DblFmt LoggerState FilterSpec Stream StreamSpec World WorldSpec WorldProofs.
Import ListNotations.
Open Scope Z_scope.

(* The record of statement s as the hook sees it: the arguments, the time, and the
   text T followed by NUL (a text that fills the record loses its last byte). *)
Definition record_of (W : wcfg) (o : Z) (i : io) (s : stmt) (T : text) (log : ldata) : Prop :=
  ld_chan log = t_chan s /\ ld_prio log = t_prio s /\ ld_cat log = t_cat s /\ ld_ident log = t_ident s /\
  ld_line log = t_line s /\ ld_func log = t_func s /\ ld_func_len log = t_func_len s /\
  ld_file log = t_file s /\ ld_file_len log = t_file_len s /\
  ld_ts log = io_ts i /\ ld_prec log = io_prec i /\ ld_thread log = io_thread i /\
  ld_len log = zlen T /\ (exists rest, ld_buf log = firstn (Z.to_nat (e_cap (W_env W) - 1)) T ++ 0 :: rest) /\
  exists t pss, (t_prefix s = 0 -> t = []) /\ (t_prefix s <> 0 -> prefix_text o (stated_head W i s) t) /\
    Forall2 (shows o (e_libc (W_env W))) (t_vals s) pss /\ T = feed_all (e_cap (W_env W)) t (concat pss) /\ ld_plen log = zlen t.

(* The record goes to the listed channels, category and identify given: skipped for
   its own channel, rejected by the filters, written at once, or queued. *)
Inductive forwarded (W : wcfg) (i : io) (log : ldata) (t : text) : list (Z * Z * Z) -> world -> world -> Prop :=
| fw_nil : forall w, forwarded W i log t [] w w
| fw_own : forall c n l w w', forwarded W i log t l w w' -> forwarded W i log t ((ld_chan log, c, n) :: l) w w'
| fw_rejected : forall k c n l w w', ~ admitted (w_lg w) k (ld_prio log) c n ->
    forwarded W i log t l w w' -> forwarded W i log t ((k, c, n) :: l) w w'
| fw_written : forall k c n l w w1 w', ld_chan log <> k -> admitted (w_lg w) k (ld_prio log) c n ->
    written_through W i k (ld_prio log) c n t w w1 -> forwarded W i log t l w1 w' -> forwarded W i log t ((k, c, n) :: l) w w'
| fw_queued : forall k c n q l w w1 w', ld_chan log <> k -> admitted (w_lg w) k (ld_prio log) c n ->
    queued W k (ld_prio log) c n t q w w1 -> forwarded W i log t l w1 w' -> forwarded W i log t ((k, c, n) :: l) w w'.

(* how often channel k is listed *)
Fixpoint times (k : Z) (l : list (Z * Z * Z)) : Z :=
  match l with
  | [] => 0
  | (a, _, _) :: l => (if a =? k then 1 else 0) + times k l
  end.
(* channel k, at rest, has room for m more records *)
Definition room (W : wcfg) (w : world) (k m : Z) : Prop :=
  forall ch r, chan_at w k ch -> ring_at w k r ->
    (c_type ch = 1 /\ empty r /\ no_datagrams w k) \/
    (c_type ch <> 1 /\ settled_ring r /\ exists q, waiting W r q /\ zlen q + m < W_ring W).

(* what the virtual device v counts for a text of n bytes *)
Definition hook_delta (v p n j x : Z) : Z := if j =? v then hit x 15 1 + hit x 16 n + hit x (7 + p) n else 0.

(* A whole statement on channel k whose hook is h: w1 is the logger when the hook is
   called, w2 when it returns.  Between w2 and w' the line goes to the own channel. *)
Definition hooked_sync (W : wcfg) (o : Z) (i : io) (s : stmt) (h : ldata -> list (Z * Z * Z)) (w w' : world) : Prop :=
  exists T log w1 w2 ch ch' r r' f,
    record_of W o i s T log /\
    only_at (t_chan s) w w1 /\ w_ev w1 = w_ev w ++ [EHook log] /\
    forwarded W i log (line W T) (h log) w1 w2 /\ only_at (t_chan s) w2 w' /\ shape W w' /\
    chan_at w (t_chan s) ch /\ chan_at w' (t_chan s) ch' /\ same_setup ch ch' /\
    delivered i (t_chan s) (t_prio s) (t_cat s) (t_ident s) (line W T) 0 (firstn (Z.to_nat (c_size ch)) (c_devs ch)) (w_ev w2) (w_ev w') f /\
    (forall j x, 0 <= j -> 0 <= x -> dcnt ch' j x = dcnt ch j x + hook_delta (c_virtual ch) (t_prio s) (zlen T) j x + f j x) /\
    (forall x, 0 <= x -> x <> 21 -> x <> 22 -> cnt (c_log ch') x = cnt (c_log ch) x + channel_delta (t_prio s) (zlen (line W T)) x) /\
    ring_at w (t_chan s) r /\ ring_at w' (t_chan s) r' /\ empty r' /\ rg_write r' = (rg_write r + 1) mod W_ring W.
Definition hooked_async (W : wcfg) (o : Z) (i : io) (s : stmt) (h : ldata -> list (Z * Z * Z)) (q : list item) (w w' : world) : Prop :=
  exists T log w1 w2 ch ch' r r',
    record_of W o i s T log /\
    only_at (t_chan s) w w1 /\ w_ev w1 = w_ev w ++ [EHook log] /\
    forwarded W i log (line W T) (h log) w1 w2 /\ only_at (t_chan s) w2 w' /\ shape W w' /\ w_ev w' = w_ev w2 /\
    chan_at w (t_chan s) ch /\ chan_at w' (t_chan s) ch' /\ same_setup ch ch' /\
    (forall j x, 0 <= j -> 0 <= x -> dcnt ch' j x = dcnt ch j x + hook_delta (c_virtual ch) (t_prio s) (zlen T) j x) /\
    (forall x, 0 <= x -> x <> 21 -> x <> 22 -> cnt (c_log ch') x = cnt (c_log ch) x + hit x 1 1 + hit x 2 1 + hit x (3 + t_prio s) (zlen (line W T))) /\
    ring_at w (t_chan s) r /\ ring_at w' (t_chan s) r' /\ settled_ring r' /\ rg_read r' = rg_read r /\
    waiting W r' (q ++ [mkItem (t_prio s) (t_cat s) (t_ident s) (line W T)]).

(* The hook may transmit to the own channel, which does nothing, and to channels at
   rest with room for all the records they are sent. *)
Definition target (W : wcfg) (w : world) (own : Z) (l : list (Z * Z * Z)) (x : Z * Z * Z) : Prop :=
  match x with (k, c, n) => k = own \/ (in_sense w k c n /\ room W w k (times k l)) end.

(* slot j behind slot a has mark m *)
Definition marked (W : wcfg) (r : ring) (a j m : Z) : Prop :=
  exists c, nth_error (rg_cells r) (Z.to_nat ((a + j) mod W_ring W)) = Some c /\ ce_mark c = m.
(* the record holds the text T so far, no newline and no NUL yet *)
Definition filled (W : wcfg) (log : ldata) (T : text) : Prop :=
  exists rest, ld_buf log = T ++ rest /\ ld_len log = zlen T /\ zlen (ld_buf log) = e_cap (W_env W).
(* the counters of the channel grow by f, the clock of the last round aside; its
   devices' counters, its devices and filters are as before *)
Definition counts (ch ch' : channel) (f : Z -> Z) : Prop :=
  same_setup ch ch' /\ c_dlog ch' = c_dlog ch /\ forall x, 0 <= x -> x <> 21 -> x <> 22 -> cnt (c_log ch') x = cnt (c_log ch) x + f x.
