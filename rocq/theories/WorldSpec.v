(* What a log statement should do, in terms of the filters (FilterSpec.v), the
   text it writes (StreamSpec.v) and what leaves the logger. *)
From Coq Require Import String ZArith List Bool.
From Verif Require Import Base LoggerState FilterSpec Stream StreamSpec World.
Import ListNotations.
Open Scope Z_scope.

(* ---- memory as the logger allocates it ---- *)
Definition log_ok (W : wcfg) (l : ldata) : Prop := zlen (ld_buf l) = e_cap (W_env W).
Definition chan_ok (ch : channel) : Prop :=
  zlen (c_log ch) = 25 /\ 0 <= c_size ch <= zlen (c_devs ch) /\ zlen (c_dlog ch) = zlen (c_devs ch) /\
  Forall (fun row => zlen row = 18) (c_dlog ch).
(* the buffer for incoming datagrams starts out zeroed; its last byte stays NUL *)
Definition udp_ok (W : wcfg) (u : ldata) : Prop :=
  log_ok W u /\ nth_error (ld_buf u) (Z.to_nat (e_cap (W_env W) - 1)) = Some 0.
Definition ring_ok (W : wcfg) (r : ring) : Prop :=
  zlen (rg_cells r) = W_ring W /\ Forall (fun c => log_ok W (ce_log c)) (rg_cells r) /\ udp_ok W (rg_udp r) /\
  0 <= rg_write r < W_ring W /\ 0 <= rg_hold r < W_ring W /\ 0 <= rg_read r < W_ring W /\ 0 <= rg_proc r < W_ring W.
Definition shape (W : wcfg) (w : world) : Prop :=
  2 <= e_cap (W_env W) /\ 10 < W_ring W /\
  0 <= g_size (w_lg w) <= zlen (g_chs (w_lg w)) /\ zlen (w_rings w) = zlen (g_chs (w_lg w)) /\
  Forall chan_ok (g_chs (w_lg w)) /\ Forall (ring_ok W) (w_rings w).

Definition chan_at (w : world) (k : Z) (ch : channel) : Prop :=
  0 <= k < g_size (w_lg w) /\ nth_error (g_chs (w_lg w)) (Z.to_nat k) = Some ch.
Definition ring_at (w : world) (k : Z) (r : ring) : Prop :=
  0 <= k < g_size (w_lg w) /\ nth_error (w_rings w) (Z.to_nat k) = Some r.
(* the settings have a meaning for this category and identify *)
Definition meant (ch : channel) (c n : Z) : Prop := channel_scope ch c n /\ devices_scope ch c n.

(* the queue of a channel is empty and nobody holds a slot *)
Definition empty (r : ring) : Prop := rg_hold r = rg_write r /\ rg_proc r = rg_write r /\ rg_read r = rg_write r.
Definition no_datagrams (w : world) (k : Z) : Prop := forall d, w_in w k d = [].

(* ---- the line of a statement ---- *)
Definition line (W : wcfg) (T : text) : text := firstn (Z.to_nat (e_cap (W_env W) - 2)) T ++ [10].

(* ---- what a device does with a line ---- *)
Fixpoint before_nul (t : text) : text :=
  match t with
  | [] => []
  | c :: r => if c =? 0 then [] else c :: before_nul r
  end.
Definition escape (s : string) : text := 27 :: s2z s.
(* TRACE and DEBUG plain, the others between a colour and a reset; priorities
   above FATAL look like ALARM *)
Definition painted (p : Z) (t : text) : text :=
  if p <? 2 then t
  else (if p =? 2 then escape "[34m" ++ escape "[1m"
        else if p =? 3 then escape "[33m"
        else if p =? 4 then escape "[31m"
        else if p =? 6 then escape "[35m"
        else escape "[32m") ++ t ++ escape "[0m".

Definition outputs (i : io) (evs : list event) (k j : Z) (d : device) (p : Z) (t : text) : list event :=
  match d_out d with
  | 1 => [EScreen (painted p (before_nul t))]
  | 2 => if io_file i evs k j then [EFile k j t] else []
  | 3 => if io_sock i evs k j && (0 <? io_sent i evs k j)
         then [ESend (nth 13 (d_cfg d) 0 mod 2 ^ 32) (nth 14 (d_cfg d) 0 mod 2 ^ 16) t] else []
  | _ => []
  end.

(* ---- counters ---- *)
Definition hit (x y v : Z) : Z := if x =? y then v else 0.
Definition written (p n x : Z) : Z := hit x 15 1 + hit x 16 n + hit x (7 + p) n.
Definition device_delta (i : io) (evs : list event) (k j : Z) (d : device) (p n x : Z) : Z :=
  match d_out d with
  | 1 | 5 => written p n x
  | 2 => if io_file i evs k j then written p n x + hit x 0 n else 0
  | 3 => if io_sock i evs k j
         then written p n x + (if 0 <? io_sent i evs k j then 0 else hit x 17 1)
         else hit x 17 1
  | _ => 0
  end.

(* [delivered … j ds evs evs' f]: a line t of priority p, category c, identify n
   goes to the devices ds (the first is device j) of channel k; after events evs
   there are events evs', and f tells by how much each device's counters grow. *)
Inductive delivered (i : io) (k p c n : Z) (t : text) :
  Z -> list device -> list event -> list event -> (Z -> Z -> Z) -> Prop :=
| dl_nil : forall j evs, delivered i k p c n t j [] evs evs (fun _ _ => 0)
| dl_skip : forall j d ds evs evs' f, ~ (device_on d /\ device_accepts d p c n) ->
    delivered i k p c n t (j + 1) ds evs evs' f -> delivered i k p c n t j (d :: ds) evs evs' f
| dl_out : forall j d ds evs evs' f, device_on d -> device_accepts d p c n ->
    delivered i k p c n t (j + 1) ds (evs ++ outputs i evs k j d p t) evs' f ->
    delivered i k p c n t j (d :: ds) evs evs'
      (fun a x => f a x + (if a =? j then device_delta i evs k j d p (zlen t) x else 0)).

Definition cnt (l : list Z) (x : Z) : Z := nth (Z.to_nat x) l 0.
Definition dcnt (ch : channel) (j x : Z) : Z := cnt (nth (Z.to_nat j) (c_dlog ch) []) x.
(* what the counters of the channel gain from one statement written at once; the
   two maxima (21, 22) are not sums *)
Definition channel_delta (p n x : Z) : Z :=
  hit x 1 1 + hit x 2 1 + hit x (3 + p) n + hit x 19 1 + hit x 20 n.

(* the same channel up to its counters *)
Definition same_setup (ch ch' : channel) : Prop :=
  c_type ch' = c_type ch /\ c_virtual ch' = c_virtual ch /\ c_size ch' = c_size ch /\
  c_state ch' = c_state ch /\ c_cfg ch' = c_cfg ch /\ c_devs ch' = c_devs ch.
(* everything but channel k is as before *)
Definition only_at (k : Z) (w w' : world) : Prop :=
  g_shm (w_lg w') = g_shm (w_lg w) /\ g_state (w_lg w') = g_state (w_lg w) /\ g_size (w_lg w') = g_size (w_lg w) /\
  (forall a, a <> k -> 0 <= a -> nth_error (g_chs (w_lg w')) (Z.to_nat a) = nth_error (g_chs (w_lg w)) (Z.to_nat a) /\
                       nth_error (w_rings w') (Z.to_nat a) = nth_error (w_rings w) (Z.to_nat a)) /\
  (forall a b, w_in w' a b = w_in w a b).

(* A line has been written through channel k at once. *)
Definition written_through (W : wcfg) (i : io) (k p c n : Z) (t : text) (w w' : world) : Prop :=
  only_at k w w' /\ shape W w' /\
  exists ch ch' r r' f,
    chan_at w k ch /\ chan_at w' k ch' /\ same_setup ch ch' /\
    delivered i k p c n t 0 (firstn (Z.to_nat (c_size ch)) (c_devs ch)) (w_ev w) (w_ev w') f /\
    (forall j x, 0 <= j -> 0 <= x -> dcnt ch' j x = dcnt ch j x + f j x) /\
    (forall x, 0 <= x -> x <> 21 -> x <> 22 -> cnt (c_log ch') x = cnt (c_log ch) x + channel_delta p (zlen t) x) /\
    ring_at w k r /\ ring_at w' k r' /\ empty r' /\ rg_write r' = (rg_write r + 1) mod W_ring W.

(* ---- several lines, one after the other ---- *)
Record item := mkItem { i_prio : Z; i_cat : Z; i_ident : Z; i_line : text }.
Inductive delivered_all (i : io) (k : Z) (ds : list device) : list item -> list event -> list event -> (Z -> Z -> Z) -> Prop :=
| da_nil : forall evs, delivered_all i k ds [] evs evs (fun _ _ => 0)
| da_cons : forall l ls e0 e1 e2 f g,
    delivered i k (i_prio l) (i_cat l) (i_ident l) (i_line l) 0 ds e0 e1 f ->
    delivered_all i k ds ls e1 e2 g -> delivered_all i k ds (l :: ls) e0 e2 (fun a x => f a x + g a x).

(* The records waiting in the queue of a channel, oldest first: complete lines
   marked ready, from read_idx_ up to write_idx_. *)
Definition item_of (log : ldata) (l : item) : Prop :=
  ld_prio log = i_prio l /\ ld_cat log = i_cat l /\ ld_ident log = i_ident l /\
  ld_len log = zlen (i_line l) /\ exists rest, ld_buf log = i_line l ++ 0 :: rest.
Definition waiting (W : wcfg) (r : ring) (q : list item) : Prop :=
  zlen q < W_ring W /\ rg_proc r = rg_read r /\ rg_write r = (rg_read r + zlen q) mod W_ring W /\
  forall m l, nth_error q m = Some l -> exists c,
    nth_error (rg_cells r) (Z.to_nat ((rg_read r + Z.of_nat m) mod W_ring W)) = Some c /\ ce_mark c = 2 /\ item_of (ce_log c) l.
(* nobody is between HoldChannel and PushChannel *)
Definition settled_ring (r : ring) : Prop := rg_hold r = rg_write r.

(* ---- the text of a statement ---- *)
(* what the prefix is about *)
Definition stated_head (W : wcfg) (i : io) (s : stmt) : head :=
  mkHead (t_prefix s) (io_ts i) (io_prec i) (t_prio s) (io_thread i) (W_name W) (W_name_len W) (W_desc W) (W_desc_len W)
         (t_file s) (t_file_len s) (t_line s) (t_func s) (t_func_len s).
(* the documented prefix, unless switched off, and then the values shown, as far
   as the record has room *)
Definition statement_text (W : wcfg) (o : Z) (i : io) (s : stmt) (T : text) : Prop :=
  exists t pss, (t_prefix s = 0 -> t = []) /\ (t_prefix s <> 0 -> prefix_text o (stated_head W i s) t) /\
    Forall2 (shows o (e_libc (W_env W))) (t_vals s) pss /\ T = feed_all (e_cap (W_env W)) t (concat pss).

(* Channel k between two calls: nobody holds a slot, the records q wait, and
   there is room for one more. *)
Definition at_rest (W : wcfg) (w : world) (k : Z) (ch : channel) (r : ring) (q : list item) : Prop :=
  chan_at w k ch /\ ring_at w k r /\ settled_ring r /\ waiting W r q /\ zlen q + 1 < W_ring W.

(* A line has been put behind the records q waiting at channel k. *)
Definition queued (W : wcfg) (k p c n : Z) (t : text) (q : list item) (w w' : world) : Prop :=
  only_at k w w' /\ shape W w' /\ w_ev w' = w_ev w /\
  exists ch ch' r r',
    chan_at w k ch /\ chan_at w' k ch' /\ same_setup ch ch' /\
    (forall j x, 0 <= j -> 0 <= x -> dcnt ch' j x = dcnt ch j x) /\
    (forall x, 0 <= x -> x <> 21 -> x <> 22 -> cnt (c_log ch') x = cnt (c_log ch) x + hit x 1 1 + hit x 2 1 + hit x (3 + p) (zlen t)) /\
    ring_at w k r /\ ring_at w' k r' /\ settled_ring r' /\ rg_read r' = rg_read r /\ waiting W r' (q ++ [mkItem p c n t]).

(* the record log, copied to channel k with category c, identify n and text t *)
Definition copied (log log' : ldata) (k c n : Z) (t : text) : Prop :=
  ld_chan log' = k /\ ld_prio log' = ld_prio log /\ ld_cat log' = c /\ ld_ident log' = n /\
  ld_line log' = ld_line log /\ ld_func log' = ld_func log /\ ld_func_len log' = ld_func_len log /\
  ld_file log' = ld_file log /\ ld_file_len log' = ld_file_len log /\
  ld_ts log' = ld_ts log /\ ld_prec log' = ld_prec log /\ ld_thread log' = ld_thread log /\
  ld_plen log' = ld_plen log /\ ld_len log' = zlen t /\ exists rest, ld_buf log' = t ++ 0 :: rest.

(* ---- incoming datagrams ---- *)
(* one round takes at most n datagrams and ends early after an empty one: those
   forwarded and those still waiting *)
Fixpoint round (n : nat) (ms : list text) : list text * list text :=
  match n with
  | O => ([], ms)
  | S n => match ms with
           | [] => ([], [])
           | m :: ms => match m with
                        | [] => ([], ms)
                        | _ => (m :: fst (round n ms), snd (round n ms))
                        end
           end
  end.
(* a datagram that does not leave one byte of the record free loses its end *)
Definition kept (W : wcfg) (m : text) : text :=
  if zlen m <? e_cap (W_env W) then m else firstn (Z.to_nat (e_cap (W_env W) - 2)) m ++ [10; 0].
(* device j of channel k puts out the datagrams ms, as INFO *)
Fixpoint forward (W : wcfg) (i : io) (k j : Z) (d : device) (ms : list text) (evs : list event) : list event :=
  match ms with
  | [] => evs
  | m :: ms => forward W i k j d ms (evs ++ outputs i evs k j d 2 (kept W m))
  end.
Definition receives (i : io) (evs : list event) (k j : Z) (d : device) : bool :=
  (d_in d =? 1) && negb (nth 0 (d_cfg d) 0 =? 0) && io_sock i evs k j.
(* all input devices in turn: the events and what is left to read *)
Fixpoint receive (W : wcfg) (i : io) (k j : Z) (ds : list device) (ins : Z -> list text) (evs : list event)
  : (Z -> list text) * list event :=
  match ds with
  | [] => (ins, evs)
  | d :: ds =>
      if receives i evs k j d then
        receive W i k (j + 1) ds (fun a => if a =? j then snd (round 1000 (ins j)) else ins a)
                (forward W i k j d (fst (round 1000 (ins j))) evs)
      else receive W i k (j + 1) ds ins evs
  end.

(* ---- the bytes handed to file device j of channel k ---- *)
Fixpoint filed (k j : Z) (evs : list event) : text :=
  match evs with
  | [] => []
  | EFile a b t :: evs => (if (a =? k) && (b =? j) then t else []) ++ filed k j evs
  | _ :: evs => filed k j evs
  end.
(* the statement passes channel k and its file device j *)
Definition goes_to (w : world) (k j : Z) (s : stmt) : Prop :=
  t_chan s = k /\ admitted (w_lg w) k (t_prio s) (t_cat s) (t_ident s) /\
  exists ch d, chan_at w k ch /\ has_device ch j d /\ device_on d /\ device_accepts d (t_prio s) (t_cat s) (t_ident s) /\ d_out d = 2.
(* the texts of the elements with P, in order *)
Inductive picked {A : Type} (P : A -> Prop) : list A -> list text -> list text -> Prop :=
| pk_nil : picked P [] [] []
| pk_yes : forall a l t ts us, P a -> picked P l ts us -> picked P (a :: l) (t :: ts) (t :: us)
| pk_no : forall a l t ts us, ~ P a -> picked P l ts us -> picked P (a :: l) (t :: ts) us.
(* all channels are synchronous, at rest, without hook and without datagrams *)
Definition calm (W : wcfg) (w : world) : Prop :=
  forall k ch r, chan_at w k ch -> ring_at w k r ->
    c_type ch = 1 /\ empty r /\ no_datagrams w k /\ (W_hook W = None \/ c_virtual ch < 0).
