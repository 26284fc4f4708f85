(* Configurations as lists of options, how they are written down, and what they mean. *)
From Coq Require Import String ZArith List Bool.
From Verif Require Import Base LoggerState ParseVal ParseCfg TextSpec ValSpec.
Import ListNotations.
Open Scope Z_scope.

(* ---- options ---- *)
Inductive which := Category | Identify.
(* options of channels and devices *)
Inductive fopt :=
| FPriority (p : Z)
| FBase (w : which) (n : Z)          (* category, identify *)
| FExtend (w : which) (n : Z)        (* ..._extend *)
| FWmask (w : which) (n : Z)
| FBmask (w : which) (n : Z)
| FWlist (w : which) (l : list bits)
| FBlist (w : which) (l : list bits).
Inductive dopt :=
| DFilter (f : fopt)
| DIn                                (* in_type: udp *)
| DOut (t : Z)
| DDisable (b : bool)
| DLimit (n : Z)                     (* megabytes *)
| DRollback (n : Z)
| DDaily (b : bool)
| DHourly (b : bool)
| DStuff (b : bool)
| DPath (v : text)
| DFile (v : text)
| DUdp (a b c d port : Z).
Inductive copt := CFilter (f : fopt) | CSync (b : bool).
Inductive citem := COpt (o : copt) | CDev (os : list dopt).
Inductive gitem :=
| GHot (b : bool)
| GName (v : text)
| GDesc (v : text)
| GShm (n : Z)
| GChan (is : list citem).

(* ---- how an option is written: key and value ---- *)
Definition words (l : list (string * Z)) (n : Z) (v : text) : Prop := exists s, In (s, n) l /\ v = s2z s.
Definition priority_words := words
  [("trace"%string, PRIORITY_TRACE); ("Trace"%string, PRIORITY_TRACE); ("TRACE"%string, PRIORITY_TRACE);
   ("debug"%string, PRIORITY_DEBUG); ("Debug"%string, PRIORITY_DEBUG); ("DEBUG"%string, PRIORITY_DEBUG);
   ("info"%string, PRIORITY_INFO); ("Info"%string, PRIORITY_INFO); ("INFO"%string, PRIORITY_INFO);
   ("warn"%string, PRIORITY_WARN); ("Warn"%string, PRIORITY_WARN); ("WARN"%string, PRIORITY_WARN);
   ("error"%string, PRIORITY_ERROR); ("Error"%string, PRIORITY_ERROR); ("ERROR"%string, PRIORITY_ERROR);
   ("alarm"%string, PRIORITY_ALARM); ("Alarm"%string, PRIORITY_ALARM); ("ALARM"%string, PRIORITY_ALARM);
   ("fatal"%string, PRIORITY_FATAL); ("Fatal"%string, PRIORITY_FATAL); ("FATAL"%string, PRIORITY_FATAL)].
Definition out_words := words
  [("file"%string, DEVICE_OUT_FILE); ("File"%string, DEVICE_OUT_FILE); ("FILE"%string, DEVICE_OUT_FILE);
   ("udp"%string, DEVICE_OUT_UDP); ("Udp"%string, DEVICE_OUT_UDP); ("UDP"%string, DEVICE_OUT_UDP);
   ("screen"%string, DEVICE_OUT_SCREEN); ("Screen"%string, DEVICE_OUT_SCREEN); ("SCREEN"%string, DEVICE_OUT_SCREEN);
   ("virtual"%string, DEVICE_OUT_VIRTUAL); ("Virtual"%string, DEVICE_OUT_VIRTUAL); ("VIRTUAL"%string, DEVICE_OUT_VIRTUAL);
   ("empty"%string, DEVICE_OUT_EMPTY); ("Empty"%string, DEVICE_OUT_EMPTY); ("EMPTY"%string, DEVICE_OUT_EMPTY)].
Definition yes_words (b : bool) : list string :=
  if b then ["true"%string; "True"%string; "TRUE"%string; "yes"%string; "1"%string]
  else ["false"%string; "False"%string; "FALSE"%string; "0"%string].
Definition yes_no (b : bool) (v : text) : Prop := exists s, In s (yes_words b) /\ v = s2z s.
(* a decimal number, maybe followed by a unit *)
Definition amount (n : Z) (v : text) : Prop :=
  exists s u, v = s ++ u /\ decimal n s /\ (forall c r, u = c :: r -> ~ digit c).
(* 0x and hexadecimal digits, or a decimal number without leading zeros *)
Definition hex_digit (c d : Z) : Prop := digit c /\ d = c - 48 \/ 97 <= c <= 102 /\ d = c - 87 \/ 65 <= c <= 70 /\ d = c - 55.
Inductive hex_text : Z -> text -> Prop :=
| ht_one : forall c d, hex_digit c d -> hex_text d [c]
| ht_more : forall n s c d, hex_text n s -> hex_digit c d -> hex_text (16 * n + d) (s ++ [c]).
Definition number_text (n : Z) (v : text) : Prop :=
  ((exists s, hex_text n s /\ v = 48 :: 120 :: s) \/ part n v) /\ zlen v <= 40.
Definition wkey (w : which) (suffix : string) : text :=
  s2z (match w with Category => "category"%string | Identify => "identify"%string end) ++ s2z suffix.

Definition fwrite (f : fopt) (k v : text) : Prop :=
  match f with
  | FPriority p => k = s2z "priority" /\ priority_words p v
  | FBase w n => k = wkey w "" /\ amount n v
  | FExtend w n => k = wkey w "_extend" /\ amount n v
  | FWmask w n => k = wkey w "_wmask" /\ amount n v
  | FBmask w n => k = wkey w "_bmask" /\ amount n v
  | FWlist w l => k = wkey w "_wlist" /\ list_text l v
  | FBlist w l => k = wkey w "_blist" /\ list_text l v
  end.
Definition dwrite (o : dopt) (k v : text) : Prop :=
  match o with
  | DFilter f => fwrite f k v
  | DIn => k = s2z "in_type" /\ (v = s2z "udp" \/ v = s2z "UDP")
  | DOut t => k = s2z "out_type" /\ out_words t v
  | DDisable b => k = s2z "disable" /\ yes_no b v
  | DLimit n => k = s2z "limit_size" /\ amount n v
  | DRollback n => k = s2z "rollback" /\ amount n v
  | DDaily b => k = s2z "rolldaily" /\ yes_no b v
  | DHourly b => k = s2z "rollhourly" /\ yes_no b v
  | DStuff b => k = s2z "stuff_up" /\ yes_no b v
  | DPath p => k = s2z "path" /\ v = p
  | DFile p => k = s2z "file" /\ v = p
  | DUdp a b c d port => k = s2z "udp_addr" /\ address_text a b c d port v
  end.
Definition cwrite (o : copt) (k v : text) : Prop :=
  match o with
  | CFilter f => fwrite f k v
  | CSync b => k = s2z "sync" /\ v = s2z (if b then "sync"%string else "async"%string)
  end.

(* ---- the text: one option a line, members of a channel and of a device further in;
   empty lines and comments anywhere ---- *)
Inductive gaps (eol : text) : text -> Prop :=
| gaps_nil : gaps eol []
| gaps_cons : forall g t, is_gap eol g -> gaps eol t -> gaps eol (g ++ t).
Inductive dev_text (eol : text) (in_ : Z) : list dopt -> text -> Prop :=
| dt_nil : dev_text eol in_ [] []
| dt_cons : forall g n k v l o os t, gaps eol g -> dwrite o k v -> is_line eol n k v l -> in_ < n ->
    dev_text eol in_ os t -> dev_text eol in_ (o :: os) (g ++ l ++ t).
(* [n] the column of the members, [i] the number of the next device *)
Inductive chan_text (eol : text) (n : Z) : Z -> list citem -> text -> Prop :=
| ct_nil : forall i, chan_text eol n i [] []
| ct_opt : forall i g k v l o is t, gaps eol g -> cwrite o k v -> is_line eol n k v l ->
    chan_text eol n i is t -> chan_text eol n i (COpt o :: is) (g ++ l ++ t)
| ct_dev : forall i g v l os u is t, gaps eol g -> decimal i v -> is_line eol n (s2z "device") v l ->
    dev_text eol n os u -> chan_text eol n (i + 1) is t -> chan_text eol n i (CDev os :: is) (g ++ l ++ u ++ t).
Inductive log_text (eol : text) (m : Z) : Z -> list gitem -> text -> Prop :=
| lt_end : forall i g, gaps eol g -> log_text eol m i [] g
| lt_hot : forall i g v l b is t, gaps eol g -> yes_no b v -> is_line eol m (s2z "hot_update") v l ->
    log_text eol m i is t -> log_text eol m i (GHot b :: is) (g ++ l ++ t)
| lt_name : forall i g v l is t, gaps eol g -> is_line eol m (s2z "logger_name") v l ->
    log_text eol m i is t -> log_text eol m i (GName v :: is) (g ++ l ++ t)
| lt_desc : forall i g v l is t, gaps eol g -> is_line eol m (s2z "logger_desc") v l ->
    log_text eol m i is t -> log_text eol m i (GDesc v :: is) (g ++ l ++ t)
| lt_shm : forall i g v l n is t, gaps eol g -> number_text n v -> is_line eol m (s2z "shm_key") v l ->
    log_text eol m i is t -> log_text eol m i (GShm n :: is) (g ++ l ++ t)
| lt_chan : forall i g v l n cs u is t, gaps eol g -> decimal i v -> is_line eol m (s2z "channel") v l -> m < n ->
    chan_text eol n 0 cs u -> log_text eol m (i + 1) is t -> log_text eol m i (GChan cs :: is) (g ++ l ++ u ++ t).

(* ---- what it means: the last option for a field counts ---- *)
Definition pick {A B} (f : A -> option B) (l : list A) (d : B) : B :=
  fold_left (fun acc x => match f x with Some v => v | None => acc end) l d.
(* the 64-bit number whose listed bits are set *)
Definition in_bits (l : list bits) (i : Z) : bool :=
  existsb (fun x => match x with Bit n => i =? n | Bits a b => (Z.min a b <=? i) && (i <=? Z.max a b) end) l.
Fixpoint bit_sum (l : list bits) (n : nat) : Z :=
  match n with
  | O => 0
  | S n' => bit_sum l n' + (if in_bits l (Z.of_nat n') then 2 ^ Z.of_nat n' else 0)
  end.
Definition white (l : list bits) : Z := bit_sum l 63 - (if in_bits l 63 then 2 ^ 63 else 0).
Definition black (l : list bits) : Z := -1 - white l.

(* the fields an option sets; [slots] are those of category and identify: value, extend, mask *)
Definition slots := which -> Z * Z * Z.
Definition fsets (priority : Z) (s : slots) (f : fopt) : Z * Z :=
  match f with
  | FPriority p => (priority, p)
  | FBase w n => (fst (fst (s w)), n)
  | FExtend w n => (snd (fst (s w)), n)
  | FWmask w n => (snd (s w), n)
  | FBmask w n => (snd (s w), -1 - n)
  | FWlist w l => (snd (s w), white l)
  | FBlist w l => (snd (s w), black l)
  end.
Definition dslots (w : which) : Z * Z * Z :=
  match w with
  | Category => (DEVICE_CFG_CATEGORY, DEVICE_CFG_CATEGORY_EXTEND, DEVICE_CFG_CATEGORY_MASK)
  | Identify => (DEVICE_CFG_IDENTIFY, DEVICE_CFG_IDENTIFY_EXTEND, DEVICE_CFG_IDENTIFY_MASK)
  end.
Definition cslots (w : which) : Z * Z * Z :=
  match w with
  | Category => (CHANNEL_CFG_CATEGORY, CHANNEL_CFG_CATEGORY_EXTEND, CHANNEL_CFG_CATEGORY_MASK)
  | Identify => (CHANNEL_CFG_IDENTIFY, CHANNEL_CFG_IDENTIFY_EXTEND, CHANNEL_CFG_IDENTIFY_MASK)
  end.
Definition flag (b : bool) : Z := if b then 1 else 0.
Definition dsets (o : dopt) : list (Z * Z) :=
  match o with
  | DFilter f => [fsets DEVICE_CFG_PRIORITY dslots f]
  | DDisable b => [(DEVICE_CFG_ABLE, flag (negb b))]
  | DLimit n => [(DEVICE_CFG_FILE_LIMIT_SIZE, n * 1000000)]
  | DRollback n => [(DEVICE_CFG_FILE_ROLLBACK, n)]
  | DDaily b => [(DEVICE_CFG_FILE_ROLLDAILY, flag b)]
  | DHourly b => [(DEVICE_CFG_FILE_ROLLHOURLY, flag b)]
  | DStuff b => [(DEVICE_CFG_FILE_STUFF_UP, flag b)]
  | DUdp a b c d port =>
      [(DEVICE_CFG_UDP_IP, a + 256 * (b + 256 * (c + 256 * d))); (DEVICE_CFG_UDP_PORT, port mod 256 * 256 + port / 256)]
  | DIn | DOut _ | DPath _ | DFile _ => []
  end.
Definition csets (o : copt) : list (Z * Z) :=
  match o with
  | CFilter f => [fsets CHANNEL_CFG_PRIORITY cslots f]
  | CSync _ => []
  end.
Definition field (l : list (Z * Z)) (i : Z) : Z := pick (fun p => if fst p =? i then Some (snd p) else None) l 0.
Definition fields (l : list (Z * Z)) (n : nat) : list Z := map (fun i => field l (Z.of_nat i)) (seq 0 n).
Definition want_dev (id : Z) (os : list dopt) : pdev :=
  mkPdev id
    (pick (fun o => match o with DIn => Some DEVICE_IN_UDP | _ => None end) os DEVICE_IN_NULL)
    (pick (fun o => match o with DOut t => Some t | _ => None end) os DEVICE_OUT_NULL)
    (fields (flat_map dsets os) 15)
    (pick (fun o => match o with DFile v => Some v | _ => None end) os [])
    (pick (fun o => match o with DPath v => Some v | _ => None end) os []).
Fixpoint want_devs (id : Z) (is : list citem) : list pdev :=
  match is with
  | [] => []
  | COpt _ :: is => want_devs id is
  | CDev os :: is => want_dev id os :: want_devs (id + 1) is
  end.
Definition copts (is : list citem) : list copt := flat_map (fun i => match i with COpt o => [o] | CDev _ => [] end) is.
Definition want_chan (id : Z) (is : list citem) : pchan :=
  let devs := want_devs 0 is in
  mkPchan id
    (pick (fun o => match o with CSync b => Some (if b then CHANNEL_SYNC else CHANNEL_ASYNC) | _ => None end) (copts is) CHANNEL_ASYNC)
    (pick (fun d => if pd_out d =? DEVICE_OUT_VIRTUAL then Some (pd_id d) else None) devs 0)
    (fields (flat_map csets (copts is)) 7)
    devs.
Fixpoint want_chans (id : Z) (is : list gitem) : list pchan :=
  match is with
  | [] => []
  | GChan cs :: is => want_chan id cs :: want_chans (id + 1) is
  | _ :: is => want_chans id is
  end.

(* ---- what may be asked for ---- *)
Definition in_ll (n : Z) : Prop := - 2 ^ 63 <= n < 2 ^ 63.
Definition in_int (n : Z) : Prop := - 2 ^ 31 <= n < 2 ^ 31.
Definition fopt_ok (small : Z -> Prop) (f : fopt) : Prop :=
  match f with
  | FPriority _ => True
  | FBase _ n | FExtend _ n => small n
  | FWmask _ n | FBmask _ n => in_ll n
  | FWlist _ l | FBlist _ l => Forall bits_ok l
  end.
Definition byte (n : Z) : Prop := 0 <= n <= 255.
Definition dopt_ok (o : dopt) : Prop :=
  match o with
  | DFilter f => fopt_ok in_ll f
  | DLimit n => in_ll (n * 1000000)
  | DRollback n => in_ll n
  | DPath v => 1 <= zlen v <= 198
  | DFile v => 1 <= zlen v <= 48
  | DUdp a b c d port => byte a /\ byte b /\ byte c /\ byte d /\ a + b + c + d <> 0 /\ 1 <= port <= 65535
  | _ => True
  end.
Definition copt_ok (o : copt) : Prop := match o with CFilter f => fopt_ok in_int f | CSync _ => True end.
Definition citem_ok (i : citem) : Prop := match i with COpt o => copt_ok o | CDev os => Forall dopt_ok os end.
Definition gitem_ok (maxdev : Z) (i : gitem) : Prop :=
  match i with
  | GName v => 1 <= zlen v <= 249
  | GDesc v => 1 <= zlen v <= 49
  | GShm n => 0 <= n < 2 ^ 63
  | GChan is => Forall citem_ok is /\ zlen (want_devs 0 is) <= maxdev
  | GHot _ => True
  end.
