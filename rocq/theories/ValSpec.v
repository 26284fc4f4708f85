(* How option values are written: numbers, bit lists, addresses; and the documented keys. *)
From Coq Require Import String ZArith List Bool.
From Verif Require Import Base LoggerState ParseVal TextSpec.
Import ListNotations.
Open Scope Z_scope.

(* ---- numbers ---- *)
(* the number that a row of decimal digits stands for *)
Definition num (s : text) : Z := fold_left (fun a c => a * 10 + (c - 48)) s 0.
Definition digits (s : text) : Prop := s <> [] /\ Forall digit s.
(* a decimal number with an optional sign *)
Inductive decimal (n : Z) : text -> Prop :=
| dec_pos : forall s, digits s -> num s = n -> decimal n s
| dec_neg : forall s, digits s -> num s = - n -> decimal n (45 :: s).
(* what stands behind a value does not continue a number *)
Definition ends_number (s : text) : Prop := exists c r, s = c :: r /\ ~ digit c.

(* ---- bit lists ---- *)
Inductive bits := Bit (n : Z) | Bits (a b : Z).
Definition bits_in (x : bits) (i : Z) : Prop :=
  match x with
  | Bit n => i = n
  | Bits a b => a <= i <= b \/ b <= i <= a
  end.
Definition bits_ok (x : bits) : Prop :=
  match x with
  | Bit n => 0 <= n <= 63
  | Bits a b => 0 <= a <= 63 /\ 0 <= b <= 63
  end.
Inductive bits_text : bits -> text -> Prop :=
| bt_bit : forall n b1 s b2, digits s -> num s = n -> Forall blank b1 -> Forall blank b2 ->
    bits_text (Bit n) (b1 ++ s ++ b2)
| bt_bits : forall x y b1 s b2 b3 t b4, digits s -> num s = x -> digits t -> num t = y ->
    Forall blank b1 -> Forall blank b2 -> Forall blank b3 -> Forall blank b4 ->
    bits_text (Bits x y) (b1 ++ s ++ b2 ++ 45 :: b3 ++ t ++ b4).
(* items separated by commas; the empty list is a blank value *)
Inductive list_text : list bits -> text -> Prop :=
| lt_nil : forall b, Forall blank b -> list_text [] b
| lt_one : forall x t, bits_text x t -> list_text [x] t
| lt_cons : forall x t y l u, bits_text x t -> list_text (y :: l) u -> list_text (x :: y :: l) (t ++ 44 :: u).
Definition listed (l : list bits) (i : Z) : Prop := exists x, In x l /\ bits_in x i.

(* ---- addresses: a.b.c.d:port, parts without leading zeros ---- *)
Definition part (n : Z) (s : text) : Prop := digits s /\ num s = n /\ (hd 0 s = 48 -> s = [48]).
Definition quad_text (a b c d : Z) (s : text) : Prop :=
  exists ta tb tc td, s = ta ++ 46 :: tb ++ 46 :: tc ++ 46 :: td /\ part a ta /\ part b tb /\ part c tc /\ part d td.
Definition address_text (a b c d port : Z) (s : text) : Prop :=
  exists q p, s = q ++ 58 :: p /\ quad_text a b c d q /\ part port p.

(* ---- addresses as inet_addr reads them: one to four numbers, octal after a
   leading zero; the last one stands for all bytes that are left ---- *)
Definition octal (c : Z) : Prop := 48 <= c <= 55.
Definition ip_number (n : Z) (s : text) : Prop :=
  digits s /\
  (hd 0 s <> 48 /\ num s = n \/ hd 0 s = 48 /\ Forall octal s /\ fold_left (fun a c => a * 8 + (c - 48)) s 0 = n).
Fixpoint with_dots (l : list text) : text :=
  match l with
  | [] => []
  | [t] => t
  | t :: l => t ++ 46 :: with_dots l
  end.
(* the number that a row of bytes stands for, the first byte being the highest *)
Definition high_first (l : list Z) : Z := fold_left (fun a b => a * 256 + b) l 0.
(* [q] denotes the address with the four bytes [bs] *)
Definition ip_text (q : text) (bs : list Z) : Prop :=
  zlen bs = 4 /\ Forall (fun b => 0 <= b <= 255) bs /\
  exists ts k, q = with_dots ts /\ (k < 4)%nat /\ Forall2 ip_number (firstn k bs ++ [high_first (skipn k bs)]) ts.

(* ---- the documented keys, README "Yaml Manual" and dist/include/fn-log/default_log.yaml ---- *)
Definition documented : list (text * Z) :=
  map (fun p => (s2z (fst p), snd p))
    [("hot_update"%string, RK_HOT_UPDATE); ("shm_key"%string, RK_SHM_KEY); ("logger_name"%string, RK_LOGGER_NAME);
     ("logger_desc"%string, PK_LOGGER_DESC); ("define"%string, RK_DEFINE); ("var"%string, RK_VARIABLE);
     ("channel"%string, RK_CHANNEL); ("sync"%string, RK_SYNC); ("device"%string, RK_DEVICE);
     ("priority"%string, RK_PRIORITY); ("category"%string, RK_CATEGORY); ("category_extend"%string, RK_CATEGORY_EXTEND);
     ("category_wmask"%string, RK_CATEGORY_WMASK); ("category_bmask"%string, RK_CATEGORY_BMASK);
     ("category_wlist"%string, RK_CATEGORY_WLIST); ("category_blist"%string, RK_CATEGORY_BLIST);
     ("identify"%string, RK_IDENTIFY); ("identify_extend"%string, RK_IDENTIFY_EXTEND);
     ("identify_wmask"%string, RK_IDENTIFY_WMASK); ("identify_bmask"%string, RK_IDENTIFY_BMASK);
     ("identify_wlist"%string, RK_IDENTIFY_WLIST); ("identify_blist"%string, RK_IDENTIFY_BLIST);
     ("disable"%string, RK_DISABLE); ("in_type"%string, RK_IN_TYPE); ("out_type"%string, RK_OUT_TYPE);
     ("udp_addr"%string, RK_UDP_ADDR); ("path"%string, RK_PATH); ("file"%string, RK_FILE);
     ("limit_size"%string, RK_LIMIT_SIZE); ("rollback"%string, RK_ROLLBACK); ("rolldaily"%string, RK_ROLLDAILY);
     ("rollhourly"%string, RK_ROLLHOURLY); ("stuff_up"%string, RK_FILE_STUFF_UP)].
