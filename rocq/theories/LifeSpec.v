(* What the answers of concurrent start and stop calls mean. *)
From Coq Require Import String ZArith List Bool.
From Verif Require Import Base LoggerState ParseVal Lexer ParseCfg Load Life.
Import ListNotations. Open Scope Z_scope.

Definition starts (c : api) : Prop := c <> AStop.
Definition loads (c : api) : Prop := match c with AParse _ _ | ALoad _ _ (Some _) => True | _ => False end.
(* calls that have begun and not returned, with their result once it is decided *)
Definition pending := nat -> option (api * option res).
Definition mark (p : pending) (i : nat) (x : option (api * option res)) (j : nat) : option (api * option res) :=
  if Nat.eqb j i then x else p j.
Definition other (p : pending) (i : nat) (P : api -> Prop) : Prop := exists j c, j <> i /\ p j = Some (c, None) /\ P c.
(* channel_size_ is out of range *)
Definition no_size (e : lenv) (g : lg) : Prop :=
  forall m, lg_shm g = Some m -> sm_size m <= 0 \/ x_maxch (y_pe e) < sm_size m.

(* why a call was refused, where [g] is the logger after the calls that have taken
   effect: it is as the answer says, or another call is under way *)
Inductive excuse (e : lenv) (g : lg) (p : pending) (i : nat) : api -> res -> Prop :=
| ex_use : forall c, starts c -> lg_state g <> LOGGER_STATE_UNINIT \/ other p i starts -> excuse e g p i c (Code E_LOGGER_IN_USE)
| ex_init : forall th, lg_shm g = None -> excuse e g p i (AStart th) (Code E_LOGGER_NOT_INIT)
| ex_size : forall c, c = AStop \/ (exists th, c = AStart th) -> no_size e g \/ other p i loads -> excuse e g p i c (Code E_INVALID_CHANNEL_SIZE)
| ex_file : forall th path, excuse e g p i (ALoad th path None) (Code E_INVALID_CONFIG_PATH)
| ex_run : lg_state g <> LOGGER_STATE_RUNNING \/ other p i (fun c => c = AStop) -> excuse e g p i AStop (Code E_LOGGER_NOT_RUNNING).

(* [l] is what happened from the logger [g0] on: the calls that took effect did so one
   after the other, each exactly as if it were alone, and ended in [g]; a call takes
   effect or is refused once, between its beginning and its return, and returns the
   result it then had *)
Inductive serial (e : lenv) (g0 : lg) : list ev -> lg -> pending -> Prop :=
| se_nil : serial e g0 [] g0 (fun _ => None)
| se_began : forall l g p i c, serial e g0 l g p -> p i = None -> serial e g0 (l ++ [Began i c]) g (mark p i (Some (c, None)))
| se_did : forall l g p i c r g', serial e g0 l g p -> p i = Some (c, None) -> do_call e g (as_call c) = Ret (r, g') ->
    serial e g0 (l ++ [Did i c r]) g' (mark p i (Some (c, Some r)))
| se_refused : forall l g p i c r, serial e g0 l g p -> p i = Some (c, None) -> excuse e g p i c r ->
    serial e g0 (l ++ [Refused i c r]) g (mark p i (Some (c, Some r)))
| se_ended : forall l g p i c r, serial e g0 l g p -> p i = Some (c, Some r) -> serial e g0 (l ++ [Ended i r]) g (mark p i None).

(* successful starts and stops *)
Definition started (x : ev) : bool :=
  match x with Did _ AStop _ => false | Did _ _ (Code 0) => true | _ => false end.
Definition stopped (x : ev) : bool :=
  match x with Did _ AStop (Code 0) => true | _ => false end.
Definition count (f : ev -> bool) (l : list ev) : Z := zlen (filter f l).
Definition runs (g : lg) : Z := if lg_state g =? LOGGER_STATE_RUNNING then 1 else 0.
(* what the calls of thread [i] returned, and what was decided about them *)
Definition answers (i : nat) (l : list ev) : list res :=
  flat_map (fun x => match x with Ended j r => if Nat.eqb j i then [r] else [] | _ => [] end) l.
Definition verdicts (i : nat) (l : list ev) : list res :=
  flat_map (fun x => match x with Did j _ r | Refused j _ r => if Nat.eqb j i then [r] else [] | _ => [] end) l.
(* the calls thread [i] has begun *)
Definition begun (i : nat) (l : list ev) : list api :=
  flat_map (fun x => match x with Began j c => if Nat.eqb j i then [c] else [] | _ => [] end) l.
(* a list of threads in which each of the first [n] occurs *)
Definition round (n : nat) (l : list nat) : Prop := Forall (fun i => (i < n)%nat) l /\ forall i, (i < n)%nat -> In i l.
(* the configuration text of a call can be parsed without undefined behaviour and
   within the fuel *)
Definition readable (e : lenv) (c : api) : Prop :=
  loads c -> exists r, parse_logger (y_fuel e) (y_pe e) (y_old e) (text_of c) = Ret r.
(* what the calls return one after the other *)
Fixpoint in_turn (e : lenv) (g : lg) (l : list api) : outcome (list res) :=
  match l with
  | [] => Ret []
  | c :: l' => let! x := do_call e g (as_call c) in let! rs := in_turn e (snd x) l' in Ret (fst x :: rs)
  end.

(* a running logger has channels *)
Definition steady (e : lenv) (g : lg) : Prop := lg_state g = LOGGER_STATE_RUNNING -> ~ no_size e g.
