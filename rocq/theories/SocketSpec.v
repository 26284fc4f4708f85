(* Who owns which descriptor (C128). *)
From Coq Require Import ZArith List Bool.
From Verif Require Sys.
From Verif Require Import Base Socket.
Import ListNotations.
Open Scope Z_scope.

(* only thread i processes the channel *)
Definition only_runs (i : nat) (ls : list slabel) : Prop := forall j fd ok, In (SRun j fd ok) ls -> j = i.
(* nobody is in the loop *)
Definition resting (s : sstate) : Prop := forall i, k_pc s i = SStart.
(* the open sockets of the device are exactly the one in the handle *)
Definition no_leak (s : sstate) : Prop := forall fd, k_fds s fd = KSock <-> k_h s = Some fd.
(* at most one socket is open *)
Definition single (s : sstate) : Prop := forall a b, k_fds s a = KSock -> k_fds s b = KSock -> a = b.
(* the device is not disabled *)
Definition stays_enabled (ls : list slabel) : Prop := ~ In (SAble false) ls.
(* thread i, undisturbed, goes on until it is at the start again *)
Fixpoint visit (n : nat) (s : sstate) (i : nat) (fd : option nat) (ok : bool) : option sstate :=
  match n with
  | O => None
  | S n => match sstep s (SRun i fd ok) with
           | None => None
           | Some s => match k_pc s i with SStart => Some s | _ => visit n s i fd ok end
           end
  end.
(* the handle as Sys.v has it (C99, C100): open_ts_, and whether there is a socket bound to addr *)
Definition as_sys (s : sstate) (addr : Z * Z) : Sys.udp := Sys.mkUdp (k_ts s) (match k_h s with Some _ => Some (Some addr) | None => None end).
