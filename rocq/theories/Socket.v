(* The socket of a UDP input on a channel that several threads process: the code
   fn_channel.h:203-237 and UDPHandler (fn_file.h:421-549) with the descriptors of the
   process.  A synchronous channel is processed by every thread that logs, and the handle
   of the device is used outside of any lock.

   One input device.  The kernel may fail socket() and bind(), and gives any descriptor that is
   free; the rest of the process opens and closes descriptors of its own meanwhile.

   Simplified: fcntl (fn_file.h:476-482) does not fail; the datagrams are those of C127;
   config_fields_[DEVICE_CFG_ABLE] is changed by a hot update or a configuration call, here
   by a label. *)
From Coq Require Import ZArith List Bool Arith.
From Verif Require Import Base.
Import ListNotations.
Open Scope Z_scope.

(* what a descriptor is: not open, a socket of the device, or something else of the process *)
Inductive fdkind := KFree | KSock | KOther.

Inductive spc :=
| SStart                 (* fn_channel.h:212, the test of DEVICE_CFG_ABLE *)
| SDis                   (* 214 *)
| SClose1 (dis : bool)   (* close(), the test fn_file.h:504; dis: called at 216, else at 229 *)
| SClose2 (dis : bool)   (* 507, ::close(handler_) *)
| SClose3 (dis : bool)   (* 511, handler_ = -1 *)
| SEn                    (* fn_channel.h:221 *)
| SOpen1                 (* open(), fn_file.h:455 *)
| SOpen2                 (* 459 *)
| SOpen3                 (* 461, the call of socket *)
| SOpen4 (fd : option nat) (* 461, the store to handler_ *)
| SBind0                 (* fn_channel.h:224 *)
| SBind                  (* 226, ::bind *)
| SUse                   (* 234 *)
| SRecv.                 (* udp.read, fn_file.h:530-543 *)

Record sstate := mkSs {
  k_h : option nat;          (* handler_, None for -1 *)
  k_ts : Z;                  (* open_ts_ *)
  k_now : Z;                 (* time(NULL) *)
  k_able : bool;             (* DEVICE_CFG_ABLE *)
  k_fds : nat -> fdkind;
  k_foreign : bool;          (* has closed or read a descriptor that is not a socket of the device *)
  k_pc : nat -> spc
}.
Definition upd {A} (f : nat -> A) (i : nat) (x : A) : nat -> A := fun j => if Nat.eqb j i then x else f j.

Inductive slabel :=
| STick (t : Z)                          (* the clock shows t *)
| SAble (b : bool)                       (* the device is enabled or disabled *)
| SOther (fd : nat)                      (* the rest of the process opens fd *)
| SOtherEnd (fd : nat)                   (* ... and closes it *)
| SRun (i : nat) (fd : option nat) (ok : bool). (* thread i goes on; what socket() and bind() give if it calls them *)

Definition go (s : sstate) (i : nat) (p : spc) : sstate := mkSs (k_h s) (k_ts s) (k_now s) (k_able s) (k_fds s) (k_foreign s) (upd (k_pc s) i p).
Definition with_fds (s : sstate) (f : nat -> fdkind) (b : bool) : sstate := mkSs (k_h s) (k_ts s) (k_now s) (k_able s) f b (k_pc s).
Definition is_open (s : sstate) : bool := match k_h s with Some _ => true | None => false end.

(* None: the label cannot happen *)
Definition sstep (s : sstate) (l : slabel) : option sstate :=
  match l with
  | STick t => Some (mkSs (k_h s) (k_ts s) t (k_able s) (k_fds s) (k_foreign s) (k_pc s))
  | SAble b => Some (mkSs (k_h s) (k_ts s) (k_now s) b (k_fds s) (k_foreign s) (k_pc s))
  | SOther fd => match k_fds s fd with KFree => Some (with_fds s (upd (k_fds s) fd KOther) (k_foreign s)) | _ => None end
  | SOtherEnd fd => match k_fds s fd with KOther => Some (with_fds s (upd (k_fds s) fd KFree) (k_foreign s)) | _ => None end
  | SRun i fd ok =>
      match k_pc s i with
      | SStart => Some (go s i (if k_able s then SEn else SDis))
      | SDis => Some (go s i (if is_open s then SClose1 true else SStart))
      | SClose1 d => Some (go s i (if is_open s then SClose2 d else if d then SStart else SUse))
      | SClose2 d => (* a descriptor that is not open: EBADF *)
          match k_h s with
          | None => Some (go s i (SClose3 d))
          | Some f =>
              let foreign := match k_fds s f with KOther => true | _ => k_foreign s end in
              Some (go (with_fds s (upd (k_fds s) f KFree) foreign) i (SClose3 d))
          end
      | SClose3 d => Some (mkSs None (k_ts s) (k_now s) (k_able s) (k_fds s) (k_foreign s) (upd (k_pc s) i (if d then SStart else SUse)))
      | SEn => Some (go s i (if is_open s then SUse else SOpen1))
      | SOpen1 => Some (go s i (if k_now s <=? k_ts s + 2 then SBind0 else SOpen2))
      | SOpen2 => Some (mkSs (k_h s) (k_now s) (k_now s) (k_able s) (k_fds s) (k_foreign s) (upd (k_pc s) i SOpen3))
      | SOpen3 =>
          match fd with
          | None => Some (go s i (SOpen4 None))
          | Some f =>
              match k_fds s f with
              | KFree => Some (go (with_fds s (upd (k_fds s) f KSock) (k_foreign s)) i (SOpen4 (Some f)))
              | _ => None
              end
          end
      | SOpen4 r => Some (mkSs r (k_ts s) (k_now s) (k_able s) (k_fds s) (k_foreign s) (upd (k_pc s) i SBind0))
      | SBind0 => Some (go s i (if is_open s then SBind else SUse))
      | SBind => Some (go s i (if ok then SUse else SClose1 false))
      | SUse => Some (go s i (if is_open s then SRecv else SStart))
      | SRecv => (* recvfrom(handler_, ...) *)
          let foreign := match k_h s with
                         | Some f => match k_fds s f with KOther => true | _ => k_foreign s end
                         | None => k_foreign s
                         end in
          Some (go (with_fds s (k_fds s) foreign) i SStart)
      end
  end.
Fixpoint sruns (s : sstate) (ls : list slabel) : option sstate :=
  match ls with
  | [] => Some s
  | l :: ls => match sstep s l with Some s => sruns s ls | None => None end
  end.
(* fn_file.h:433-439: the handle at the start; [fds] are the descriptors of the process *)
Definition sock0 (t : Z) (fds : nat -> fdkind) : sstate := mkSs None 0 t true fds false (fun _ => SStart).
