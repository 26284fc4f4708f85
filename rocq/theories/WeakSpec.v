(* What the weak memory properties talk about. *)
From Coq Require Import ZArith List Bool.
From Verif Require Import Base Ring WeakRing.
Import ListNotations.
Open Scope Z_scope.

(* the slot a thread is filling, the slot it is dispatching *)
Definition w_filling (t : wthr) : option Z :=
  match w_pc t with WHMark i | WFill i | WPMark i => Some i | _ => None end.
Definition w_reading (t : wthr) : option Z :=
  match w_pc t with WCRead i | WCMark i => Some i | _ => None end.

(* No compare-exchange succeeds with an index that was loaded a full lap before. *)
Definition w_fresh (c : rcfg) (s : wst) (a : wlabel) : Prop :=
  match a with
  | XRun n rt _ => forall t, nth_error (w_ths s) n = Some t ->
      match w_pc t with
      | WHCas old | WPCas old | WCCas old | WRCas old => rt mod n_ring c = old -> rt - w_snap t < n_ring c
      | _ => True
      end
  | XLog _ _ => True
  end.
Fixpoint w_no_lap (c : rcfg) (s : wst) (ls : list wlabel) : Prop :=
  match ls with
  | [] => True
  | a :: ls' => w_fresh c s a /\ forall s', weak_step c s a = Some s' -> w_no_lap c s' ls'
  end.

Definition weakly (c : rcfg) (k : nat) (ls : list wlabel) (s : wst) : Prop :=
  weak_run c (weak_start c k) ls = Some s /\ w_no_lap c (weak_start c k) ls.

(* how often an index was advanced: the place of its last store *)
Definition w_top (s : wst) (l : loc) : Z :=
  fold_right (fun m a => if loc_eqb (m_loc m) l then Z.max (m_ts m) a else a) 0 (w_mem s).
(* a thread that has seen every store to a variable *)
Definition up_to_date (s : wst) (t : wthr) (l : loc) : Prop :=
  forall m, In m (w_mem s) -> m_loc m = l -> m_ts m <= w_view t l.

(* the texts of one thread *)
Definition w_of (n : nat) (l : list (nat * text)) : list text := map snd (filter (fun e => Nat.eqb (fst e) n) l).

(* only the writer thread of an async channel runs *)
Definition writer_only (a : wlabel) : Prop := match a with XRun n _ _ => n = 0%nat | XLog _ _ => False end.
