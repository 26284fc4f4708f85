(* Properties C12 and C62: floating point output. *)
From Coq Require Import String ZArith List Bool Lia.
From Verif Require Import Base BaseFacts NumSpec DblFmt DblSpec DblProofs.
Import ListNotations.
Open Scope Z_scope.

(* C12.  [old] is the part of the buffer that is overwritten; [junk] are the
   trailing zeros left behind the returned length. *)
Theorem C12_double : forall L neg m e, plain_range m e ->
  exists I F t junk,
    truncates m e I F /\ decimals m e I F /\ is_dbl_text neg I F t /\ zlen (t ++ junk) <= 25 /\
    forall pre old post, zlen old = zlen (t ++ junk) ->
      write_double L (pre ++ old ++ post) (zlen pre) (DFin neg m e) = Ret (pre ++ t ++ junk ++ post, zlen t).
Proof.
  intros L neg m e H. destruct (write_double_plain L neg m e H) as (t & junk & T & Ln & E).
  exists (dbl_I m e), (dbl_F m e), t, junk.
  split; [exact (proj1 (dbl_truncates m e H))|]. split; [exact (dbl_decimals m e H)|]. split; [exact T|]. split; [exact Ln|].
  exact (emits_splice _ t junk E).
Qed.
Print Assumptions C12_double.
(* 3.14 = 7070651414971679 * 2^-51 *)
Example C12_range : plain_range 7070651414971679 (-51).
Proof. unfold plain_range. lia. Qed.
Example C12_text : forall L, write_double L (repeat 0 30) 0 (DFin true 7070651414971679 (-51)) =
  Ret (s2z "-3.1400" ++ repeat 0 23, 5).
Proof. intros L. vm_compute. reflexivity. Qed.

(* the double 0.0007 is a little below 7/10000; the product is rounded up to 7 *)
Example C12_rounded : 10000 * 6456360425798343 < 7 * 2 ^ 63 /\ forall L, write_double L (repeat 0 30) 0 (DFin false 6456360425798343 (-63)) =
  Ret (s2z "0.0007" ++ repeat 0 24, 6).
Proof. split; [reflexivity|]. intros L. vm_compute. reflexivity. Qed.

(* Any double at all touches at most the 30 bytes a stream keeps in reserve. *)
Theorem C12_reserve : forall L d, libc_ok L -> is_double d ->
  exists t junk, zlen (t ++ junk) <= 30 /\
    forall pre old post, zlen old = zlen (t ++ junk) ->
      write_double L (pre ++ old ++ post) (zlen pre) d = Ret (pre ++ t ++ junk ++ post, zlen t).
Proof.
  intros L d HL Hd. destruct (write_double_fits L d HL Hd) as (t & junk & Ln & E).
  exists t, junk. split; [exact Ln|]. exact (emits_splice _ t junk E).
Qed.
Print Assumptions C12_reserve.
Example C12_reserve_ex : is_double (DFin true 7070651414971679 900) /\ libc_ok (mkLibc (fun _ => s2z "1.0e+300") (fun _ => [])).
Proof. split; [cbn; lia|]. intros d. vm_compute. congruence. Qed.

(* C62: the sign is shown in the plain range ... *)
Theorem C62_sign_partial : forall L neg m e, plain_range m e ->
  exists t junk, (hd 0 t = 45 <-> neg = true) /\
    forall pre old post, zlen old = zlen (t ++ junk) ->
      write_double L (pre ++ old ++ post) (zlen pre) (DFin neg m e) = Ret (pre ++ t ++ junk ++ post, zlen t).
Proof.
  intros L neg m e H. destruct (write_double_plain L neg m e H) as (t & junk & T & Ln & E).
  exists t, junk. split; [exact (dbl_text_sign _ _ _ _ T)|]. exact (emits_splice _ t junk E).
Qed.
Print Assumptions C62_sign_partial.

(* ... but x and -x print the same for 1e-7 < x < 1e-4; here x = 2^-14 = 0.000061. *)
Theorem C62_sign_refuted : exists m e, is_double (DFin true m e) /\
  forall L dst off, write_double L dst off (DFin true m e) = write_double L dst off (DFin false m e).
Proof.
  exists (2 ^ 52), (-66). split; [left; lia|].
  intros L dst off. apply write_double_tiny_sign; reflexivity.
Qed.
Print Assumptions C62_sign_refuted.
