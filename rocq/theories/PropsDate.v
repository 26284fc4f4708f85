(* Property theorems C11: printed timestamps. *)
From Coq Require Import String ZArith List Bool Lia.
From Verif Require Import Base BaseFacts NumFmt NumSpec DateFmt DateSpec CalendarFacts DateProofs.
Import ListNotations.
Open Scope Z_scope.

(* C11 for a zone with constant offset.  Whatever timestamps the thread printed
   before (hist), the 23 bytes are the calendar text of ts alone, and nothing
   else in the buffer changes.  Missing: zones that change their offset, and
   timestamps of the first 24 hours of 1970 while no other time has been printed
   on the thread; both are refuted below. *)
Theorem C11_date_partial : forall o hist ts p,
  - 86400 <= o <= 86400 ->
  Forall (fun t => - 2 ^ 55 <= t <= 2 ^ 55) hist -> - 2 ^ 55 <= ts <= 2 ^ 55 -> 0 <= p < 2 ^ 32 ->
  (exists y m d, valid_date y m d /\ day_number y m d = (ts + o) / 86400 /\ 0 <= y <= 9999) ->
  (~ 0 <= ts < 86400 \/ Exists (fun t => ~ 0 <= t < 86400) hist) ->
  exists t, is_date_text (ts + o) p t /\ zlen t = 23 /\
    exists c c', date_history (mkZone 0 o o) cache_init hist = Ret c /\
      forall pre old post, zlen old = 23 ->
        write_date (mkZone 0 o o) c (pre ++ old ++ post) (zlen pre) ts p = Ret (c', pre ++ t ++ post, 23).
Proof. exact write_date_correct. Qed.
Print Assumptions C11_date_partial.

(* the text is determined by the instant and the milliseconds *)
Theorem C11_text_unique : forall local ms t1 t2,
  is_date_text local ms t1 -> is_date_text local ms t2 -> t1 = t2.
Proof. exact is_date_text_unique. Qed.
Print Assumptions C11_text_unique.

Example C11_example :
  (exists y m d, valid_date y m d /\ day_number y m d = (1709164799 + 28800) / 86400 /\ 0 <= y <= 9999) /\
  exists c, date_history (mkZone 0 28800 28800) cache_init [5; 1000000000; 1709164798; -77] = Ret c /\
  exists c', write_date (mkZone 0 28800 28800) c (s2z "<" ++ repeat 0 23 ++ s2z ">") 1 1709164799 1234
    = Ret (c', s2z "<[20240229 07:59:59.999]>", 23).
Proof.
  split. { exists 2024, 2, 29. unfold valid_date. vm_compute. repeat split; congruence. }
  eexists. split; [vm_compute; reflexivity|]. eexists. vm_compute. reflexivity.
Qed.

(* C11 is false (1) for the first call of a thread with a time in the first day
   of 1970: the zero-initialised cache prints month 01, day 00 of 1900; (2) in a
   zone with daylight saving time: printing 02:30 standard time and then an
   instant after the change shows the standard time. *)
Theorem C11_date_refuted :
  (exists ts t c, 0 <= ts < 86400 /\ write_date (mkZone 0 0 0) cache_init (repeat 0 23) 0 ts 0 = Ret (c, t, 23) /\
     ~ is_date_text (ts + 0) 0 t /\ t = s2z "[19000100 00:00:05.000]") /\
  (exists z t0 t1 c c' c1 c1' t t',
     (* the same instant, printed first and printed after an earlier time *)
     date_history z cache_init [t0] = Ret c /\
     write_date z c (repeat 0 23) 0 t1 0 = Ret (c', t, 23) /\
     c1 = cache_init /\ write_date z c1 (repeat 0 23) 0 t1 0 = Ret (c1', t', 23) /\ t <> t').
Proof.
  split.
  - exists 5. eexists. eexists. split; [lia|]. split; [vm_compute; reflexivity|]. split; [|reflexivity].
    intros H.
    destruct (C11_date_partial 0 [86400] 5 0) as (t & T & _ & c & c' & Hh & W); try lia.
    { repeat constructor; lia. }
    { exists 1970, 1, 1. unfold valid_date. vm_compute. repeat split; congruence. }
    { right. constructor. lia. }
    specialize (W [] (repeat 0 23) [] eq_refl).
    pose proof (is_date_text_unique _ _ _ _ H T) as E. subst t.
    vm_compute in Hh. inversion Hh; subst c. vm_compute in W. discriminate.
  - exists (mkZone 1711846800 3600 7200), 1711845000, 1711848600.
    do 6 eexists. split; [vm_compute; reflexivity|]. split; [vm_compute; reflexivity|].
    split; [reflexivity|]. split; [vm_compute; reflexivity|]. vm_compute. congruence.
Qed.
Print Assumptions C11_date_refuted.
