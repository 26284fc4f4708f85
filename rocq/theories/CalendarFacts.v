(* The day-number algorithm of DateFmt.v against the calendar of DateSpec.v. *)
From Coq Require Import String ZArith List Bool Lia ZifyBool ZifyNat ZifyN.
From Verif Require Import Base BaseFacts DateFmt DateSpec.
Import ListNotations.
Open Scope Z_scope.
Ltac Zify.zify_post_hook ::= Z.div_mod_to_equations.

(* ---- calendar ---- *)
Fixpoint forall_range (n : nat) (z : Z) (P : Z -> bool) : bool :=
  match n with O => true | S n' => P z && forall_range n' (z + 1) P end.
Lemma forall_range_ok : forall n z P, forall_range n z P = true ->
  forall k, z <= k < z + Z.of_nat n -> P k = true.
Proof.
  induction n as [|n IH]; intros z P H k Hk; [lia|]. cbn [forall_range] in H.
  apply andb_prop in H. destruct H as (H1 & H2).
  destruct (Z.eq_dec k z) as [->|Hne]; [assumption|]. apply (IH (z + 1) P H2). lia.
Qed.

(* month_start and month_days with the leap test done once, for fast checking *)
Definition mdays (lp : bool) (m : Z) : Z :=
  if m =? 2 then (if lp then 29 else 28) else if (m =? 4) || (m =? 6) || (m =? 9) || (m =? 11) then 30 else 31.
Definition mstart (lp : bool) (m : Z) : Z :=
  let b := if 2 <? m then (if lp then 1 else 0) else 0 in
  b + match m with 1 => 0 | 2 => 31 | 3 => 59 | 4 => 90 | 5 => 120 | 6 => 151 | 7 => 181 | 8 => 212 | 9 => 243
                 | 10 => 273 | 11 => 304 | _ => 334 end.
Ltac month_cases m := assert (m = 1 \/ m = 2 \/ m = 3 \/ m = 4 \/ m = 5 \/ m = 6 \/ m = 7 \/ m = 8 \/ m = 9 \/ m = 10 \/ m = 11 \/ m = 12) as Hcases by lia;
  repeat (destruct Hcases as [->|Hcases]); [..|subst m].
Lemma mdays_ok : forall y m, 1 <= m <= 12 -> month_days y m = mdays (leap y) m.
Proof. intros y m H. month_cases m; unfold month_days, mdays; destruct (leap y); reflexivity. Qed.
Lemma mstart_ok : forall y m, 1 <= m <= 12 -> month_start y (Z.to_nat m) = mstart (leap y) m.
Proof.
  intros y m H. unfold mstart.
  month_cases m;
    match goal with |- context [Z.to_nat ?k] => let n := eval compute in (Z.to_nat k) in change (Z.to_nat k) with n end;
    cbn [month_start]; unfold month_days; destruct (leap y); reflexivity.
Qed.

(* Years of an era start on 1 March: year [yoe] covers the days from
   [ystart yoe] to [ystart (yoe + 1)] - 1. *)
Definition ystart (yoe : Z) : Z := 365 * yoe + yoe / 4 - yoe / 100 + yoe / 400.
Definition yoe_num (doe : Z) : Z := doe - doe / 1460 + doe / 36524 - doe / 146096.

Lemma yoe_step : forall a, 0 <= a < 146096 -> yoe_num a <= yoe_num (a + 1).
Proof.
  intros a H. unfold yoe_num. destruct (Z.eq_dec a 146095) as [->|Hn]; [vm_compute; congruence|].
  rewrite (Z.div_small a 146096), (Z.div_small (a + 1) 146096) by lia. lia.
Qed.
Lemma yoe_mono : forall a b, 0 <= a <= b -> b <= 146096 -> yoe_num a <= yoe_num b.
Proof.
  intros a b H Hb. rewrite <- (Z.sub_add a b). rewrite <- (Z2Nat.id (b - a)) by lia.
  assert (G: Z.of_nat (Z.to_nat (b - a)) + a <= 146096) by lia. revert G.
  induction (Z.to_nat (b - a)) as [|n IH]; intros G; [replace (Z.of_nat 0 + a) with a by lia; lia|].
  specialize (IH ltac:(lia)). pose proof (yoe_step (Z.of_nat n + a) ltac:(lia)).
  replace (Z.of_nat (S n) + a) with (Z.of_nat n + a + 1) by lia. lia.
Qed.

Lemma year_ends : forall y, 0 <= y < 400 ->
  (yoe_num (ystart y) / 365 =? y) && (yoe_num (ystart (y + 1) - 1) / 365 =? y) = true.
Proof.
  intros y H. apply (forall_range_ok 400 0 (fun y => (yoe_num (ystart y) / 365 =? y) && (yoe_num (ystart (y + 1) - 1) / 365 =? y)));
    [vm_compute; reflexivity|lia].
Qed.

Lemma year_find : forall n doe, 0 <= doe < ystart (Z.of_nat n) -> exists y, 0 <= y < Z.of_nat n /\ ystart y <= doe < ystart (y + 1).
Proof.
  induction n as [|n IH]; intros doe H; [unfold ystart in H; lia|].
  destruct (Z_lt_le_dec doe (ystart (Z.of_nat n))) as [L|L].
  - destruct (IH doe ltac:(lia)) as (y & Hy & Hd). exists y. lia.
  - exists (Z.of_nat n). split; [lia|]. replace (Z.of_nat n + 1) with (Z.of_nat (S n)) by lia. lia.
Qed.

Lemma yoe_split : forall doe, 0 <= doe < 146097 -> exists y doy,
  0 <= y < 400 /\ doe = 365 * y + y / 4 - y / 100 + doy /\ yoe_num doe / 365 = y /\
  0 <= doy <= 365 /\ (doy = 365 -> leap (y + 1) = true).
Proof.
  intros doe H. destruct (year_find 400 doe) as (y & Hy & Hd); [change (ystart (Z.of_nat 400)) with 146097; lia|].
  change (Z.of_nat 400) with 400 in Hy.
  exists y, (doe - (365 * y + y / 4 - y / 100)). pose proof (year_ends y Hy) as E.
  assert (M: ystart (y + 1) <= 146097). { clear - Hy. unfold ystart. lia. }
  assert (0 <= ystart y) by (unfold ystart; lia).
  pose proof (yoe_mono (ystart y) doe ltac:(lia) ltac:(lia)) as M1.
  pose proof (yoe_mono doe (ystart (y + 1) - 1) ltac:(lia) ltac:(lia)) as M2.
  split; [assumption|]. split; [lia|]. split.
  - apply Z.div_le_mono with (c := 365) in M1, M2; lia.
  - clear M1 M2 E. unfold ystart in Hd. split; [lia|]. unfold leap. lia.
Qed.

(* day of the March-based year -> month and day *)
Definition doy_ok (doy : Z) : bool :=
  let mp := (5 * doy + 2) / 153 in
  let d := doy - (153 * mp + 2) / 5 + 1 in
  let m := if mp <? 10 then mp + 3 else mp - 9 in
  (1 <=? m) && (m <=? 12) && (1 <=? d) && (d <=? mdays true m) && ((d <=? mdays false m) || (doy =? 365)) &&
  Bool.eqb (m <=? 2) (306 <=? doy) &&
  (mstart false m + (d - 1) =? if m <=? 2 then doy - 306 else doy + 59) &&
  ((153 * (if 2 <? m then m - 3 else m + 9) + 2) / 5 + d - 1 =? doy).
Lemma doy_all : forall doy, 0 <= doy <= 365 -> doy_ok doy = true.
Proof. intros doy H. apply (forall_range_ok 366 0 doy_ok); [vm_compute; reflexivity|lia]. Qed.

Definition civil_ok (doe : Z) : bool :=
  let '(y, m, d) := civil (doe - 719468) in
  let lp := leap y in
  (1 <=? m) && (m <=? 12) && (1 <=? d) && (d <=? mdays lp m) &&
  (year_start y + mstart lp m + (d - 1) - 719528 =? doe - 719468) && (days_of_civil y m d =? doe - 719468).

Lemma civil_era : forall doe, 0 <= doe < 146097 -> civil_ok doe = true.
Proof.
  intros doe H. destruct (yoe_split doe H) as (y & doy & Hy & Hd & Hn & Hdoy & Hl).
  unfold civil_ok, civil. cbv zeta. replace (doe - 719468 + 719468) with doe by lia.
  rewrite (Z.div_small doe), (Z.mod_small doe) by lia. fold (yoe_num doe). rewrite Hn.
  replace (doe - (365 * y + y / 4 - y / 100)) with doy by lia.
  pose proof (doy_all doy Hdoy) as G. unfold doy_ok in G. cbv zeta in G.
  set (mp := (5 * doy + 2) / 153) in *. set (d := doy - (153 * mp + 2) / 5 + 1) in *.
  set (m := if mp <? 10 then mp + 3 else mp - 9) in *. clearbody m d. clear mp.
  repeat rewrite andb_true_iff in G. destruct G as (((((((G1 & G2) & G3) & G4) & G5) & G6) & G7) & G8).
  apply eqb_prop in G6. unfold days_of_civil. cbv zeta.
  assert (MS: forall lp, mstart lp m = mstart false m + if (2 <? m) && lp then 1 else 0).
  { intros lp. unfold mstart. destruct (2 <? m), lp; cbn [andb]; lia. }
  rewrite MS. destruct (m <=? 2) eqn:M2.
  - replace (y + 0 * 400 + 1 - 1) with y by lia. rewrite (Z.div_small y), (Z.mod_small y) by lia.
    replace (2 <? m) with false in * by lia. cbn [andb].
    replace (y + 0 * 400 + 1) with (y + 1) by lia.
    assert (D: d <= mdays (leap (y + 1)) m).
    { destruct (leap (y + 1)) eqn:E; [lia|]. destruct (doy =? 365) eqn:E5; [assert (X: doy = 365) by (apply Z.eqb_eq; assumption); specialize (Hl X); congruence|].
      rewrite orb_false_r in G5. apply Z.leb_le. assumption. }
    repeat rewrite andb_true_iff. repeat split; try lia. unfold year_start. lia.
  - replace (y + 0 * 400 + 0) with y by lia. rewrite (Z.div_small y), (Z.mod_small y) by lia.
    replace (2 <? m) with true in * by lia. cbn [andb].
    assert (D: d <= mdays (leap y) m). { destruct (leap y); [lia|]. destruct (doy =? 365) eqn:E5; [lia|]. rewrite orb_false_r in G5. apply Z.leb_le. assumption. }
    repeat rewrite andb_true_iff. repeat split; try lia. unfold year_start, leap.
    destruct ((y mod 4 =? 0) && (negb (y mod 100 =? 0) || (y mod 400 =? 0))) eqn:E; lia.
Qed.

Lemma civil_shift : forall days k, civil (days + 146097 * k) =
  let '(y, m, d) := civil days in (y + 400 * k, m, d).
Proof.
  intros days k. unfold civil. cbv zeta.
  replace (days + 146097 * k + 719468) with (days + 719468 + k * 146097) by lia.
  rewrite Z.div_add, Z.mod_add by lia.
  f_equal. f_equal. lia.
Qed.

Lemma leap_shift : forall y k, leap (y + 400 * k) = leap y.
Proof.
  intros y k. unfold leap.
  replace ((y + 400 * k) mod 4) with (y mod 4) by (replace (y + 400 * k) with (y + (100 * k) * 4) by lia; rewrite Z.mod_add by lia; reflexivity).
  replace ((y + 400 * k) mod 100) with (y mod 100) by (replace (y + 400 * k) with (y + (4 * k) * 100) by lia; rewrite Z.mod_add by lia; reflexivity).
  replace ((y + 400 * k) mod 400) with (y mod 400) by (replace (y + 400 * k) with (y + k * 400) by lia; rewrite Z.mod_add by lia; reflexivity).
  reflexivity.
Qed.
Lemma month_days_shift : forall y m k, month_days (y + 400 * k) m = month_days y m.
Proof. intros. unfold month_days. rewrite leap_shift. reflexivity. Qed.
Lemma month_start_shift : forall m y k, month_start (y + 400 * k) m = month_start y m.
Proof. induction m as [|m IH]; intros; cbn [month_start]; [reflexivity|]. rewrite IH, month_days_shift. reflexivity. Qed.
Lemma year_start_shift : forall y k, year_start (y + 400 * k) = year_start y + 146097 * k.
Proof.
  intros. unfold year_start.
  replace (y + 400 * k + 3) with (y + 3 + (100 * k) * 4) by lia.
  replace (y + 400 * k + 99) with (y + 99 + (4 * k) * 100) by lia.
  replace (y + 400 * k + 399) with (y + 399 + k * 400) by lia.
  rewrite !Z.div_add by lia. lia.
Qed.
Lemma day_number_shift : forall y m d k, day_number (y + 400 * k) m d = day_number y m d + 146097 * k.
Proof. intros. unfold day_number. rewrite year_start_shift, month_start_shift. lia. Qed.
Lemma days_of_civil_shift : forall y m d k, days_of_civil (y + 400 * k) m d = days_of_civil y m d + 146097 * k.
Proof.
  intros. unfold days_of_civil. cbv zeta. destruct (m <=? 2).
  - replace (y + 400 * k - 1) with (y - 1 + k * 400) by lia. rewrite Z.div_add, Z.mod_add by lia. lia.
  - replace (y + 400 * k) with (y + k * 400) by lia. rewrite Z.div_add, Z.mod_add by lia. lia.
Qed.

Lemma civil_correct : forall days, exists y m d, civil days = (y, m, d) /\
  valid_date y m d /\ day_number y m d = days /\ days_of_civil y m d = days.
Proof.
  intros days.
  set (k := (days + 719468) / 146097). set (doe := (days + 719468) mod 146097).
  assert (Hd: days = doe - 719468 + 146097 * k) by (unfold k, doe; lia).
  assert (Hr: 0 <= doe < 146097) by (unfold doe; lia).
  clearbody k doe.
  pose proof (civil_era doe Hr) as H. unfold civil_ok in H.
  rewrite Hd, civil_shift.
  destruct (civil (doe - 719468)) as [[y m] d]. exists (y + 400 * k), m, d.
  cbv zeta in H. split; [reflexivity|].
  unfold valid_date. rewrite month_days_shift, day_number_shift, days_of_civil_shift.
  assert (Hm: 1 <= m <= 12) by lia.
  rewrite (mdays_ok y m Hm). unfold day_number. rewrite (mstart_ok y m Hm).
  change (year_start 1970) with 719528. 
  generalize dependent (mdays (leap y) m). generalize dependent (mstart (leap y) m).
  generalize dependent (year_start y). generalize dependent (days_of_civil y m d). intros; lia.
Qed.

(* the calendar determines the date *)
Lemma month_start_mono : forall y m n, (m <= n)%nat -> (n <= 13)%nat -> month_start y m <= month_start y n.
Proof.
  intros y m n H. induction H as [|n H IH]; intros Hn; [lia|].
  cbn [month_start]. specialize (IH ltac:(lia)).
  assert (0 <= month_days y (Z.of_nat n)).
  { unfold month_days. assert (n <= 12)%nat by lia. rewrite Nat2Z.id.
    do 13 (destruct n as [|n]; [cbn; try destruct (leap y); lia|]). lia. }
  lia.
Qed.

Definition year_days (y : Z) := if leap y then 366 else 365.
Lemma year_start_S : forall y, year_start (y + 1) = year_start y + year_days y.
Proof. intros. unfold year_start, year_days, leap. 
  destruct ((y mod 4 =? 0) && (negb (y mod 100 =? 0) || (y mod 400 =? 0))) eqn:E; lia. Qed.
Lemma month_start_13 : forall y, month_start y 13 = year_days y.
Proof. intros. unfold year_days. cbn. unfold month_days. cbn. destruct (leap y); reflexivity. Qed.

Lemma day_number_range : forall y m d, valid_date y m d ->
  year_start y <= day_number y m d + year_start 1970 < year_start (y + 1).
Proof.
  intros y m d (Hm & Hd). unfold day_number. rewrite year_start_S, <- month_start_13.
  pose proof (month_start_mono y 0 (Z.to_nat m) ltac:(lia) ltac:(lia)) as H0.
  pose proof (month_start_mono y (S (Z.to_nat m)) 13 ltac:(lia) ltac:(lia)) as H1.
  cbn [month_start] in *. rewrite Z2Nat.id in H1 by lia. lia.
Qed.

Lemma year_start_mono : forall y z, y <= z -> year_start y <= year_start z.
Proof. intros y z H. unfold year_start. lia. Qed.

Lemma date_unique : forall y m d y' m' d', valid_date y m d -> valid_date y' m' d' ->
  day_number y m d = day_number y' m' d' -> y = y' /\ m = m' /\ d = d'.
Proof.
  intros y m d y' m' d' H H' E.
  pose proof (day_number_range _ _ _ H) as R. pose proof (day_number_range _ _ _ H') as R'.
  assert (y = y').
  { destruct (Z.lt_trichotomy y y') as [L|[L|L]]; [|assumption|].
    - pose proof (year_start_mono (y + 1) y' ltac:(lia)). lia.
    - pose proof (year_start_mono (y' + 1) y ltac:(lia)). lia. }
  subst y'. split; [reflexivity|].
  destruct H as (Hm & Hd). destruct H' as (Hm' & Hd'). unfold day_number in E.
  assert (m = m').
  { destruct (Z.lt_trichotomy m m') as [L|[L|L]]; [|assumption|].
    - pose proof (month_start_mono y (S (Z.to_nat m)) (Z.to_nat m') ltac:(lia) ltac:(lia)) as M.
      cbn [month_start] in M. rewrite Z2Nat.id in M by lia. lia.
    - pose proof (month_start_mono y (S (Z.to_nat m')) (Z.to_nat m) ltac:(lia) ltac:(lia)) as M.
      cbn [month_start] in M. rewrite Z2Nat.id in M by lia. lia. }
  subst m'. lia.
Qed.

