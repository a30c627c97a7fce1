(** C43: calendar conversions of src/cxx/input.c, src/cxx/output.c and
    src/cxx/misc.c. *)
From Verif Require Import Base.

(** ** Model *)

(** is_leap_year (src/cxx/input.c 61-74). *)
Definition is_leap_year (y : Z) : bool :=
  if negb (y mod 4 =? 0) || ((y mod 100 =? 0) && negb (y mod 400 =? 0)) then false else true.

(** LEAP_YEAR_DAYS / NON_LEAP_YEAR_DAYS (src/cxx/defines.h 58-59). *)
Definition year_days (y : Z) : Z := if is_leap_year y then 366 else 365.

(** ORDINAL_DATE_LAST_DAY_1972, LANDSAT_START_YEAR (src/cxx/defines.h 54, 57). *)
Definition last_1972 : Z := 720258.
Definition start_year : Z := 1973.

(** [while(day_count < jday)]  (src/cxx/output.c 24-37). *)
Fixpoint year_loop (fuel : nat) (jday day_count year_count : Z) : out (Z * Z) :=
  match fuel with
  | O => Fuel
  | S f => if day_count <? jday
           then year_loop f jday (day_count + year_days (year_count + 1)) (year_count + 1)
           else Ok (day_count, year_count)
  end.

(** convert_jday_to_year_doy_from_0001 (src/cxx/output.c 7-52): year and
    day of year. *)
Definition jday_to_year_doy (fuel : nat) (jday : Z) : out (Z * Z) :=
  if jday <? last_1972 then Fail
  else ' (day_count, year_count) <- year_loop fuel jday last_1972 (start_year - 1) ;;
       Ok (year_count, jday - (day_count - year_days year_count)).

(** [for (i = LANDSAT_START_YEAR; i < year; i++)]  (src/cxx/input.c 119-130). *)
Fixpoint add_years (n : nat) (y acc : Z) : Z :=
  match n with O => acc | S m => add_years m (y + 1) (acc + year_days y) end.

(** convert_year_doy_to_ordinal (src/cxx/input.c 99-135).  [jday0] is what
    the output variable contains on entry: for year 1973 the function adds
    to it instead of setting it. *)
Definition year_doy_to_ordinal (year doy jday0 : Z) : out Z :=
  if year <? 1973 then Fail
  else let base := if year =? start_year then jday0
                   else add_years (Z.to_nat (year - start_year)) start_year last_1972 in
       Ok (base + doy).

(** yearmonth2doy (src/cxx/misc.c 3293-3357); a month outside 1..12 falls
    through to [return SUCCESS] (0). *)
Definition month_offset (leap : bool) (month : Z) : option Z :=
  if leap then
    match month with
    | 1 => Some 0 | 2 => Some 31 | 3 => Some 60 | 4 => Some 91 | 5 => Some 121 | 6 => Some 152
    | 7 => Some 182 | 8 => Some 213 | 9 => Some 244 | 10 => Some 274 | 11 => Some 305 | 12 => Some 335
    | _ => None end
  else
    match month with
    | 1 => Some 0 | 2 => Some 31 | 3 => Some 59 | 4 => Some 90 | 5 => Some 120 | 6 => Some 151
    | 7 => Some 181 | 8 => Some 212 | 9 => Some 243 | 10 => Some 273 | 11 => Some 304 | 12 => Some 334
    | _ => None end.
Definition yearmonth2doy (year month day : Z) : Z :=
  match month_offset (is_leap_year year) month with Some o => o + day | None => 0 end.

(** ** Specification: the proleptic Gregorian calendar *)

(** A year divisible by 4 is a leap year unless it is a century not
    divisible by 400. *)
Definition leap (y : Z) : Prop := (4 | y) /\ (~ (100 | y) \/ (400 | y)).

(** Days before 1 January of year [y], counting 1 January 0001 as day 1. *)
Definition days_before (y : Z) : Z :=
  365 * (y - 1) + (y - 1) / 4 - (y - 1) / 100 + (y - 1) / 400.

(** [jday] is day [doy] of year [y]. *)
Definition is_date (jday y doy : Z) : Prop :=
  1 <= doy /\ jday = days_before y + doy /\ jday <= days_before (y + 1).

(** Length of month [m] in a year that is leap or not. *)
Definition month_days (lp : bool) (m : Z) : Z :=
  match m with
  | 2 => if lp then 29 else 28
  | 4 | 6 | 9 | 11 => 30
  | _ => 31
  end.
Fixpoint months_before (lp : bool) (n : nat) : Z :=
  match n with O => 0 | S k => months_before lp k + month_days lp (Z.of_nat (S k)) end.

(** ** Theorems *)

Theorem C43_leap : forall y, is_leap_year y = true <-> leap y.
Proof.
  intros y. unfold is_leap_year, leap.
  assert (D4 : (4 | y) <-> y mod 4 = 0) by (split; [apply Z.mod_divide; lia|intros; apply Z.mod_divide; lia]).
  assert (D1 : (100 | y) <-> y mod 100 = 0) by (split; [apply Z.mod_divide; lia|intros; apply Z.mod_divide; lia]).
  assert (D2 : (400 | y) <-> y mod 400 = 0) by (split; [apply Z.mod_divide; lia|intros; apply Z.mod_divide; lia]).
  rewrite D4, D1, D2.
  destruct (Z.eqb_spec (y mod 4) 0); destruct (Z.eqb_spec (y mod 100) 0); destruct (Z.eqb_spec (y mod 400) 0);
    simpl; intuition (try congruence; try discriminate).
Qed.

Lemma days_step : forall y, days_before (y + 1) = days_before y + year_days y.
Proof.
  intros y. unfold days_before, year_days, is_leap_year.
  replace (y + 1 - 1) with y by lia.
  destruct (Z.eqb_spec (y mod 4) 0); destruct (Z.eqb_spec (y mod 100) 0); destruct (Z.eqb_spec (y mod 400) 0);
    cbn [negb orb andb]; lia.
Qed.

Lemma days_1973 : days_before 1973 = last_1972. Proof. reflexivity. Qed.

Lemma year_days_pos : forall y, 365 <= year_days y.
Proof. intros; unfold year_days; destruct (is_leap_year y); lia. Qed.

Lemma year_loop_ok : forall fuel jday y,
  (Z.to_nat (jday - days_before (y + 1)) < fuel)%nat -> days_before y < jday \/ days_before (y + 1) < jday ->
  exists y', year_loop fuel jday (days_before (y + 1)) y = Ok (days_before (y' + 1), y') /\ y <= y' /\
    jday <= days_before (y' + 1) /\ days_before y' < jday.
Proof.
  induction fuel; intros jday y Hf Hj; [lia|]. cbn [year_loop].
  destruct (days_before (y + 1) <? jday) eqn:E.
  - replace (days_before (y + 1) + year_days (y + 1)) with (days_before (y + 1 + 1)) by apply days_step.
    destruct (IHfuel jday (y + 1)) as (y' & H1 & H2 & H3 & H4).
    + pose proof (days_step (y + 1)). pose proof (year_days_pos (y + 1)). lia.
    + left. lia.
    + exists y'. split; [assumption|]. lia.
  - exists y. split; [reflexivity|]. pose proof (days_step y). pose proof (year_days_pos y). lia.
Qed.

(** Every ordinal day from 31 December 1972 on is converted to its date in
    the Gregorian calendar; earlier ones are rejected. *)
Theorem C43_ordinal_to_year_doy : forall fuel jday,
  (Z.to_nat (jday - 720257) < fuel)%nat ->
  (720258 <= jday -> exists y doy, jday_to_year_doy fuel jday = Ok (y, doy) /\ is_date jday y doy) /\
  (jday < 720258 -> jday_to_year_doy fuel jday = Fail).
Proof.
  intros fuel jday Hf. unfold jday_to_year_doy. split; intros H.
  - replace (jday <? last_1972) with false by (unfold last_1972; lia).
    change (start_year - 1) with 1972. rewrite <- days_1973. change 1973 with (1972 + 1).
    destruct (@year_loop_ok fuel jday 1972) as (y' & H1 & H2 & H3 & H4).
    + change (days_before (1972 + 1)) with 720258. lia.
    + left. change (days_before 1972) with 719892. lia.
    + rewrite H1. cbn [bind]. do 2 eexists. split; [reflexivity|].
      unfold is_date. pose proof (days_step y'). lia.
  - replace (jday <? last_1972) with true by (unfold last_1972; lia). reflexivity.
Qed.
Print Assumptions C43_ordinal_to_year_doy.

(** Dates are unique: the conversion is the only answer. *)
Theorem C43_date_unique : forall jday y d y' d', is_date jday y d -> is_date jday y' d' -> y = y' /\ d = d'.
Proof.
  unfold is_date. intros jday y d y' d' H H'.
  assert (M : forall a b, a < b -> days_before (a + 1) <= days_before b)
    by (intros a b Hab; unfold days_before; lia).
  assert (y = y').
  { destruct (Z.lt_trichotomy y y') as [K|[K|K]]; [specialize (M _ _ K); lia|assumption|specialize (M _ _ K); lia]. }
  subst. split; [reflexivity|lia].
Qed.

Lemma add_years_ok : forall n y, add_years n y (days_before y) = days_before (y + Z.of_nat n).
Proof.
  induction n; intros y; cbn [add_years]; [f_equal; lia|].
  rewrite <- days_step, IHn. f_equal. lia.
Qed.

(** The forward conversion is the Gregorian ordinal for years from 1974 on,
    hence inverse to the backward one. *)
Theorem C43_year_doy_to_ordinal_partial : forall year doy jday0, 1974 <= year ->
  year_doy_to_ordinal year doy jday0 = Ok (days_before year + doy).
Proof.
  intros. unfold year_doy_to_ordinal, start_year. replace (year <? 1973) with false by lia.
  replace (year =? 1973) with false by lia. rewrite <- days_1973, add_years_ok.
  replace (1973 + Z.of_nat (Z.to_nat (year - 1973))) with year by lia. reflexivity.
Qed.

Theorem C43_round_trip_partial : forall fuel jday y doy jday0,
  (Z.to_nat (jday - 720257) < fuel)%nat -> 1974 <= y -> 1 <= doy <= year_days y ->
  year_doy_to_ordinal y doy jday0 = Ok jday -> jday_to_year_doy fuel jday = Ok (y, doy).
Proof.
  intros fuel jday y doy jday0 Hf Hy Hd H.
  rewrite C43_year_doy_to_ordinal_partial in H by assumption.
  assert (E : jday = days_before y + doy) by congruence.
  assert (D : is_date jday y doy) by (unfold is_date; pose proof (days_step y); lia).
  assert (720258 <= jday).
  { assert (days_before 1974 <= days_before y) by (unfold days_before; lia).
    change (days_before 1974) with 720623 in *. lia. }
  destruct (C43_ordinal_to_year_doy jday Hf) as [(y' & d' & H1 & H2) _]; [assumption|].
  destruct (C43_date_unique D H2) as [-> ->]. assumption.
Qed.
Print Assumptions C43_round_trip_partial.

(** For 1973 the forward conversion adds the day of year to whatever the
    output variable held. *)
Theorem C43_year_1973_refuted : exists doy jday0 r,
  1 <= doy <= 365 /\ year_doy_to_ordinal 1973 doy jday0 = Ok r /\ ~ is_date r 1973 doy.
Proof.
  exists 10, 0, 10. split; [lia|]. split; [reflexivity|]. unfold is_date.
  change (days_before 1973) with 720258. lia.
Qed.

(** Month and day to day of year, every year, every valid day. *)
Theorem C43_month_day : forall year month day, 1 <= month <= 12 ->
  yearmonth2doy year month day
  = months_before (is_leap_year year) (Z.to_nat (month - 1)) + day.
Proof.
  intros year month day H. unfold yearmonth2doy.
  assert (C : month = 1 \/ month = 2 \/ month = 3 \/ month = 4 \/ month = 5 \/ month = 6 \/ month = 7 \/
          month = 8 \/ month = 9 \/ month = 10 \/ month = 11 \/ month = 12) by lia.
  destruct (is_leap_year year);
  repeat (destruct C as [-> | C]; [simpl; lia|]); subst; simpl; lia.
Qed.
Print Assumptions C43_month_day.

Example cal_2020 : jday_to_year_doy (Z.to_nat 20000) 737425 = Ok (2020, 1).
Proof. vm_compute. reflexivity. Qed.
Example cal_last_1972 : jday_to_year_doy 10 720258 = Ok (1972, 366).
Proof. vm_compute. reflexivity. Qed.
Example cal_forward : year_doy_to_ordinal 2020 1 (-7) = Ok 737425.
Proof. vm_compute. reflexivity. Qed.
Example cal_month : yearmonth2doy 2020 3 1 = 61.
Proof. reflexivity. Qed.
