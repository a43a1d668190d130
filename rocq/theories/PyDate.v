(** Python's [datetime.datetime], as far as the [fromDate] entry points read it, and those entry points. *)
From Coq Require Import ZArith Bool List.
From Verif Require Import Py PyFloat Solar SolarUnits ShouXing LunarYear Lunar.
Open Scope Z_scope.

(** A datetime: year, month, day, hour, minute, second, microsecond.  Time zone and fold are not read by the code. *)
Record DateTime := mkDateTime { dty : Z; dtm : Z; dtd : Z; dth : Z; dtmi : Z; dts : Z; dtus : Z }.

(** The documented contract of Python's [datetime] (not part of /repo): the Gregorian calendar for the years MINYEAR = 1 to MAXYEAR = 9999,
    also before it was introduced; [toordinal] counts the days, 1 January of the year 1 being day 1; [isoweekday] is 1 for Monday to 7. *)
Definition greg_leap (y : Z) : bool := (y mod 4 =? 0) && (negb (y mod 100 =? 0) || (y mod 400 =? 0)).
Definition greg_last (y m : Z) : Z :=
  match m with 2 => if greg_leap y then 29 else 28 | 4 | 6 | 9 | 11 => 30 | _ => 31 end.
Definition datetime_ok (t : DateTime) : Prop :=
  1 <= dty t <= 9999 /\ 1 <= dtm t <= 12 /\ 1 <= dtd t <= greg_last (dty t) (dtm t) /\
  0 <= dth t <= 23 /\ 0 <= dtmi t <= 59 /\ 0 <= dts t <= 59 /\ 0 <= dtus t <= 999999.
Definition greg_before (y m : Z) : Z :=
  (match m with 1 => 0 | 2 => 31 | 3 => 59 | 4 => 90 | 5 => 120 | 6 => 151 | 7 => 181 | 8 => 212 | 9 => 243 | 10 => 273 | 11 => 304 | _ => 334 end)
  + (if (2 <? m) && greg_leap y then 1 else 0).
Definition toordinal (t : DateTime) : Z :=
  let y := dty t - 1 in y * 365 + y / 4 - y / 100 + y / 400 + greg_before (dty t) (dtm t) + dtd t.
Definition isoweekday (t : DateTime) : Z := (toordinal t - 1) mod 7 + 1.

(** Solar.py:37-39 [Solar.fromDate] *)
Definition Solar_fromDate (t : DateTime) : res Solar := fromYmdHms (dty t) (dtm t) (dtd t) (dth t) (dtmi t) (dts t).
(** SolarYear.py:16-18, SolarHalfYear.py:18-20, SolarSeason.py:18-20, SolarMonth.py:16-18, SolarWeek.py:26-28 [fromDate] *)
Definition SolarYear_fromDate (t : DateTime) : Z := dty t.
Definition SolarHalfYear_fromDate (t : DateTime) : SolarHalfYear := mkSolarHalfYear (dty t) (dtm t).
Definition SolarSeason_fromDate (t : DateTime) : SolarSeason := mkSolarSeason (dty t) (dtm t).
Definition SolarMonth_fromDate (t : DateTime) : SolarMonth := mkSolarMonth (dty t) (dtm t).
Definition SolarWeek_fromDate (t : DateTime) (start : Z) : SolarWeek := mkSolarWeek (dty t) (dtm t) (dtd t) start.
(** Lunar.py:190-192 [Lunar.fromDate], with Lunar.py:194-208 [fromSolar] *)
Definition Lunar_fromDate (fy : Z -> res LYear) (t : DateTime) : res Lunar := let! s := Solar_fromDate t in getLunar fy s.
