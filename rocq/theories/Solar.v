(** Model of util/SolarUtil.py (calendar part) and Solar.py (dates and arithmetic). *)
From Coq Require Import ZArith Lia Floats.
From Verif Require Import Py PyFloat.
Open Scope Z_scope.

(** util/SolarUtil.py:196-204 [SolarUtil.isLeapYear] *)
Definition isLeapYear (year : Z) : bool :=
  if year <? 1600 then year mod 4 =? 0
  else ((year mod 4 =? 0) && negb (year mod 100 =? 0)) || (year mod 400 =? 0).

(** util/SolarUtil.py:207-213 [SolarUtil.getDaysOfYear] *)
Definition getDaysOfYear (year : Z) : Z :=
  if 1582 =? year then 355 else if isLeapYear year then 366 else 365.

(** util/SolarUtil.py [SolarUtil.DAYS_OF_MONTH] *)
Definition DAYS_OF_MONTH : list Z := [31; 28; 31; 30; 31; 30; 31; 31; 30; 31; 30; 31].

(** util/SolarUtil.py:216-229 [SolarUtil.getDaysOfMonth] *)
Definition getDaysOfMonth (year month : Z) : res Z :=
  if (1582 =? year) && (10 =? month) then Ok 21
  else
    let! d := py_index DAYS_OF_MONTH (month - 1) in
    Ok (if (month =? 2) && isLeapYear year then d + 1 else d).

(** util/SolarUtil.py:232-243 [SolarUtil.getDaysInYear] *)
Definition getDaysInYear (year month day : Z) : res Z :=
  let! days := foldM (fun days i => let! n := getDaysOfMonth year i in Ok (days + n)) 0 (zrange 1 month) in
  if (1582 =? year) && (10 =? month) then
    if 15 <=? day then Ok (days + (day - 10))
    else if 4 <? day then Raise ExcValue
    else Ok (days + day)
  else Ok (days + day).

(** util/SolarUtil.py:258-273 [SolarUtil.getDaysBetween] *)
Definition getDaysBetween (ay am ad by_ bm bd : Z) : res Z :=
  if ay =? by_ then
    let! b := getDaysInYear by_ bm bd in
    let! a := getDaysInYear ay am ad in
    Ok (b - a)
  else if by_ <? ay then
    let! x := getDaysInYear by_ bm bd in
    let days := fold_left (fun acc i => acc + getDaysOfYear i) (zrange (by_ + 1) ay) (getDaysOfYear by_ - x) in
    let! y := getDaysInYear ay am ad in
    Ok (- (days + y))
  else
    let! x := getDaysInYear ay am ad in
    let days := fold_left (fun acc i => acc + getDaysOfYear i) (zrange (ay + 1) by_) (getDaysOfYear ay - x) in
    let! y := getDaysInYear by_ bm bd in
    Ok (days + y).

(** Solar.py:30-35, the six private attributes of a Solar object. *)
Record Solar := mkSolar { sy : Z; sm : Z; sd : Z; sh : Z; smi : Z; ss : Z }.

(** Solar.py:16-35 [Solar.__init__] (and [fromYmdHms], Solar.py:82-83).  Line 22 tests the
    month, not the day, against 31; that is kept. *)
Definition fromYmdHms (year month day hour minute second : Z) : res Solar :=
  if (year =? 1582) && (month =? 10) && ((4 <? day) && (day <? 15)) then Raise ExcValue
  else if (month <? 1) || (12 <? month) then Raise ExcValue
  else if (day <? 1) || (31 <? month) then Raise ExcValue
  else if (hour <? 0) || (23 <? hour) then Raise ExcValue
  else if (minute <? 0) || (59 <? minute) then Raise ExcValue
  else if (second <? 0) || (59 <? second) then Raise ExcValue
  else Ok (mkSolar year month day hour minute second).

(** Solar.py:86-87 [Solar.fromYmd] *)
Definition fromYmd (year month day : Z) : res Solar := fromYmdHms year month day 0 0 0.

(** Solar.py:269-275, one iteration of the forward loop of [nextDay]; the state is
    (y, m, d, days_in_month). *)
Definition nextDay_fwd (st : Z * Z * Z * Z) : (Z * Z * Z * Z) + res (Z * Z * Z) :=
  let '(y, m, d, dim) := st in
  if dim <? d then
    let d := d - dim in
    let m := m + 1 in
    let '(y, m) := if 12 <? m then (y + 1, 1) else (y, m) in
    match getDaysOfMonth y m with
    | Ok n => inl (y, m, d, n)
    | Raise e => inr (Raise e)
    end
  else inr (Ok (y, m, d)).

(** Solar.py:277-282, one iteration of the backward loop of [nextDay]. *)
Definition nextDay_bwd (days : Z) (st : Z * Z * Z) : (Z * Z * Z) + res (Z * Z * Z) :=
  let '(y, m, d) := st in
  if d + days <=? 0 then
    let m := m - 1 in
    let '(y, m) := if m <? 1 then (y - 1, 12) else (y, m) in
    match getDaysOfMonth y m with
    | Ok n => inl (y, m, d + n)
    | Raise e => inr (Raise e)
    end
  else inr (Ok (y, m, d)).

(** Solar.py:259-287 [Solar.nextDay] *)
Definition nextDay (s : Solar) (days : Z) : res Solar :=
  let y := sy s in
  let m := sm s in
  let d := sd s in
  let d := if (1582 =? y) && (10 =? m) then (if 4 <? d then d - 10 else d) else d in
  let! ymd :=
    (if 0 <? days then
      let d := d + days in
      let! dim := getDaysOfMonth y m in
      let! r := loop (Z.max 1 (d + 1)) nextDay_fwd (y, m, d, dim) in r
    else if days <? 0 then
      let! r := loop (Z.max 1 (2 - (d + days))) (nextDay_bwd days) (y, m, d) in
      let! ymd := r in
      let '(y, m, d) := ymd in Ok (y, m, d + days)
    else Ok (y, m, d)) in
  let '(y, m, d) := ymd in
  let d := if (1582 =? y) && (10 =? m) then (if 4 <? d then d + 10 else d) else d in
  fromYmdHms y m d (sh s) (smi s) (ss s).

(** Solar.py:289-297 [Solar.next] with [only_work_day=False].  The working day variant is in
    SolarWork.v. *)
Definition next (s : Solar) (days : Z) : res Solar := nextDay s days.

(** Solar.py:363-364 [Solar.subtract] *)
Definition subtract (a b : Solar) : res Z :=
  getDaysBetween (sy b) (sm b) (sd b) (sy a) (sm a) (sd a).

(** Solar.py:366-375 [Solar.subtractMinute] *)
Definition subtractMinute (a b : Solar) : res Z :=
  let! days := subtract a b in
  let cm := sh a * 60 + smi a in
  let sm := sh b * 60 + smi b in
  let m := cm - sm in
  let '(m, days) := if m <? 0 then (m + 1440, days - 1) else (m, days) in
  Ok (m + days * 1440).

(** Solar.py:377-398 [Solar.isAfter] *)
Definition isAfter (a b : Solar) : bool :=
  if sy b <? sy a then true else if sy a <? sy b then false
  else if sm b <? sm a then true else if sm a <? sm b then false
  else if sd b <? sd a then true else if sd a <? sd b then false
  else if sh b <? sh a then true else if sh a <? sh b then false
  else if smi b <? smi a then true else if smi a <? smi b then false
  else ss b <? ss a.

(** Solar.py:400-421 [Solar.isBefore] *)
Definition isBefore (a b : Solar) : bool :=
  if sy b <? sy a then false else if sy a <? sy b then true
  else if sm b <? sm a then false else if sm a <? sm b then true
  else if sd b <? sd a then false else if sd a <? sd b then true
  else if sh b <? sh a then false else if sh a <? sh b then true
  else if smi b <? smi a then false else if smi a <? smi b then true
  else ss a <? ss b.

(** Solar.py:423-434 [Solar.nextYear] *)
Definition nextYear (s : Solar) (years : Z) : res Solar :=
  let y := sy s + years in
  let m := sm s in
  let d := sd s in
  let d := if (1582 =? y) && (10 =? m) then (if (4 <? d) && (d <? 15) then d + 10 else d)
           else if 2 =? m then (if 28 <? d then (if isLeapYear y then d else 28) else d)
           else d in
  fromYmdHms y m d (sh s) (smi s) (ss s).

(** SolarMonth.py:11-16, the attributes of a SolarMonth. *)
Record SolarMonth := mkSolarMonth { smy : Z; smm : Z }.

(** SolarMonth.py:67-85 [SolarMonth.next]; [int(m / 12)] is a float division. *)
Definition SolarMonth_next (sm0 : SolarMonth) (months : Z) : res SolarMonth :=
  let n := if months <? 0 then -1 else 1 in
  let m := Z.abs months in
  let! q := int_truediv m 12 in
  let y := smy sm0 + q * n in
  let m := smm sm0 + m mod 12 * n in
  let '(y, m) := if 12 <? m then (y + 1, m - 12) else if m <? 1 then (y - 1, m + 12) else (y, m) in
  Ok (mkSolarMonth y m).

(** Solar.py:436-449 [Solar.nextMonth] *)
Definition nextMonth (s : Solar) (months : Z) : res Solar :=
  let! month := SolarMonth_next (mkSolarMonth (sy s) (sm s)) months in
  let y := smy month in
  let m := smm month in
  let d := sd s in
  let! d := (if (1582 =? y) && (10 =? m) then Ok (if (4 <? d) && (d <? 15) then d + 10 else d)
             else let! days := getDaysOfMonth y m in Ok (if days <? d then days else d)) in
  fromYmdHms y m d (sh s) (smi s) (ss s).

(** Solar.py:451-463 [Solar.nextHour]; [int(hour / 24)] is a float division. *)
Definition nextHour (s : Solar) (hours : Z) : res Solar :=
  let h := sh s + hours in
  let n := if h <? 0 then -1 else 1 in
  let hour := Z.abs h in
  let! q := int_truediv hour 24 in
  let days := q * n in
  let hour := (hour mod 24) * n in
  let '(hour, days) := if hour <? 0 then (hour + 24, days - 1) else (hour, days) in
  let! solar := next s days in
  fromYmdHms (sy solar) (sm solar) (sd solar) hour (smi solar) (ss solar).

(** Solar.py:231-249 [Solar.getJulianDay].  Mixed int/float expressions convert the int
    operand with [float_of_Z], as Python does. *)
Definition getJulianDay (s : Solar) : res float :=
  let y := sy s in
  let m := sm s in
  let d := (float_of_Z (sd s) +
            ((float_of_Z (ss s) / 60 + float_of_Z (smi s)) / 60 + float_of_Z (sh s)) / 24)%float in
  let! id := py_int d in
  let g := 588829 <=? y * 372 + m * 31 + id in
  let '(y, m) := if m <=? 2 then (y - 1, m + 12) else (y, m) in
  let! n := (if g then
               let! n := int_truediv y 100 in
               let! q := int_truediv n 4 in
               Ok (2 - n + q)
             else Ok 0) in
  let! a := py_int (365.25 * float_of_Z (y + 4716))%float in
  let! b := py_int (30.6001 * float_of_Z (m + 1))%float in
  Ok (float_of_Z (a + b) + d + float_of_Z n - 1524.5)%float.

(** Solar.py:42-79 [Solar.fromJulianDay] *)
Definition fromJulianDay (julian_day : float) : res Solar :=
  let! d := py_int (julian_day + 0.5)%float in
  let f := (julian_day + 0.5 - float_of_Z d)%float in
  let! d := (if 2299161 <=? d then
               let! c := py_int ((float_of_Z d - 1867216.25) / 36524.25)%float in
               let! q := int_truediv c 4 in
               Ok (d + (1 + c - q))
             else Ok d) in
  let d := d + 1524 in
  let! year := py_int ((float_of_Z d - 122.1) / 365.25)%float in
  let! t := py_int (365.25 * float_of_Z year)%float in
  let d := d - t in
  let! month := py_int (float_of_Z d / 30.601)%float in
  let! t := py_int (30.601 * float_of_Z month)%float in
  let d := d - t in
  let day := d in
  let '(month, year) := if 13 <? month then (month - 13, year - 4715) else (month - 1, year - 4716) in
  let f := (f * 24)%float in
  let! hour := py_int f in
  let f := ((f - float_of_Z hour) * 60)%float in
  let! minute := py_int f in
  let f := ((f - float_of_Z minute) * 60)%float in
  let! second := py_round f in
  let '(second, minute) := if 59 <? second then (second - 60, minute + 1) else (second, minute) in
  let '(minute, hour) := if 59 <? minute then (minute - 60, hour + 1) else (minute, hour) in
  let '(hour, day) := if 23 <? hour then (hour - 24, day + 1) else (hour, day) in
  fromYmdHms year month day hour minute second.

(** Solar.py:155-160 [Solar.getWeek] *)
Definition getWeek (s : Solar) : res Z :=
  let! jd := getJulianDay s in
  let! n := py_int (jd + 0.5)%float in
  Ok ((n + 7000001) mod 7).
