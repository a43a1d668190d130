(** Model of SolarWeek.py, SolarMonth.py, SolarSeason.py, SolarHalfYear.py, SolarYear.py and the
    remaining date functions of Solar.py / SolarUtil.py. *)
From Coq Require Import ZArith Lia Floats List String.
From Verif Require Import Py PyFloat PyStr T_SolarUtil Solar.
Import ListNotations.
Open Scope Z_scope.

(** [int(ceil(n * 1.0 / k))] with integer [n], integer literal [k]. *)
Definition ceil_div (n k : Z) : res Z := py_ceil (float_of_Z n * 1 / float_of_Z k)%float.

(** SolarWeek.py:13-24, the attributes of a SolarWeek ([__init__], [fromYmd]). *)
Record SolarWeek := mkSolarWeek { wy : Z; wm : Z; wd : Z; wstart : Z }.

(** SolarWeek.py:54-62 [SolarWeek.getIndex] *)
Definition SolarWeek_getIndex (w : SolarWeek) : res Z :=
  let! s := fromYmd (wy w) (wm w) 1 in
  let! k := getWeek s in
  let offset := k - wstart w in
  let offset := if offset <? 0 then offset + 7 else offset in
  ceil_div (wd w + offset) 7.

(** SolarWeek.py:64-72 [SolarWeek.getIndexInYear] *)
Definition SolarWeek_getIndexInYear (w : SolarWeek) : res Z :=
  let! s := fromYmd (wy w) 1 1 in
  let! k := getWeek s in
  let offset := k - wstart w in
  let offset := if offset <? 0 then offset + 7 else offset in
  let! n := getDaysInYear (wy w) (wm w) (wd w) in
  ceil_div (n + offset) 7.

(** SolarWeek.py:74-83 [SolarWeek.getFirstDay] *)
Definition SolarWeek_getFirstDay (w : SolarWeek) : res Solar :=
  let! solar := fromYmd (wy w) (wm w) (wd w) in
  let! k := getWeek solar in
  let prev := k - wstart w in
  let prev := if prev <? 0 then prev + 7 else prev in
  next solar (- prev).

(** SolarWeek.py:95-105 [SolarWeek.getDays] *)
Definition SolarWeek_getDays (w : SolarWeek) : res (list Solar) :=
  let! first := SolarWeek_getFirstDay w in
  let! rest := mapM (fun i => next first i) (zrange 1 7) in
  Ok (first :: rest).

(** SolarWeek.py:85-93 [SolarWeek.getFirstDayInMonth]; [None] is Python's None. *)
Definition SolarWeek_getFirstDayInMonth (w : SolarWeek) : res (option Solar) :=
  let! days := SolarWeek_getDays w in
  Ok (List.find (fun d => wm w =? sm d) days).

(** SolarWeek.py:107-116 [SolarWeek.getDaysInMonth] *)
Definition SolarWeek_getDaysInMonth (w : SolarWeek) : res (list Solar) :=
  let! days := SolarWeek_getDays w in
  Ok (filter (fun d => wm w =? sm d) days).

(** util/SolarUtil.py:246-255 [SolarUtil.getWeeksOfMonth]; [len(WEEK)] is 7. *)
Definition getWeeksOfMonth (year month start : Z) : res Z :=
  let! d := getDaysOfMonth year month in
  let! s := fromYmd year month 1 in
  let! k := getWeek s in
  ceil_div (d + k - start) 7.

(** SolarWeek.py:132-161, one iteration of the [separate_month] loop of [SolarWeek.next]:
    state (n, solar, week, month). *)
Definition SolarWeek_next_step (start : Z) (plus : bool) (st : Z * Solar * SolarWeek * Z)
  : (Z * Solar * SolarWeek * Z) + res SolarWeek :=
  let '(n, solar, week, month) := st in
  if n =? 0 then inr (Ok week)
  else
    let r :=
      let! solar := next solar (if plus then 7 else -7) in
      let week := mkSolarWeek (sy solar) (sm solar) (sd solar) start in
      let week_month := wm week in
      let! swm :=
        (if month =? week_month then Ok (solar, week, month)
         else
           let! index := SolarWeek_getIndex week in
           if plus then
             if 1 =? index then
               let! fd := SolarWeek_getFirstDay week in
               let week := mkSolarWeek (sy fd) (sm fd) (sd fd) start in
               Ok (solar, week, wm week)
             else
               let! solar := fromYmd (wy week) (wm week) 1 in
               Ok (solar, mkSolarWeek (sy solar) (sm solar) (sd solar) start, week_month)
           else
             let! k := getWeeksOfMonth (wy week) (wm week) start in
             if k =? index then
               let! fd := SolarWeek_getFirstDay week in
               let! ld := next fd 6 in
               let week := mkSolarWeek (sy ld) (sm ld) (sd ld) start in
               Ok (solar, week, wm week)
             else
               let! k := getDaysOfMonth (wy week) (wm week) in
               let! solar := fromYmd (wy week) (wm week) k in
               Ok (solar, mkSolarWeek (sy solar) (sm solar) (sd solar) start, week_month)) in
      Ok swm in
    match r with
    | Raise e => inr (Raise e)
    | Ok (solar, week, month) => inl ((if plus then n - 1 else n + 1), solar, week, month)
    end.

(** SolarWeek.py:118-162 [SolarWeek.next] *)
Definition SolarWeek_next (w : SolarWeek) (weeks : Z) (separate_month : bool) : res SolarWeek :=
  if 0 =? weeks then Ok (mkSolarWeek (wy w) (wm w) (wd w) (wstart w))
  else
    let! solar := fromYmd (wy w) (wm w) (wd w) in
    if separate_month then
      let week := mkSolarWeek (sy solar) (sm solar) (sd solar) (wstart w) in
      let! r := loop (Z.abs weeks + 1) (SolarWeek_next_step (wstart w) (0 <? weeks)) (weeks, solar, week, wm w) in
      r
    else
      let! solar := next solar (weeks * 7) in
      Ok (mkSolarWeek (sy solar) (sm solar) (sd solar) (wstart w)).

(** SolarMonth.py:37-47 [SolarMonth.getDays] *)
Definition SolarMonth_getDays (m : SolarMonth) : res (list Solar) :=
  let! d := fromYmd (smy m) (smm m) 1 in
  let! n := getDaysOfMonth (smy m) (smm m) in
  let! rest := mapM (fun i => next d i) (zrange 1 n) in
  Ok (d :: rest).

(** SolarMonth.py:56-64, one iteration of the loop of [SolarMonth.getWeeks]; state: weeks
    collected so far in reverse order, current week. *)
Definition getWeeks_step (m : SolarMonth) (st : list SolarWeek * SolarWeek)
  : (list SolarWeek * SolarWeek) + res (list SolarWeek) :=
  let '(acc, week) := st in
  let acc := week :: acc in
  match (let! week := SolarWeek_next week 1 false in
         let! fd := SolarWeek_getFirstDay week in Ok (week, fd)) with
  | Raise e => inr (Raise e)
  | Ok (week, fd) =>
      if (smy m <? sy fd) || (smm m <? sm fd) then inr (Ok (rev acc)) else inl (acc, week)
  end.

(** SolarMonth.py:49-65 [SolarMonth.getWeeks]; the fuel 10 exceeds the number of weeks that touch
    a month. *)
Definition SolarMonth_getWeeks (m : SolarMonth) (start : Z) : res (list SolarWeek) :=
  let! r := loop 10 (getWeeks_step m) ([], mkSolarWeek (smy m) (smm m) 1 start) in r.

(** SolarSeason.py:14-18, SolarHalfYear.py:14-18: both classes store year and month. *)
Record SolarSeason := mkSolarSeason { qy : Z; qm : Z }.
Record SolarHalfYear := mkSolarHalfYear { hy : Z; hm : Z }.

(** SolarSeason.py:42-47 [getIndex], MONTH_COUNT = 3. *)
Definition SolarSeason_getIndex (q : SolarSeason) : res Z := ceil_div (qm q) 3.
(** SolarSeason.py:49-57 [getMonths] *)
Definition SolarSeason_getMonths (q : SolarSeason) : res (list SolarMonth) :=
  let! i := SolarSeason_getIndex q in
  let index := i - 1 in
  Ok (map (fun i => mkSolarMonth (qy q) (3 * index + i + 1)) (zrange 0 3)).
(** SolarSeason.py:59-66 [next] *)
Definition SolarSeason_next (q : SolarSeason) (seasons : Z) : res SolarSeason :=
  let! m := SolarMonth_next (mkSolarMonth (qy q) (qm q)) (3 * seasons) in
  Ok (mkSolarSeason (smy m) (smm m)).

(** SolarHalfYear.py:42-47 [getIndex], MONTH_COUNT = 6. *)
Definition SolarHalfYear_getIndex (h : SolarHalfYear) : res Z := ceil_div (hm h) 6.
(** SolarHalfYear.py:49-57 [getMonths] *)
Definition SolarHalfYear_getMonths (h : SolarHalfYear) : res (list SolarMonth) :=
  let! i := SolarHalfYear_getIndex h in
  let index := i - 1 in
  Ok (map (fun i => mkSolarMonth (hy h) (6 * index + i + 1)) (zrange 0 6)).
(** SolarHalfYear.py:59-66 [next] *)
Definition SolarHalfYear_next (h : SolarHalfYear) (half_years : Z) : res SolarHalfYear :=
  let! m := SolarMonth_next (mkSolarMonth (hy h) (hm h)) (6 * half_years) in
  Ok (mkSolarHalfYear (smy m) (smm m)).

(** SolarYear.py:37-46 [SolarYear.getMonths]; a SolarYear is its year number. *)
Definition SolarYear_getMonths (year : Z) : res (list SolarMonth) :=
  let m := mkSolarMonth year 1 in
  let! rest := mapM (fun i => SolarMonth_next m i) (zrange 1 12) in
  Ok (m :: rest).
(** SolarYear.py:48-54 [SolarYear.next] *)
Definition SolarYear_next (year years : Z) : Z := year + years.

(** Solar.py:335-336 [Solar.toYmd] *)
Definition toYmd (s : Solar) : str := fmt0 4 (sy s) ++ [45] ++ fmt0 2 (sm s) ++ [45] ++ fmt0 2 (sd s).
(** Solar.py:338-339 [Solar.toYmdHms] *)
Definition toYmdHms (s : Solar) : str :=
  toYmd s ++ [32] ++ fmt0 2 (sh s) ++ [58] ++ fmt0 2 (smi s) ++ [58] ++ fmt0 2 (ss s).

(** Solar.py:162-167 [getWeekInChinese] *)
Definition getWeekInChinese (s : Solar) : res str := let! w := getWeek s in py_index SolarUtil_WEEK w.

(** Solar.py:201-229 [Solar.getXingZuo] *)
Definition XingZuo_index (s : Solar) : Z :=
  let y := sm s * 100 + sd s in
  if (321 <=? y) && (y <=? 419) then 0
  else if (420 <=? y) && (y <=? 520) then 1
  else if (521 <=? y) && (y <=? 621) then 2
  else if (622 <=? y) && (y <=? 722) then 3
  else if (723 <=? y) && (y <=? 822) then 4
  else if (823 <=? y) && (y <=? 922) then 5
  else if (923 <=? y) && (y <=? 1023) then 6
  else if (1024 <=? y) && (y <=? 1122) then 7
  else if (1123 <=? y) && (y <=? 1221) then 8
  else if (1222 <=? y) || (y <=? 119) then 9
  else if y <=? 218 then 10
  else 11.
Definition getXingZuo (s : Solar) : res str := py_index SolarUtil_XING_ZUO (XingZuo_index s).

(** Solar.py:169-186 [Solar.getFestivals] *)
Definition getFestivals (s : Solar) : res (list str) :=
  let key := str_of_Z (sm s) ++ [45] ++ str_of_Z (sd s) in
  let f1 := opt_list (assoc key SolarUtil_FESTIVAL) in
  let! week := getWeek s in
  let! c := py_ceil (float_of_Z (sd s) / 7)%float in
  let key := str_of_Z (sm s) ++ [45] ++ str_of_Z c ++ [45] ++ str_of_Z week in
  let f2 := opt_list (assoc key SolarUtil_WEEK_FESTIVAL) in
  let! n := getDaysOfMonth (sy s) (sm s) in
  let f3 := if n <? sd s + 7 then
      let key := str_of_Z (sm s) ++ [45; 48; 45] ++ str_of_Z week in
      opt_list (assoc key SolarUtil_WEEK_FESTIVAL) else [] in
  Ok (f1 ++ f2 ++ f3).

(** Solar.py:188-198 [Solar.getOtherFestivals] *)
Definition getOtherFestivals (s : Solar) : list str :=
  let key := str_of_Z (sm s) ++ [45] ++ str_of_Z (sd s) in
  match assoc key SolarUtil_OTHER_FESTIVAL with Some l => l | None => [] end.

(** Solar.py:341-355 [Solar.toFullString] *)
Definition toFullString (s : Solar) : res str :=
  let! w := getWeekInChinese s in
  let! fs := getFestivals s in
  let! x := getXingZuo s in
  Ok (toYmdHms s ++ (if isLeapYear (sy s) then utf8 " 闰年"%string else []) ++ utf8 " 星期"%string ++ w
      ++ flat_map (fun f => utf8 " ("%string ++ f ++ utf8 ")"%string) fs
      ++ flat_map (fun f => utf8 " ("%string ++ f ++ utf8 ")"%string) (getOtherFestivals s)
      ++ utf8 " "%string ++ x ++ utf8 "座"%string).
