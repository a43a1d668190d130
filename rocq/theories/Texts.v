(** The texts of the smaller classes: [toString] and [toFullString] of the solar units, ShuJiu, Fu, Holiday and LunarYear, and the Tai Sui directions in words. *)
From Coq Require Import ZArith List String.
From Verif Require Import Py PyStr Solar SolarUnits LunarUtil T_LunarUtil Holiday LunarYear Lunar LunarTime.
Import ListNotations.
Open Scope Z_scope.

(** SolarWeek.py:46-50 [toString], [toFullString] *)
Definition SolarWeek_toString (w : SolarWeek) : res str :=
  let! i := SolarWeek_getIndex w in Ok (str_of_Z (wy w) ++ lit "." ++ str_of_Z (wm w) ++ lit "." ++ str_of_Z i).
Definition SolarWeek_toFullString (w : SolarWeek) : res str :=
  let! i := SolarWeek_getIndex w in
  Ok (str_of_Z (wy w) ++ utf8 "年"%string ++ str_of_Z (wm w) ++ utf8 "月第"%string ++ str_of_Z i ++ utf8 "周"%string).
(** SolarMonth.py:30-34 [toString], [toFullString] *)
Definition SolarMonth_toString (m : SolarMonth) : str := str_of_Z (smy m) ++ lit "-" ++ str_of_Z (smm m).
Definition SolarMonth_toFullString (m : SolarMonth) : str :=
  str_of_Z (smy m) ++ utf8 "年"%string ++ str_of_Z (smm m) ++ utf8 "月"%string.
(** SolarSeason.py:32-36 [toString], [toFullString] *)
Definition SolarSeason_toString (q : SolarSeason) : res str :=
  let! i := SolarSeason_getIndex q in Ok (str_of_Z (qy q) ++ lit "." ++ str_of_Z i).
Definition SolarSeason_toFullString (q : SolarSeason) : res str :=
  let! i := SolarSeason_getIndex q in Ok (str_of_Z (qy q) ++ utf8 "年"%string ++ str_of_Z i ++ utf8 "季度"%string).
(** SolarHalfYear.py:32-36 [toString], [toFullString] *)
Definition SolarHalfYear_toString (h : SolarHalfYear) : res str :=
  let! i := SolarHalfYear_getIndex h in Ok (str_of_Z (hy h) ++ lit "." ++ str_of_Z i).
Definition SolarHalfYear_toFullString (h : SolarHalfYear) : res str :=
  let! i := SolarHalfYear_getIndex h in
  Ok (str_of_Z (hy h) ++ utf8 "年"%string ++ (if 1 =? i then utf8 "上"%string else utf8 "下"%string) ++ utf8 "半年"%string).
(** SolarYear.py:27-31, LunarYear.py:157-161 [toString], [toFullString], of the year *)
Definition Year_toString (year : Z) : str := str_of_Z year.
Definition Year_toFullString (year : Z) : str := str_of_Z year ++ utf8 "年"%string.
(** ShuJiu.py:28-32, Fu.py:29-33 [toString], [toFullString], of name and index *)
Definition ShuJiu_toString (f : str * Z) : str := fst f.
Definition ShuJiu_toFullString (f : str * Z) : str := fst f ++ utf8 "第"%string ++ str_of_Z (snd f) ++ utf8 "天"%string.
(** Holiday.py:48-49 [toString] *)
Definition Holiday_toString (h : Holiday) : str :=
  hday h ++ lit " " ++ hname h ++ (if hwork h then utf8 "调休"%string else []) ++ lit " " ++ htarget h.
(** Lunar.py:422-423, 449-450, 479-480 [get...PositionTaiSuiDesc] *)
Definition Lunar_getYearPositionTaiSuiDesc (l : Lunar) (sect : Z) : res str := position_desc (Lunar_getYearPositionTaiSui l sect).
Definition Lunar_getMonthPositionTaiSuiDesc (l : Lunar) (sect : Z) : res str := position_desc (Lunar_getMonthPositionTaiSui l sect).
Definition Lunar_getDayPositionTaiSuiDesc (l : Lunar) (sect : Z) : res str := position_desc (Lunar_getDayPositionTaiSui l sect).
(** LunarMonth.py:100-101 [getPositionTaiSuiDesc] *)
Definition LunarMonth_getPositionTaiSuiDesc (fromYear : Z -> res LYear) (m : LMonth) : res str := position_desc (LunarMonth_getPositionTaiSui fromYear m).
(** LunarTime.py:140-141 [toString] *)
Definition LunarTime_toString (t : LTime) : res str := LunarTime_getGanZhi t.
