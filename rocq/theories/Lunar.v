(** Model of Lunar.py.  [fromYear] is LunarYear.fromYear: a parameter here, since everything below
    only uses the year tables it returns; LunarCache.v justifies treating it as a function. *)
From Coq Require Import ZArith Lia Bool List String Floats.
From Verif Require Import Py PyFloat PyStr Solar SolarUnits LunarUtil T_LunarUtil T_SolarUtil T_Misc LunarYear.
Import ListNotations.
Open Scope Z_scope.

(** The attributes of a Lunar object.  [__jieQi], a dict, is an association list in insertion order
    ([__jieQiList] is the list of its keys); [__eightChar] is a lazily filled cache, see EightChar.v. *)
Record Lunar := mkLunar {
  l_year : Z; l_month : Z; l_day : Z; l_hour : Z; l_minute : Z; l_second : Z;
  l_solar : Solar;
  l_jieQi : list (str * Solar);
  l_yearGan : Z; l_yearZhi : Z;
  l_yearGanByLiChun : Z; l_yearZhiByLiChun : Z;
  l_yearGanExact : Z; l_yearZhiExact : Z;
  l_monthGan : Z; l_monthZhi : Z;
  l_monthGanExact : Z; l_monthZhiExact : Z;
  l_dayGan : Z; l_dayZhi : Z;
  l_dayGanExact : Z; l_dayZhiExact : Z;
  l_dayGanExact2 : Z; l_dayZhiExact2 : Z;
  l_timeGan : Z; l_timeZhi : Z;
  l_week : Z
}.

(** Lunar.py:47-52 [__computeJieQi] *)
Definition computeJieQi (terms : list float) : res (list (str * Solar)) :=
  mapM (fun i =>
      let! name := py_index Lunar_JIE_QI_IN_USE i in
      let! jd := py_index terms i in
      let! s := fromJulianDay jd in
      Ok (name, s))
    (zrange 0 (Z.of_nat (List.length Lunar_JIE_QI_IN_USE))).

(** Lunar.py:106-110: [(g + 10 if g < 0 else g) % 10] and the like *)
Definition wrap (n g : Z) : Z := (if g <? 0 then g + n else g) mod n.

(** Lunar.py:54-110 [__computeYear]; the six indices.  Lines 60-64 have no effect: [%] is never negative. *)
Definition computeYear (year : Z) (solar : Solar) (jieQi : list (str * Solar)) : res (Z * Z * Z * Z * Z * Z) :=
  let gan := (year - 4) mod 10 in
  let zhi := (year - 4) mod 12 in
  let! lc := py_dict jieQi (utf8 "立春"%string) in
  let! lc := if negb (sy lc =? sy solar) then py_dict jieQi (utf8 "LI_CHUN"%string) else Ok lc in
  let day_before := str_ltb (toYmd solar) (toYmd lc) in
  let time_before := str_ltb (toYmdHms solar) (toYmdHms lc) in
  let d := if year =? sy solar then (if day_before then -1 else 0)
           else if year <? sy solar then (if day_before then 0 else 1) else 0 in
  let t := if year =? sy solar then (if time_before then -1 else 0)
           else if year <? sy solar then (if time_before then 0 else 1) else 0 in
  Ok (gan, zhi, wrap 10 (gan + d), wrap 12 (zhi + d), wrap 10 (gan + t), wrap 12 (zhi + t)).

(** Lunar.py:118-126 and 132-140: the position of [now] among the ends; [start] is the end before *)
Fixpoint month_index (now : str) (start : option str) (ends : list str) (index : Z) : Z :=
  match ends with
  | [] => index
  | e :: t =>
      let s := match start with None => now | Some s => s end in
      if str_leb s now && str_ltb now e then index else month_index now (Some e) t (index + 1)
  end.
(** the elements at even positions, [range(0, size, 2)] *)
Fixpoint evens {A} (l : list A) : list A :=
  match l with
  | [] => []
  | [a] => [a]
  | a :: _ :: t => a :: evens t
  end.
(** Lunar.py:127-130 and 141-144 *)
Definition month_gan (yearGan index : Z) : Z :=
  let g_offset := ((yearGan + (if index <? 0 then 1 else 0)) mod 5 + 1) * 2 mod 10 in
  ((if index <? 0 then index + 10 else index) + g_offset) mod 10.
Definition month_zhi (index : Z) : Z :=
  ((if index <? 0 then index + 12 else index) + LunarUtil_BASE_MONTH_ZHI_INDEX) mod 12.
(** Lunar.py:112-144 [__computeMonth] *)
Definition computeMonth (solar : Solar) (jieQi : list (str * Solar)) (yearGanByLiChun yearGanExact : Z)
  : res (Z * Z * Z * Z) :=
  let! ends := mapM (py_dict jieQi) (evens Lunar_JIE_QI_IN_USE) in
  let index := month_index (toYmd solar) None (map toYmd ends) (-3) in
  let index2 := month_index (toYmdHms solar) None (map toYmdHms ends) (-3) in
  Ok (month_gan yearGanByLiChun index, month_zhi index, month_gan yearGanExact index2, month_zhi index2).

(** Lunar.py:163, 175: the time as "hh:mm" *)
Definition pad10 (n : Z) : str := (if n <? 10 then lit "0" else []) ++ str_of_Z n.
Definition hm_str (hour minute : Z) : str := pad10 hour ++ lit ":" ++ pad10 minute.

(** Lunar.py:146-172 [__computeDay]; (gan, zhi, ganExact, zhiExact) — the Exact2 indices equal the first two *)
Definition computeDay (solar : Solar) (hour minute : Z) : res (Z * Z * Z * Z) :=
  let! noon := fromYmdHms (sy solar) (sm solar) (sd solar) 12 0 0 in
  let! jd := getJulianDay noon in
  let! n := py_int jd in
  let offset := n - 11 in
  let g := offset mod 10 in
  let z := offset mod 12 in
  let hm := hm_str hour minute in
  if str_leb (lit "23:00") hm && str_leb hm (lit "23:59") then
    Ok (g, z, (if 10 <=? g + 1 then g + 1 - 10 else g + 1), (if 12 <=? z + 1 then z + 1 - 12 else z + 1))
  else Ok (g, z, g, z).

(** Lunar.py:174-177 [__computeTime]; (gan, zhi) *)
Definition computeTime (hour minute dayGanExact : Z) : Z * Z :=
  let z := getTimeZhiIndex (hm_str hour minute) in
  ((dayGanExact mod 5 * 2 + z) mod 10, z).

(** Lunar.py:39-45 [__compute], with the attributes set by __init__ *)
Definition Lunar_compute (year month day hour minute second : Z) (solar : Solar) (y : LYear) : res Lunar :=
  let! jieQi := computeJieQi (lterms y) in
  let! yi := computeYear year solar jieQi in
  let '(yg, yz, ygl, yzl, yge, yze) := yi in
  let! mi := computeMonth solar jieQi ygl yge in
  let '(mg, mz, mge, mze) := mi in
  let! di := computeDay solar hour minute in
  let '(dg, dz, dge, dze) := di in
  let '(tg, tz) := computeTime hour minute dge in
  let! w := getWeek solar in
  Ok (mkLunar year month day hour minute second solar jieQi
        yg yz ygl yzl yge yze mg mz mge mze dg dz dge dze dg dz tg tz w).

Section WithYears.
Variable fromYear : Z -> res LYear.

(** Lunar.py:13-37 [__init__] *)
Definition Lunar_new (lunar_year lunar_month lunar_day hour minute second : Z) : res Lunar :=
  let! y := fromYear lunar_year in
  match getMonth y lunar_month with
  | None => Raise ExcValue
  | Some m =>
      if lunar_day <? 1 then Raise ExcValue
      else if mcount m <? lunar_day then Raise ExcValue
      else
        let! noon := fromJulianDay (float_of_Z (mfirst m + lunar_day - 1)) in
        let! solar := fromYmdHms (sy noon) (sm noon) (sd noon) hour minute second in
        let! y := if negb (sy noon =? lunar_year) then fromYear (sy noon) else Ok y in
        Lunar_compute lunar_year lunar_month lunar_day hour minute second solar y
  end.

(** Lunar.py:187-188 [fromYmd] *)
Definition Lunar_fromYmd (lunar_year lunar_month lunar_day : Z) : res Lunar :=
  Lunar_new lunar_year lunar_month lunar_day 0 0 0.

(** Lunar.py:201-207: the first month of the table ending after the date *)
Fixpoint find_month (solar : Solar) (ms : list LMonth) : res (Z * Z * Z) :=
  match ms with
  | [] => Ok (0, 0, 0)
  | m :: t =>
      let! f := fromJulianDay (float_of_Z (mfirst m)) in
      let! days := subtract solar f in
      if days <? mcount m then Ok (my m, mm m, days + 1) else find_month solar t
  end.
(** Lunar.py:195-208 [fromSolar]; Solar.py:251-257 [getLunar] is the same function *)
Definition getLunar (solar : Solar) : res Lunar :=
  let! ly := fromYear (sy solar) in
  let! r := find_month solar (lmonths ly) in
  let '(year, month, day) := r in
  Lunar_new year month day (sh solar) (smi solar) (ss solar).

(** Lunar.py:1123-1129 [next] *)
Definition Lunar_next (l : Lunar) (days : Z) : res Lunar :=
  let! s := next (l_solar l) days in getLunar s.
End WithYears.

(** Lunar.py:231-247: names of stems and branches *)
Definition Lunar_getYearGan (l : Lunar) : res str := py_index LunarUtil_GAN (l_yearGan l + 1).
Definition Lunar_getYearGanByLiChun (l : Lunar) : res str := py_index LunarUtil_GAN (l_yearGanByLiChun l + 1).
Definition Lunar_getYearGanExact (l : Lunar) : res str := py_index LunarUtil_GAN (l_yearGanExact l + 1).
Definition Lunar_getYearZhi (l : Lunar) : res str := py_index LunarUtil_ZHI (l_yearZhi l + 1).
Definition Lunar_getYearZhiByLiChun (l : Lunar) : res str := py_index LunarUtil_ZHI (l_yearZhiByLiChun l + 1).
Definition Lunar_getYearZhiExact (l : Lunar) : res str := py_index LunarUtil_ZHI (l_yearZhiExact l + 1).
(** ["%s%s" % (a, b)] *)
Definition cat2 (a b : res str) : res str := let! x := a in let! y := b in Ok (x ++ y).
(** Lunar.py:249-256 *)
Definition Lunar_getYearInGanZhi (l : Lunar) : res str := cat2 (Lunar_getYearGan l) (Lunar_getYearZhi l).
Definition Lunar_getYearInGanZhiByLiChun (l : Lunar) : res str :=
  cat2 (Lunar_getYearGanByLiChun l) (Lunar_getYearZhiByLiChun l).
Definition Lunar_getYearInGanZhiExact (l : Lunar) : res str := cat2 (Lunar_getYearGanExact l) (Lunar_getYearZhiExact l).
(** Lunar.py:258-274 *)
Definition Lunar_getMonthGan (l : Lunar) : res str := py_index LunarUtil_GAN (l_monthGan l + 1).
Definition Lunar_getMonthGanExact (l : Lunar) : res str := py_index LunarUtil_GAN (l_monthGanExact l + 1).
Definition Lunar_getMonthZhi (l : Lunar) : res str := py_index LunarUtil_ZHI (l_monthZhi l + 1).
Definition Lunar_getMonthZhiExact (l : Lunar) : res str := py_index LunarUtil_ZHI (l_monthZhiExact l + 1).
Definition Lunar_getMonthInGanZhi (l : Lunar) : res str := cat2 (Lunar_getMonthGan l) (Lunar_getMonthZhi l).
Definition Lunar_getMonthInGanZhiExact (l : Lunar) : res str := cat2 (Lunar_getMonthGanExact l) (Lunar_getMonthZhiExact l).
(** Lunar.py:276-301 *)
Definition Lunar_getDayGan (l : Lunar) : res str := py_index LunarUtil_GAN (l_dayGan l + 1).
Definition Lunar_getDayGanExact (l : Lunar) : res str := py_index LunarUtil_GAN (l_dayGanExact l + 1).
Definition Lunar_getDayGanExact2 (l : Lunar) : res str := py_index LunarUtil_GAN (l_dayGanExact2 l + 1).
Definition Lunar_getDayZhi (l : Lunar) : res str := py_index LunarUtil_ZHI (l_dayZhi l + 1).
Definition Lunar_getDayZhiExact (l : Lunar) : res str := py_index LunarUtil_ZHI (l_dayZhiExact l + 1).
Definition Lunar_getDayZhiExact2 (l : Lunar) : res str := py_index LunarUtil_ZHI (l_dayZhiExact2 l + 1).
Definition Lunar_getDayInGanZhi (l : Lunar) : res str := cat2 (Lunar_getDayGan l) (Lunar_getDayZhi l).
Definition Lunar_getDayInGanZhiExact (l : Lunar) : res str := cat2 (Lunar_getDayGanExact l) (Lunar_getDayZhiExact l).
Definition Lunar_getDayInGanZhiExact2 (l : Lunar) : res str := cat2 (Lunar_getDayGanExact2 l) (Lunar_getDayZhiExact2 l).
(** Lunar.py:303-310 *)
Definition Lunar_getTimeGan (l : Lunar) : res str := py_index LunarUtil_GAN (l_timeGan l + 1).
Definition Lunar_getTimeZhi (l : Lunar) : res str := py_index LunarUtil_ZHI (l_timeZhi l + 1).
Definition Lunar_getTimeInGanZhi (l : Lunar) : res str := cat2 (Lunar_getTimeGan l) (Lunar_getTimeZhi l).
(** Lunar.py:312-331 *)
Definition Lunar_getYearShengXiao (l : Lunar) : res str := py_index LunarUtil_SHENGXIAO (l_yearZhi l + 1).
Definition Lunar_getYearShengXiaoByLiChun (l : Lunar) : res str := py_index LunarUtil_SHENGXIAO (l_yearZhiByLiChun l + 1).
Definition Lunar_getYearShengXiaoExact (l : Lunar) : res str := py_index LunarUtil_SHENGXIAO (l_yearZhiExact l + 1).
Definition Lunar_getMonthShengXiao (l : Lunar) : res str := py_index LunarUtil_SHENGXIAO (l_monthZhi l + 1).
Definition Lunar_getMonthShengXiaoExact (l : Lunar) : res str := py_index LunarUtil_SHENGXIAO (l_monthZhiExact l + 1).
Definition Lunar_getDayShengXiao (l : Lunar) : res str := py_index LunarUtil_SHENGXIAO (l_dayZhi l + 1).
Definition Lunar_getTimeShengXiao (l : Lunar) : res str := py_index LunarUtil_SHENGXIAO (l_timeZhi l + 1).

(** Lunar.py:333-338 [getYearInChinese] *)
Definition Lunar_getYearInChinese (l : Lunar) : res str :=
  let! cs := mapM (fun c => py_index LunarUtil_NUMBER (c - 48)) (str_of_Z (l_year l)) in Ok (concat cs).
(** Lunar.py:340-342 [getMonthInChinese] *)
Definition Lunar_getMonthInChinese (l : Lunar) : res str :=
  let! m := py_index LunarUtil_MONTH (Z.abs (l_month l)) in
  Ok ((if l_month l <? 0 then utf8 "闰"%string else []) ++ m).
(** Lunar.py:344-345 [getDayInChinese] *)
Definition Lunar_getDayInChinese (l : Lunar) : res str := py_index LunarUtil_DAY (l_day l).
(** Lunar.py:347-351 *)
Definition Lunar_getPengZuGan (l : Lunar) : res str := py_index LunarUtil_PENG_ZU_GAN (l_dayGan l + 1).
Definition Lunar_getPengZuZhi (l : Lunar) : res str := py_index LunarUtil_PENG_ZU_ZHI (l_dayZhi l + 1).

(** [LunarUtil.POSITION_DESC[p]] *)
Definition position_desc (p : res str) : res str := let! s := p in py_dict LunarUtil_POSITION_DESC s.
(** Lunar.py:383-411 (and their aliases without "Day", lines 353-381) *)
Definition Lunar_getDayPositionXi (l : Lunar) : res str := py_index LunarUtil_POSITION_XI (l_dayGan l + 1).
Definition Lunar_getDayPositionYangGui (l : Lunar) : res str := py_index LunarUtil_POSITION_YANG_GUI (l_dayGan l + 1).
Definition Lunar_getDayPositionYinGui (l : Lunar) : res str := py_index LunarUtil_POSITION_YIN_GUI (l_dayGan l + 1).
Definition position_fu (sect : Z) : list str := if 1 =? sect then LunarUtil_POSITION_FU else LunarUtil_POSITION_FU_2.
Definition Lunar_getDayPositionFu (l : Lunar) (sect : Z) : res str := py_index (position_fu sect) (l_dayGan l + 1).
Definition Lunar_getDayPositionCai (l : Lunar) : res str := py_index LunarUtil_POSITION_CAI (l_dayGan l + 1).
(** Lunar.py:482-510 *)
Definition Lunar_getTimePositionXi (l : Lunar) : res str := py_index LunarUtil_POSITION_XI (l_timeGan l + 1).
Definition Lunar_getTimePositionYangGui (l : Lunar) : res str := py_index LunarUtil_POSITION_YANG_GUI (l_timeGan l + 1).
Definition Lunar_getTimePositionYinGui (l : Lunar) : res str := py_index LunarUtil_POSITION_YIN_GUI (l_timeGan l + 1).
Definition Lunar_getTimePositionFu (l : Lunar) (sect : Z) : res str := py_index (position_fu sect) (l_timeGan l + 1).
Definition Lunar_getTimePositionCai (l : Lunar) : res str := py_index LunarUtil_POSITION_CAI (l_timeGan l + 1).

(** Lunar.py:413-420 [getYearPositionTaiSui] *)
Definition Lunar_getYearPositionTaiSui (l : Lunar) (sect : Z) : res str :=
  py_index LunarUtil_POSITION_TAI_SUI_YEAR
    (if 1 =? sect then l_yearZhi l else if 3 =? sect then l_yearZhiExact l else l_yearZhiByLiChun l).
(** Lunar.py:425-438 [__getMonthPositionTaiSui] *)
Definition monthPositionTaiSui (month_zhi_index month_gan_index : Z) : res str :=
  let m := month_zhi_index - LunarUtil_BASE_MONTH_ZHI_INDEX in
  let m := if m <? 0 then m + 12 else m in
  let m := m mod 4 in
  if 0 =? m then Ok (utf8 "艮"%string)
  else if 2 =? m then Ok (utf8 "坤"%string)
  else if 3 =? m then Ok (utf8 "巽"%string)
  else py_index LunarUtil_POSITION_GAN month_gan_index.
(** Lunar.py:440-447 [getMonthPositionTaiSui] *)
Definition Lunar_getMonthPositionTaiSui (l : Lunar) (sect : Z) : res str :=
  if 3 =? sect then monthPositionTaiSui (l_monthZhiExact l) (l_monthGanExact l)
  else monthPositionTaiSui (l_monthZhi l) (l_monthGan l).
(** Lunar.py:452-465 [__getDayPositionTaiSui] *)
Definition dayPositionTaiSui (day_in_gan_zhi : str) (year_zhi_index : Z) : res str :=
  if py_in day_in_gan_zhi (utf8 "甲子,乙丑,丙寅,丁卯,戊辰,已巳"%string) then Ok (utf8 "震"%string)
  else if py_in day_in_gan_zhi (utf8 "丙子,丁丑,戊寅,已卯,庚辰,辛巳"%string) then Ok (utf8 "离"%string)
  else if py_in day_in_gan_zhi (utf8 "戊子,已丑,庚寅,辛卯,壬辰,癸巳"%string) then Ok (utf8 "中"%string)
  else if py_in day_in_gan_zhi (utf8 "庚子,辛丑,壬寅,癸卯,甲辰,乙巳"%string) then Ok (utf8 "兑"%string)
  else if py_in day_in_gan_zhi (utf8 "壬子,癸丑,甲寅,乙卯,丙辰,丁巳"%string) then Ok (utf8 "坎"%string)
  else py_index LunarUtil_POSITION_TAI_SUI_YEAR year_zhi_index.
(** Lunar.py:467-477 [getDayPositionTaiSui] *)
Definition Lunar_getDayPositionTaiSui (l : Lunar) (sect : Z) : res str :=
  if 1 =? sect then let! d := Lunar_getDayInGanZhi l in dayPositionTaiSui d (l_yearZhi l)
  else if 3 =? sect then let! d := Lunar_getDayInGanZhi l in dayPositionTaiSui d (l_yearZhiExact l)
  else let! d := Lunar_getDayInGanZhiExact2 l in dayPositionTaiSui d (l_yearZhiByLiChun l).

(** Lunar.py:515-537 *)
Definition Lunar_getDayChong (l : Lunar) : res str := py_index LunarUtil_CHONG (l_dayZhi l).
Definition Lunar_getTimeChong (l : Lunar) : res str := py_index LunarUtil_CHONG (l_timeZhi l).
Definition Lunar_getDayChongGan (l : Lunar) : res str := py_index LunarUtil_CHONG_GAN (l_dayGan l).
Definition Lunar_getTimeChongGan (l : Lunar) : res str := py_index LunarUtil_CHONG_GAN (l_timeGan l).
Definition Lunar_getDayChongGanTie (l : Lunar) : res str := py_index LunarUtil_CHONG_GAN_TIE (l_dayGan l).
Definition Lunar_getTimeChongGanTie (l : Lunar) : res str := py_index LunarUtil_CHONG_GAN_TIE (l_timeGan l).
(** Lunar.py:544-547: the animal at the first position of ZHI holding [chong] *)
Definition chong_shengxiao (chong : str) : res str :=
  let i := index_of 0 chong LunarUtil_ZHI in
  if i <? 0 then Ok [] else py_index LunarUtil_SHENGXIAO i.
(** Lunar.py:542-563 *)
Definition Lunar_getDayChongShengXiao (l : Lunar) : res str := let! c := Lunar_getDayChong l in chong_shengxiao c.
Definition Lunar_getTimeChongShengXiao (l : Lunar) : res str := let! c := Lunar_getTimeChong l in chong_shengxiao c.
Definition Lunar_getDayChongDesc (l : Lunar) : res str :=
  let! g := Lunar_getDayChongGan l in let! c := Lunar_getDayChong l in let! x := Lunar_getDayChongShengXiao l in
  Ok (lit "(" ++ g ++ c ++ lit ")" ++ x).
Definition Lunar_getTimeChongDesc (l : Lunar) : res str :=
  let! g := Lunar_getTimeChongGan l in let! c := Lunar_getTimeChong l in let! x := Lunar_getTimeChongShengXiao l in
  Ok (lit "(" ++ g ++ c ++ lit ")" ++ x).
(** Lunar.py:568-572 *)
Definition Lunar_getDaySha (l : Lunar) : res str := let! z := Lunar_getDayZhi l in py_dict LunarUtil_SHA z.
Definition Lunar_getTimeSha (l : Lunar) : res str := let! z := Lunar_getTimeZhi l in py_dict LunarUtil_SHA z.
(** Lunar.py:574-584 *)
Definition Lunar_getYearNaYin (l : Lunar) : res str := let! p := Lunar_getYearInGanZhi l in py_dict LunarUtil_NAYIN p.
Definition Lunar_getMonthNaYin (l : Lunar) : res str := let! p := Lunar_getMonthInGanZhi l in py_dict LunarUtil_NAYIN p.
Definition Lunar_getDayNaYin (l : Lunar) : res str := let! p := Lunar_getDayInGanZhi l in py_dict LunarUtil_NAYIN p.
Definition Lunar_getTimeNaYin (l : Lunar) : res str := let! p := Lunar_getTimeInGanZhi l in py_dict LunarUtil_NAYIN p.
(** Lunar.py:586-587 [getSeason] *)
Definition Lunar_getSeason (l : Lunar) : res str := py_index LunarUtil_SEASON (Z.abs (l_month l)).

(** Lunar.py:590-606 [__convertJieQi] *)
Definition convertJieQi (name : str) : str :=
  if str_eqb (lit "DONG_ZHI") name then utf8 "冬至"%string
  else if str_eqb (lit "DA_HAN") name then utf8 "大寒"%string
  else if str_eqb (lit "XIAO_HAN") name then utf8 "小寒"%string
  else if str_eqb (lit "LI_CHUN") name then utf8 "立春"%string
  else if str_eqb (lit "DA_XUE") name then utf8 "大雪"%string
  else if str_eqb (lit "YU_SHUI") name then utf8 "雨水"%string
  else if str_eqb (lit "JING_ZHE") name then utf8 "惊蛰"%string
  else name.
(** the elements at odd positions, [range(1, size, 2)] *)
Definition odds {A} (l : list A) : list A := match l with [] => [] | _ :: t => evens t end.
(** the test on year, month and day of lines 612, 620, 1084, 1095, 1107, 1119 *)
Definition same_day (a b : Solar) : bool := (sy a =? sy b) && (sm a =? sm b) && (sd a =? sd b).
(** the first of [keys] whose instant in the table falls on the day of [solar] *)
Fixpoint term_on (jieQi : list (str * Solar)) (solar : Solar) (keys : list str) : res (option (str * Solar)) :=
  match keys with
  | [] => Ok None
  | k :: t => let! d := py_dict jieQi k in
              if same_day d solar then Ok (Some (k, d)) else term_on jieQi solar t
  end.
Definition term_name (r : res (option (str * Solar))) : res str :=
  let! o := r in match o with Some (k, _) => Ok (convertJieQi k) | None => Ok [] end.
(** Lunar.py:608-614 [getJie] *)
Definition Lunar_getJie (l : Lunar) : res str :=
  term_name (term_on (l_jieQi l) (l_solar l) (evens Lunar_JIE_QI_IN_USE)).
(** Lunar.py:616-622 [getQi] *)
Definition Lunar_getQi (l : Lunar) : res str :=
  term_name (term_on (l_jieQi l) (l_solar l) (odds Lunar_JIE_QI_IN_USE)).

(** JieQi.py:9-14 [__init__], with [setName] (JieQi.py:23-36): name, instant, isJie, isQi *)
Record JieQi := mkJieQi { jq_name : str; jq_solar : Solar; jq_isJie : bool; jq_isQi : bool }.
Definition JieQi_new (name : str) (solar : Solar) : JieQi :=
  let i := index_of 0 name Lunar_JIE_QI in
  mkJieQi name solar ((0 <=? i) && (i mod 2 =? 1)) ((0 <=? i) && (i mod 2 =? 0)).
(** Lunar.py:1077-1086 [getJieQi] *)
Definition Lunar_getJieQi (l : Lunar) : res str :=
  term_name (term_on (l_jieQi l) (l_solar l) (map fst (l_jieQi l))).
(** Lunar.py:1088-1097 [getCurrentJieQi] *)
Definition Lunar_getCurrentJieQi (l : Lunar) : res (option JieQi) :=
  let! o := term_on (l_jieQi l) (l_solar l) (map fst (l_jieQi l)) in
  Ok (match o with Some (k, _) => Some (JieQi_new (convertJieQi k) (l_solar l)) | None => None end).
(** Lunar.py:1099-1109 [getCurrentJie] *)
Definition Lunar_getCurrentJie (l : Lunar) : res (option JieQi) :=
  let! o := term_on (l_jieQi l) (l_solar l) (evens Lunar_JIE_QI_IN_USE) in
  Ok (match o with Some (k, d) => Some (JieQi_new (convertJieQi k) d) | None => None end).
(** Lunar.py:1111-1121 [getCurrentQi] *)
Definition Lunar_getCurrentQi (l : Lunar) : res (option JieQi) :=
  let! o := term_on (l_jieQi l) (l_solar l) (odds Lunar_JIE_QI_IN_USE) in
  Ok (match o with Some (k, d) => Some (JieQi_new (convertJieQi k) d) | None => None end).

(** Lunar.py:1044-1072, one key of the search; the state is (name, near).  [conditions] = None means
    no filter. *)
Definition near_step (jieQi : list (str * Solar)) (fmt : Solar -> str) (today : str) (forward : bool)
    (conditions : option (list str)) (st : option (str * Solar)) (key : str) : res (option (str * Solar)) :=
  let jq := convertJieQi key in
  let skip := match conditions with None => false | Some [] => false | Some f => negb (existsb (str_eqb jq) f) end in
  if skip then Ok st
  else
    let! solar := py_dict jieQi key in
    let day := fmt solar in
    if forward then
      if str_leb day today then Ok st
      else match st with
           | None => Ok (Some (jq, solar))
           | Some (_, near) => if str_ltb day (fmt near) then Ok (Some (jq, solar)) else Ok st
           end
    else
      if str_ltb today day then Ok st
      else match st with
           | None => Ok (Some (jq, solar))
           | Some (_, near) => if str_ltb (fmt near) day then Ok (Some (jq, solar)) else Ok st
           end.
(** Lunar.py:1029-1075 [__getNearJieQi] *)
Definition getNearJieQi (l : Lunar) (forward : bool) (conditions : option (list str)) (whole_day : bool)
  : res (option JieQi) :=
  let fmt := if whole_day then toYmd else toYmdHms in
  let! o := foldM (near_step (l_jieQi l) fmt (fmt (l_solar l)) forward conditions) None Lunar_JIE_QI_IN_USE in
  Ok (match o with Some (name, near) => Some (JieQi_new name near) | None => None end).
(** Lunar.py:975-977 and 997-999 *)
Definition jie_conditions : res (list str) :=
  let! n := int_truediv (Z.of_nat (List.length Lunar_JIE_QI_IN_USE)) 2 in
  mapM (fun i => py_index Lunar_JIE_QI_IN_USE (i * 2)) (zrange 0 n).
Definition qi_conditions : res (list str) :=
  let! n := int_truediv (Z.of_nat (List.length Lunar_JIE_QI_IN_USE)) 2 in
  mapM (fun i => py_index Lunar_JIE_QI_IN_USE (i * 2 + 1)) (zrange 0 n).
(** Lunar.py:969-1027 *)
Definition Lunar_getNextJie (l : Lunar) (whole_day : bool) : res (option JieQi) :=
  let! c := jie_conditions in getNearJieQi l true (Some c) whole_day.
Definition Lunar_getPrevJie (l : Lunar) (whole_day : bool) : res (option JieQi) :=
  let! c := jie_conditions in getNearJieQi l false (Some c) whole_day.
Definition Lunar_getNextQi (l : Lunar) (whole_day : bool) : res (option JieQi) :=
  let! c := qi_conditions in getNearJieQi l true (Some c) whole_day.
Definition Lunar_getPrevQi (l : Lunar) (whole_day : bool) : res (option JieQi) :=
  let! c := qi_conditions in getNearJieQi l false (Some c) whole_day.
Definition Lunar_getNextJieQi (l : Lunar) (whole_day : bool) : res (option JieQi) := getNearJieQi l true None whole_day.
Definition Lunar_getPrevJieQi (l : Lunar) (whole_day : bool) : res (option JieQi) := getNearJieQi l false None whole_day.

(** Lunar.py:624-628 *)
Definition Lunar_getWeekInChinese (l : Lunar) : res str := py_index SolarUtil_WEEK (l_week l).
(** Lunar.py:630-649 *)
Definition Lunar_getXiu (l : Lunar) : res str :=
  let! z := Lunar_getDayZhi l in py_dict LunarUtil_XIU (z ++ str_of_Z (l_week l)).
Definition Lunar_getXiuLuck (l : Lunar) : res str := let! x := Lunar_getXiu l in py_dict LunarUtil_XIU_LUCK x.
Definition Lunar_getXiuSong (l : Lunar) : res str := let! x := Lunar_getXiu l in py_dict LunarUtil_XIU_SONG x.
Definition Lunar_getZheng (l : Lunar) : res str := let! x := Lunar_getXiu l in py_dict LunarUtil_ZHENG x.
Definition Lunar_getAnimal (l : Lunar) : res str := let! x := Lunar_getXiu l in py_dict LunarUtil_ANIMAL x.
Definition Lunar_getGong (l : Lunar) : res str := let! x := Lunar_getXiu l in py_dict LunarUtil_GONG x.
Definition Lunar_getShou (l : Lunar) : res str := let! x := Lunar_getGong l in py_dict LunarUtil_SHOU x.

(** ["%d-%d" % (month, day)], lines 653 and 662 *)
Definition md_key (l : Lunar) : str := str_of_Z (l_month l) ++ lit "-" ++ str_of_Z (l_day l).
(** Lunar.py:651-658 [getFestivals] *)
Definition Lunar_getFestivals (fromYear : Z -> res LYear) (l : Lunar) : res (list str) :=
  let fs := opt_list (assoc (md_key l) LunarUtil_FESTIVAL) in
  if (Z.abs (l_month l) =? 12) && (29 <=? l_day l) then
    let! n := Lunar_next fromYear l 1 in
    Ok (if negb (l_year l =? l_year n) then fs ++ [utf8 "除夕"%string] else fs)
  else Ok fs.
(** Lunar.py:671-676 and 678-683: forty days after the first 戊 day on or after a term *)
Definition she_day (fromYear : Z -> res LYear) (jq : Solar) : res Solar :=
  let! t := getLunar fromYear jq in
  let offset := 4 - l_dayGan t in
  let offset := if offset <? 0 then offset + 10 else offset in
  next jq (offset + 40).
(** Lunar.py:660-684 [getOtherFestivals] *)
Definition Lunar_getOtherFestivals (fromYear : Z -> res LYear) (l : Lunar) : res (list str) :=
  let arr := match assoc (md_key l) LunarUtil_OTHER_FESTIVAL with Some fs => fs | None => [] end in
  let today := toYmd (l_solar l) in
  let! qm := py_dict (l_jieQi l) (utf8 "清明"%string) in
  let! d := next qm (-1) in
  let arr := arr ++ (if str_eqb today (toYmd d) then [utf8 "寒食节"%string] else []) in
  let! lc := py_dict (l_jieQi l) (utf8 "立春"%string) in
  let! d := she_day fromYear lc in
  let arr := arr ++ (if str_eqb today (toYmd d) then [utf8 "春社"%string] else []) in
  let! lq := py_dict (l_jieQi l) (utf8 "立秋"%string) in
  let! d := she_day fromYear lq in
  Ok (arr ++ (if str_eqb today (toYmd d) then [utf8 "秋社"%string] else [])).

(** Lunar.py:723-727 [getZhiXing] *)
Definition Lunar_getZhiXing (l : Lunar) : res str :=
  let offset := l_dayZhi l - l_monthZhi l in
  py_index LunarUtil_ZHI_XING ((if offset <? 0 then offset + 12 else offset) + 1).
(** Lunar.py:729-745 *)
Definition tianshen (zhi_index : Z) (zhi : res str) : res str :=
  let! z := zhi in
  let! o := py_dict LunarUtil_ZHI_TIAN_SHEN_OFFSET z in
  py_index LunarUtil_TIAN_SHEN ((zhi_index + o) mod 12 + 1).
Definition Lunar_getDayTianShen (l : Lunar) : res str := tianshen (l_dayZhi l) (Lunar_getMonthZhi l).
Definition Lunar_getTimeTianShen (l : Lunar) : res str := tianshen (l_timeZhi l) (Lunar_getDayZhiExact l).
Definition tianshen_type (t : res str) : res str := let! s := t in py_dict LunarUtil_TIAN_SHEN_TYPE s.
Definition tianshen_luck (t : res str) : res str := let! s := t in py_dict LunarUtil_TIAN_SHEN_TYPE_LUCK s.
Definition Lunar_getDayTianShenType (l : Lunar) : res str := tianshen_type (Lunar_getDayTianShen l).
Definition Lunar_getTimeTianShenType (l : Lunar) : res str := tianshen_type (Lunar_getTimeTianShen l).
Definition Lunar_getDayTianShenLuck (l : Lunar) : res str := tianshen_luck (Lunar_getDayTianShenType l).
Definition Lunar_getTimeTianShenLuck (l : Lunar) : res str := tianshen_luck (Lunar_getTimeTianShenType l).
(** Lunar.py:747-754 *)
Definition Lunar_getDayPositionTai (l : Lunar) : res str :=
  let! p := Lunar_getDayInGanZhi l in py_index LunarUtil_POSITION_TAI_DAY (getJiaZiIndex p).
Definition Lunar_getMonthPositionTai (l : Lunar) : res str :=
  if l_month l <? 0 then Ok [] else py_index LunarUtil_POSITION_TAI_MONTH (l_month l - 1).
(** Lunar.py:756-804 *)
Definition Lunar_getDayYi (l : Lunar) (sect : Z) : res (list str) :=
  let! m := if 2 =? sect then Lunar_getMonthInGanZhiExact l else Lunar_getMonthInGanZhi l in
  let! d := Lunar_getDayInGanZhi l in LunarUtil_getDayYi m d.
Definition Lunar_getDayJi (l : Lunar) (sect : Z) : res (list str) :=
  let! m := if 2 =? sect then Lunar_getMonthInGanZhiExact l else Lunar_getMonthInGanZhi l in
  let! d := Lunar_getDayInGanZhi l in LunarUtil_getDayJi m d.
Definition Lunar_getTimeYi (l : Lunar) : res (list str) :=
  let! d := Lunar_getDayInGanZhiExact l in let! t := Lunar_getTimeInGanZhi l in LunarUtil_getTimeYi d t.
Definition Lunar_getTimeJi (l : Lunar) : res (list str) :=
  let! d := Lunar_getDayInGanZhiExact l in let! t := Lunar_getTimeInGanZhi l in LunarUtil_getTimeJi d t.
Definition Lunar_getDayJiShen (l : Lunar) : res (list str) :=
  let! d := Lunar_getDayInGanZhi l in LunarUtil_getDayJiShen (l_month l) d.
Definition Lunar_getDayXiongSha (l : Lunar) : res (list str) :=
  let! d := Lunar_getDayInGanZhi l in LunarUtil_getDayXiongSha (l_month l) d.
(** Lunar.py:806-811 [getYueXiang] *)
Definition Lunar_getYueXiang (l : Lunar) : res str := py_index LunarUtil_YUE_XIANG (l_day l).

(** A NineStar holds just its index (NineStar.py:25-30), which is what these return. *)
(** Lunar.py:813-825 [__getYearNineStar] *)
Definition yearNineStar (l : Lunar) (year_in_gan_zhi : str) : res Z :=
  let index_exact := getJiaZiIndex year_in_gan_zhi + 1 in
  let! y := Lunar_getYearInGanZhi l in
  let index := getJiaZiIndex y + 1 in
  let year_offset := index_exact - index in
  let year_offset := if 1 <? year_offset then year_offset - 60
                     else if year_offset <? -1 then year_offset + 60 else year_offset in
  let! q := int_truediv (l_year l + year_offset + 2696) 60 in
  let yuan := q mod 3 in
  let offset := (62 + yuan * 3 - index_exact) mod 9 in
  let offset := if 0 =? offset then 9 else offset in
  Ok (offset - 1).
(** Lunar.py:827-834 [getYearNineStar] *)
Definition Lunar_getYearNineStar (l : Lunar) (sect : Z) : res Z :=
  let! p := if 1 =? sect then Lunar_getYearInGanZhi l
            else if 3 =? sect then Lunar_getYearInGanZhiExact l
            else Lunar_getYearInGanZhiByLiChun l in
  yearNineStar l p.
(** Lunar.py:837-843 [__getMonthNineStar] *)
Definition monthNineStar (year_zhi_index month_zhi_index : Z) : Z :=
  let n := 27 - year_zhi_index mod 3 * 3 in
  let n := if month_zhi_index <? LunarUtil_BASE_MONTH_ZHI_INDEX then n - 3 else n in
  (n - month_zhi_index) mod 9.
(** Lunar.py:845-855 [getMonthNineStar] *)
Definition Lunar_getMonthNineStar (l : Lunar) (sect : Z) : Z :=
  if 1 =? sect then monthNineStar (l_yearZhi l) (l_monthZhi l)
  else if 3 =? sect then monthNineStar (l_yearZhiExact l) (l_monthZhiExact l)
  else monthNineStar (l_yearZhiByLiChun l) (l_monthZhi l).
(** Lunar.py:867-881: the 甲子 day nearest to a solstice *)
Definition near_jiazi (fromYear : Z -> res LYear) (zhi : Solar) : res Solar :=
  let! t := getLunar fromYear zhi in
  let! p := Lunar_getDayInGanZhi t in
  let i := getJiaZiIndex p in
  if 29 <? i then next zhi (60 - i) else next zhi (- i).
(** Lunar.py:857-891 [getDayNineStar] *)
Definition Lunar_getDayNineStar (fromYear : Z -> res LYear) (l : Lunar) : res Z :=
  let today := toYmd (l_solar l) in
  let! dong_zhi := py_dict (l_jieQi l) (utf8 "冬至"%string) in
  let! dong_zhi2 := py_dict (l_jieQi l) (utf8 "DONG_ZHI"%string) in
  let! xia_zhi := py_dict (l_jieQi l) (utf8 "夏至"%string) in
  let! shun := near_jiazi fromYear dong_zhi in
  let! shun2 := near_jiazi fromYear dong_zhi2 in
  let! ni := near_jiazi fromYear xia_zhi in
  if str_leb (toYmd shun) today && str_ltb today (toYmd ni) then
    let! n := subtract (l_solar l) shun in Ok (n mod 9)
  else if str_leb (toYmd ni) today && str_ltb today (toYmd shun2) then
    let! n := subtract (l_solar l) ni in Ok (8 - n mod 9)
  else if str_leb (toYmd shun2) today then
    let! n := subtract (l_solar l) shun2 in Ok (n mod 9)
  else if str_ltb today (toYmd shun) then
    let! n := subtract shun (l_solar l) in Ok ((8 + n) mod 9)
  else Ok 0.
(** Lunar.py:893-907 [getTimeNineStar] *)
Definition Lunar_getTimeNineStar (l : Lunar) : res Z :=
  let today := toYmd (l_solar l) in
  let! dong_zhi := py_dict (l_jieQi l) (utf8 "冬至"%string) in
  let! xia_zhi := py_dict (l_jieQi l) (utf8 "夏至"%string) in
  let! dong_zhi2 := py_dict (l_jieQi l) (utf8 "DONG_ZHI"%string) in
  let asc := (str_leb (toYmd dong_zhi) today && str_ltb today (toYmd xia_zhi)) || str_leb (toYmd dong_zhi2) today in
  let! z := Lunar_getDayZhi l in
  let start := if py_in z (utf8 "子午卯酉"%string) then (if asc then 0 else 8)
               else if py_in z (utf8 "辰戌丑未"%string) then (if asc then 3 else 5)
               else (if asc then 6 else 2) in
  let index := if asc then start + l_timeZhi l else start + 9 - l_timeZhi l in
  Ok (index mod 9).

(** Lunar.py:1134-1135 [toString] *)
Definition Lunar_toString (l : Lunar) : res str :=
  let! y := Lunar_getYearInChinese l in
  let! m := Lunar_getMonthInChinese l in
  let! d := Lunar_getDayInChinese l in
  Ok (y ++ utf8 "年"%string ++ m ++ utf8 "月"%string ++ d).

(** Lunar.py:1164-1288 *)
Definition xun_of (p : res str) : res str := let! s := p in LunarUtil_getXun s.
Definition xunkong_of (p : res str) : res str := let! s := p in LunarUtil_getXunKong s.
Definition Lunar_getYearXun (l : Lunar) : res str := xun_of (Lunar_getYearInGanZhi l).
Definition Lunar_getYearXunByLiChun (l : Lunar) : res str := xun_of (Lunar_getYearInGanZhiByLiChun l).
Definition Lunar_getYearXunExact (l : Lunar) : res str := xun_of (Lunar_getYearInGanZhiExact l).
Definition Lunar_getYearXunKong (l : Lunar) : res str := xunkong_of (Lunar_getYearInGanZhi l).
Definition Lunar_getYearXunKongByLiChun (l : Lunar) : res str := xunkong_of (Lunar_getYearInGanZhiByLiChun l).
Definition Lunar_getYearXunKongExact (l : Lunar) : res str := xunkong_of (Lunar_getYearInGanZhiExact l).
Definition Lunar_getMonthXun (l : Lunar) : res str := xun_of (Lunar_getMonthInGanZhi l).
Definition Lunar_getMonthXunExact (l : Lunar) : res str := xun_of (Lunar_getMonthInGanZhiExact l).
Definition Lunar_getMonthXunKong (l : Lunar) : res str := xunkong_of (Lunar_getMonthInGanZhi l).
Definition Lunar_getMonthXunKongExact (l : Lunar) : res str := xunkong_of (Lunar_getMonthInGanZhiExact l).
Definition Lunar_getDayXun (l : Lunar) : res str := xun_of (Lunar_getDayInGanZhi l).
Definition Lunar_getDayXunExact (l : Lunar) : res str := xun_of (Lunar_getDayInGanZhiExact l).
Definition Lunar_getDayXunExact2 (l : Lunar) : res str := xun_of (Lunar_getDayInGanZhiExact2 l).
Definition Lunar_getDayXunKong (l : Lunar) : res str := xunkong_of (Lunar_getDayInGanZhi l).
Definition Lunar_getDayXunKongExact (l : Lunar) : res str := xunkong_of (Lunar_getDayInGanZhiExact l).
Definition Lunar_getDayXunKongExact2 (l : Lunar) : res str := xunkong_of (Lunar_getDayInGanZhiExact2 l).
Definition Lunar_getTimeXun (l : Lunar) : res str := xun_of (Lunar_getTimeInGanZhi l).
Definition Lunar_getTimeXunKong (l : Lunar) : res str := xunkong_of (Lunar_getTimeInGanZhi l).

(** Lunar.py:1290-1305 [getShuJiu]; ShuJiu.py:9-11 holds the name and the index *)
Definition Lunar_getShuJiu (l : Lunar) : res (option (str * Z)) :=
  let! current := fromYmd (sy (l_solar l)) (sm (l_solar l)) (sd (l_solar l)) in
  let! start := py_dict (l_jieQi l) (utf8 "DONG_ZHI"%string) in
  let! start := fromYmd (sy start) (sm start) (sd start) in
  let! start := if isBefore current start then
                  let! start := py_dict (l_jieQi l) (utf8 "冬至"%string) in
                  fromYmd (sy start) (sm start) (sd start)
                else Ok start in
  let! s := fromYmd (sy start) (sm start) (sd start) in
  let! end_ := next s 81 in
  if isBefore current start || negb (isBefore current end_) then Ok None
  else
    let! days := subtract current start in
    let! i := int_truediv days 9 in
    let! n := py_index LunarUtil_NUMBER (i + 1) in
    Ok (Some (n ++ utf8 "九"%string, days mod 9 + 1)).

(** Lunar.py:1307-1340 [getFu]; Fu.py:10-12 holds the name and the index *)
Definition Lunar_getFu (fromYear : Z -> res LYear) (l : Lunar) : res (option (str * Z)) :=
  let! current := fromYmd (sy (l_solar l)) (sm (l_solar l)) (sd (l_solar l)) in
  let! xia_zhi := py_dict (l_jieQi l) (utf8 "夏至"%string) in
  let! li_qiu := py_dict (l_jieQi l) (utf8 "立秋"%string) in
  let! start := fromYmd (sy xia_zhi) (sm xia_zhi) (sd xia_zhi) in
  let! t := getLunar fromYear xia_zhi in
  let add := 6 - l_dayGan t in
  let add := if add <? 0 then add + 10 else add in
  let! start := next start (add + 20) in
  if isBefore current start then Ok None
  else
    let! days := subtract current start in
    if days <? 10 then Ok (Some (utf8 "初伏"%string, days + 1))
    else
      let! start := next start 10 in
      let! days := subtract current start in
      if days <? 10 then Ok (Some (utf8 "中伏"%string, days + 1))
      else
        let! start := next start 10 in
        let! days := subtract current start in
        let! li_qiu_solar := fromYmd (sy li_qiu) (sm li_qiu) (sd li_qiu) in
        if isAfter li_qiu_solar start then
          if days <? 10 then Ok (Some (utf8 "中伏"%string, days + 11))
          else
            let! start := next start 10 in
            let! days := subtract current start in
            if days <? 10 then Ok (Some (utf8 "末伏"%string, days + 1)) else Ok None
        else if days <? 10 then Ok (Some (utf8 "末伏"%string, days + 1)) else Ok None.

(** Lunar.py:1342-1347 [getLiuYao] *)
Definition Lunar_getLiuYao (l : Lunar) : res str :=
  py_index LunarUtil_LIU_YAO ((Z.abs (l_month l) + l_day l - 2) mod 6).
(** Lunar.py:1349-1363 [getWuHou]; a None term raises AttributeError *)
Definition Lunar_getWuHou (l : Lunar) : res str :=
  let! jq := Lunar_getPrevJieQi l true in
  match jq with
  | None => Raise ExcAttr
  | Some jq =>
      let offset := Z.max 0 (index_of 0 (jq_name jq) Lunar_JIE_QI) in
      let! n := subtract (l_solar l) (jq_solar jq) in
      let! index := int_truediv n 5 in
      let index := if 2 <? index then 2 else index in
      py_index LunarUtil_WU_HOU ((offset * 3 + index) mod Z.of_nat (List.length LunarUtil_WU_HOU))
  end.
(** Lunar.py:1365-1371 [getHou] *)
Definition Lunar_getHou (l : Lunar) : res str :=
  let! jq := Lunar_getPrevJieQi l true in
  match jq with
  | None => Raise ExcAttr
  | Some jq =>
      let size := Z.of_nat (List.length LunarUtil_HOU) - 1 in
      let! n := subtract (l_solar l) (jq_solar jq) in
      let! offset := int_truediv n 5 in
      let offset := if size <? offset then size else offset in
      let! h := py_index LunarUtil_HOU offset in
      Ok (jq_name jq ++ lit " " ++ h)
  end.
(** Lunar.py:1373-1385 [getDayLu] *)
Definition Lunar_getDayLu (l : Lunar) : res str :=
  let! g := Lunar_getDayGan l in
  let! gan := py_dict LunarUtil_LU g in
  let! z := Lunar_getDayZhi l in
  let lu := gan ++ utf8 "命互禄"%string in
  Ok (match assoc z LunarUtil_LU with
      | Some zhi => lu ++ lit " " ++ zhi ++ utf8 "命进禄"%string
      | None => lu
      end).

(** Lunar.py:1137-1162 [toFullString] *)
Definition Lunar_toFullString (fromYear : Z -> res LYear) (l : Lunar) : res str :=
  let! s0 := Lunar_toString l in
  let! y := Lunar_getYearInGanZhi l in let! ya := Lunar_getYearShengXiao l in
  let! m := Lunar_getMonthInGanZhi l in let! ma := Lunar_getMonthShengXiao l in
  let! d := Lunar_getDayInGanZhi l in let! da := Lunar_getDayShengXiao l in
  let! t := Lunar_getTimeZhi l in let! ta := Lunar_getTimeShengXiao l in
  let! ny := Lunar_getYearNaYin l in let! nm := Lunar_getMonthNaYin l in
  let! nd := Lunar_getDayNaYin l in let! nt := Lunar_getTimeNaYin l in
  let! w := Lunar_getWeekInChinese l in
  let! fs := Lunar_getFestivals fromYear l in
  let! gs := Lunar_getOtherFestivals fromYear l in
  let! jq := Lunar_getJieQi l in
  let! gong := Lunar_getGong l in let! shou := Lunar_getShou l in
  let! xiu := Lunar_getXiu l in let! zheng := Lunar_getZheng l in
  let! animal := Lunar_getAnimal l in let! luck := Lunar_getXiuLuck l in
  let! pg := Lunar_getPengZuGan l in let! pz := Lunar_getPengZuZhi l in
  let! xi := Lunar_getDayPositionXi l in let! xid := position_desc (Lunar_getDayPositionXi l) in
  let! yg := Lunar_getDayPositionYangGui l in let! ygd := position_desc (Lunar_getDayPositionYangGui l) in
  let! yi := Lunar_getDayPositionYinGui l in let! yid := position_desc (Lunar_getDayPositionYinGui l) in
  let! fu := Lunar_getDayPositionFu l 2 in let! fud := position_desc (Lunar_getDayPositionFu l 2) in
  let! cai := Lunar_getDayPositionCai l in let! caid := position_desc (Lunar_getDayPositionCai l) in
  let! chong := Lunar_getDayChongDesc l in
  let! sha := Lunar_getDaySha l in
  let pos := fun label p d => utf8 label ++ p ++ lit "](" ++ d ++ lit ")" in
  Ok (s0 ++ lit " " ++ y ++ lit "(" ++ ya ++ utf8 ")年 "%string ++ m ++ lit "(" ++ ma ++ utf8 ")月 "%string
      ++ d ++ lit "(" ++ da ++ utf8 ")日 "%string ++ t ++ lit "(" ++ ta ++ utf8 ")时"%string
      ++ utf8 " 纳音["%string ++ ny ++ lit " " ++ nm ++ lit " " ++ nd ++ lit " " ++ nt ++ lit "]"
      ++ utf8 " 星期"%string ++ w
      ++ concat (map (fun f => lit " (" ++ f ++ lit ")") (fs ++ gs))
      ++ (match jq with [] => [] | _ => lit " [" ++ jq ++ lit "]" end)
      ++ lit " " ++ gong ++ utf8 "方"%string ++ shou
      ++ utf8 " 星宿["%string ++ xiu ++ zheng ++ animal ++ lit "](" ++ luck ++ lit ")"
      ++ utf8 " 彭祖百忌["%string ++ pg ++ lit " " ++ pz ++ lit "]"
      ++ pos " 喜神方位["%string xi xid
      ++ pos " 阳贵神方位["%string yg ygd
      ++ pos " 阴贵神方位["%string yi yid
      ++ pos " 福神方位["%string fu fud
      ++ pos " 财神方位["%string cai caid
      ++ utf8 " 冲["%string ++ chong ++ lit "]"
      ++ utf8 " 煞["%string ++ sha ++ lit "]").
