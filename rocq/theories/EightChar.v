(** Model of EightChar.py and of eightchar/Yun.py, DaYun.py, LiuNian.py, XiaoYun.py, LiuYue.py. *)
From Coq Require Import ZArith Lia Bool List String Floats.
From Verif Require Import Py PyFloat PyStr Solar SolarUnits LunarUtil T_LunarUtil T_Misc LunarYear Lunar LunarTime.
Import ListNotations.
Open Scope Z_scope.

(** EightChar.py:27-29 [__init__], the attributes; EightChar.py:44-45 [setSect] replaces the first.
    Lunar.py:686-689 [getEightChar] keeps one object per Lunar, created with sect 2. *)
Record EightChar := mkEightChar { e_sect : Z; e_lunar : Lunar }.
Definition Lunar_getEightChar (l : Lunar) : EightChar := mkEightChar 2 l.
Definition setSect (e : EightChar) (sect : Z) : EightChar := mkEightChar sect (e_lunar e).

(** EightChar.py:47-66, EightChar.py:131-150, EightChar.py:257-276 *)
Definition EightChar_getYear (e : EightChar) : res str := Lunar_getYearInGanZhiExact (e_lunar e).
Definition EightChar_getYearGan (e : EightChar) : res str := Lunar_getYearGanExact (e_lunar e).
Definition EightChar_getYearZhi (e : EightChar) : res str := Lunar_getYearZhiExact (e_lunar e).
Definition EightChar_getMonth (e : EightChar) : res str := Lunar_getMonthInGanZhiExact (e_lunar e).
Definition EightChar_getMonthGan (e : EightChar) : res str := Lunar_getMonthGanExact (e_lunar e).
Definition EightChar_getMonthZhi (e : EightChar) : res str := Lunar_getMonthZhiExact (e_lunar e).
Definition EightChar_getTime (e : EightChar) : res str := Lunar_getTimeInGanZhi (e_lunar e).
Definition EightChar_getTimeGan (e : EightChar) : res str := Lunar_getTimeGan (e_lunar e).
Definition EightChar_getTimeZhi (e : EightChar) : res str := Lunar_getTimeZhi (e_lunar e).
(** EightChar.py:110-114, EightChar.py:194-213: [a if 2 == self.__sect else b] *)
Definition by_sect {A} (e : EightChar) (a b : Lunar -> A) : A := if 2 =? e_sect e then a (e_lunar e) else b (e_lunar e).
Definition EightChar_getDayGanIndex (e : EightChar) : Z := by_sect e l_dayGanExact2 l_dayGanExact.
Definition EightChar_getDayZhiIndex (e : EightChar) : Z := by_sect e l_dayZhiExact2 l_dayZhiExact.
Definition EightChar_getDay (e : EightChar) : res str := by_sect e Lunar_getDayInGanZhiExact2 Lunar_getDayInGanZhiExact.
Definition EightChar_getDayGan (e : EightChar) : res str := by_sect e Lunar_getDayGanExact2 Lunar_getDayGanExact.
Definition EightChar_getDayZhi (e : EightChar) : res str := by_sect e Lunar_getDayZhiExact2 Lunar_getDayZhiExact.
(** EightChar.py:35-36 [toString] *)
Definition EightChar_toString (e : EightChar) : res str :=
  let! y := EightChar_getYear e in let! m := EightChar_getMonth e in
  let! d := EightChar_getDay e in let! t := EightChar_getTime e in
  Ok (y ++ lit " " ++ m ++ lit " " ++ d ++ lit " " ++ t).

(** [table.get(key)]: None for a missing key *)
Definition dict_get {A} (table : list (str * A)) (key : res str) : res (option A) := let! k := key in Ok (assoc k table).
(** EightChar.py:68-73 [getYearHideGan] and those of month, day and time *)
Definition hideGan (zhi : res str) : res (option (list str)) := dict_get LunarUtil_ZHI_HIDE_GAN zhi.
Definition EightChar_getYearHideGan (e : EightChar) := hideGan (EightChar_getYearZhi e).
Definition EightChar_getMonthHideGan (e : EightChar) := hideGan (EightChar_getMonthZhi e).
Definition EightChar_getDayHideGan (e : EightChar) := hideGan (EightChar_getDayZhi e).
Definition EightChar_getTimeHideGan (e : EightChar) := hideGan (EightChar_getTimeZhi e).
(** EightChar.py:75-80 [getYearWuXing] and those of month, day and time: adding None raises TypeError *)
Definition wuXing (gan zhi : res str) : res str :=
  let! g := gan in let! z := zhi in
  match assoc g LunarUtil_WU_XING_GAN, assoc z LunarUtil_WU_XING_ZHI with
  | Some a, Some b => Ok (a ++ b)
  | _, _ => Raise ExcType
  end.
Definition EightChar_getYearWuXing (e : EightChar) := wuXing (EightChar_getYearGan e) (EightChar_getYearZhi e).
Definition EightChar_getMonthWuXing (e : EightChar) := wuXing (EightChar_getMonthGan e) (EightChar_getMonthZhi e).
Definition EightChar_getDayWuXing (e : EightChar) := wuXing (EightChar_getDayGan e) (EightChar_getDayZhi e).
Definition EightChar_getTimeWuXing (e : EightChar) := wuXing (EightChar_getTimeGan e) (EightChar_getTimeZhi e).
(** EightChar.py:82-87 [getYearNaYin] and those of month, day and time *)
Definition naYin (pillar : res str) : res (option str) := dict_get LunarUtil_NAYIN pillar.
Definition EightChar_getYearNaYin (e : EightChar) := naYin (EightChar_getYear e).
Definition EightChar_getMonthNaYin (e : EightChar) := naYin (EightChar_getMonth e).
Definition EightChar_getDayNaYin (e : EightChar) := naYin (EightChar_getDay e).
Definition EightChar_getTimeNaYin (e : EightChar) := naYin (EightChar_getTime e).
(** EightChar.py:89-94 [getYearShiShenGan] and those of month and time (EightChar.py:236-241 [getDayShiShenGan] is a constant) *)
Definition shiShenGan (e : EightChar) (gan : res str) : res (option str) :=
  dict_get LunarUtil_SHI_SHEN (cat2 (EightChar_getDayGan e) gan).
Definition EightChar_getYearShiShenGan (e : EightChar) := shiShenGan e (EightChar_getYearGan e).
Definition EightChar_getMonthShiShenGan (e : EightChar) := shiShenGan e (EightChar_getMonthGan e).
Definition EightChar_getTimeShiShenGan (e : EightChar) := shiShenGan e (EightChar_getTimeGan e).
(** EightChar.py:96-101 [__getShiShenZhi]: iterating over None raises TypeError *)
Definition shiShenZhi (e : EightChar) (zhi : res str) : res (list (option str)) :=
  let! h := hideGan zhi in
  match h with
  | None => Raise ExcType
  | Some gans => mapM (fun gan => shiShenGan e (Ok gan)) gans
  end.
Definition EightChar_getYearShiShenZhi (e : EightChar) := shiShenZhi e (EightChar_getYearZhi e).
Definition EightChar_getMonthShiShenZhi (e : EightChar) := shiShenZhi e (EightChar_getMonthZhi e).
Definition EightChar_getDayShiShenZhi (e : EightChar) := shiShenZhi e (EightChar_getDayZhi e).
Definition EightChar_getTimeShiShenZhi (e : EightChar) := shiShenZhi e (EightChar_getTimeZhi e).
(** EightChar.py:116-122 [__getDiShi] *)
Definition diShi (e : EightChar) (zhi_index : Z) : res str :=
  let! g := EightChar_getDayGan e in
  match assoc g EightChar_CHANG_SHENG_OFFSET with
  | None => Raise ExcType
  | Some o =>
      let index := o + (if EightChar_getDayGanIndex e mod 2 =? 0 then zhi_index else - zhi_index) in
      let index := if 12 <=? index then index - 12 else index in
      let index := if index <? 0 then index + 12 else index in
      py_index EightChar_CHANG_SHENG index
  end.
Definition EightChar_getYearDiShi (e : EightChar) := diShi e (l_yearZhiExact (e_lunar e)).
Definition EightChar_getMonthDiShi (e : EightChar) := diShi e (l_monthZhiExact (e_lunar e)).
Definition EightChar_getDayDiShi (e : EightChar) := diShi e (EightChar_getDayZhiIndex e).
Definition EightChar_getTimeDiShi (e : EightChar) := diShi e (l_timeZhi (e_lunar e)).
(** EightChar.py:320-331 [getTaiYuan] *)
Definition EightChar_getTaiYuan (e : EightChar) : res str :=
  let g := l_monthGanExact (e_lunar e) + 1 in
  let g := if 10 <=? g then g - 10 else g in
  let z := l_monthZhiExact (e_lunar e) + 3 in
  let z := if 12 <=? z then z - 12 else z in
  cat2 (py_index LunarUtil_GAN (g + 1)) (py_index LunarUtil_ZHI (z + 1)).
(** EightChar.py:340-347 [getTaiXi] *)
Definition EightChar_getTaiXi (e : EightChar) : res str :=
  cat2 (py_index LunarUtil_HE_GAN_5 (EightChar_getDayGanIndex e)) (py_index LunarUtil_HE_ZHI_6 (EightChar_getDayZhiIndex e)).
(** the loops of EightChar.py:356-383 [getMingGong]: first position of [zhi], 0 when absent *)
Definition pos0 (zhi : str) (names : list str) : Z := Z.max 0 (index_of 0 zhi names).
(** [while g > n: g -= n] *)
Definition reduce (n g : Z) : Z := if n <? g then (g - 1) mod n + 1 else g.
(** EightChar.py:356-383 [getMingGong] *)
Definition EightChar_getMingGong (e : EightChar) : res str :=
  let! mz := EightChar_getMonthZhi e in
  let! tz := EightChar_getTimeZhi e in
  let offset := pos0 mz EightChar_MONTH_ZHI + pos0 tz EightChar_MONTH_ZHI in
  let offset := if 14 <=? offset then 26 - offset else 14 - offset in
  let gan_index := reduce 10 ((l_yearGanExact (e_lunar e) + 1) * 2 + offset) in
  cat2 (py_index LunarUtil_GAN gan_index) (py_index EightChar_MONTH_ZHI offset).
(** EightChar.py:392-417 [getShenGong] *)
Definition EightChar_getShenGong (e : EightChar) : res str :=
  let! mz := EightChar_getMonthZhi e in
  let! tz := EightChar_getTimeZhi e in
  let offset := reduce 12 (pos0 mz EightChar_MONTH_ZHI + pos0 tz LunarUtil_ZHI) in
  let gan_index := reduce 10 ((l_yearGanExact (e_lunar e) + 1) * 2 + offset mod 12) in
  cat2 (py_index LunarUtil_GAN gan_index) (py_index EightChar_MONTH_ZHI offset).
(** EightChar.py:333-338 [getTaiYuanNaYin] and the other three *)
Definition EightChar_getTaiYuanNaYin (e : EightChar) := naYin (EightChar_getTaiYuan e).
Definition EightChar_getTaiXiNaYin (e : EightChar) := naYin (EightChar_getTaiXi e).
Definition EightChar_getMingGongNaYin (e : EightChar) := naYin (EightChar_getMingGong e).
Definition EightChar_getShenGongNaYin (e : EightChar) := naYin (EightChar_getShenGong e).
(** EightChar.py:439-493 *)
Definition EightChar_getYearXun (e : EightChar) := Lunar_getYearXunExact (e_lunar e).
Definition EightChar_getYearXunKong (e : EightChar) := Lunar_getYearXunKongExact (e_lunar e).
Definition EightChar_getMonthXun (e : EightChar) := Lunar_getMonthXunExact (e_lunar e).
Definition EightChar_getMonthXunKong (e : EightChar) := Lunar_getMonthXunKongExact (e_lunar e).
Definition EightChar_getDayXun (e : EightChar) := by_sect e Lunar_getDayXunExact2 Lunar_getDayXunExact.
Definition EightChar_getDayXunKong (e : EightChar) := by_sect e Lunar_getDayXunKongExact2 Lunar_getDayXunKongExact.
Definition EightChar_getTimeXun (e : EightChar) := Lunar_getTimeXun (e_lunar e).
Definition EightChar_getTimeXunKong (e : EightChar) := Lunar_getTimeXunKong (e_lunar e).

(** Lunar.py:691-721: the lists of Lunar are these values of its EightChar *)
Definition Lunar_getBaZi (e : EightChar) : res (list str) :=
  mapM (fun f => f e) [EightChar_getYear; EightChar_getMonth; EightChar_getDay; EightChar_getTime].
Definition Lunar_getBaZiWuXing (e : EightChar) : res (list str) :=
  mapM (fun f => f e) [EightChar_getYearWuXing; EightChar_getMonthWuXing; EightChar_getDayWuXing; EightChar_getTimeWuXing].
Definition Lunar_getBaZiNaYin (e : EightChar) : res (list (option str)) :=
  mapM (fun f => f e) [EightChar_getYearNaYin; EightChar_getMonthNaYin; EightChar_getDayNaYin; EightChar_getTimeNaYin].
(** EightChar.py:236-241 [getDayShiShenGan] *)
Definition EightChar_getDayShiShenGan (e : EightChar) : res (option str) := Ok (Some (utf8 "日主"%string)).
Definition Lunar_getBaZiShiShenGan (e : EightChar) : res (list (option str)) :=
  mapM (fun f => f e) [EightChar_getYearShiShenGan; EightChar_getMonthShiShenGan; EightChar_getDayShiShenGan; EightChar_getTimeShiShenGan].
Definition Lunar_getBaZiShiShenZhi (e : EightChar) : res (list (option str)) :=
  mapM (fun f => let! gods := f e in py_index gods 0) [EightChar_getYearShiShenZhi; EightChar_getMonthShiShenZhi; EightChar_getDayShiShenZhi; EightChar_getTimeShiShenZhi].

(** eightchar/Yun.py:11-17 [__init__], the attributes *)
Record Yun := mkYun { y_lunar : Lunar; y_gender : Z; y_forward : bool; y_year : Z; y_month : Z; y_day : Z; y_hour : Z }.
(** eightchar/Yun.py:19-57 [__compute_start], lines 33-39 (sect 2): (year, month, day, hour) *)
Definition yun_minutes (minutes : Z) : res (Z * Z * Z * Z) :=
  let! year := int_truediv minutes 4320 in
  let minutes := minutes - year * 4320 in
  let! month := int_truediv minutes 360 in
  let minutes := minutes - month * 360 in
  let! day := int_truediv minutes 12 in
  let minutes := minutes - day * 12 in
  Ok (year, month, day, minutes * 2).
(** eightchar/Yun.py:41-42: the double hour of a moment, with 23:00 counted in the last one of its day *)
Definition yun_zhi (s : Solar) : Z := if sh s =? 23 then 11 else getTimeZhiIndex (slice (toYmdHms s) 11 16).
(** eightchar/Yun.py:41-53 (the other sects) *)
Definition yun_hours (start end_ : Solar) : res (Z * Z * Z * Z) :=
  let hour_diff := yun_zhi end_ - yun_zhi start in
  let! day_diff := subtract end_ start in
  let '(hour_diff, day_diff) := if hour_diff <? 0 then (hour_diff + 12, day_diff - 1) else (hour_diff, day_diff) in
  let! month_diff := int_truediv (hour_diff * 10) 30 in
  let month := day_diff * 4 + month_diff in
  let day := hour_diff * 10 - month_diff * 30 in
  let! year := int_truediv month 12 in
  Ok (year, month - year * 12, day, 0).
(** eightchar/Yun.py:11-17 [__init__] and eightchar/Yun.py:19-57 [__compute_start]; a missing term raises AttributeError *)
Definition getYun (e : EightChar) (gender sect : Z) : res Yun :=
  let l := e_lunar e in
  let yang := 0 =? l_yearGanExact l mod 2 in
  let man := 1 =? gender in
  let forward := (yang && man) || (negb yang && negb man) in
  let! prev_jie := Lunar_getPrevJie l false in
  let! next_jie := Lunar_getNextJie l false in
  let current := l_solar l in
  let! start := if forward then Ok current else match prev_jie with Some j => Ok (jq_solar j) | None => Raise ExcAttr end in
  let! end_ := if forward then match next_jie with Some j => Ok (jq_solar j) | None => Raise ExcAttr end else Ok current in
  let! r := if 2 =? sect then let! minutes := subtractMinute end_ start in yun_minutes minutes else yun_hours start end_ in
  let '(year, month, day, hour) := r in
  Ok (mkYun l gender forward year month day hour).
(** eightchar/Yun.py:104-113 [getStartSolar] *)
Definition Yun_getStartSolar (y : Yun) : res Solar :=
  let! s := nextYear (l_solar (y_lunar y)) (y_year y) in
  let! s := nextMonth s (y_month y) in
  let! s := next s (y_day y) in
  nextHour s (y_hour y).

(** eightchar/DaYun.py:11-27 [__init__], the attributes *)
Record DaYun := mkDaYun { d_yun : Yun; d_index : Z; d_startYear : Z; d_startAge : Z; d_endYear : Z; d_endAge : Z }.
Definition DaYun_new (y : Yun) (index : Z) : res DaYun :=
  let birth_year := sy (l_solar (y_lunar y)) in
  let! s := Yun_getStartSolar y in
  let year := sy s in
  Ok (if index <? 1 then mkDaYun y index birth_year 1 (year - 1) (year - birth_year)
      else
        let startYear := year + (index - 1) * 10 in
        let startAge := startYear - birth_year + 1 in
        mkDaYun y index startYear startAge (startYear + 9) (startAge + 9)).
(** eightchar/Yun.py:115-124 [getDaYun] *)
Definition getDaYun (y : Yun) (n : Z) : res (list DaYun) := mapM (DaYun_new y) (zrange 0 n).
(** eightchar/DaYun.py:47-61 [getGanZhi] *)
Definition DaYun_getGanZhi (d : DaYun) : res str :=
  if d_index d <? 1 then Ok []
  else
    let! m := Lunar_getMonthInGanZhiExact (y_lunar (d_yun d)) in
    let offset := getJiaZiIndex m + (if y_forward (d_yun d) then d_index d else - d_index d) in
    let size := Z.of_nat (List.length LunarUtil_JIA_ZI) in
    let offset := if size <=? offset then offset - size else offset in
    let offset := if offset <? 0 then offset + size else offset in
    py_index LunarUtil_JIA_ZI offset.
(** eightchar/DaYun.py:63-75 *)
Definition DaYun_getXun (d : DaYun) : res str := xun_of (DaYun_getGanZhi d).
Definition DaYun_getXunKong (d : DaYun) : res str := xunkong_of (DaYun_getGanZhi d).

(** eightchar/LiuNian.py:11-16 [__init__] and eightchar/XiaoYun.py:10-16 [__init__]: decade and index; a XiaoYun's
    [__forward] is that of the Yun (eightchar/DaYun.py:90-101 [getXiaoYun]) *)
Record LiuNian := mkLiuNian { n_daYun : DaYun; n_index : Z; n_year : Z; n_age : Z }.
Definition LiuNian_new (d : DaYun) (i : Z) : LiuNian := mkLiuNian d i (d_startYear d + i) (d_startAge d + i).
(** eightchar/DaYun.py:77-88 [getLiuNian] and eightchar/DaYun.py:90-101 [getXiaoYun]: the number of years *)
Definition daYun_years (d : DaYun) (n : Z) : Z := if d_index d <? 1 then d_endYear d - d_startYear d + 1 else n.
Definition getLiuNian (d : DaYun) (n : Z) : list LiuNian := map (LiuNian_new d) (zrange 0 (daYun_years d n)).
Definition getXiaoYun (d : DaYun) (n : Z) : list LiuNian := map (LiuNian_new d) (zrange 0 (daYun_years d n)).
(** eightchar/LiuNian.py:27-36 [getGanZhi] *)
Definition LiuNian_getGanZhi (fromYear : Z -> res LYear) (x : LiuNian) : res str :=
  let d := n_daYun x in
  let! lc := py_dict (l_jieQi (y_lunar (d_yun d))) (utf8 "立春"%string) in
  let! l := getLunar fromYear lc in
  let! p := Lunar_getYearInGanZhiExact l in
  let offset := getJiaZiIndex p + n_index x in
  let offset := if 0 <? d_index d then offset + (d_startAge d - 1) else offset in
  py_index LunarUtil_JIA_ZI (offset mod Z.of_nat (List.length LunarUtil_JIA_ZI)).
(** eightchar/LiuNian.py:38-50 *)
Definition LiuNian_getXun (fromYear : Z -> res LYear) (x : LiuNian) : res str := xun_of (LiuNian_getGanZhi fromYear x).
Definition LiuNian_getXunKong (fromYear : Z -> res LYear) (x : LiuNian) : res str := xunkong_of (LiuNian_getGanZhi fromYear x).
(** eightchar/XiaoYun.py:27-41 [getGanZhi]; adding 60 while negative does not change the remainder *)
Definition XiaoYun_getGanZhi (x : LiuNian) : res str :=
  let d := n_daYun x in
  let! p := Lunar_getTimeInGanZhi (y_lunar (d_yun d)) in
  let add := n_index x + 1 in
  let add := if 0 <? d_index d then add + (d_startAge d - 1) else add in
  let offset := getJiaZiIndex p + (if y_forward (d_yun d) then add else - add) in
  py_index LunarUtil_JIA_ZI (offset mod Z.of_nat (List.length LunarUtil_JIA_ZI)).
(** eightchar/XiaoYun.py:43-55 *)
Definition XiaoYun_getXun (x : LiuNian) : res str := xun_of (XiaoYun_getGanZhi x).
Definition XiaoYun_getXunKong (x : LiuNian) : res str := xunkong_of (XiaoYun_getGanZhi x).
(** eightchar/LiuYue.py:25-51 [getGanZhi], from the pillar of the year; eightchar/LiuNian.py:52-61 [getLiuYue] makes indices 0..11 *)
Definition liuYue_ganZhi (year_gan_zhi : str) (index : Z) : res str :=
  let g := slice year_gan_zhi 0 1 in
  let is c := str_eqb (utf8 c) g in
  let offset := if is "甲"%string || is "己"%string then 2
                else if is "乙"%string || is "庚"%string then 4
                else if is "丙"%string || is "辛"%string then 6
                else if is "丁"%string || is "壬"%string then 8 else 0 in
  cat2 (py_index LunarUtil_GAN ((index + offset) mod 10 + 1))
       (py_index LunarUtil_ZHI ((index + LunarUtil_BASE_MONTH_ZHI_INDEX) mod 12 + 1)).
Definition LiuYue_getGanZhi (fromYear : Z -> res LYear) (x : LiuNian) (index : Z) : res str :=
  let! p := LiuNian_getGanZhi fromYear x in liuYue_ganZhi p index.
(** eightchar/LiuYue.py:53-65 *)
Definition LiuYue_getXun (fromYear : Z -> res LYear) (x : LiuNian) (index : Z) : res str := xun_of (LiuYue_getGanZhi fromYear x index).
Definition LiuYue_getXunKong (fromYear : Z -> res LYear) (x : LiuNian) (index : Z) : res str := xunkong_of (LiuYue_getGanZhi fromYear x index).
(** eightchar/LiuYue.py:18-23 [getMonthInChinese] *)
Definition LiuYue_getMonthInChinese (index : Z) : res str := py_index LunarUtil_MONTH (index + 1).
