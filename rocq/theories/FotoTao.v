(** Model of Foto.py, Tao.py, FotoFestival.py, TaoFestival.py and the functions of FotoUtil.py, TaoUtil.py,
    and of Solar.fromBaZi. *)
From Coq Require Import ZArith Lia Bool List String Floats.
From Verif Require Import Py PyFloat PyStr Solar SolarUnits LunarUtil T_LunarUtil T_Misc T_Festivals LunarYear Lunar LunarTime.
Import ListNotations.
Open Scope Z_scope.

(** A Foto or a Tao holds just its Lunar (Foto.py:13-14 [__init__], Tao.py:13-14 [__init__]). *)
Section FotoTao.
Variable fromYear : Z -> res LYear.

(** Foto.py:21-22 [fromYmdHms] *)
Definition Foto_fromYmdHms (year month day hour minute second : Z) : res Lunar :=
  Lunar_new fromYear (year + Foto_DEAD_YEAR - 1) month day hour minute second.
(** Foto.py:31-36 [getYear] *)
Definition Foto_getYear (l : Lunar) : Z :=
  let y := sy (l_solar l) - Foto_DEAD_YEAR in
  if sy (l_solar l) =? l_year l then y + 1 else y.
(** Foto.py:44-49 [getYearInChinese], Tao.py:40-45 [getYearInChinese]: digit by digit *)
Definition digits_chinese (n : Z) : res str :=
  let! cs := mapM (fun c => py_index LunarUtil_NUMBER (c - 48)) (str_of_Z n) in Ok (concat cs).
Definition Foto_getYearInChinese (l : Lunar) : res str := digits_chinese (Foto_getYear l).
(** Foto.py:57-64 [getFestivals] *)
Definition Foto_getFestivals (l : Lunar) : list (str * str * bool * str) :=
  match assoc (str_of_Z (Z.abs (l_month l)) ++ lit "-" ++ str_of_Z (l_day l)) FotoUtil_FESTIVAL with
  | Some fs => fs | None => [] end.
(** Foto.py:66-76 [getOtherFestivals] *)
Definition Foto_getOtherFestivals (l : Lunar) : list str :=
  match assoc (md_key l) FotoUtil_OTHER_FESTIVAL with Some fs => fs | None => [] end.
(** Foto.py:78-90 *)
Definition isMonthZhai (l : Lunar) : bool := (1 =? l_month l) || (5 =? l_month l) || (9 =? l_month l).
Definition isDayYangGong (l : Lunar) : bool :=
  existsb (fun f => str_eqb (utf8 "杨公忌"%string) (fst (fst (fst f)))) (Foto_getFestivals l).
Definition isDayZhaiShuoWang (l : Lunar) : bool := (1 =? l_day l) || (15 =? l_day l).
(** Foto.py:92-99 [isDayZhaiSix] *)
Definition isDayZhaiSix (l : Lunar) : res bool :=
  let d := l_day l in
  if (8 =? d) || (14 =? d) || (15 =? d) || (23 =? d) || (29 =? d) || (30 =? d) then Ok true
  else if 28 =? d then
    let! m := LunarMonth_fromYm fromYear (l_year l) (l_month l) in
    Ok (match m with Some m => negb (30 =? mcount m) | None => false end)
  else Ok false.
(** Foto.py:101-103 [isDayZhaiTen] *)
Definition isDayZhaiTen (l : Lunar) : bool := existsb (Z.eqb (l_day l)) [1; 8; 14; 15; 18; 23; 24; 28; 29; 30].
(** Foto.py:105-110 [isDayZhaiGuanYin] *)
Definition isDayZhaiGuanYin (l : Lunar) : bool := existsb (str_eqb (md_key l)) FotoUtil_DAY_ZHAI_GUAN_YIN.
(** util/FotoUtil.py:20-27 [getXiu] *)
Definition FotoUtil_getXiu (month day : Z) : res str :=
  let! o := py_index FotoUtil_XIU_OFFSET (Z.abs month - 1) in
  py_index FotoUtil_XIU_27 ((o + day - 1) mod Z.of_nat (List.length FotoUtil_XIU_27)).
(** Foto.py:112-131 *)
Definition Foto_getXiu (l : Lunar) : res str := FotoUtil_getXiu (l_month l) (l_day l).
Definition Foto_getXiuLuck (l : Lunar) : res str := let! x := Foto_getXiu l in py_dict LunarUtil_XIU_LUCK x.
Definition Foto_getXiuSong (l : Lunar) : res str := let! x := Foto_getXiu l in py_dict LunarUtil_XIU_SONG x.
Definition Foto_getZheng (l : Lunar) : res str := let! x := Foto_getXiu l in py_dict LunarUtil_ZHENG x.
Definition Foto_getAnimal (l : Lunar) : res str := let! x := Foto_getXiu l in py_dict LunarUtil_ANIMAL x.
Definition Foto_getGong (l : Lunar) : res str := let! x := Foto_getXiu l in py_dict LunarUtil_GONG x.
Definition Foto_getShou (l : Lunar) : res str := let! x := Foto_getGong l in py_dict LunarUtil_SHOU x.
(** Foto.py:136-137 [toString], Tao.py:126-127 [toString] *)
Definition ymd_chinese (year : res str) (l : Lunar) : res str :=
  let! y := year in let! m := Lunar_getMonthInChinese l in let! d := Lunar_getDayInChinese l in
  Ok (y ++ utf8 "年"%string ++ m ++ utf8 "月"%string ++ d).
Definition Foto_toString (l : Lunar) : res str := ymd_chinese (Foto_getYearInChinese l) l.
(** Foto.py:139-143 [toFullString] *)
Definition Foto_toFullString (l : Lunar) : res str :=
  let! s := Foto_toString l in
  Ok (s ++ concat (map (fun f => lit " (" ++ fst (fst (fst f)) ++ lit ")") (Foto_getFestivals l))).
(** FotoFestival.py:33-39 [toFullString], TaoFestival.py:25-29 [toFullString] *)
Definition FotoFestival_toFullString (f : str * str * bool * str) : str :=
  let '(name, result, _, remark) := f in
  name ++ (match result with [] => [] | _ => lit " " ++ result end) ++ (match remark with [] => [] | _ => lit " " ++ remark end).
Definition TaoFestival_toFullString (f : str * str) : str :=
  let '(name, remark) := f in name ++ (match remark with [] => [] | _ => lit "[" ++ remark ++ lit "]" end).

(** Tao.py:21-22 [fromYmdHms] *)
Definition Tao_fromYmdHms (year month day hour minute second : Z) : res Lunar :=
  Lunar_new fromYear (year + Tao_BIRTH_YEAR) month day hour minute second.
(** Tao.py:31-32 [getYear] *)
Definition Tao_getYear (l : Lunar) : Z := l_year l - Tao_BIRTH_YEAR.
Definition Tao_getYearInChinese (l : Lunar) : res str := digits_chinese (Tao_getYear l).
(** Tao.py:53-72 [getFestivals] *)
Definition Tao_getFestivals (l : Lunar) : res (list (str * str)) :=
  let fs := match assoc (md_key l) TaoUtil_FESTIVAL with Some fs => fs | None => [] end in
  let! jq := Lunar_getJieQi l in
  let fs := fs ++ (if str_eqb (utf8 "冬至"%string) jq then [(utf8 "元始天尊圣诞"%string, [])]
                   else if str_eqb (utf8 "夏至"%string) jq then [(utf8 "灵宝天尊圣诞"%string, [])] else []) in
  let fs := fs ++ map (fun n => (n, [])) (opt_list (assoc jq TaoUtil_BA_JIE)) in
  let! gz := Lunar_getDayInGanZhi l in
  Ok (fs ++ map (fun n => (n, [])) (opt_list (assoc gz TaoUtil_BA_HUI))).
(** Tao.py:74-94 *)
Definition isDayIn (l : Lunar) (days : list str) : bool := existsb (str_eqb (md_key l)) days.
Definition isDaySanHui (l : Lunar) : bool := isDayIn l TaoUtil_SAN_HUI.
Definition isDaySanYuan (l : Lunar) : bool := isDayIn l TaoUtil_SAN_YUAN.
Definition isDayWuLa (l : Lunar) : bool := isDayIn l TaoUtil_WU_LA.
Definition has_key {A} (k : str) (t : list (str * A)) : bool := match assoc k t with Some _ => true | None => false end.
Definition isDayBaJie (l : Lunar) : res bool := let! jq := Lunar_getJieQi l in Ok (has_key jq TaoUtil_BA_JIE).
Definition isDayBaHui (l : Lunar) : res bool := let! gz := Lunar_getDayInGanZhi l in Ok (has_key gz TaoUtil_BA_HUI).
(** Tao.py:96-103 *)
Definition isDayMingWu (l : Lunar) : res bool := let! g := Lunar_getDayGan l in Ok (str_eqb (utf8 "戊"%string) g).
Definition isDayAnWu (l : Lunar) : res bool :=
  let! z := Lunar_getDayZhi l in let! w := py_index TaoUtil_AN_WU (Z.abs (l_month l) - 1) in Ok (str_eqb z w).
Definition isDayWu (l : Lunar) : res bool := let! a := isDayMingWu l in if a then Ok true else isDayAnWu l.
(** Tao.py:105-121 [isDayTianShe] *)
Definition isDayTianShe (l : Lunar) : res bool :=
  let! mz := Lunar_getMonthZhi l in
  let! dgz := Lunar_getDayInGanZhi l in
  Ok (if py_in mz (utf8 "寅卯辰"%string) then str_eqb (utf8 "戊寅"%string) dgz
      else if py_in mz (utf8 "巳午未"%string) then str_eqb (utf8 "甲午"%string) dgz
      else if py_in mz (utf8 "申酉戌"%string) then str_eqb (utf8 "戊申"%string) dgz
      else if py_in mz (utf8 "亥子丑"%string) then str_eqb (utf8 "甲子"%string) dgz else false).
Definition Tao_toString (l : Lunar) : res str := ymd_chinese (Tao_getYearInChinese l) l.
(** Tao.py:129-130 [toFullString] *)
Definition Tao_toFullString (l : Lunar) : res str :=
  let! y := Tao_getYearInChinese l in
  let! yg := Lunar_getYearInGanZhi l in let! mg := Lunar_getMonthInGanZhi l in let! dg := Lunar_getDayInGanZhi l in
  let! m := Lunar_getMonthInChinese l in let! d := Lunar_getDayInChinese l in let! t := Lunar_getTimeZhi l in
  Ok (utf8 "道歷"%string ++ y ++ utf8 "年，天运"%string ++ yg ++ utf8 "年，"%string ++ mg ++ utf8 "月，"%string
      ++ dg ++ utf8 "日。"%string ++ m ++ utf8 "月"%string ++ d ++ utf8 "日，"%string ++ t ++ utf8 "時。"%string).

(** ** Solar.fromBaZi *)
(** Solar.py:90-146 [fromBaZi], lines 132-144, one hour: the candidate, if it passes the check *)
Definition bazi_check (ygz mgz dgz tgz : str) (sect : Z) (solar_time : Solar) (d : Z) (hour : Z) : res (list Solar) :=
  let '(mi, s) := if (d =? 0) && (hour =? sh solar_time) then (smi solar_time, ss solar_time) else (0, 0) in
  let! solar := fromYmdHms (sy solar_time) (sm solar_time) (sd solar_time) hour mi s in
  let! lunar := getLunar fromYear solar in
  let! day := if 2 =? sect then Lunar_getDayInGanZhiExact2 lunar else Lunar_getDayInGanZhiExact lunar in
  let! year := Lunar_getYearInGanZhiExact lunar in
  let! month := Lunar_getMonthInGanZhiExact lunar in
  let! time := Lunar_getTimeInGanZhi lunar in
  Ok (if str_eqb year ygz && str_eqb month mgz && str_eqb day dgz && str_eqb time tgz then [solar] else []).
(** Solar.py:119-144, one year *)
Definition bazi_year (ygz mgz dgz tgz : str) (sect base_year m : Z) (hours : list Z) (y : Z) : res (list Solar) :=
  if base_year - 1 <=? y then
    let! l := Lunar_fromYmd fromYear y 1 1 in
    let! name := py_index Lunar_JIE_QI_IN_USE (4 + m) in
    let! solar_time := py_dict (l_jieQi l) name in
    if base_year <=? sy solar_time then
      let! t := getLunar fromYear solar_time in
      let! p := Lunar_getDayInGanZhiExact2 t in
      let d := getJiaZiIndex dgz - getJiaZiIndex p in
      let d := if d <? 0 then d + 60 else d in
      let! solar_time := if 0 <? d then next solar_time d else Ok solar_time in
      let! rs := mapM (bazi_check ygz mgz dgz tgz sect solar_time d) hours in
      Ok (concat rs)
    else Ok []
  else Ok [].
(** Solar.py:118-145: [while y <= end_year], with y += 60 *)
Definition bazi_years (y end_year : Z) : list Z :=
  map (fun k => y + 60 * k) (zrange 0 (if y <=? end_year then (end_year - y) / 60 + 1 else 0)).
(** Solar.py:90-146 [fromBaZi]; [end_year] is [datetime.now().year] *)
Definition fromBaZi (ygz mgz dgz tgz : str) (sect base_year end_year : Z) : res (list Solar) :=
  let sect := if 1 =? sect then 1 else 2 in
  let m := LunarUtil_find (slice_from mgz 1) LunarUtil_ZHI (-1) - 2 in
  let m := if m <? 0 then m + 12 else m in
  if negb (((LunarUtil_find (slice ygz 0 1) LunarUtil_GAN (-1) + 1) * 2 + m) mod 10
           =? LunarUtil_find (slice mgz 0 1) LunarUtil_GAN (-1)) then Ok []
  else
    let y := getJiaZiIndex ygz - 57 in
    let y := (if y <? 0 then y + 60 else y) + 1 in
    let m := m * 2 in
    let h := LunarUtil_find (slice_from tgz 1) LunarUtil_ZHI (-1) * 2 in
    let hours := h :: (if (0 =? h) && (2 =? sect) then [23] else []) in
    let! rs := mapM (bazi_year ygz mgz dgz tgz sect base_year m hours) (bazi_years y end_year) in
    Ok (concat rs).
End FotoTao.
