(** Model of LunarTime.py and of the methods of LunarMonth.py and LunarYear.py not needed by Lunar.py. *)
From Coq Require Import ZArith Lia Bool List String Floats.
From Verif Require Import Py PyFloat PyStr Solar SolarUnits LunarUtil T_LunarUtil T_Misc LunarYear Lunar.
Import ListNotations.
Open Scope Z_scope.

(** LunarTime.py:11-15 [__init__], the attributes *)
Record LTime := mkLTime { t_lunar : Lunar; t_zhi : Z; t_gan : Z }.
Definition LunarTime_new (fromYear : Z -> res LYear) (y m d hour minute second : Z) : res LTime :=
  let! l := Lunar_new fromYear y m d hour minute second in
  let z := getTimeZhiIndex (fmt0 2 hour ++ lit ":" ++ fmt0 2 minute) in
  Ok (mkLTime l z ((l_dayGanExact l mod 5 * 2 + z) mod 10)).
(** Lunar.py:1387-1392 [getTime] *)
Definition Lunar_getTime (fromYear : Z -> res LYear) (l : Lunar) : res LTime :=
  LunarTime_new fromYear (l_year l) (l_month l) (l_day l) (l_hour l) (l_minute l) (l_second l).
(** Lunar.py:1394-1402 [getTimes] *)
Definition Lunar_getTimes (fromYear : Z -> res LYear) (l : Lunar) : res (list LTime) :=
  let! t0 := LunarTime_new fromYear (l_year l) (l_month l) (l_day l) 0 0 0 in
  let! ts := mapM (fun i => LunarTime_new fromYear (l_year l) (l_month l) (l_day l) ((i + 1) * 2 - 1) 0 0) (zrange 0 12) in
  Ok (t0 :: ts).

(** LunarTime.py:21-31 *)
Definition LunarTime_getGan (t : LTime) : res str := py_index LunarUtil_GAN (t_gan t + 1).
Definition LunarTime_getZhi (t : LTime) : res str := py_index LunarUtil_ZHI (t_zhi t + 1).
Definition LunarTime_getGanZhi (t : LTime) : res str := cat2 (LunarTime_getGan t) (LunarTime_getZhi t).
Definition LunarTime_getShengXiao (t : LTime) : res str := py_index LunarUtil_SHENGXIAO (t_zhi t + 1).
(** LunarTime.py:33-61 *)
Definition LunarTime_getPositionXi (t : LTime) : res str := py_index LunarUtil_POSITION_XI (t_gan t + 1).
Definition LunarTime_getPositionYangGui (t : LTime) : res str := py_index LunarUtil_POSITION_YANG_GUI (t_gan t + 1).
Definition LunarTime_getPositionYinGui (t : LTime) : res str := py_index LunarUtil_POSITION_YIN_GUI (t_gan t + 1).
Definition LunarTime_getPositionFu (t : LTime) (sect : Z) : res str := py_index (position_fu sect) (t_gan t + 1).
Definition LunarTime_getPositionCai (t : LTime) : res str := py_index LunarUtil_POSITION_CAI (t_gan t + 1).
(** LunarTime.py:63-86 *)
Definition LunarTime_getChong (t : LTime) : res str := py_index LunarUtil_CHONG (t_zhi t).
Definition LunarTime_getChongGan (t : LTime) : res str := py_index LunarUtil_CHONG_GAN (t_gan t).
Definition LunarTime_getChongGanTie (t : LTime) : res str := py_index LunarUtil_CHONG_GAN_TIE (t_gan t).
Definition LunarTime_getChongShengXiao (t : LTime) : res str := let! c := LunarTime_getChong t in chong_shengxiao c.
Definition LunarTime_getChongDesc (t : LTime) : res str :=
  let! g := LunarTime_getChongGan t in let! c := LunarTime_getChong t in let! x := LunarTime_getChongShengXiao t in
  Ok (lit "(" ++ g ++ c ++ lit ")" ++ x).
Definition LunarTime_getSha (t : LTime) : res str := let! z := LunarTime_getZhi t in py_dict LunarUtil_SHA z.
Definition LunarTime_getNaYin (t : LTime) : res str := let! p := LunarTime_getGanZhi t in py_dict LunarUtil_NAYIN p.
(** LunarTime.py:88-109 *)
Definition LunarTime_getTianShen (t : LTime) : res str := tianshen (t_zhi t) (Lunar_getDayZhiExact (t_lunar t)).
Definition LunarTime_getTianShenType (t : LTime) : res str := tianshen_type (LunarTime_getTianShen t).
Definition LunarTime_getTianShenLuck (t : LTime) : res str := tianshen_luck (LunarTime_getTianShenType t).
Definition LunarTime_getYi (t : LTime) : res (list str) :=
  let! d := Lunar_getDayInGanZhiExact (t_lunar t) in let! p := LunarTime_getGanZhi t in LunarUtil_getTimeYi d p.
Definition LunarTime_getJi (t : LTime) : res (list str) :=
  let! d := Lunar_getDayInGanZhiExact (t_lunar t) in let! p := LunarTime_getGanZhi t in LunarUtil_getTimeJi d p.
(** LunarTime.py:111-129 [getNineStar].  Line 115 compares the Solar objects of the table with the string
    [solar_ymd]; Solar defines no comparison, so Python raises TypeError there and the rest of the
    method is never reached. *)
Definition LunarTime_getNineStar (t : LTime) : res Z :=
  let! d := py_dict (l_jieQi (t_lunar t)) (utf8 "冬至"%string) in
  Raise ExcType.
(** LunarTime.py:143-155 *)
Definition LunarTime_getXun (t : LTime) : res str := xun_of (LunarTime_getGanZhi t).
Definition LunarTime_getXunKong (t : LTime) : res str := xunkong_of (LunarTime_getGanZhi t).
(** LunarTime.py:157-163 [getMinHm] *)
Definition LunarTime_getMinHm (t : LTime) : str :=
  let hour := l_hour (t_lunar t) in
  if hour <? 1 then lit "00:00" else if 22 <? hour then lit "23:00"
  else fmt0 2 (if hour mod 2 =? 0 then hour - 1 else hour) ++ lit ":00".
(** LunarTime.py:165-171 [getMaxHm] *)
Definition LunarTime_getMaxHm (t : LTime) : str :=
  let hour := l_hour (t_lunar t) in
  if hour <? 1 then lit "00:59" else if 22 <? hour then lit "23:59"
  else fmt0 2 (if hour mod 2 =? 0 then hour else hour + 1) ++ lit ":59".

(** ** LunarMonth *)
Section Months.
Variable fromYear : Z -> res LYear.

(** LunarMonth.py:20-22 [fromYm] *)
Definition LunarMonth_fromYm (lunar_year lunar_month : Z) : res (option LMonth) :=
  let! y := fromYear lunar_year in Ok (getMonth y lunar_month).
(** LunarMonth.py:36-38 [getGanIndex] *)
Definition LunarMonth_getGanIndex (m : LMonth) : res Z :=
  let! y := fromYear (my m) in
  let offset := (lgan y + 1) mod 5 * 2 in
  Ok ((mindex m - 1 + offset) mod 10).
(** LunarMonth.py:40-47 *)
Definition LunarMonth_getGan (m : LMonth) : res str :=
  let! g := LunarMonth_getGanIndex m in py_index LunarUtil_GAN (g + 1).
Definition LunarMonth_getZhi (m : LMonth) : res str := py_index LunarUtil_ZHI (LunarMonth_getZhiIndex m + 1).
Definition LunarMonth_getGanZhi (m : LMonth) : res str := cat2 (LunarMonth_getGan m) (LunarMonth_getZhi m).
(** LunarMonth.py:49-77 *)
Definition LunarMonth_getPositionXi (m : LMonth) : res str :=
  let! g := LunarMonth_getGanIndex m in py_index LunarUtil_POSITION_XI (g + 1).
Definition LunarMonth_getPositionYangGui (m : LMonth) : res str :=
  let! g := LunarMonth_getGanIndex m in py_index LunarUtil_POSITION_YANG_GUI (g + 1).
Definition LunarMonth_getPositionYinGui (m : LMonth) : res str :=
  let! g := LunarMonth_getGanIndex m in py_index LunarUtil_POSITION_YIN_GUI (g + 1).
Definition LunarMonth_getPositionFu (m : LMonth) (sect : Z) : res str :=
  let! g := LunarMonth_getGanIndex m in py_index (position_fu sect) (g + 1).
Definition LunarMonth_getPositionCai (m : LMonth) : res str :=
  let! g := LunarMonth_getGanIndex m in py_index LunarUtil_POSITION_CAI (g + 1).
(** LunarMonth.py:88-98 [getPositionTaiSui] *)
Definition LunarMonth_getPositionTaiSui (m : LMonth) : res str :=
  let r := Z.abs (mm m) mod 4 in
  if 0 =? r then Ok (utf8 "巽"%string)
  else if 1 =? r then Ok (utf8 "艮"%string)
  else if 3 =? r then Ok (utf8 "坤"%string)
  else
    let! s := fromJulianDay (float_of_Z (mfirst m)) in
    let! l := getLunar fromYear s in
    py_index LunarUtil_POSITION_GAN (l_monthGan l).
(** LunarMonth.py:103-111 [getNineStar]: the index of the star *)
Definition LunarMonth_getNineStar (m : LMonth) : res Z :=
  let! y := fromYear (my m) in
  let month_zhi_index := (13 + Z.abs (mm m)) mod 12 in
  Ok (monthNineStar (lzhi y) month_zhi_index).
(** LunarMonth.py:113-114 [toString] *)
Definition LunarMonth_toString (m : LMonth) : res str :=
  let! n := py_index LunarUtil_MONTH (Z.abs (mm m)) in
  Ok (str_of_Z (my m) ++ utf8 "年"%string ++ (if isLeap m then utf8 "闰"%string else []) ++ n
      ++ utf8 "月("%string ++ str_of_Z (mcount m) ++ utf8 "天)"%string).

(** LunarMonth.py:136-140 and 160-164: position of the first month with that year and number;
    otherwise the previous [index] stays *)
Fixpoint month_pos (ms : list LMonth) (iy im k : Z) (index : Z) : Z :=
  match ms with
  | [] => index
  | m :: t => if (my m =? iy) && (mm m =? im) then k else month_pos t iy im (k + 1) index
  end.
(** LunarMonth.py:134-150, one round; the state is (months, ny, iy, im, index, rest) *)
Definition month_fwd (st : list LMonth * Z * Z * Z * Z * Z) : (list LMonth * Z * Z * Z * Z * Z) + res LMonth :=
  let '(months, ny, iy, im, index, rest) := st in
  let size := Z.of_nat (List.length months) in
  let index := month_pos months iy im 0 index in
  let more := size - index - 1 in
  if rest <? more then inr (py_index months (index + rest))
  else
    match py_index months (size - 1), fromYear (ny + 1) with
    | Raise e, _ => inr (Raise e)
    | _, Raise e => inr (Raise e)
    | Ok last, Ok y => inl (lmonths y, ny + 1, my last, mm last, index, rest - more)
    end.
(** LunarMonth.py:158-173, one round *)
Definition month_bwd (st : list LMonth * Z * Z * Z * Z * Z) : (list LMonth * Z * Z * Z * Z * Z) + res LMonth :=
  let '(months, ny, iy, im, index, rest) := st in
  let index := month_pos months iy im 0 index in
  if rest <=? index then inr (py_index months (index - rest))
  else
    match py_index months 0, fromYear (ny - 1) with
    | Raise e, _ => inr (Raise e)
    | _, Raise e => inr (Raise e)
    | Ok first, Ok y => inl (lmonths y, ny - 1, my first, mm first, index, rest - index)
    end.
(** LunarMonth.py:119-173 [next]; [next(0)] may return None *)
Definition LunarMonth_next (m : LMonth) (n : Z) : res (option LMonth) :=
  if 0 =? n then LunarMonth_fromYm (my m) (mm m)
  else
    let! y := fromYear (my m) in
    let! r := loop (Z.abs n + 2) (if 0 <? n then month_fwd else month_bwd)
                (lmonths y, my m, my m, mm m, 0, Z.abs n) in
    let! m' := r in Ok (Some m').

(** ** LunarYear *)
(** [name.replace(a, b, 1)] *)
Definition replace1 (name a b : str) : str :=
  let i := py_find name a in
  if i <? 0 then name else slice name 0 i ++ b ++ slice_from name (i + slen a).
(** the Lunar of the first day of month 1, LunarYear.py:208 and 214 *)
Definition new_year_lunar (y : LYear) : res Lunar :=
  match getMonth y 1 with
  | None => Raise ExcAttr
  | Some m => let! s := fromJulianDay (float_of_Z (mfirst m)) in getLunar fromYear s
  end.
(** LunarYear.py:207-211 [__getZaoByGan] *)
Definition getZaoByGan (y : LYear) (index : Z) (name : str) : res str :=
  let! l := new_year_lunar y in
  let offset := index - l_dayGan l in
  let offset := if offset <? 0 then offset + 10 else offset in
  let! n := py_index LunarUtil_NUMBER (offset + 1) in
  Ok (replace1 name (utf8 "几"%string) n).
(** LunarYear.py:213-217 [__getZaoByZhi] *)
Definition getZaoByZhi (y : LYear) (index : Z) (name : str) : res str :=
  let! l := new_year_lunar y in
  let offset := index - l_dayZhi l in
  let offset := if offset <? 0 then offset + 12 else offset in
  let! n := py_index LunarUtil_NUMBER (offset + 1) in
  Ok (replace1 name (utf8 "几"%string) n).
(** LunarYear.py:219-275 *)
Definition getTouLiang (y : LYear) : res str := getZaoByZhi y 0 (utf8 "几鼠偷粮"%string).
Definition getCaoZi (y : LYear) : res str := getZaoByZhi y 0 (utf8 "草子几分"%string).
Definition getGengTian (y : LYear) : res str := getZaoByZhi y 1 (utf8 "几牛耕田"%string).
Definition getHuaShou (y : LYear) : res str := getZaoByZhi y 3 (utf8 "花收几分"%string).
Definition getZhiShui (y : LYear) : res str := getZaoByZhi y 4 (utf8 "几龙治水"%string).
Definition getTuoGu (y : LYear) : res str := getZaoByZhi y 6 (utf8 "几马驮谷"%string).
Definition getQiangMi (y : LYear) : res str := getZaoByZhi y 9 (utf8 "几鸡抢米"%string).
Definition getKanCan (y : LYear) : res str := getZaoByZhi y 9 (utf8 "几姑看蚕"%string).
Definition getGongZhu (y : LYear) : res str := getZaoByZhi y 11 (utf8 "几屠共猪"%string).
Definition getJiaTian (y : LYear) : res str := getZaoByGan y 0 (utf8 "甲田几分"%string).
Definition getFenBing (y : LYear) : res str := getZaoByGan y 2 (utf8 "几人分饼"%string).
Definition getDeJin (y : LYear) : res str := getZaoByGan y 7 (utf8 "几日得金"%string).
Definition getRenBing (y : LYear) : res str :=
  let! s := getZaoByZhi y 2 (utf8 "几人几丙"%string) in getZaoByGan y 2 s.
Definition getRenChu (y : LYear) : res str :=
  let! s := getZaoByZhi y 2 (utf8 "几人几锄"%string) in getZaoByGan y 3 s.
(** LunarYear.py:327-333 [next] *)
Definition LunarYear_next (y : LYear) (n : Z) : res LYear := fromYear (lyear y + n).
End Months.

(** LunarYear.py:277-278 [getYuan] *)
Definition LunarYear_getYuan (y : LYear) : res str :=
  let! q := int_truediv (lyear y + 2696) 60 in
  let! s := py_index LunarYear_YUAN (q mod 3) in Ok (s ++ utf8 "元"%string).
(** LunarYear.py:280-281 [getYun] *)
Definition LunarYear_getYun (y : LYear) : res str :=
  let! q := int_truediv (lyear y + 2696) 20 in
  let! s := py_index LunarYear_YUN (q mod 9) in Ok (s ++ utf8 "运"%string).
(** LunarYear.py:283-289 [getNineStar] *)
Definition LunarYear_getNineStar (y : LYear) : res Z :=
  let! p := LunarYear_getGanZhi y in
  let index := getJiaZiIndex p + 1 in
  let! q := int_truediv (lyear y + 2696) 60 in
  let offset := (62 + q mod 3 * 3 - index) mod 9 in
  let offset := if 0 =? offset then 9 else offset in
  Ok (offset - 1).
(** LunarYear.py:291-325 *)
Definition LunarYear_getPositionXi (y : LYear) : res str := py_index LunarUtil_POSITION_XI (lgan y + 1).
Definition LunarYear_getPositionYangGui (y : LYear) : res str := py_index LunarUtil_POSITION_YANG_GUI (lgan y + 1).
Definition LunarYear_getPositionYinGui (y : LYear) : res str := py_index LunarUtil_POSITION_YIN_GUI (lgan y + 1).
Definition LunarYear_getPositionFu (y : LYear) (sect : Z) : res str := py_index (position_fu sect) (lgan y + 1).
Definition LunarYear_getPositionCai (y : LYear) : res str := py_index LunarUtil_POSITION_CAI (lgan y + 1).
Definition LunarYear_getPositionTaiSui (y : LYear) : res str := py_index LunarUtil_POSITION_TAI_SUI_YEAR (lzhi y).
