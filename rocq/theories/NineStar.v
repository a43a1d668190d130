(** Model of NineStar.py.  A NineStar is its index. *)
From Coq Require Import ZArith List String.
From Verif Require Import Py PyStr T_LunarUtil T_Misc LunarUtil Lunar.
Import ListNotations.
Open Scope Z_scope.

(** NineStar.py:32-75, in the order of the source *)
Definition NineStar_getNumber (i : Z) : res str := py_index NineStar_NUMBER i.
Definition NineStar_getColor (i : Z) : res str := py_index NineStar_COLOR i.
Definition NineStar_getWuXing (i : Z) : res str := py_index NineStar_WU_XING i.
Definition NineStar_getPosition (i : Z) : res str := py_index NineStar_POSITION i.
Definition NineStar_getPositionDesc (i : Z) : res str := let! p := NineStar_getPosition i in py_dict LunarUtil_POSITION_DESC p.
Definition NineStar_getNameInXuanKong (i : Z) : res str := py_index NineStar_NAME_XUAN_KONG i.
Definition NineStar_getNameInBeiDou (i : Z) : res str := py_index NineStar_NAME_BEI_DOU i.
Definition NineStar_getNameInQiMen (i : Z) : res str := py_index NineStar_NAME_QI_MEN i.
Definition NineStar_getNameInTaiYi (i : Z) : res str := py_index NineStar_NAME_TAI_YI i.
Definition NineStar_getLuckInQiMen (i : Z) : res str := py_index NineStar_LUCK_QI_MEN i.
Definition NineStar_getLuckInXuanKong (i : Z) : res str := py_index NineStar_LUCK_XUAN_KONG i.
Definition NineStar_getYinYangInQiMen (i : Z) : res str := py_index NineStar_YIN_YANG_QI_MEN i.
Definition NineStar_getTypeInTaiYi (i : Z) : res str := py_index NineStar_TYPE_TAI_YI i.
Definition NineStar_getBaMenInQiMen (i : Z) : res str := py_index NineStar_BA_MEN_QI_MEN i.
Definition NineStar_getSongInTaiYi (i : Z) : res str := py_index NineStar_SONG_TAI_YI i.
(** NineStar.py:83-84 [toString] *)
Definition NineStar_toString (i : Z) : res str :=
  let! n := NineStar_getNumber i in let! c := NineStar_getColor i in let! w := NineStar_getWuXing i in let! b := NineStar_getNameInBeiDou i in
  Ok (n ++ c ++ w ++ b).
(** NineStar.py:86-118 [toFullString] *)
Definition NineStar_toFullString (i : Z) : res str :=
  let! n := NineStar_getNumber i in let! c := NineStar_getColor i in let! w := NineStar_getWuXing i in
  let! p := NineStar_getPosition i in let! pd := NineStar_getPositionDesc i in let! b := NineStar_getNameInBeiDou i in
  let! x := NineStar_getNameInXuanKong i in let! xl := NineStar_getLuckInXuanKong i in
  let! q := NineStar_getNameInQiMen i in let! ql := NineStar_getLuckInQiMen i in let! m := NineStar_getBaMenInQiMen i in
  let! yy := NineStar_getYinYangInQiMen i in let! t := NineStar_getNameInTaiYi i in let! tt := NineStar_getTypeInTaiYi i in
  Ok (n ++ c ++ w ++ lit " " ++ p ++ lit "(" ++ pd ++ lit ") " ++ b ++ utf8 " 玄空["%string ++ x ++ lit " " ++ xl ++ utf8 "] 奇门["%string ++ q ++ lit " " ++ ql
      ++ (match m with [] => [] | _ => lit " " ++ m ++ utf8 "门"%string end) ++ lit " " ++ yy ++ utf8 "] 太乙["%string ++ t ++ lit " " ++ tt ++ lit "]").
