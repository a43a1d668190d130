(** Model of util/LunarUtil.py: the functions.  The tables are in T_LunarUtil.v and T_Almanac.v. *)
From Coq Require Import ZArith Lia Bool List String Floats.
From Verif Require Import Py PyFloat PyStr T_LunarUtil T_Almanac.
Import ListNotations.
Open Scope Z_scope.

(** util/LunarUtil.py:664-680 [LunarUtil.getTimeZhiIndex] for [hm] a string; the loop over
    i = 1, 3, ..., 21 with counter [x]. *)
Fixpoint getTimeZhiIndex_loop (hm : str) (is_ : list Z) (x : Z) : Z :=
  match is_ with
  | [] => 0
  | i :: t =>
      if str_leb ((if i <? 10 then [48] else []) ++ str_of_Z i ++ lit ":00") hm
         && str_leb hm ((if i + 1 <? 10 then [48] else []) ++ str_of_Z (i + 1) ++ lit ":59")
      then x else getTimeZhiIndex_loop hm t (x + 1)
  end.
Definition getTimeZhiIndex (hm : str) : Z :=
  let hm := if 5 <? slen hm then slice hm 0 5 else hm in
  getTimeZhiIndex_loop hm [1; 3; 5; 7; 9; 11; 13; 15; 17; 19; 21] 1.

(** util/LunarUtil.py:682-689 [LunarUtil.convertTime] *)
Definition convertTime (hm : str) : res str := py_index LunarUtil_ZHI (getTimeZhiIndex hm + 1).

(** Index of the first element equal to [s], from [k]; -1 when absent. *)
Fixpoint index_of (k : Z) (s : str) (l : list str) : Z :=
  match l with
  | [] => -1
  | a :: t => if str_eqb a s then k else index_of (k + 1) s t
  end.

(** util/LunarUtil.py:703-713 [LunarUtil.getJiaZiIndex] *)
Definition getJiaZiIndex (gan_zhi : str) : Z := index_of 0 gan_zhi LunarUtil_JIA_ZI.

(** util/LunarUtil.py:875-880 [LunarUtil.find] *)
Definition LunarUtil_find (name : str) (names : list str) (offset : Z) : Z :=
  let i := index_of 0 name names in if i =? -1 then -1 else i + offset.

(** Upper-case hexadecimal digits of [n >= 0]: [hex(n).replace("0x","").upper()]. *)
Definition hexdigit (d : Z) : Z := if d <? 10 then 48 + d else 55 + d.
Fixpoint hexdigs (fuel : nat) (n : Z) : str :=
  match fuel with
  | O => []
  | S f => if n <? 16 then [hexdigit n] else hexdigs f (n / 16) ++ [hexdigit (n mod 16)]
  end.
(** [hex(-1)] is ["-0x1"]. *)
Definition py_hex (n : Z) : str :=
  if n <? 0 then 45 :: hexdigs (dec_fuel (- n)) (- n) else hexdigs (dec_fuel n) n.

(** util/LunarUtil.py:691-701 [LunarUtil.__hex] *)
Definition LunarUtil_hex (n : Z) : str :=
  let s := py_hex n in if slen s <? 2 then 48 :: s else s.

(** [int(s, 16)] for the upper-case digits used in the data; anything else raises ValueError. *)
Definition hexval (c : Z) : res Z :=
  if (48 <=? c) && (c <=? 57) then Ok (c - 48)
  else if (65 <=? c) && (c <=? 70) then Ok (c - 55) else Raise ExcValue.
Definition int16 (s : str) : res Z :=
  match s with
  | [] => Raise ExcValue
  | _ => foldM (fun a c => let! v := hexval c in Ok (16 * a + v)) 0 s
  end.

(** [for i in range(0, len(s), 2): arr.append(table[int(s[i:i+2], 16)])] *)
Fixpoint chunks2 (s : str) : list str :=
  match s with
  | a :: b :: t => [a; b] :: chunks2 t
  | [a] => [[a]]
  | [] => []
  end.
Definition decode_codes (table : list str) (s : str) : res (list str) :=
  mapM (fun c => let! v := int16 c in py_index table v) (chunks2 s).

(** [if len(arr) < 1: arr.append("无")] *)
Definition or_none (arr : list str) : list str := match arr with [] => [utf8 "无"%string] | _ => arr end.

(** util/LunarUtil.py:726-742, one iteration of the loop of getDayYi / getDayJi; the state is (right (here [rest]),
    index); [pick] selects the part of the record that is decoded. *)
Definition dayYiJi_step (day month : str) (pick : str -> str) (st : str * Z) : (str * Z) + res (list str) :=
  let (rest, index) := st in
  if index <=? -1 then inr (Ok [])
  else
    let rest := slice_from rest (index + 3) in
    let left := if py_in (lit "=") rest then slice rest 0 (py_find rest (lit "=") - 2) else rest in
    let months := slice left 0 (py_find left (lit ":")) in
    if existsb (fun c => str_eqb c month) (chunks2 months)
    then inr (decode_codes LunarUtil_YI_JI (pick left))
    else inl (rest, py_find rest (day ++ lit "=")).

Definition dayYiJi (pick : str -> str) (month_gan_zhi day_gan_zhi : str) : res (list str) :=
  let day := LunarUtil_hex (getJiaZiIndex day_gan_zhi) in
  let month := LunarUtil_hex (getJiaZiIndex month_gan_zhi) in
  let data := LunarUtil_DAY_YI_JI in
  let! r := loop (slen data + 2) (dayYiJi_step day month pick) (data, py_find data (day ++ lit "=")) in
  let! arr := r in Ok (or_none arr).

(** util/LunarUtil.py:715-747 [LunarUtil.getDayYi] *)
Definition LunarUtil_getDayYi : str -> str -> res (list str) :=
  dayYiJi (fun left => slice left (py_find left (lit ":") + 1) (py_find left (lit ","))).
(** util/LunarUtil.py:749-781 [LunarUtil.getDayJi] *)
Definition LunarUtil_getDayJi : str -> str -> res (list str) :=
  dayYiJi (fun left => slice_from left (py_find left (lit ",") + 1)).

(** The record of [key] (a key of [k] characters) in a packed table: the text after ["key="] up to
    the key of the next record. *)
Definition packed_find (data key : str) (k : Z) : option str :=
  let index := py_find data (key ++ lit "=") in
  if -1 <? index then
    let left := slice_from data (index + k + 1) in
    Some (if py_in (lit "=") left then slice left 0 (py_find left (lit "=") - k) else left)
  else None.

Definition before_comma (left : str) : str := slice left 0 (py_find left (lit ",")).
Definition after_comma (left : str) : str := slice_from left (py_find left (lit ",") + 1).

Definition packed_get (data : str) (table : list str) (key : str) (k : Z) (pick : str -> str) : res (list str) :=
  let! arr := match packed_find data key k with
              | Some l => decode_codes table (pick l)
              | None => Ok []
              end in
  Ok (or_none arr).

(** util/LunarUtil.py:783-804 [LunarUtil.getDayJiShen] *)
Definition LunarUtil_getDayJiShen (lunar_month : Z) (day_gan_zhi : str) : res (list str) :=
  let day := LunarUtil_hex (getJiaZiIndex day_gan_zhi) in
  let month := py_hex (Z.abs lunar_month) in
  packed_get LunarUtil_DAY_SHEN_SHA LunarUtil_SHEN_SHA (month ++ day) 3 before_comma.
(** util/LunarUtil.py:806-827 [LunarUtil.getDayXiongSha] *)
Definition LunarUtil_getDayXiongSha (lunar_month : Z) (day_gan_zhi : str) : res (list str) :=
  let day := LunarUtil_hex (getJiaZiIndex day_gan_zhi) in
  let month := py_hex (Z.abs lunar_month) in
  packed_get LunarUtil_DAY_SHEN_SHA LunarUtil_SHEN_SHA (month ++ day) 3 after_comma.
(** util/LunarUtil.py:829-850 [LunarUtil.getTimeYi] *)
Definition LunarUtil_getTimeYi (day_gan_zhi time_gan_zhi : str) : res (list str) :=
  let day := LunarUtil_hex (getJiaZiIndex day_gan_zhi) in
  let time := LunarUtil_hex (getJiaZiIndex time_gan_zhi) in
  packed_get LunarUtil_TIME_YI_JI LunarUtil_YI_JI (day ++ time) 4 before_comma.
(** util/LunarUtil.py:852-873 [LunarUtil.getTimeJi] *)
Definition LunarUtil_getTimeJi (day_gan_zhi time_gan_zhi : str) : res (list str) :=
  let day := LunarUtil_hex (getJiaZiIndex day_gan_zhi) in
  let time := LunarUtil_hex (getJiaZiIndex time_gan_zhi) in
  packed_get LunarUtil_TIME_YI_JI LunarUtil_YI_JI (day ++ time) 4 after_comma.

(** util/LunarUtil.py:882-904 [LunarUtil.getXunIndex]; the two searches leave 0 when nothing matches. *)
Definition getXunIndex (gan_zhi : str) : res Z :=
  let gan := slice gan_zhi 0 1 in
  let zhi := slice_from gan_zhi 1 in
  let gan_index := Z.max 0 (index_of 0 gan LunarUtil_GAN) in
  let zhi_index := Z.max 0 (index_of 0 zhi LunarUtil_ZHI) in
  let diff := gan_index - zhi_index in
  let diff := if diff <? 0 then diff + 12 else diff in
  int_truediv diff 2.
(** util/LunarUtil.py:906-913 [LunarUtil.getXun] *)
Definition LunarUtil_getXun (gan_zhi : str) : res str :=
  let! i := getXunIndex gan_zhi in py_index LunarUtil_XUN i.
(** util/LunarUtil.py:915-922 [LunarUtil.getXunKong] *)
Definition LunarUtil_getXunKong (gan_zhi : str) : res str :=
  let! i := getXunIndex gan_zhi in py_index LunarUtil_XUN_KONG i.
