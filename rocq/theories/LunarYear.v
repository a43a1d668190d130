(** Model of LunarYear.py and LunarMonth.py. *)
From Coq Require Import ZArith Lia Bool List String Floats.
From Verif Require Import Py PyFloat PyStr Solar SolarUnits LunarUtil T_LunarUtil T_Misc ShouXing.
Import ListNotations.
Open Scope Z_scope.
Local Set Warnings "-inexact-float".

(** The three functions of ShouXingUtil which LunarYear uses. *)
Record Sky := mkSky {
  sky_qi : float -> res Z;
  sky_shuo : float -> res Z;
  sky_term : float -> res float
}.
(** The code's own: Python floats, [sin] and [cos] of the C library. *)
Definition shouxing (fsin fcos : float -> float) : Sky :=
  let A := float_arith fsin fcos in
  mkSky (calcQi A) (calcShuo A) (qiAccurate2 A).

(** LunarMonth.py:11-17, the attributes of a LunarMonth *)
Record LMonth := mkLMonth { my : Z; mm : Z; mcount : Z; mfirst : Z; mindex : Z }.
(** LunarMonth.py:17 [__zhiIndex] and :33-34 [getZhiIndex] *)
Definition LunarMonth_getZhiIndex (m : LMonth) : Z := (mindex m - 1 + LunarUtil_BASE_MONTH_ZHI_INDEX) mod 12.
(** LunarMonth.py:79-80 [isLeap] *)
Definition isLeap (m : LMonth) : bool := mm m <? 0.

(** LunarYear.py:27-40, the attributes of a LunarYear *)
Record LYear := mkLYear { lyear : Z; lgan : Z; lzhi : Z; lmonths : list LMonth; lterms : list float }.

(** LunarYear.py:65-72: the day of the winter solstice search and the terms from it on.  A year whose float overflows raises at once; from
    2^62 up to there the integers of the following lines are larger than [float_of_Z] converts, so the model says nothing about such years. *)
Definition compute_start (sky : Sky) (y : Z) : res float :=
  let! y2000 := py_float (y - 2000) in
  let! jd := py_floor (y2000 * 365.2422 + 180)%float in
  let! k := py_floor (float_of_Z (jd - 355 + 183) / 365.2422)%float in
  let w := (float_of_Z k * 365.2422 + 355)%float in
  let! q := sky_qi sky w in
  Ok (if jd <? q then (w - 365.2422)%float else w).
Definition compute_jq (sky : Sky) (y : Z) : res (list Z) :=
  let! w := compute_start sky y in
  mapM (fun i => sky_qi sky (w + 15.2184 * float_of_Z i)%float) (zrange 0 26).

(** LunarYear.py:75-82: the instants of the 31 terms *)
Definition compute_terms (sky : Sky) (jq : list Z) : res (list float) :=
  mapM (fun i =>
      let! jd :=
        (if i =? 0 then let! q := py_index jq 0 in sky_term sky (float_of_Z q - 15.2184)%float
         else if i <=? 26 then let! q := py_index jq (i - 1) in sky_term sky (float_of_Z q)
         else let! q := py_index jq 25 in sky_term sky (float_of_Z q + 15.2184 * float_of_Z (i - 26))%float) in
      Ok (jd + 2451545)%float)
    (zrange 0 (Z.of_nat (List.length Lunar_JIE_QI_IN_USE))).

(** LunarYear.py:85-90: the sixteen new moons *)
Definition compute_hs (sky : Sky) (jq : list Z) : res (list Z) :=
  let! q0 := py_index jq 0 in
  let! w := sky_shuo sky (float_of_Z q0) in
  let w := if q0 <? w then (float_of_Z w - 29.53)%float else float_of_Z w in
  mapM (fun i => sky_shuo sky (w + 29.5306 * float_of_Z i)%float) (zrange 0 16).

(** LunarYear.py:105-106, one round of the while loop *)
Definition leap_step (hs jq : list Z) (i : Z) : Z + res Z :=
  match py_index hs (i + 1), py_index jq (2 * i) with
  | Ok h, Ok q => if (q <? h) && (i <? 13) then inl (i + 1) else inr (Ok i)
  | Raise e, _ => inr (Raise e)
  | _, Raise e => inr (Raise e)
  end.
(** LunarYear.py:97-107 *)
Definition leap_index (y : Z) (hs jq : list Z) : res Z :=
  if existsb (Z.eqb y) LunarYear_LEAP_11 then Ok 13
  else if existsb (Z.eqb y) LunarYear_LEAP_12 then Ok 14
  else
    let! h := py_index hs 13 in
    let! q := py_index jq 24 in
    if h <=? q then let! r := loop 20 (leap_step hs jq) 1 in r
    else Ok 16.

(** LunarYear.py:110 *)
Definition YMC : list Z := [11; 12; 1; 2; 3; 4; 5; 6; 7; 8; 9; 10].

(** LunarYear.py:115-137, one month; v2 is months[i] of lines 94 and 108-109; the state is (fm, index, y) *)
Definition month_step (leap : Z) (hs : list Z) (st : Z * Z * Z) (i : Z) : res (Z * Z * Z * LMonth) :=
  let '(fm, index, y) := st in
  let! h := py_index hs i in
  let! h' := py_index hs (i + 1) in
  let dm := h + 2451545 in
  let v2 := if leap <=? i then i - 1 else i in
  let! mc := py_index YMC (v2 mod 12) in
  let! mc1 := py_index YMC ((v2 + 1) mod 12) in
  let mc := if (1724360 <=? dm) && (dm <? 1729794) then mc1
            else if (1807724 <=? dm) && (dm <? 1808699) then mc1
            else if (dm =? 1729794) || (dm =? 1808699) then 12 else mc in
  let '(fm, index) := if fm =? -1 then (mc, mc) else (fm, index) in
  let '(y, index) := if mc <? fm then (y + 1, 1) else (y, index) in
  let fm := mc in
  let mc := if i =? leap then - mc
            else if (dm =? 1729794) || (dm =? 1808699) then -11 else mc in
  Ok (fm, index + 1, y, mkLMonth y mc (h' - h) dm index).
Fixpoint months_from (leap : Z) (hs : list Z) (st : Z * Z * Z) (is_ : list Z) : res (list LMonth) :=
  match is_ with
  | [] => Ok []
  | i :: is_ =>
      let! r := month_step leap hs st i in
      let '(st, m) := r in
      let! ms := months_from leap hs st is_ in
      Ok (m :: ms)
  end.
Definition compute_months (y : Z) (hs jq : list Z) : res (list LMonth) :=
  let! leap := leap_index y hs jq in
  months_from leap hs (-1, -1, y - 1) (zrange 0 15).

(** LunarYear.py:27-40,53-137 [LunarYear.__init__] and [compute] *)
Definition LunarYear_new (sky : Sky) (y : Z) : res LYear :=
  let! jq := compute_jq sky y in
  let! terms := compute_terms sky jq in
  let! hs := compute_hs sky jq in
  let! months := compute_months y hs jq in
  Ok (mkLYear y ((y - 4) mod 10) ((y - 4) mod 12) months terms).

(** LunarYear.py:148-155 [getGan], [getZhi], [getGanZhi] *)
Definition LunarYear_getGan (l : LYear) : res str := py_index LunarUtil_GAN (lgan l + 1).
Definition LunarYear_getZhi (l : LYear) : res str := py_index LunarUtil_ZHI (lzhi l + 1).
Definition LunarYear_getGanZhi (l : LYear) : res str :=
  let! g := LunarYear_getGan l in let! z := LunarYear_getZhi l in Ok (g ++ z).

(** LunarYear.py:166-171 [getDayCount] *)
Definition LunarYear_getDayCount (l : LYear) : Z :=
  fold_left (fun n m => if my m =? lyear l then n + mcount m else n) (lmonths l) 0.
(** LunarYear.py:173-178 [getMonthsInYear] *)
Definition getMonthsInYear (l : LYear) : list LMonth := filter (fun m => my m =? lyear l) (lmonths l).
(** LunarYear.py:186-194 [getLeapMonth] *)
Definition getLeapMonth (l : LYear) : Z :=
  match find (fun m => (my m =? lyear l) && isLeap m) (lmonths l) with Some m => Z.abs (mm m) | None => 0 end.
(** LunarYear.py:196-205 [getMonth] *)
Definition getMonth (l : LYear) (lunar_month : Z) : option LMonth :=
  find (fun m => (my m =? lyear l) && (mm m =? lunar_month)) (lmonths l).
