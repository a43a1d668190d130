(** Model of util/ShouXingUtil.py.

    The functions are written over an arithmetic [Arith] so that they can be run both on Python's
    floats ([float_arith], the model of the code) and on expressions whose rounding error is bounded (FloatExpr.v, a proof
    device).  [sin] and [cos] of Python's math module (the C library) are parameters of [float_arith].
    Integers occurring in float expressions are converted to floats, as Python does; all of them are
    below 2^53 in absolute value for the years considered, so the conversion is exact. *)
From Coq Require Import ZArith Lia Bool List String Floats.
From Verif Require Import Py PyFloat PyStr Holiday T_ShouXing.
Import ListNotations.
Open Scope Z_scope.
Local Set Warnings "-inexact-float".

Record Arith := mkArith {
  num : Type;
  n_lit : float -> num;                 (* a literal or table entry *)
  n_add : num -> num -> num;
  n_sub : num -> num -> num;
  n_mul : num -> num -> num;
  n_div : num -> num -> num;
  n_sin : num -> num;
  n_cos : num -> num;
  n_floor : num -> res Z;               (* math.floor *)
  n_ltb : num -> num -> res bool        (* x < y *)
}.

(** Python's own arithmetic. *)
Definition float_arith (fsin fcos : float -> float) : Arith :=
  mkArith float (fun x => x) PrimFloat.add PrimFloat.sub PrimFloat.mul PrimFloat.div fsin fcos
    py_floor (fun x y => Ok (PrimFloat.ltb x y)).

(** util/ShouXingUtil.py:9-13 *)
Definition PI : float := 3.141592653589793.
Definition ONE_THIRD : float := 1.0 / 3.
Definition SECOND_PER_DAY : float := 86400.
Definition SECOND_PER_RAD : float := 648000 / PI.

(** util/ShouXingUtil.py:284-321 [ShouXingUtil.__decode] *)
Definition decode (s : str) : str :=
  let o := lit "0000000000" in
  let o2 := o ++ o in
  fold_left (fun s r => py_replace s (lit (fst r)) (snd r))
    [("J", lit "00"); ("I", lit "000"); ("H", lit "0000"); ("G", lit "00000"); ("t", lit "02"); ("s", lit "002");
     ("r", lit "0002"); ("q", lit "00002"); ("p", lit "000002"); ("o", lit "0000002"); ("n", lit "00000002");
     ("m", lit "000000002"); ("l", lit "0000000002"); ("k", lit "01"); ("j", lit "0101"); ("i", lit "001");
     ("h", lit "001001"); ("g", lit "0001"); ("f", lit "00001"); ("e", lit "000001"); ("d", lit "0000001");
     ("c", lit "00000001"); ("b", lit "000000001"); ("a", lit "0000000001");
     ("A", (o2 ++ o2 ++ o2)%list); ("B", (o2 ++ o2 ++ o)%list); ("C", (o2 ++ o2)%list); ("D", (o2 ++ o)%list); ("E", o2); ("F", o)]%string s.
(** util/ShouXingUtil.py:580,614: the decoded tables, kept in class attributes on first use *)
Definition SB : str := Eval vm_compute in decode ShouXing_SB_PACKED.
Definition QB : str := Eval vm_compute in decode ShouXing_QB_PACKED.

(** util/ShouXingUtil.py:383,389 *)
Definition XL0_HEAD : float := 10000000000.

(** The successive groups of [n] entries of a flat table. *)
Fixpoint groups3 {X} (l : list X) : list (X * X * X) :=
  match l with a :: b :: c :: t => (a, b, c) :: groups3 t | _ => [] end.
Fixpoint groups5 {X} (l : list X) : list (X * X * X * X * X) :=
  match l with a :: b :: c :: d :: e :: t => (a, b, c, d, e) :: groups5 t | _ => [] end.
Fixpoint groups6 {X} (l : list X) : list (X * X * X * X * X * X) :=
  match l with a :: b :: c :: d :: e :: f :: t => (a, b, c, d, e, f) :: groups6 t | _ => [] end.
Fixpoint groups2 {X} (l : list X) : list (X * X) :=
  match l with a :: b :: t => (a, b) :: groups2 t | _ => [] end.

Section FORMULAS.
Variable A : Arith.
Declare Scope num_scope.
Delimit Scope num_scope with N.
Local Infix "+" := (n_add A) : num_scope.
Local Infix "-" := (n_sub A) : num_scope.
Local Infix "*" := (n_mul A) : num_scope.
Local Infix "/" := (n_div A) : num_scope.
Local Notation "# x" := (n_lit A x%float) (at level 1, x at level 0, format "# x").
Local Notation sin := (n_sin A).
Local Notation cos := (n_cos A).
Local Notation num := (num A).

(** An integer in a float expression. *)
Definition n_Z (z : Z) : num := n_lit A (float_of_Z z).
(** Python's [x % 1] for a float: [x - floor(x)], correctly rounded. *)
Definition n_mod1 (x : num) : res num := let! n := n_floor A x in Ok (x - n_Z n)%N.

(** util/ShouXingUtil.py:367-376 [nutationLon2] *)
Definition nutationLon2 (t : num) : num :=
  (let t2 := t * t in
   let dl := snd (fold_left (fun '(first, dl) '(c0, c1, c2, c3, _) =>
       let a := if first : bool then #(-1.742) * t else #0 in
       (false, dl + (n_lit A c3 + a) * sin (n_lit A c0 + n_lit A c1 * t + n_lit A c2 * t2)))
     (groups5 ShouXing_NUT_B) (true, #0)) in
   dl / #100 / n_lit A SECOND_PER_RAD)%N.

(** The terms [j in range(n1, m, 3)] of [XL0], each reading the entries j, j+1, j+2. *)
Definition XL0_terms (n1 m : Z) : list (float * float * float) :=
  groups3 (firstn (Z.to_nat (3 * ((m - n1 + 2) / 3))) (skipn (Z.to_nat n1) ShouXing_XL0)).

(** util/ShouXingUtil.py:385-402: the number of the section's entries used; [int(...)] of a
    non-negative float.  The counts do not depend on [t]. *)
Definition eLon_m (n i n1 n2 m0 : Z) : res Z :=
  let n0 := n2 - n1 in
  if n <? 0 then Ok n2
  else
    let! k := py_int (float_of_Z (3 * n * n0) / float_of_Z m0 + 0.5)%float in
    let m := k + n1 in
    let m := if i =? 0 then m else m + 3 in
    Ok (if n2 <? m then n2 else m).

(** util/ShouXingUtil.py:379-408 [eLon]; [n1], [n2] run over the section offsets. *)
Fixpoint eLon_sections (n i m0 : Z) (offs : list Z) (t v tn : num) : res num :=
  match offs with
  | n1 :: (n2 :: _) as rest =>
      if i =? 6 then Ok v
      else if n2 - n1 =? 0 then eLon_sections n (i + 1) m0 rest t v tn
      else
        let! m := eLon_m n i n1 n2 m0 in
        let c := fold_left (fun c '(x0, x1, x2) => c + n_lit A x0 * cos (n_lit A x1 + t * n_lit A x2))%N
                   (XL0_terms n1 m) #0 in
        eLon_sections n (i + 1) m0 rest t (v + c * tn)%N (tn * t)%N
  | _ => Ok v
  end.
Definition eLon (t : num) (n : Z) : res num :=
  let t := (t / #10)%N in
  let m0 := 578 - 20 in
  let! v := eLon_sections n 0 m0 ShouXing_XL0_OFFSETS t #0 #1 in
  let v := (v / n_lit A XL0_HEAD)%N in
  let t2 := (t * t)%N in
  let t3 := (t2 * t)%N in
  Ok (v + (#(-0.0728) - #2.7702 * t - #1.1019 * t2 - #0.0996 * t3) / n_lit A SECOND_PER_RAD)%N.

(** util/ShouXingUtil.py:434-445: the number of entries of section [i] used. *)
Definition mLon_m (n i size obl : Z) : res Z :=
  let! m := py_int (float_of_Z (n * size) / float_of_Z obl + 0.5)%float in
  let m := if 0 <? i then m + 6 else m in
  Ok (if size <=? m then size else m).
Fixpoint mLon_sections (n i obl : Z) (ob : list (list float)) (t t2 t3 t4 v tn : num) : res num :=
  match ob with
  | [] => Ok v
  | f :: ob =>
      let! m := mLon_m n i (Z.of_nat (List.length f)) obl in
      let c := fold_left (fun c '(f0, f1, f2, f3, f4, f5) =>
                   c + n_lit A f0 * cos (n_lit A f1 + t * n_lit A f2 + t2 * n_lit A f3 + t3 * n_lit A f4 + t4 * n_lit A f5))%N
                 (groups6 (firstn (Z.to_nat (6 * ((m + 5) / 6))) f)) #0 in
      mLon_sections n (i + 1) obl ob t t2 t3 t4 (v + c * tn)%N (tn * t)%N
  end.
(** util/ShouXingUtil.py:411-447 [mLon] *)
Definition mLon (t : num) (n : Z) : res num :=
  let obl := 2652 in (* len(ob[0]) *)
  let t2 := (t * t)%N in
  let t3 := (t2 * t)%N in
  let t4 := (t3 * t)%N in
  let t5 := (t4 * t)%N in
  let tx := (t - #10)%N in
  let v := (#0 + (#3.81034409 + #8399.684730072 * t - #3.319e-05 * t2 + #3.11e-08 * t3 - #2.033e-10 * t4) * n_lit A SECOND_PER_RAD)%N in
  let v := (v + (#5028.792262 * t + #1.1124406 * t2 + #0.00007699 * t3 - #0.000023479 * t4 - #0.0000000178 * t5))%N in
  let! late := n_ltb A #0 tx in
  let v := (if late : bool then (v + (#(-0.866) + #1.43 * tx + #0.054 * tx * tx))%N else v) in
  let t2 := (t2 / #1e4)%N in
  let t3 := (t3 / #1e8)%N in
  let t4 := (t4 / #1e8)%N in
  let n := n * 6 in
  let n := if n <? 0 then obl else n in
  let! v := mLon_sections n 0 obl ShouXing_XL1 t t2 t3 t4 v #1 in
  Ok (v / n_lit A SECOND_PER_RAD)%N.

(** util/ShouXingUtil.py:449-452 [gxcSunLon] *)
Definition gxcSunLon (t : num) : num :=
  (let v := #(-0.043126) + #628.301955 * t - #0.000002732 * t * t in
   let e := #0.016708634 - #0.000042037 * t - #0.0000001267 * t * t in
   #(-20.49552) * (#1 + e * cos v) / n_lit A SECOND_PER_RAD)%N.

(** util/ShouXingUtil.py:455-457 [ev] *)
Definition ev (t : num) : num :=
  (let f := #628.307585 * t in
   #628.332 + #21 * sin (#1.527 + f) + #0.44 * sin (#1.48 + f * #2) + #0.129 * sin (#5.82 + f) * t + #0.00055 * sin (#4.21 + f) * t * t)%N.

(** util/ShouXingUtil.py:460-463 [mv] *)
Definition mv (t : num) : num :=
  (let v := #8399.71 - #914 * sin (#0.7848 + #8328.691425 * t + #0.0001523 * t * t) in
   v - (#179 * sin (#2.543 + #15542.7543 * t) + #160 * sin (#0.1874 + #7214.0629 * t) + #62 * sin (#3.14 + #16657.3828 * t)
        + #34 * sin (#4.827 + #16866.9323 * t) + #22 * sin (#4.9 + #23871.4457 * t) + #12 * sin (#2.59 + #14914.4523 * t)
        + #7 * sin (#0.23 + #6585.7609 * t) + #5 * sin (#0.9 + #25195.624 * t) + #5 * sin (#2.32 - #7700.3895 * t)
        + #5 * sin (#3.88 + #8956.9934 * t) + #5 * sin (#0.49 + #7771.3771 * t)))%N.

(** util/ShouXingUtil.py:466-467 [saLon] *)
Definition saLon (t : num) (n : Z) : res num :=
  let! e := eLon t n in Ok (e + nutationLon2 t + gxcSunLon t + n_lit A PI)%N.

(** util/ShouXingUtil.py:470-472 [dtExt] *)
Definition dtExt (y : num) (jsd : Z) : num :=
  (let dy := (y - #1820) * #1 / #100 in
   #(-20) + n_Z jsd * dy * dy)%N.

(** util/ShouXingUtil.py:486-493: the row of [DT_AT] and the next row's year; past the last row the
    index is out of range. *)
Fixpoint dtCalc_row (y : num) (rows : list (float * float * float * float * float)) (y_end : float) : res num :=
  match rows with
  | [] => Raise ExcIndex
  | (r0, r1, r2, r3, r4) :: rest =>
      let next := match rest with (n0, _, _, _, _) :: _ => n0 | [] => y_end end in
      let! b := n_ltb A y (n_lit A next) in
      if b : bool then
        Ok (let t1 := (y - n_lit A r0) / (n_lit A next - n_lit A r0) * #10 in
            let t2 := t1 * t1 in
            let t3 := t2 * t1 in
            n_lit A r1 + n_lit A r2 * t1 + n_lit A r3 * t2 + n_lit A r4 * t3)%N
      else dtCalc_row y rest y_end
  end.
(** util/ShouXingUtil.py:475-493 [dtCalc]; the last two entries of the table are 2028 and 98.6.
    [y >= y0] is the negation of [y < y0] (no NaN occurs). *)
Definition dtCalc (y : num) : res num :=
  let y0 := #2028%float in
  let t0 := #98.6%float in
  let! before := n_ltb A y y0 in
  if negb before then
    let! far := n_ltb A (y0 + #100)%N y in
    if far : bool then Ok (dtExt y 31)
    else
      let v := dtExt y 31 in
      let dv := (dtExt y0 31 - t0)%N in
      Ok (v - dv * (y0 + #100 - y) / #100)%N
  else dtCalc_row y (groups5 ShouXing_DT_AT) 2028%float.

(** util/ShouXingUtil.py:496-497 [dtT] *)
Definition dtT (t : num) : res num :=
  let! d := dtCalc (t / #365.2425 + #2000)%N in Ok (d / n_lit A SECOND_PER_DAY)%N.

(** util/ShouXingUtil.py:500-507 [saLonT] *)
Definition saLonT (w : num) : res num :=
  let v := #628.3319653318%float in
  let t := ((w - #1.75347 - n_lit A PI) / v)%N in
  let v := ev t in
  let! x := saLon t 10 in
  let t := (t + (w - x) / v)%N in
  let v := ev t in
  let! x := saLon t (-1) in
  Ok (t + (w - x) / v)%N.

(** util/ShouXingUtil.py:510-511 [msaLon] *)
Definition msaLon (t : num) (mn sn : Z) : res num :=
  let! m := mLon t mn in
  let! e := eLon t sn in
  Ok (m + #(-3.4E-6) - (e + gxcSunLon t + n_lit A PI))%N.

(** util/ShouXingUtil.py:514-521 [msaLonT] *)
Definition msaLonT (w : num) : res num :=
  let v := #7771.37714500204%float in
  let t := ((w + #1.08472) / v)%N in
  let! x := msaLon t 3 3 in
  let t := (t + (w - x) / v)%N in
  let v := (mv t - ev t)%N in
  let! x := msaLon t 20 10 in
  let t := (t + (w - x) / v)%N in
  let! x := msaLon t (-1) 60 in
  Ok (t + (w - x) / v)%N.

(** util/ShouXingUtil.py:524-529 [saLonT2] *)
Definition saLonT2 (w : num) : res num :=
  let v := #628.3319653318%float in
  let t := ((w - #1.75347 - n_lit A PI) / v)%N in
  let t := (t - (#0.000005297 * t * t + #0.0334166 * cos (#4.669257 + #628.307585 * t) + #0.0002061 * cos (#2.67823 + #628.307585 * t) * t) / v)%N in
  let! e := eLon t 8 in
  Ok (t + (w - e - n_lit A PI + (#20.5 + #17.2 * sin (#2.1824 - #33.75705 * t)) / n_lit A SECOND_PER_RAD) / v)%N.

(** util/ShouXingUtil.py:532-541 [msaLonT2] *)
Definition msaLonT2 (w : num) : res num :=
  let v := #7771.37714500204%float in
  let t := ((w + #1.08472) / v)%N in
  let t2 := (t * t)%N in
  let t := (t - (#(-0.00003309) * t2 + #0.10976 * cos (#0.784758 + #8328.6914246 * t + #0.000152292 * t2)
                 + #0.02224 * cos (#0.18740 + #7214.0628654 * t - #0.00021848 * t2) - #0.03342 * cos (#4.669257 + #628.307585 * t)) / v)%N in
  let t2 := (t * t)%N in
  let! m := mLon t 20 in
  let n := (m - (#4.8950632 + #628.3319653318 * t + #0.000005297 * t2 + #0.0334166 * cos (#4.669257 + #628.307585 * t)
                 + #0.0002061 * cos (#2.67823 + #628.307585 * t) * t + #0.000349 * cos (#4.6261 + #1256.61517 * t) - #20.5 / n_lit A SECOND_PER_RAD))%N in
  let v := (#7771.38 - #914 * sin (#0.7848 + #8328.691425 * t + #0.0001523 * t2) - #179 * sin (#2.543 + #15542.7543 * t) - #160 * sin (#0.1874 + #7214.0629 * t))%N in
  Ok (t + (w - n) / v)%N.

(** util/ShouXingUtil.py:547,565: is the fraction of the day within [s] seconds of midnight? *)
Definition near_midnight (t : num) (s : float) : res bool :=
  let! f := n_mod1 (t + #0.5)%N in
  let v := (f * n_lit A SECOND_PER_DAY)%N in
  let! lo := n_ltb A v (n_lit A s) in
  if lo : bool then Ok true
  else n_ltb A (n_lit A SECOND_PER_DAY - n_lit A s)%N v.

(** util/ShouXingUtil.py:544-550 [qiHigh] *)
Definition qiHigh (w : num) : res num :=
  let! t := saLonT2 w in
  let t := (t * #36525)%N in
  let! d := dtT t in
  let t := (t - d + n_lit A ONE_THIRD)%N in
  let! near := near_midnight t 1200%float in
  if near : bool then
    let! x := saLonT w in
    let! d := dtT t in
    Ok (x * #36525 - d + n_lit A ONE_THIRD)%N
  else Ok t.

(** util/ShouXingUtil.py:553-559 [qiLow] *)
Definition qiLow (w : num) : num :=
  (let v := #628.3319653318 in
   let t := (w - #4.895062166) / v in
   let t := t - (#53 * t * t + #334116 * cos (#4.67 + #628.307585 * t) + #2061 * cos (#2.678 + #628.3076 * t) * t) / v / #10000000 in
   let n := #48950621.66 + #6283319653.318 * t + #53 * t * t + #334166 * cos (#4.669257 + #628.307585 * t) + #3489 * cos (#4.6261 + #1256.61517 * t)
            + #2060.6 * cos (#2.67823 + #628.307585 * t) * t - #994 - #834 * sin (#2.1824 - #33.75705 * t) in
   let t := t - ((n / #10000000 - w) / #628.332 + (#32 * (t + #1.8) * (t + #1.8) - #20) / n_lit A SECOND_PER_DAY / #36525) in
   t * #36525 + n_lit A ONE_THIRD)%N.

(** util/ShouXingUtil.py:562-568 [shuoHigh] *)
Definition shuoHigh (w : num) : res num :=
  let! t := msaLonT2 w in
  let t := (t * #36525)%N in
  let! d := dtT t in
  let t := (t - d + n_lit A ONE_THIRD)%N in
  let! near := near_midnight t 1800%float in
  if near : bool then
    let! x := msaLonT w in
    let! d := dtT t in
    Ok (x * #36525 - d + n_lit A ONE_THIRD)%N
  else Ok t.

(** util/ShouXingUtil.py:571-575 [shuoLow] *)
Definition shuoLow (w : num) : num :=
  (let v := #7771.37714500204 in
   let t := (w + #1.08472) / v in
   let t := t - ((#(-0.0000331) * t * t + #0.10976 * cos (#0.785 + #8328.6914 * t) + #0.02224 * cos (#0.187 + #7214.0629 * t)
                  - #0.03342 * cos (#4.669 + #628.3076 * t)) / v
                 + (#32 * (t + #1.8) * (t + #1.8) - #20) / n_lit A SECOND_PER_DAY / #36525) in
   t * #36525 + n_lit A ONE_THIRD)%N.
End FORMULAS.

(** From here on the arguments (Julian Days from J2000) are plain floats; only the astronomical
    formulas are evaluated in [A]. *)
Section CALC.
Variable A : Arith.
Local Open Scope float_scope.

(** util/ShouXingUtil.py:594-596,628-630: the first row whose successor starts after [x]; past the
    end the index is out of range. *)
Fixpoint kb_row (x : float) (rows : list (float * float)) (kb_end : float) : res (float * float) :=
  match rows with
  | [] => Raise ExcIndex
  | (a, b) :: rest =>
      let next := match rest with (n, _) :: _ => n | [] => kb_end end in
      if x <? next then Ok (a, b) else kb_row x rest kb_end
  end.
(** util/ShouXingUtil.py:594-601,628-635: the linear formula of the calendars before the tables. *)
Definition kb_day (x : float) (rows : list (float * float)) (kb_end : float) : res Z :=
  let! ab := kb_row x rows kb_end in
  let (a, b) := ab in
  let! k := py_floor ((x - a) / b) in
  let! d := py_floor (a + b * float_of_Z k + 0.5) in
  let d := (if (d =? 1683460)%Z then d + 1 else d)%Z in
  Ok (d - 2451545)%Z.

(** util/ShouXingUtil.py:605-609,639-644: the correction *)
Definition correct (d : Z) (table : str) (index : Z) : Z :=
  let n := slice table index (index + 1) in
  (if str_eqb (lit "1") n then d + 1 else if str_eqb (lit "2") n then d - 1 else d)%Z.

Definition SHUO_END : float := 1947168.00.
Definition QI_END : float := 2322147.76.
Definition SHUO_ROWS : list (float * float) := groups2 ShouXing_SHUO_KB.
Definition QI_ROWS : list (float * float) := groups2 ShouXing_QI_KB.

(** util/ShouXingUtil.py:591-592,604: [floor(formula(floor(...) * PI * 2) + 0.5)] *)
Definition shuo_w (jd : float) : res float :=
  let! k := py_floor ((jd + 14 - 2451551) / 29.5306) in Ok (float_of_Z k * PI * 2).
Definition half_floor (t : num A) : res Z := n_floor A (n_add A t (n_lit A 0.5)).

(** util/ShouXingUtil.py:578-610 [calcShuo] *)
Definition calcShuo (jd : float) : res Z :=
  let pc := 14 in
  let jd := jd + 2451545 in
  let f1 := 1457698.231017 - pc in
  let f2 := SHUO_END - pc in
  let f3 := 2436935 in
  if (jd <? f1) || (f3 <=? jd) then
    let! w := shuo_w jd in
    let! t := shuoHigh A (n_lit A w) in
    half_floor t
  else if (f1 <=? jd) && (jd <? f2) then kb_day (jd + pc) SHUO_ROWS SHUO_END
  else if (f2 <=? jd) && (jd <? f3) then
    let! w := shuo_w jd in
    let! d := half_floor (shuoLow A (n_lit A w)) in
    let! index := py_floor ((jd - f2) / 29.5306) in
    Ok (correct d SB index)
  else Ok 0%Z.

Definition qi_w (jd : float) : res float :=
  let! k := py_floor ((jd + 7 - 2451259) / 365.2422 * 24) in Ok (float_of_Z k * PI / 12).
(** util/ShouXingUtil.py:612-645 [calcQi] *)
Definition calcQi (jd : float) : res Z :=
  let pc := 7 in
  let jd := jd + 2451545 in
  let f1 := 1640650.479938 - pc in
  let f2 := QI_END - pc in
  let f3 := 2436935 in
  if (jd <? f1) || (f3 <=? jd) then
    let! w := qi_w jd in
    let! t := qiHigh A (n_lit A w) in
    half_floor t
  else if (f1 <=? jd) && (jd <? f2) then kb_day (jd + pc) QI_ROWS QI_END
  else if (f2 <=? jd) && (jd <? f3) then
    let! w := qi_w jd in
    let! d := half_floor (qiLow A (n_lit A w)) in
    let! index := py_floor ((jd - f2) / 365.2422 * 24) in
    Ok (correct d QB index)
  else Ok 0%Z.

(** util/ShouXingUtil.py:648-650 [qiAccurate] *)
Definition qiAccurate (w : num A) : res (num A) :=
  let! x := saLonT A w in
  let t := n_mul A x (n_lit A 36525) in
  let! d := dtT A t in
  Ok (n_add A (n_sub A t d) (n_lit A ONE_THIRD)).
(** util/ShouXingUtil.py:653-661 [qiAccurate2]; [a - jd < -5] is written [jd' < ...] with the same
    subtraction. *)
Definition qiAccurate2 (jd : float) : res (num A) :=
  let d := PI / 12 in
  let! k := py_floor ((jd + 293) / 365.2422 * 24) in
  let w := float_of_Z k * d in
  let! a := qiAccurate (n_lit A w) in
  let diff := n_sub A a (n_lit A jd) in
  let! late := n_ltb A (n_lit A 5) diff in
  if late : bool then qiAccurate (n_lit A (w - d))
  else
    let! early := n_ltb A diff (n_lit A (-5)) in
    if early : bool then qiAccurate (n_lit A (w + d)) else Ok a.
End CALC.
