(** Python [float] as Coq's primitive binary64 numbers. *)
From Coq Require Import ZArith Lia Floats.
From Coq Require Uint63.
From Verif Require Import Py.
Open Scope Z_scope.

(** [float(n)] for an integer [n]; exact for |n| <= 2^53, correctly rounded below 2^63
    (larger integers are not converted by the modelled code). *)
Definition float_of_Z (z : Z) : float :=
  if z <? 0 then (- PrimFloat.of_uint63 (Uint63.of_Z (- z)))%float
  else PrimFloat.of_uint63 (Uint63.of_Z z).

(** [float(n)] where [n] comes from a caller and may be of any size: OverflowError from 2^1024 on (after rounding). *)
Definition py_float (z : Z) : res float :=
  if Z.abs z <? 2 ^ 62 then Ok (float_of_Z z)
  else match binary_normalize prec emax z 0 false with
       | S754_infinity _ => Raise ExcOverflow
       | f => Ok (SF2Prim f)
       end.

(** [int(x)]: truncation toward zero; NaN and infinities raise. *)
Definition py_int (x : float) : res Z :=
  match Prim2SF x with
  | S754_zero _ => Ok 0
  | S754_finite s m e =>
      let a := if 0 <=? e then Z.shiftl (Zpos m) e else Z.shiftr (Zpos m) (- e) in
      Ok (if s then - a else a)
  | S754_infinity _ | S754_nan => Raise ExcValue
  end.

(** [floor(x)] of module math, an integer. *)
Definition py_floor (x : float) : res Z :=
  match Prim2SF x with
  | S754_zero _ => Ok 0
  | S754_finite s m e => Ok (Z.shiftl (if s then Zneg m else Zpos m) e)
  | S754_infinity _ | S754_nan => Raise ExcValue
  end.

(** [ceil(x)] of module math. *)
Definition py_ceil (x : float) : res Z :=
  let! n := py_floor (- x)%float in Ok (- n).

(** [round(x)] with one argument: to the nearest integer, ties to even. *)
Definition py_round (x : float) : res Z :=
  match Prim2SF x with
  | S754_zero _ => Ok 0
  | S754_finite s m e =>
      if 0 <=? e then Ok (let a := Z.shiftl (Zpos m) e in if s then - a else a)
      else
        let q := Z.shiftr (Zpos m) (- e) in
        let r := Zpos m - Z.shiftl q (- e) in
        let h := Z.shiftl 1 (- e) in
        let a := match Z.compare (2 * r) h with
                 | Lt => q
                 | Gt => q + 1
                 | Eq => if Z.even q then q else q + 1
                 end in
        Ok (if s then - a else a)
  | S754_infinity _ | S754_nan => Raise ExcValue
  end.

(** [int(a / b)] for integers [a], [b]: true division, then truncation.  CPython
    divides integers with one correct rounding; below 2^53 both operands are exact
    and this is the same operation. *)
Definition int_truediv (a b : Z) : res Z :=
  if b =? 0 then Raise ExcDivZero
  else py_int (float_of_Z a / float_of_Z b)%float.
