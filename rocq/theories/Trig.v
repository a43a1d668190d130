(** A sine and a cosine computed in binary64, accurate to 2^-40 for arguments up to 2^23.  They are not part of the model: they show that
    the assumption [libm] can be met, and serve as a reference in proofs about every C library that meets it. *)
From Coq Require Import ZArith Lia Reals Lra Psatz.
From Flocq Require Import Core BinarySingleNaN PrimFloat.
From Coq Require Import Bool List Floats.
From Verif Require Import Py PyFloat FloatFacts FloatTac ShouXing FloatExpr.
Import ListNotations.
Open Scope R_scope.
Local Notation PI := Rtrigo1.PI.

(** ** Bounds of pi *)
(** [cos_approx (m / d) n] as a fraction *)
Fixpoint cz (m d : Z) (n : nat) : Z * Z :=
  match n with
  | O => (1, 1)%Z
  | S k => let '(a, b) := cz m d k in
      let j := (2 * Z.of_nat k + 1)%Z in
      let f := (d * d * (j * (j + 1)))%Z in
      ((a * f + (if Nat.even n then 1 else -1) * m ^ (2 * Z.of_nat n))%Z, (b * f)%Z)
  end.
Lemma pow_m1 n : (-1) ^ n = if Nat.even n then 1 else -1.
Proof. induction n as [|n IH]; [reflexivity|]. rewrite <- tech_pow_Rmult, IH, Nat.even_succ, <- Nat.negb_even. destruct (Nat.even n); cbn; ring. Qed.
(** the denominator is d^(2n) (2n)! *)
Lemma cz_den m d n : snd (cz m d n) = (d ^ (2 * Z.of_nat n) * Z.of_nat (fact (2 * n)))%Z.
Proof.
  induction n as [|n IH]; [reflexivity|]. cbn [cz]. destruct (cz m d n) as [a b]. cbn [snd] in *. rewrite IH.
  replace (2 * S n)%nat with (S (S (2 * n))) by lia. rewrite !fact_simpl, !Nat2Z.inj_mul.
  replace (2 * Z.of_nat (S n))%Z with (2 * Z.of_nat n + 2)%Z by lia. rewrite Z.pow_add_r by lia.
  change (d ^ 2)%Z with (d * (d * 1))%Z. replace (Z.of_nat (S (2 * n))) with (2 * Z.of_nat n + 1)%Z by lia. replace (Z.of_nat (S (S (2 * n)))) with (2 * Z.of_nat n + 1 + 1)%Z by lia. ring.
Qed.
Lemma cz_ok m d n : (0 < d)%Z -> cos_approx (IZR m / IZR d) n = IZR (fst (cz m d n)) / IZR (snd (cz m d n)).
Proof.
  intros Hd. assert (D : IZR d <> 0) by (apply not_0_IZR; lia).
  assert (Hb : forall k, IZR (snd (cz m d k)) <> 0).
  { intros k. apply not_0_IZR. rewrite cz_den. pose proof (lt_O_fact (2 * k)). assert (0 < d ^ (2 * Z.of_nat k))%Z by (apply Z.pow_pos_nonneg; lia). nia. }
  induction n as [|n IH].
  - unfold cos_approx, sum_f_R0, cos_term. cbn. field.
  - unfold cos_approx in *. rewrite tech5, IH. unfold cos_term. rewrite pow_m1.
    pose proof (cz_den m d (S n)) as DS. pose proof (Hb n) as B. pose proof (Hb (S n)) as BS. cbn [cz] in *. destruct (cz m d n) as [a b]. cbn [fst snd] in *.
    set (f := (d * d * _)%Z) in *. set (s := if Nat.even (S n) then (1)%Z else (-1)%Z).
    replace (if Nat.even (S n) then 1 else -1) with (IZR s) by (unfold s; destruct (Nat.even (S n)); reflexivity).
    assert (Bf : IZR b <> 0 /\ IZR f <> 0) by (rewrite mult_IZR in BS; split; intros X; rewrite X in BS; apply BS; ring).
    replace ((IZR m / IZR d) ^ (2 * S n) / INR (fact (2 * S n))) with (IZR (m ^ (2 * Z.of_nat (S n))) / IZR (b * f)).
    + rewrite plus_IZR, !mult_IZR. field. split; apply Bf.
    + rewrite DS, mult_IZR. unfold Rdiv at 2 3. rewrite Rpow_mult_distr.
      rewrite INR_IZR_INZ. replace (2 * Z.of_nat (S n))%Z with (Z.of_nat (2 * S n)) by lia. rewrite <- !pow_IZR. rewrite pow_inv.
      field. split; [apply not_0_IZR; pose proof (lt_O_fact (2 * S n)); lia|apply pow_nonzero; exact D].
Qed.

(** pi / 2 to 2^-80 *)
Definition pi2z : Z := 1898976236818169290393996.
Lemma pi_bounds : IZR pi2z / IZR (2 ^ 80) < PI / 2 < IZR (pi2z + 1) / IZR (2 ^ 80).
Proof.
  assert (D : (0 < 2 ^ 80)%Z) by reflexivity. assert (Dr : 0 < IZR (2 ^ 80)) by now apply IZR_lt.
  assert (R : forall z, (0 <= z <= 2 * 2 ^ 80)%Z -> 0 <= IZR z / IZR (2 ^ 80) <= 2).
  { intros z Hz. split; [apply Rmult_le_pos; [apply IZR_le; lia|apply Rlt_le, Rinv_0_lt_compat, Dr]|].
    apply Rmult_le_reg_r with (IZR (2 ^ 80)); [exact Dr|]. unfold Rdiv. rewrite Rmult_assoc, Rinv_l by lra. rewrite Rmult_1_r, <- mult_IZR. apply IZR_le. lia. }
  pose proof PI2_1 as P1. pose proof PI_4 as P4. unfold PI2 in *.
  split.
  - set (a := IZR pi2z / IZR (2 ^ 80)). pose proof (R pi2z ltac:(vm_compute; split; discriminate)) as Ha. fold a in Ha.
    destruct (Rlt_le_dec a (PI / 2)) as [H|H]; [exact H|exfalso].
    destruct (pre_cos_bound a 7 ltac:(lra) ltac:(lra)) as [L _].
    assert (C : 0 < cos_approx a (2 * 7 + 1)).
    { unfold a. rewrite cz_ok by exact D. apply Rmult_lt_0_compat; [apply IZR_lt; vm_compute; reflexivity|apply Rinv_0_lt_compat, IZR_lt; vm_compute; reflexivity]. }
    assert (cos a <= 0); [|lra]. apply cos_le_0; [exact H|lra].
  - set (a := IZR (pi2z + 1) / IZR (2 ^ 80)). pose proof (R (pi2z + 1)%Z ltac:(vm_compute; split; discriminate)) as Ha. fold a in Ha.
    destruct (Rlt_le_dec (PI / 2) a) as [H|H]; [exact H|exfalso].
    destruct (pre_cos_bound a 7 ltac:(lra) ltac:(lra)) as [_ L].
    assert (C : cos_approx a (2 * (7 + 1)) < 0).
    { unfold a. rewrite cz_ok by exact D. apply Ropp_lt_cancel. rewrite Ropp_0. unfold Rdiv. rewrite Ropp_mult_distr_l, <- opp_IZR.
      apply Rmult_lt_0_compat; [apply IZR_lt; vm_compute; reflexivity|apply Rinv_0_lt_compat, IZR_lt; vm_compute; reflexivity]. }
    assert (0 <= cos a); [|lra]. apply cos_ge_0; lra.
Qed.

(** ** A first witness of [libm], not computable *)
Definition wit (f : R -> R) (x : float) : float := (float_of_Z (Zfloor (f (FR x) * IZR (2 ^ 45))) / 35184372088832)%float.
Lemma wit_ok f x : -1 <= f (FR x) <= 1 -> FIN (wit f x) /\ Rabs (FR (wit f x) - f (FR x)) <= / IZR (2 ^ 40).
Proof.
  intros H. unfold wit. set (r := f (FR x)) in *. set (n := Zfloor _). pose proof (Zfloor_lb (r * IZR (2 ^ 45))) as L. pose proof (Zfloor_ub (r * IZR (2 ^ 45))) as U. fold n in L, U.
  change (2 ^ 45)%Z with 35184372088832%Z in *.
  assert (Hn : (Z.abs n <= 2 ^ 46)%Z).
  { apply Z.abs_le. split; apply le_IZR; [|apply Rle_trans with (r * 35184372088832); [lra|]].
    - assert (IZR (- 2 ^ 46) = -70368744177664) by reflexivity. lra.
    - assert (IZR (2 ^ 46) = 70368744177664) by reflexivity. lra. }
  destruct (float_of_Z_spec n ltac:(lia)) as [Fn En].
  destruct (lit_av_ok 35184372088832%float (35184372088832 * P2, 35184372088832 * P2)%Z ltac:(vm_compute; reflexivity)) as [Fc Vc]. cbn [fst snd] in Vc. rewrite sc_int in Vc.
  assert (Ec : FR 35184372088832%float = 35184372088832) by lra. clear Vc.
  assert (B : IZR n / 35184372088832 <= 2 /\ -2 <= IZR n / 35184372088832) by (split; lra).
  destruct (fdiv_b (float_of_Z n) 35184372088832%float 2 Fn ltac:(rewrite Ec; lra) ltac:(rewrite En, Ec; lra) ltac:(lra)) as (Fq & Vq & Nq).
  split; [exact Fq|]. rewrite En, Ec in Nq. unfold near, eps52 in Nq. change (2 ^ 40)%Z with 1099511627776%Z. apply Rabs_le. lra.
Qed.
Lemma wit_libm : libm (wit sin) (wit cos).
Proof. intros x _ _. split; apply wit_ok; [apply SIN_bound|apply COS_bound]. Qed.

(** ** The polynomials *)
Local Set Warnings "-inexact-float".
Definition cos_poly (r : float) : float := (let s := r * r in (1.0 + s * ((-0.5) + s * (0.041666666666666664 + s * ((-0.001388888888888889) + s * (2.48015873015873e-05 + s * ((-2.755731922398589e-07) + s * (2.08767569878681e-09 + s * (-1.1470745597729725e-11)))))))))%float.
Definition sin_poly (r : float) : float := (let s := r * r in r * (1.0 + s * ((-0.16666666666666666) + s * (0.008333333333333333 + s * ((-0.0001984126984126984) + s * (2.7557319223985893e-06 + s * ((-2.505210838544172e-08) + s * (1.6059043836821613e-10 + s * (-7.647163731819816e-13)))))))))%float.
Definition SQ : expr := EMul EX EX.
Definition cos_expr : expr := EAdd (EL (1.0)) (EMul SQ (EAdd (EL (-0.5)) (EMul SQ (EAdd (EL (0.041666666666666664)) (EMul SQ (EAdd (EL (-0.001388888888888889)) (EMul SQ (EAdd (EL (2.48015873015873e-05)) (EMul SQ (EAdd (EL (-2.755731922398589e-07)) (EMul SQ (EAdd (EL (2.08767569878681e-09)) (EMul SQ (EL (-1.1470745597729725e-11))))))))))))))).
Definition sin_expr : expr := EMul EX (EAdd (EL (1.0)) (EMul SQ (EAdd (EL (-0.16666666666666666)) (EMul SQ (EAdd (EL (0.008333333333333333)) (EMul SQ (EAdd (EL (-0.0001984126984126984)) (EMul SQ (EAdd (EL (2.7557319223985893e-06)) (EMul SQ (EAdd (EL (-2.505210838544172e-08)) (EMul SQ (EAdd (EL (1.6059043836821613e-10)) (EMul SQ (EL (-7.647163731819816e-13)))))))))))))))).
Lemma cos_poly_ef r : cos_poly r = ef (wit sin) (wit cos) r cos_expr. Proof. reflexivity. Qed.
Lemma sin_poly_ef r : sin_poly r = ef (wit sin) (wit cos) r sin_expr. Proof. reflexivity. Qed.

Fixpoint zf (n : nat) : Z := match n with O => 1 | S k => Z.of_nat n * zf k end%Z.
Lemma zf_ok n : INR (fact n) = IZR (zf n).
Proof. rewrite INR_IZR_INZ. f_equal. induction n as [|n IH]; [reflexivity|]. rewrite fact_simpl, Nat2Z.inj_mul, IH. reflexivity. Qed.
Lemma cos_series r n : cos_approx r n = sum_f_R0 (fun i => (if Nat.even i then 1 else -1) * ((r * r) ^ i / IZR (zf (2 * i)))) n.
Proof. unfold cos_approx. apply sum_eq. intros i _. unfold cos_term. rewrite pow_m1, zf_ok, pow_mult. replace (r ^ 2) with (r * r) by ring. reflexivity. Qed.
Lemma sin_series r n : sin_approx r n = r * sum_f_R0 (fun i => (if Nat.even i then 1 else -1) * ((r * r) ^ i / IZR (zf (2 * i + 1)))) n.
Proof.
  unfold sin_approx. rewrite scal_sum. apply sum_eq. intros i _. unfold sin_term. rewrite pow_m1, zf_ok, pow_add, pow_mult, pow_1.
  replace (r ^ 2) with (r * r) by ring. unfold Rdiv. ring.
Qed.
(** Horner's scheme is stable *)
Lemma horner s c c' h h' d e : 0 <= s <= 1 -> Rabs (c - c') <= d -> Rabs (h - h') <= e -> Rabs ((c + s * h) - (c' + s * h')) <= d + e.
Proof.
  intros Hs Hc Hh. replace (c + s * h - (c' + s * h')) with ((c - c') + s * (h - h')) by ring. eapply Rle_trans; [apply Rabs_triang|].
  rewrite Rabs_mult, (Rabs_right s) by lra. pose proof (Rabs_pos (h - h')). nra.
Qed.
Definition tiny : R := / IZR (2 ^ 55).
Ltac coef :=
  match goal with |- Rabs (FR ?c - _) <= tiny =>
  let v := eval vm_compute in (lit_av c) in
  match v with
  | Some (?a, ?b) => let L := fresh in pose proof (proj2 (lit_av_ok c (a, b) ltac:(vm_compute; reflexivity))) as L; cbn [fst snd] in L; unfold sc in L;
      change (IZR P2) with 1152921504606846976 in L; unfold tiny; change (2 ^ 55)%Z with 36028797018963968%Z; apply Rabs_le; lra
  end end.
Lemma cos_near r : -8 / 10 <= r <= 8 / 10 -> Rabs (er r cos_expr - cos r) <= / IZR (2 ^ 45).
Proof.
  intros Hr. destruct (pre_cos_bound r 3 ltac:(lra) ltac:(lra)) as [L U]. change (2 * 3 + 1)%nat with 7%nat in L. change (2 * (3 + 1))%nat with 8%nat in U.
  rewrite cos_series in L, U. rewrite tech5 in U. set (p := sum_f_R0 _ 7) in *. assert (Hs : 0 <= r * r <= 64 / 100) by nra.
  assert (Q : 0 <= (r * r) ^ 8 <= 1 / 10) by (split; [apply pow_le; lra|apply Rle_trans with ((64 / 100) ^ 8); [apply pow_incr; lra|lra]]).
  change (zf (2 * 8)) with 20922789888000%Z in U. cbn [Nat.even] in U.
  assert (E : Rabs (er r cos_expr - p) <= 8 * tiny).
  { unfold p. cbn [sum_f_R0 Nat.even]. change (zf (2 * 0)) with 1%Z. change (zf (2 * 1)) with 2%Z. change (zf (2 * 2)) with 24%Z. change (zf (2 * 3)) with 720%Z.
    change (zf (2 * 4)) with 40320%Z. change (zf (2 * 5)) with 3628800%Z. change (zf (2 * 6)) with 479001600%Z. change (zf (2 * 7)) with 87178291200%Z.
    unfold cos_expr, SQ. cbn [er]. set (s := r * r) in *.
    replace (1 * (s ^ 0 / 1) + -1 * (s ^ 1 / 2) + 1 * (s ^ 2 / 24) + -1 * (s ^ 3 / 720) + 1 * (s ^ 4 / 40320) + -1 * (s ^ 5 / 3628800) + 1 * (s ^ 6 / 479001600) + -1 * (s ^ 7 / 87178291200))
      with (1 + s * (-1 / 2 + s * (1 / 24 + s * (-1 / 720 + s * (1 / 40320 + s * (-1 / 3628800 + s * (1 / 479001600 + s * (-1 / 87178291200)))))))) by field.
    replace (8 * tiny) with (tiny + (tiny + (tiny + (tiny + (tiny + (tiny + (tiny + tiny))))))) by ring.
    repeat (apply horner; [lra|coef|]). coef. }
  unfold tiny in E. change (2 ^ 55)%Z with 36028797018963968%Z in E. change (2 ^ 45)%Z with 35184372088832%Z. apply Rabs_le_inv in E. apply Rabs_le.
  lra.
Qed.
Lemma sin_near r : -8 / 10 <= r <= 8 / 10 -> Rabs (er r sin_expr - sin r) <= / IZR (2 ^ 45).
Proof.
  assert (G : forall r, 0 <= r <= 8 / 10 -> Rabs (er r sin_expr - sin r) <= / IZR (2 ^ 45)).
  { clear r. intros r Hr. destruct (pre_sin_bound r 3 ltac:(lra) ltac:(lra)) as [L U]. change (2 * 3 + 1)%nat with 7%nat in L. change (2 * (3 + 1))%nat with 8%nat in U.
    rewrite sin_series in L, U. rewrite tech5 in U. set (p := sum_f_R0 _ 7) in *. assert (Hs : 0 <= r * r <= 64 / 100) by nra.
    assert (Q : 0 <= (r * r) ^ 8 <= 1 / 10) by (split; [apply pow_le; lra|apply Rle_trans with ((64 / 100) ^ 8); [apply pow_incr; lra|lra]]).
    change (zf (2 * 8 + 1)) with 355687428096000%Z in U. cbn [Nat.even] in U.
    assert (E : Rabs (er r sin_expr / r - p) <= 8 * tiny \/ r = 0).
    { destruct (Req_dec r 0) as [Z|N]; [right; exact Z|left]. unfold p. cbn [sum_f_R0 Nat.even]. change (zf (2 * 0 + 1)) with 1%Z. change (zf (2 * 1 + 1)) with 6%Z. change (zf (2 * 2 + 1)) with 120%Z. change (zf (2 * 3 + 1)) with 5040%Z.
      change (zf (2 * 4 + 1)) with 362880%Z. change (zf (2 * 5 + 1)) with 39916800%Z. change (zf (2 * 6 + 1)) with 6227020800%Z. change (zf (2 * 7 + 1)) with 1307674368000%Z.
      unfold sin_expr, SQ. cbn [er]. set (s := r * r) in *.
      replace (1 * (s ^ 0 / 1) + -1 * (s ^ 1 / 6) + 1 * (s ^ 2 / 120) + -1 * (s ^ 3 / 5040) + 1 * (s ^ 4 / 362880) + -1 * (s ^ 5 / 39916800) + 1 * (s ^ 6 / 6227020800) + -1 * (s ^ 7 / 1307674368000))
        with (1 + s * (-1 / 6 + s * (1 / 120 + s * (-1 / 5040 + s * (1 / 362880 + s * (-1 / 39916800 + s * (1 / 6227020800 + s * (-1 / 1307674368000)))))))) by field.
      match goal with |- Rabs (r * ?h / r - _) <= _ => replace (r * h / r) with h by (field; exact N) end.
      replace (8 * tiny) with (tiny + (tiny + (tiny + (tiny + (tiny + (tiny + (tiny + tiny))))))) by ring.
      repeat (apply horner; [lra|coef|]). coef. }
    destruct E as [E | ->]; [|unfold sin_expr; cbn [er]; rewrite sin_0, Rmult_0_l, Rminus_0_r, Rabs_R0; apply Rlt_le, Rinv_0_lt_compat, IZR_lt; reflexivity].
    assert (E' : Rabs (er r sin_expr - r * p) <= 8 * tiny).
    { destruct (Req_dec r 0) as [->|N].
      - unfold sin_expr; cbn [er]. rewrite !Rmult_0_l, Rminus_0_r, Rabs_R0. unfold tiny. apply Rmult_le_pos; [lra|apply Rlt_le, Rinv_0_lt_compat, IZR_lt; reflexivity].
      - replace (er r sin_expr - r * p) with (r * (er r sin_expr / r - p)) by (field; exact N). rewrite Rabs_mult, (Rabs_right r) by lra. pose proof (Rabs_pos (er r sin_expr / r - p)). nra. }
    unfold tiny in E'. change (2 ^ 55)%Z with 36028797018963968%Z in E'. change (2 ^ 45)%Z with 35184372088832%Z. apply Rabs_le_inv in E'. apply Rabs_le.
    assert (r * (1 * ((r * r) ^ 8 / 355687428096000)) <= 1 / 10 / 355687428096000) by nra. lra. }
  intros Hr. destruct (Rle_lt_dec 0 r) as [P|N]; [apply G; lra|].
  replace (er r sin_expr - sin r) with (- (er (- r) sin_expr - sin (- r))).
  - rewrite Rabs_Ropp. apply G. lra.
  - rewrite sin_neg. unfold sin_expr, SQ. cbn [er]. replace (- r * - r) with (r * r) by ring. ring.
Qed.

(** ** Reduction of the argument modulo pi / 2 *)
Definition PIO2_1 : float := 1.570796325802803.
Definition PIO2_2 : float := 9.920935796805404e-10.
Definition TWO_OVER_PI : float := 0.6366197723675814.
Definition reduce (x : float) : Z * float :=
  let k := match py_floor (x * TWO_OVER_PI + 0.5)%float with Ok k => k | Raise _ => 0%Z end in
  let kf := float_of_Z k in
  (k, ((x - kf * PIO2_1) - kf * PIO2_2)%float).
Definition quad (k : Z) (s c : float) : float :=
  match (k mod 4)%Z with 0%Z => c | 1%Z => (- s)%float | 2%Z => (- c)%float | _ => s end.
Definition rcos (x : float) : float := let '(k, r) := reduce x in quad k (sin_poly r) (cos_poly r).
Definition rsin (x : float) : float := let '(k, r) := reduce x in quad (k - 1) (sin_poly r) (cos_poly r).
Lemma lit_val (c : float) a b : lit_av c = Some (a, b) -> FIN c /\ sc a <= FR c <= sc b.
Proof. intros H. exact (lit_av_ok c (a, b) H). Qed.
Lemma reduce_ok x : FIN x -> Rabs (FR x) <= IZR (2 ^ 23) ->
  let '(k, r) := reduce x in
  FIN r /\ Rabs (FR r - (FR x - IZR k * (PI / 2))) <= / IZR (2 ^ 47) /\ Rabs (FR x - IZR k * (PI / 2)) <= 79 / 100.
Proof.
  intros Fx Bx. unfold reduce. cbv zeta. change (IZR (2 ^ 23)) with 8388608 in Bx. apply Rabs_le_inv in Bx.
  destruct (lit_val TWO_OVER_PI 733972625820500352 733972625820500352 ltac:(vm_compute; reflexivity)) as [F2 V2].
  destruct (lit_val PIO2_1 1811004863375474688 1811004863375474688 ltac:(vm_compute; reflexivity)) as [Fp V1].
  destruct (lit_spec PIO2_2 false 4797470175798835 (-82) ltac:(vm_compute; reflexivity)) as [Fq Vq].
  destruct (lit_val 0.5 576460752303423488 576460752303423488 ltac:(vm_compute; reflexivity)) as [Fh Vh].
  pose proof pi_bounds as PB. unfold pi2z in PB. change (IZR (2 ^ 80)) with 1208925819614629174706176 in PB.
  change (1898976236818169290393996 + 1)%Z with 1898976236818169290393997%Z in PB. unfold sc in V2, V1, Vh. change (IZR P2) with 1152921504606846976 in *.
  assert (Vq' : FR PIO2_2 = 4797470175798835 / 4835703278458516698824704) by (rewrite Vq; cbn [bpow radix_val radix2]; change (Z.pow_pos 2 82) with 4835703278458516698824704%Z; reflexivity).
  clear Vq. set (h := PI / 2) in *. set (X := FR x) in *.
  assert (E2 : FR TWO_OVER_PI = 733972625820500352 / 1152921504606846976) by lra. assert (E1 : FR PIO2_1 = 1811004863375474688 / 1152921504606846976) by lra.
  assert (Eh : FR 0.5 = 1 / 2) by lra. clear V2 V1 Vh.
  destruct (fmul_b x TWO_OVER_PI 8388608 Fx F2 ltac:(rewrite E2; fold X; lra) ltac:(lra)) as (Fy & _ & Ny). rewrite E2 in Ny. fold X in Ny. unfold near, eps52 in Ny.
  set (y := (x * TWO_OVER_PI)%float) in *.
  destruct (fadd_b y 0.5 8388608 Fy Fh ltac:(rewrite Eh; lra) ltac:(lra)) as (Fz & _ & Nz). rewrite Eh in Nz. unfold near, eps52 in Nz.
  set (z := (y + 0.5)%float) in *. rewrite (py_floor_spec z Fz). set (k := Zfloor (FR z)).
  pose proof (Zfloor_lb (FR z)) as L. pose proof (Zfloor_ub (FR z)) as U. fold k in L, U.
  assert (Kb : -6000000 <= IZR k <= 6000000) by lra. assert (Kz : (-6000000 <= k <= 6000000)%Z) by (split; apply le_IZR; lra).
  destruct (float_of_Z_spec k ltac:(lia)) as [Fk Ek]. set (kf := float_of_Z k) in *.
  (* the reduced argument *)
  assert (T1 : -1 / 2 - 1 / 100000000 <= X * (733972625820500352 / 1152921504606846976) - IZR k <= 1 / 2 + 1 / 100000000) by lra.
  assert (H1 : 1570796326 / 1000000000 <= h <= 1570796327 / 1000000000) by lra.
  assert (T2 : -1 / 1000000000000000 <= 1 - 733972625820500352 / 1152921504606846976 * h <= 1 / 1000000000000000) by lra.
  set (T := 733972625820500352 / 1152921504606846976) in *.
  assert (Rd : -786 / 1000 <= X - IZR k * h <= 786 / 1000).
  { replace (X - IZR k * h) with (h * (X * T - IZR k) + X * (1 - T * h)) by ring.
    assert (-1 / 100000000 <= X * (1 - T * h) <= 1 / 100000000) by (revert T2; generalize (1 - T * h); intros d G; clear - G Bx; nra). assert (-78541 / 100000 <= h * (X * T - IZR k) <= 78541 / 100000) by nra. lra. }
  (* the first product is exact *)
  assert (Pe : FR (kf * PIO2_1)%float = IZR k * FR PIO2_1 /\ FIN (kf * PIO2_1)%float).
  { destruct (fmul_spec kf PIO2_1 Fk Fp) as [A B]; [apply le_big; rewrite Ek, E1; apply Rabs_le; change (IZR (10 ^ 50)) with 100000000000000000000000000000000000000000000000000; lra|].
    split; [|exact A]. rewrite B, Ek, E1. replace (IZR k * (1811004863375474688 / 1152921504606846976)) with (IZR (k * 843314856) / IZR (2 ^ 29)) by (rewrite mult_IZR; change (IZR (2 ^ 29)) with 536870912; lra).
    apply RN_dyadic; lia. }
  destruct Pe as [E3 F3]. rewrite E1 in E3.
  assert (D1 : -8 / 1000 <= IZR k * (h - 1811004863375474688 / 1152921504606846976) <= 8 / 1000) by nra.
  destruct (fsub_b x (kf * PIO2_1) 1 Fx F3 ltac:(rewrite E3; fold X; lra) ltac:(lra)) as (F4 & _ & N4). rewrite E3 in N4. fold X in N4. unfold near, eps52 in N4.
  set (r1 := (x - kf * PIO2_1)%float) in *.
  destruct (fmul_b kf PIO2_2 1 Fk Fq ltac:(rewrite Ek, Vq'; lra) ltac:(lra)) as (F5 & _ & N5). rewrite Ek, Vq' in N5. unfold near, eps52 in N5.
  set (r2 := (kf * PIO2_2)%float) in *.
  assert (D2 : -1 / 1000000000000000 <= IZR k * (h - 1811004863375474688 / 1152921504606846976 - 4797470175798835 / 4835703278458516698824704) <= 1 / 1000000000000000).
  { assert (-1 / 10000000000000000000000 <= h - 1811004863375474688 / 1152921504606846976 - 4797470175798835 / 4835703278458516698824704 <= 1 / 10000000000000000000000) as G by lra.
    revert G. generalize (h - 1811004863375474688 / 1152921504606846976 - 4797470175798835 / 4835703278458516698824704). intros d G. clear - G Kb. nra. }
  destruct (fsub_b r1 r2 1 F4 F5 ltac:(lra) ltac:(lra)) as (F6 & _ & N6). unfold near, eps52 in N6.
  split; [exact F6|]. change (IZR (2 ^ 47)) with 140737488355328. split; apply Rabs_le; lra.
Qed.

Lemma cos_turns r q : cos (r + 2 * IZR q * PI) = cos r.
Proof.
  destruct (Z.le_gt_cases 0 q) as [H|H].
  - replace (IZR q) with (INR (Z.to_nat q)) by (rewrite INR_IZR_INZ; f_equal; lia). apply cos_period.
  - rewrite <- (cos_period _ (Z.to_nat (- q))). f_equal. rewrite INR_IZR_INZ. rewrite Z2Nat.id by lia. rewrite opp_IZR. ring.
Qed.
Lemma cos_quad r k : cos (r + IZR k * (PI / 2)) = match (k mod 4)%Z with 0%Z => cos r | 1%Z => - sin r | 2%Z => - cos r | _ => sin r end.
Proof.
  pose proof (Z.div_mod k 4 ltac:(lia)) as D. pose proof (Z.mod_pos_bound k 4 ltac:(lia)) as B. set (q := (k / 4)%Z) in *. set (j := (k mod 4)%Z) in *.
  replace (r + IZR k * (PI / 2)) with (r + IZR j * (PI / 2) + 2 * IZR q * PI) by (rewrite D, plus_IZR, mult_IZR; field).
  rewrite cos_turns. assert (C : (j = 0 \/ j = 1 \/ j = 2 \/ j = 3)%Z) by lia. destruct C as [-> | [-> | [-> | ->]]].
  - f_equal. ring.
  - replace (r + 1 * (PI / 2)) with (PI / 2 + r) by ring. now rewrite <- sin_cos, Ropp_involutive || (rewrite cos_plus, cos_PI2, sin_PI2; ring).
  - replace (r + 2 * (PI / 2)) with (r + PI) by field. rewrite neg_cos. reflexivity.
  - replace (r + 3 * (PI / 2)) with (PI / 2 + r + PI) by field. rewrite neg_cos, cos_plus, cos_PI2, sin_PI2. ring.
Qed.
Lemma quad_ok k s c s' c' e : FIN s -> FIN c -> Rabs (FR s - s') <= e -> Rabs (FR c - c') <= e ->
  FIN (quad k s c) /\ Rabs (FR (quad k s c) - match (k mod 4)%Z with 0%Z => c' | 1%Z => - s' | 2%Z => - c' | _ => s' end) <= e.
Proof.
  intros Fs Fc Es Ec. unfold quad. pose proof (Z.mod_pos_bound k 4 ltac:(lia)) as B. set (j := (k mod 4)%Z) in *.
  assert (C : (j = 0 \/ j = 1 \/ j = 2 \/ j = 3)%Z) by lia.
  assert (N : forall u v, FIN u -> Rabs (FR u - v) <= e -> FIN (- u)%float /\ Rabs (FR (- u)%float - - v) <= e).
  { intros u v Fu Eu. destruct (fopp_spec u Fu) as [A ->]. split; [exact A|]. replace (- FR u - - v) with (- (FR u - v)) by ring. now rewrite Rabs_Ropp. }
  destruct C as [-> | [-> | [-> | ->]]]; auto.
Qed.
Definition poly_av : option av * option av := Eval vm_compute in (an (-8 * P2 / 10)%Z (8 * P2 / 10)%Z cos_expr, an (-8 * P2 / 10)%Z (8 * P2 / 10)%Z sin_expr).
Lemma poly_ok r : FIN r -> Rabs (FR r) <= 795 / 1000 ->
  (FIN (cos_poly r) /\ Rabs (FR (cos_poly r) - cos (FR r)) <= / IZR (2 ^ 42)) /\ (FIN (sin_poly r) /\ Rabs (FR (sin_poly r) - sin (FR r)) <= / IZR (2 ^ 42)).
Proof.
  intros Fr Br. apply Rabs_le_inv in Br. set (lo := (-8 * P2 / 10)%Z). set (hi := (8 * P2 / 10)%Z).
  assert (D : dom lo hi (FR r)).
  { unfold dom, lo, hi. unfold sc. change (-8 * P2 / 10)%Z with (-922337203685477581)%Z. change (8 * P2 / 10)%Z with 922337203685477580%Z. change (IZR P2) with 1152921504606846976. lra. }
  destruct (an lo hi cos_expr) as [u|] eqn:Eu; [|vm_compute in Eu; discriminate]. destruct (an lo hi sin_expr) as [v|] eqn:Ev; [|vm_compute in Ev; discriminate].
  pose proof (so_err _ _ _ _ _ _ (an_ok _ _ wit_libm _ _ _ _ Eu) r Fr D) as [Fc Ec]. pose proof (so_err _ _ _ _ _ _ (an_ok _ _ wit_libm _ _ _ _ Ev) r Fr D) as [Fs Es].
  rewrite <- cos_poly_ef in *. rewrite <- sin_poly_ef in *.
  pose proof (cos_near (FR r) ltac:(lra)) as Nc. pose proof (sin_near (FR r) ltac:(lra)) as Ns.
  assert (Bu : sc (ee u) <= / 17592186044416) by (vm_compute in Eu; injection Eu as <-; unfold sc; cbn [ee]; change (IZR P2) with 1152921504606846976; lra).
  assert (Bv : sc (ee v) <= / 17592186044416) by (vm_compute in Ev; injection Ev as <-; unfold sc; cbn [ee]; change (IZR P2) with 1152921504606846976; lra).
  change (IZR (2 ^ 45)) with 35184372088832 in *. change (IZR (2 ^ 42)) with 4398046511104. apply Rabs_le_inv in Ec, Es, Nc, Ns.
  split; (split; [assumption|apply Rabs_le; lra]).
Qed.
Theorem libm_ref : libm rsin rcos.
Proof.
  intros x Fx Bx. pose proof (reduce_ok x Fx Bx) as R. unfold rsin, rcos. destruct (reduce x) as [k r]. destruct R as (Fr & Er & Bd).
  set (rho := FR x - IZR k * (PI / 2)) in *. change (IZR (2 ^ 47)) with 140737488355328 in Er.
  assert (Br : Rabs (FR r) <= 795 / 1000) by (apply Rabs_le_inv in Er, Bd; apply Rabs_le; lra).
  destruct (poly_ok r Fr Br) as [[Fc Ec] [Fs Es]].
  assert (Es' : Rabs (FR (sin_poly r) - sin rho) <= / IZR (2 ^ 40)).
  { pose proof (sin_lip (FR r) rho). replace (FR (sin_poly r) - sin rho) with ((FR (sin_poly r) - sin (FR r)) + (sin (FR r) - sin rho)) by ring.
    eapply Rle_trans; [apply Rabs_triang|]. change (IZR (2 ^ 42)) with 4398046511104 in Es. change (IZR (2 ^ 40)) with 1099511627776. lra. }
  assert (Ec' : Rabs (FR (cos_poly r) - cos rho) <= / IZR (2 ^ 40)).
  { pose proof (cos_lip (FR r) rho). replace (FR (cos_poly r) - cos rho) with ((FR (cos_poly r) - cos (FR r)) + (cos (FR r) - cos rho)) by ring.
    eapply Rle_trans; [apply Rabs_triang|]. change (IZR (2 ^ 42)) with 4398046511104 in Ec. change (IZR (2 ^ 40)) with 1099511627776. lra. }
  split.
  - replace (sin (FR x)) with (cos (rho + IZR (k - 1) * (PI / 2))).
    + rewrite cos_quad. now apply quad_ok.
    + rewrite minus_IZR. rewrite <- cos_shift. rewrite <- cos_neg. f_equal. unfold rho. ring.
  - replace (cos (FR x)) with (cos (rho + IZR k * (PI / 2))) by (f_equal; unfold rho; ring). rewrite cos_quad. now apply quad_ok.
Qed.
