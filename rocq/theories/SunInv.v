(** How well [saLonT] (util/ShouXingUtil.py:500-507) inverts [saLon]: the two steps of Newton's method use the speed [ev] of a shortened series, which is
    compared here with the derivative of the whole one. In binary64, for every C library with [libm]. *)
From Coq Require Import ZArith Lia Reals Lra Psatz.
From Flocq Require Import Core BinarySingleNaN PrimFloat.
From Coq Require Import Bool List Floats.
From Verif Require Import Py PyFloat FloatFacts FloatTac JulianDay T_ShouXing ShouXing FloatExpr Trig SunLon SunDt SunTerm SunQi.
Import ListNotations.
Open Scope R_scope.
Local Set Warnings "-inexact-float".

(** the apparent longitude of the sun after [t] centuries: the exact value of what [saLon] computes *)
Definition Lf (t : R) : R := er (t / 10) E_all + er t E_nut + er t E_gxc + FR ShouXing.PI.
(** the mean motion, the yearly terms of the first three powers of the time and the half-yearly term: what [ev] accounts for *)
Definition S_4 : list terms := [[(17534704567.0, 0, 0); (334165646.0, 4.669256804, 6283.075849991); (3489428.0, 4.6261024, 12566.1517)]; [(62833196674749.0, 0, 0); (20605886.0, 2.67823456, 6283.07584999)]; [(871984.0, 1.072097, 6283.07585)]]%float.
Definition E_4 : expr := Eval vm_compute in lon_expr S_4.
Lemma d_4 : chk 65 (ediff E_all E_4) (-436320000) 436320000 (-262226000000) 262226000000 10000000000000 = true. Proof. vm_cast_no_check (eq_refl true). Qed.
Lemma d_4s : chk 17 (ediff E_all E_4) (-28914000) 28914000 (-56626100000) 56626100000 10000000000000 = true. Proof. vm_cast_no_check (eq_refl true). Qed.
Lemma b_evl : chk 648 E_ev 5928340000000 6638300000000 (-225801000000000) 225801000000000 10 = true. Proof. vm_cast_no_check (eq_refl true). Qed.
Lemma b_evls : chk 168 E_ev 6039400000000 6527240000000 (-156021000000000) 156021000000000 10 = true. Proof. vm_cast_no_check (eq_refl true). Qed.
Ltac un := unfold dd, DD in *.

(** ** The periodic part and its derivative *)
Definition a1 := FR 4.669256804. Definition f1 := FR 6283.075849991 / 10.
Definition a2 := FR 4.6261024. Definition f2 := FR 12566.1517 / 10.
Definition a3 := FR 2.67823456. Definition f3 := FR 6283.07584999 / 10.
Definition a4 := FR 1.072097. Definition f4 := FR 6283.07585 / 10.
Definition Y (t : R) : R := 0.0334165646 * cos (a1 + f1 * t) + 0.0003489428 * cos (a2 + f2 * t) + 0.00020605886 * (cos (a3 + f3 * t) * t) + 0.000000871984 * (cos (a4 + f4 * t) * (t * t)).
Definition DY (t : R) : R :=
  0.0334165646 * - (f1 * sin (a1 + f1 * t)) + 0.0003489428 * - (f2 * sin (a2 + f2 * t)) +
  0.00020605886 * (- (f3 * sin (a3 + f3 * t)) * t + cos (a3 + f3 * t)) +
  0.000000871984 * (- (f4 * sin (a4 + f4 * t)) * (t * t) + cos (a4 + f4 * t) * (t + t)).
Lemma E_4_lin t : er (t / 10) E_4 - er (t / 10) E_lin = Y t.
Proof.
  unfold E_4, E_lin, Y, a1, a2, a3, a4, f1, f2, f3, f4. cbn [er]. fval 10000000000%float 10000000000 eh. rewrite eh. fval 334165646%float 334165646 e1. fval 3489428%float 3489428 e2. fval 20605886%float 20605886 e3. fval 871984%float 871984 e4.
  fval 1%float 1 e5. fval 0%float 0 e0. rewrite e5, e0, e1, e2, e3, e4. flit 206264.80624709636%float Fs Vs.
  replace (FR 6283.075849991 / 10 * t) with (t / 10 * FR 6283.075849991) by field. replace (FR 12566.1517 / 10 * t) with (t / 10 * FR 12566.1517) by field.
  replace (FR 6283.07584999 / 10 * t) with (t / 10 * FR 6283.07584999) by field. replace (FR 6283.07585 / 10 * t) with (t / 10 * FR 6283.07585) by field.
  set (k0 := cos (0 + t / 10 * 0)). set (k1 := cos (FR 4.669256804 + t / 10 * FR 6283.075849991)). set (k2 := cos (FR 4.6261024 + t / 10 * FR 12566.1517)).
  set (k3 := cos (FR 2.67823456 + t / 10 * FR 6283.07584999)). set (k4 := cos (FR 1.072097 + t / 10 * FR 6283.07585)). clearbody k0 k1 k2 k3 k4. set (ss := FR 206264.80624709636) in *.
  set (m0 := FR 17534704567). set (m1 := FR 62833196674749). set (m2 := FR (-0.0728)). set (m3 := FR 2.7702). set (m4 := FR 1.1019). set (m5 := FR 0.0996). clearbody m0 m1 m2 m3 m4 m5 ss.
  set (pp := (m2 - m3 * (t / 10) - m4 * (t / 10 * (t / 10)) - m5 * (t / 10 * (t / 10) * (t / 10))) / ss). lra.
Qed.
Lemma d_cos a f t : derivable_pt_lim (fun x => cos (a + f * x)) t (- (f * sin (a + f * t))).
Proof.
  replace (- (f * sin (a + f * t))) with (- sin (a + f * t) * f) by ring. apply (derivable_pt_lim_comp (fun x => a + f * x) cos); [|apply derivable_pt_lim_cos].
  assert (D : derivable_pt_lim (fun x => a + f * x) t (0 + f * 1)); [|now replace (0 + f * 1) with f in D by ring].
  apply (derivable_pt_lim_plus (fun _ => a) (fun x => f * x) t 0 (f * 1)); [apply derivable_pt_lim_const|apply (derivable_pt_lim_scal (fun x => x) f t 1), derivable_pt_lim_id].
Qed.
Lemma d_Y t : derivable_pt_lim Y t (DY t).
Proof.
  unfold DY. apply (derivable_pt_lim_plus (fun t => 0.0334165646 * cos (a1 + f1 * t) + 0.0003489428 * cos (a2 + f2 * t) + 0.00020605886 * (cos (a3 + f3 * t) * t)) (fun t => 0.000000871984 * (cos (a4 + f4 * t) * (t * t)))).
  - apply (derivable_pt_lim_plus (fun t => 0.0334165646 * cos (a1 + f1 * t) + 0.0003489428 * cos (a2 + f2 * t)) (fun t => 0.00020605886 * (cos (a3 + f3 * t) * t))).
    + apply (derivable_pt_lim_plus (fun t => 0.0334165646 * cos (a1 + f1 * t)) (fun t => 0.0003489428 * cos (a2 + f2 * t))).
      * apply (derivable_pt_lim_scal (fun t => cos (a1 + f1 * t))), d_cos.
      * apply (derivable_pt_lim_scal (fun t => cos (a2 + f2 * t))), d_cos.
    + apply (derivable_pt_lim_scal (fun t => cos (a3 + f3 * t) * t)). replace (cos (a3 + f3 * t)) with (cos (a3 + f3 * t) * 1) by ring.
      apply (derivable_pt_lim_mult (fun t => cos (a3 + f3 * t)) (fun t => t)); [apply d_cos|apply derivable_pt_lim_id].
  - apply (derivable_pt_lim_scal (fun t => cos (a4 + f4 * t) * (t * t))).
    apply (derivable_pt_lim_mult (fun t => cos (a4 + f4 * t)) (fun t => t * t)); [apply d_cos|].
    replace (t + t) with (1 * t + t * 1) by ring. apply (derivable_pt_lim_mult (fun t => t) (fun t => t)); apply derivable_pt_lim_id.
Qed.
Lemma Pi_val : 3.14159265358979 <= Rtrigo1.PI <= 3.1415926535898.
Proof. pose proof pi_bounds as PB. unfold pi2z in PB. change (IZR (2 ^ 80)) with 1208925819614629174706176 in PB.
  change (1898976236818169290393996 + 1)%Z with 1898976236818169290393997%Z in PB. lra.
Qed.
(** a sine and a slightly different one *)
Lemma sin_near a b x y da dx : Rabs (a - b) <= da -> 0 <= b -> Rabs (x - y) <= dx -> Rabs (a * sin x - b * sin y) <= da + b * dx.
Proof.
  intros Ha Hb Hx. replace (a * sin x - b * sin y) with ((a - b) * sin x + b * (sin x - sin y)) by ring.
  assert (X1 : Rabs ((a - b) * sin x) <= da * 1) by (apply Rmul_abs; [exact Ha|]; pose proof (SIN_bound x); apply Rabs_le; lra).
  assert (X2 : Rabs (b * (sin x - sin y)) <= b * dx) by (apply Rmul_abs; [rewrite Rabs_pos_eq; lra|]; pose proof (sin_lip x y); lra).
  apply Rabs_le_inv in X1, X2. apply Rabs_le. lra.
Qed.
Lemma neg_sin x : - sin x = sin (x - Rtrigo1.PI). Proof. rewrite sin_minus, cos_PI, sin_PI. ring. Qed.
Lemma neg_sin' x : - sin x = sin (x + Rtrigo1.PI). Proof. rewrite sin_plus, cos_PI, sin_PI. ring. Qed.
(** the speed used by [saLonT] against the derivative of the mean motion and the periodic part *)
Lemma ev_near t : Rabs t <= 81 -> Rabs (DY t - (er t E_ev - 628.332)) <= 0.0219 + 0.000495 * Rabs t + 0.00000417 * (t * t).
Proof.
  intros Ht. unfold DY, E_ev. cbn [er]. unfold a1, a2, a3, a4, f1, f2, f3, f4.
  flit 4.669256804%float G1 V1. flit 4.6261024%float G2 V2. flit 2.67823456%float G3 V3. flit 1.072097%float G4 V4.
  flit 6283.075849991%float H1 W1. flit 12566.1517%float H2 W2. flit 6283.07584999%float H3 W3. flit 6283.07585%float H4 W4.
  flit 628.332%float J0 X0. flit 1.527%float J1 X1. flit 628.307585%float J2 X2. flit 0.44%float J3 X3. flit 1.48%float J4 X4. flit 0.129%float J5 X5. flit 5.82%float J6 X6. flit 0.00055%float J7 X7. flit 4.21%float J8 X8.
  fval 21%float 21 e21. fval 2%float 2 e2. rewrite e21, e2. clear e21 e2 G1 G2 G3 G4 H1 H2 H3 H4 J0 J1 J2 J3 J4 J5 J6 J7 J8.
  set (b1 := FR 4.669256804%float) in *. set (b2 := FR 4.6261024%float) in *. set (b3 := FR 2.67823456%float) in *. set (b4 := FR 1.072097%float) in *.
  set (g1 := FR 6283.075849991%float / 10). set (g2 := FR 12566.1517%float / 10). set (g3 := FR 6283.07584999%float / 10). set (g4 := FR 6283.07585%float / 10).
  assert (W1' : 628.30758499909 <= g1 <= 628.30758499911) by (unfold g1; lra). assert (W2' : 1256.61516999999 <= g2 <= 1256.61517000001) by (unfold g2; lra).
  assert (W3' : 628.307584998 <= g3 <= 628.30758500001) by (unfold g3; lra). assert (W4' : 628.30758499999 <= g4 <= 628.30758500001) by (unfold g4; lra).
  clearbody g1 g2 g3 g4. clear W1 W2 W3 W4. set (c := FR 628.307585%float) in *. set (p1 := FR 1.527%float) in *. set (p2 := FR 1.48%float) in *. set (p3 := FR 5.82%float) in *. set (p4 := FR 4.21%float) in *.
  set (q2 := FR 0.44%float) in *. set (q3 := FR 0.129%float) in *. set (q4 := FR 0.00055%float) in *. set (q0 := FR 628.332%float) in *. clearbody b1 b2 b3 b4 c p1 p2 p3 p4 q0 q2 q3 q4.
  pose proof Pi_val as P. apply Rabs_le_inv in Ht as Hb.
  assert (T1 : Rabs (t * (g1 - c)) <= 81 * / 100000000) by (apply Rmul_abs; [exact Ht|apply Rabs_le; lra]).
  assert (T2 : Rabs (t * (g2 - c * 2)) <= 81 * / 100000000) by (apply Rmul_abs; [exact Ht|apply Rabs_le; lra]).
  assert (T3 : Rabs (t * (g3 - c)) <= 81 * / 100000000) by (apply Rmul_abs; [exact Ht|apply Rabs_le; lra]).
  assert (T4 : Rabs (t * (g4 - c)) <= 81 * / 100000000) by (apply Rmul_abs; [exact Ht|apply Rabs_le; lra]).
  apply Rabs_le_inv in T1, T2, T3, T4.
  pose proof (sin_near (0.0334165646 * g1) 21 (b1 + g1 * t - Rtrigo1.PI) (p1 + c * t) 0.00413 0.000666 ltac:(apply Rabs_le; lra) ltac:(lra) ltac:(apply Rabs_le; lra)) as S1. rewrite <- neg_sin in S1.
  pose proof (sin_near (0.0003489428 * g2) q2 (b2 + g2 * t - Rtrigo1.PI) (p2 + c * t * 2) 0.00152 0.00452 ltac:(apply Rabs_le; lra) ltac:(lra) ltac:(apply Rabs_le; lra)) as S2. rewrite <- neg_sin in S2.
  pose proof (sin_near (0.00020605886 * g3) q3 (b3 + g3 * t + Rtrigo1.PI) (p3 + c * t) 0.00047 0.000175 ltac:(apply Rabs_le; lra) ltac:(lra) ltac:(apply Rabs_le; lra)) as S3. rewrite <- neg_sin' in S3.
  pose proof (sin_near (0.000000871984 * g4) q4 (b4 + g4 * t + Rtrigo1.PI) (p4 + c * t) 0.00000213 0.0037 ltac:(apply Rabs_le; lra) ltac:(lra) ltac:(apply Rabs_le; lra)) as S4. rewrite <- neg_sin' in S4.
  set (s1 := sin (b1 + g1 * t)) in *. set (s2 := sin (b2 + g2 * t)) in *. set (s3 := sin (b3 + g3 * t)) in *. set (s4 := sin (b4 + g4 * t)) in *.
  set (r1 := sin (p1 + c * t)) in *. set (r2 := sin (p2 + c * t * 2)) in *. set (r3 := sin (p3 + c * t)) in *. set (r4 := sin (p4 + c * t)) in *.
  pose proof (COS_bound (b3 + g3 * t)) as C3. pose proof (COS_bound (b4 + g4 * t)) as C4. set (c3 := cos (b3 + g3 * t)) in *. set (c4 := cos (b4 + g4 * t)) in *.
  clearbody s1 s2 s3 s4 r1 r2 r3 r4 c3 c4.
  assert (S3t : Rabs ((0.00020605886 * g3 * - s3 - q3 * r3) * t) <= (0.00047 + q3 * 0.000175) * Rabs t) by (rewrite Rabs_mult; apply Rmult_le_compat_r; [apply Rabs_pos|exact S3]).
  assert (PT : 0 <= t * t) by apply Rle_0_sqr.
  assert (S4t : Rabs ((0.000000871984 * g4 * - s4 - q4 * r4) * (t * t)) <= (0.00000213 + q4 * 0.0037) * (t * t)) by (rewrite Rabs_mult, (Rabs_pos_eq (t * t)) by exact PT; apply Rmult_le_compat_r; [exact PT|exact S4]).
  assert (C4t : Rabs (c4 * t) <= 1 * Rabs t) by (rewrite Rabs_mult; apply Rmult_le_compat_r; [apply Rabs_pos|apply Rabs_le; lra]).
  pose proof (Rabs_pos t) as PA. set (at_ := Rabs t) in *. set (tt := t * t) in *.
  assert (K3 : (0.00047 + q3 * 0.000175) * at_ <= 0.00049258 * at_) by (apply Rmult_le_compat_r; lra).
  assert (K4 : (0.00000213 + q4 * 0.0037) * tt <= 0.0000041651 * tt) by (apply Rmult_le_compat_r; lra).
  apply Rabs_le_inv in S1, S2, S3t, S4t, C4t. clear S3 S4.
  replace (0.0334165646 * - (g1 * s1) + 0.0003489428 * - (g2 * s2) + 0.00020605886 * (- (g3 * s3) * t + c3) + 0.000000871984 * (- (g4 * s4) * tt + c4 * (t + t)) -
    (q0 + 21 * r1 + q2 * r2 + q3 * r3 * t + q4 * r4 * t * t - 628.332)) with
    ((0.0334165646 * g1 * - s1 - 21 * r1) + (0.0003489428 * g2 * - s2 - q2 * r2) + (0.00020605886 * g3 * - s3 - q3 * r3) * t + (0.000000871984 * g4 * - s4 - q4 * r4) * tt +
     0.00020605886 * c3 + 0.000001743968 * (c4 * t) - (q0 - 628.332)) by (unfold tt; lra).
  apply Rabs_le. lra.
Qed.

(** ** Increments of the longitude *)
Section LIB.
Context {fsin fcos : float -> float} (lib : libm fsin fcos).
Notation A := (float_arith fsin fcos).
Lemma Y_step t u : t < u -> exists x, t < x < u /\ Y u - Y t = DY x * (u - t).
Proof. intros H. destruct (MVT_cor2 Y DY t u H (fun c _ => d_Y c)) as (x & E & B). eauto. Qed.
Lemma Lf_parts t u : Lf u - Lf t = (er (u / 10) (ediff E_all E_4) - er (t / 10) (ediff E_all E_4)) + (er (u / 10) E_lin - er (t / 10) E_lin) + (Y u - Y t) + (er u E_nut - er t E_nut) + (er u E_gxc - er t E_gxc).
Proof. rewrite !ediff_ok, <- !E_4_lin. unfold Lf. ring. Qed.
Lemma Lf_step_lt t u : Rabs t <= 81 -> Rabs u <= 81 -> t < u -> exists x, t < x < u /\ Rabs (Lf u - Lf t - er x E_ev * (u - t)) <= 2.76 * (u - t) /\
  (Rabs t <= 21 -> Rabs u <= 21 -> Rabs (Lf u - Lf t - er x E_ev * (u - t)) <= 0.645 * (u - t)).
Proof.
  intros Ht Hu L. destruct (Y_step t u L) as (x & Hx & EY). exists x. split; [exact Hx|]. rewrite Lf_parts, EY. clear EY.
  assert (L' : t <= u) by lra. apply Rabs_le_inv in Ht as Bt. apply Rabs_le_inv in Hu as Bu.
  destruct (chk_ok _ _ lib _ _ _ _ _ _ _ b_lin) as (_ & S1 & _). specialize (S1 (t / 10) (u / 10) ltac:(apply Rabs_le; lra) ltac:(apply Rabs_le; lra) ltac:(lra)).
  destruct (chk_ok _ _ lib _ _ _ _ _ _ _ d_4) as (_ & S2 & _). specialize (S2 (t / 10) (u / 10) ltac:(apply Rabs_le; lra) ltac:(apply Rabs_le; lra) ltac:(lra)).
  destruct (chk_ok _ _ lib _ _ _ _ _ _ _ b_nut) as (_ & S3 & _). specialize (S3 t u ltac:(apply Rabs_le; lra) ltac:(apply Rabs_le; lra) L').
  destruct (chk_ok _ _ lib _ _ _ _ _ _ _ b_gxc) as (_ & S4 & _). specialize (S4 t u ltac:(apply Rabs_le; lra) ltac:(apply Rabs_le; lra) L').
  un. assert (Bx : Rabs x <= 81) by (apply Rabs_le; lra). pose proof (ev_near x Bx) as N.
  set (q := DY x) in *. set (v := er x E_ev) in *. set (e1 := er (u / 10) (ediff E_all E_4) - er (t / 10) (ediff E_all E_4)) in *. set (e2 := er (u / 10) E_lin - er (t / 10) E_lin) in *.
  set (e3 := er u E_nut - er t E_nut) in *. set (e4 := er u E_gxc - er t E_gxc) in *.
  assert (M : forall m, 0.0219 + 0.000495 * Rabs x + 0.00000417 * (x * x) <= m -> - m * (u - t) <= (q - (v - 628.332)) * (u - t) <= m * (u - t)).
  { intros m Hm. apply Rabs_le_inv in N. split; apply Rmult_le_compat_r; lra. }
  split.
  - assert (X : x * x <= 6561) by (apply Rabs_le_inv in Bx; clear - Bx; nra). specialize (M 0.09 ltac:(lra)). apply Rabs_le. clear - M S1 S2 S3 S4. lra.
  - intros Ht1 Hu1. apply Rabs_le_inv in Ht1, Hu1.
    destruct (chk_ok _ _ lib _ _ _ _ _ _ _ d_4s) as (_ & S5 & _). specialize (S5 (t / 10) (u / 10) ltac:(apply Rabs_le; lra) ltac:(apply Rabs_le; lra) ltac:(lra)). un. fold e1 in S5.
    assert (X : -21 <= x <= 21) by lra. assert (X2 : x * x <= 441) by (clear - X; nra). assert (X1 : Rabs x <= 21) by (apply Rabs_le; lra). specialize (M 0.0347 ltac:(lra)). apply Rabs_le. clear - M S1 S5 S3 S4. lra.
Qed.
Lemma ev_slope t x : Rabs t <= 81 -> Rabs x <= 81 -> Rabs (er x E_ev - er t E_ev) <= 22580.1 * Rabs (x - t) /\ (Rabs t <= 21 -> Rabs x <= 21 -> Rabs (er x E_ev - er t E_ev) <= 15602.1 * Rabs (x - t)).
Proof.
  assert (P : forall B e s, (forall a b, Rabs a <= B -> Rabs b <= B -> a <= b -> - s * (b - a) <= er b e - er a e <= s * (b - a)) -> Rabs t <= B -> Rabs x <= B -> Rabs (er x e - er t e) <= s * Rabs (x - t)).
  { intros B e s H Ht Hx. destruct (Rle_lt_dec t x) as [C|C].
    - rewrite (Rabs_pos_eq (x - t)) by lra. specialize (H t x Ht Hx C). apply Rabs_le. lra.
    - replace (x - t) with (- (t - x)) by ring. rewrite Rabs_Ropp, (Rabs_pos_eq (t - x)) by lra. specialize (H x t Hx Ht ltac:(lra)). apply Rabs_le. lra. }
  intros Ht Hx. split.
  - destruct (chk_ok _ _ lib _ _ _ _ _ _ _ b_evl) as (_ & S & _). apply (P 81); try assumption. intros a b Ha Hb C. specialize (S a b ltac:(lra) ltac:(lra) C). un. lra.
  - intros Ht1 Hx1. destruct (chk_ok _ _ lib _ _ _ _ _ _ _ b_evls) as (_ & S & _). apply (P 21); try assumption. intros a b Ha Hb C. specialize (S a b ltac:(lra) ltac:(lra) C). un. lra.
Qed.
(** the tangent at [t] *)
Lemma Lf_step t u : Rabs t <= 81 -> Rabs u <= 81 ->
  Rabs (Lf u - Lf t - er t E_ev * (u - t)) <= (2.76 + 22580.1 * Rabs (u - t)) * Rabs (u - t) /\
  (Rabs t <= 21 -> Rabs u <= 21 -> Rabs (Lf u - Lf t - er t E_ev * (u - t)) <= (0.645 + 15602.1 * Rabs (u - t)) * Rabs (u - t)).
Proof.
  intros Ht Hu.
  assert (W : exists x, Rabs (x - t) <= Rabs (u - t) /\ Rabs x <= 81 /\ (Rabs t <= 21 -> Rabs u <= 21 -> Rabs x <= 21) /\ Rabs (Lf u - Lf t - er x E_ev * (u - t)) <= 2.76 * Rabs (u - t) /\
    (Rabs t <= 21 -> Rabs u <= 21 -> Rabs (Lf u - Lf t - er x E_ev * (u - t)) <= 0.645 * Rabs (u - t))).
  { destruct (Rtotal_order t u) as [C|[C|C]].
    - destruct (Lf_step_lt t u Ht Hu C) as (x & Hx & H1 & H2). exists x. rewrite (Rabs_pos_eq (u - t)) by lra. split; [apply Rabs_le; lra|]. apply Rabs_le_inv in Ht, Hu. split; [apply Rabs_le; lra|].
      split; [intros G1 G2; apply Rabs_le_inv in G1, G2; apply Rabs_le; lra|]. split; assumption.
    - subst u. exists t. replace (t - t) with 0 by ring. rewrite Rabs_R0. replace (Lf t - Lf t - er t E_ev * 0) with 0 by ring. rewrite Rabs_R0. repeat split; try assumption; try lra; intros; assumption || lra.
    - destruct (Lf_step_lt u t Hu Ht C) as (x & Hx & H1 & H2). exists x. replace (u - t) with (- (t - u)) by ring. rewrite (Rabs_Ropp (t - u)), (Rabs_pos_eq (t - u)) by lra. split; [apply Rabs_le; lra|]. apply Rabs_le_inv in Ht, Hu. split; [apply Rabs_le; lra|].
      split; [intros G1 G2; apply Rabs_le_inv in G1, G2; apply Rabs_le; lra|].
      replace (Lf u - Lf t - er x E_ev * - (t - u)) with (- (Lf t - Lf u - er x E_ev * (t - u))) by ring. rewrite Rabs_Ropp. split; [assumption|]. intros G1 G2. now apply H2. }
  destruct W as (x & Hx & Bx & Bx1 & H1 & H2). set (r := Rabs (u - t)) in *. assert (R0 : 0 <= r) by apply Rabs_pos.
  assert (P : forall k s, Rabs (Lf u - Lf t - er x E_ev * (u - t)) <= k * r -> 0 <= s -> Rabs (er x E_ev - er t E_ev) <= s * Rabs (x - t) -> Rabs (Lf u - Lf t - er t E_ev * (u - t)) <= (k + s * r) * r).
  { intros k s K S0 S. replace (Lf u - Lf t - er t E_ev * (u - t)) with ((Lf u - Lf t - er x E_ev * (u - t)) + (er x E_ev - er t E_ev) * (u - t)) by ring.
    assert (Q : Rabs ((er x E_ev - er t E_ev) * (u - t)) <= s * r * r). { apply Rmul_abs; [|apply Rle_refl]. apply (Rle_trans _ _ _ S). now apply Rmult_le_compat_l. }
    apply (Rle_trans _ _ _ (Rabs_triang _ _)). lra. }
  destruct (ev_slope t x Ht Bx) as [S1 S2]. split; [apply P; try assumption; lra|]. intros G1 G2. apply P; auto; lra.
Qed.

(** ** The longitude in binary64 *)
Lemma saLon_near (e t : float) v : FIN t -> Rabs (FR t) <= 81 -> FIN e -> Rabs v <= 51055 -> Rabs (FR e - v) <= 0.0000000482 ->
  FIN (e + nutationLon2 A t + gxcSunLon A t + ShouXing.PI)%float /\
  Rabs (FR (e + nutationLon2 A t + gxcSunLon A t + ShouXing.PI)%float - (v + er (FR t) E_nut + er (FR t) E_gxc + FR ShouXing.PI)) <= 0.00000005.
Proof.
  intros F H Fe Hv He.
  destruct (chk_ok _ _ lib _ _ _ _ _ _ _ b_nut) as (V1 & _ & R1). destruct (chk_ok _ _ lib _ _ _ _ _ _ _ b_gxc) as (V2 & _ & R2).
  assert (H8 : Rabs (FR t) <= 648 / 8) by lra.
  specialize (V1 _ H8). specialize (V2 _ H8). specialize (R1 _ F H8). specialize (R2 _ F H8). destruct R1 as [F1 R1], R2 as [F2 R2].
  change (ef fsin fcos t E_nut) with (nutationLon2 A t) in *. change (ef fsin fcos t E_gxc) with (gxcSunLon A t) in *.
  un. apply Rabs_le_inv in R1, R2, He, Hv. flit ShouXing.PI FP VP.
  destruct (fadd_b e (nutationLon2 A t) 52000 Fe F1 ltac:(lra) ltac:(lra)) as (F3 & _ & N3). nea.
  destruct (fadd_b _ (gxcSunLon A t) 52000 F3 F2 ltac:(lra) ltac:(lra)) as (F4 & _ & N4). nea.
  destruct (fadd_b _ ShouXing.PI 52000 F4 FP ltac:(lra) ltac:(lra)) as (F5 & _ & N5). nea.
  split; [exact F5|]. apply Rabs_le. lra.
Qed.
Lemma saLon_full t : FIN t -> Rabs (FR t) <= 81 -> exists x, saLon A t (-1) = Ok x /\ FIN x /\ Rabs (FR x - Lf (FR t)) <= 0.00000005.
Proof.
  intros F H. unfold saLon. rewrite eLon_all. cbn [bind]. eexists. split; [reflexivity|].
  destruct (tenth t F H) as (F10 & N10 & B10). destruct (chk_ok _ _ lib _ _ _ _ _ _ _ b_all) as (V & S & R).
  destruct (R _ F10 B10) as [Fe He]. apply saLon_near; try assumption.
  - specialize (V (FR t / 10) ltac:(apply Rabs_le_inv in H; apply Rabs_le; lra)). un. apply Rabs_le. lra.
  - assert (B : Rabs (FR t / 10) <= IZR 65 / 8) by (apply Rabs_le_inv in H; apply Rabs_le; lra). un. apply Rabs_le_inv in He, N10. apply Rabs_le.
    destruct (Rle_lt_dec (FR t / 10) (FR (t / 10)%float)) as [C|C].
    + specialize (S _ _ B B10 C). lra.
    + apply Rlt_le in C. specialize (S _ _ B10 B C). lra.
Qed.
Lemma saLon_short t : FIN t -> Rabs (FR t) <= 81 -> exists x, saLon A t 10 = Ok x /\ FIN x /\ Rabs (FR x - Lf (FR t)) <= 0.00045786 /\ (Rabs (FR t) <= 21 -> Rabs (FR x - Lf (FR t)) <= 0.00014546).
Proof.
  intros F H. unfold saLon. rewrite eLon_10. cbn [bind]. exists (ef fsin fcos (t / 10)%float E_10 + nutationLon2 A t + gxcSunLon A t + ShouXing.PI)%float. split; [reflexivity|].
  destruct (tenth t F H) as (F10 & N10 & B10). destruct (chk_ok _ _ lib _ _ _ _ _ _ _ b_10) as (V & S & R). destruct (R _ F10 B10) as [Fe He].
  destruct (saLon_near _ t (er (FR t / 10) E_10) F H Fe) as [Fx Hx].
  - specialize (V (FR t / 10) ltac:(apply Rabs_le_inv in H; apply Rabs_le; lra)). un. apply Rabs_le. lra.
  - assert (B : Rabs (FR t / 10) <= IZR 65 / 8) by (apply Rabs_le_inv in H; apply Rabs_le; lra). un. apply Rabs_le_inv in He, N10. apply Rabs_le.
    destruct (Rle_lt_dec (FR t / 10) (FR (t / 10)%float)) as [C|C].
    + specialize (S _ _ B B10 C). lra.
    + apply Rlt_le in C. specialize (S _ _ B10 B C). lra.
  - split; [exact Fx|]. pose proof (LaLb lib _ H) as M. unfold La, Lb in M. unfold Lf. apply Rabs_le_inv in Hx, M. split; [apply Rabs_le; lra|].
    intros H1. pose proof (LaLbs lib _ H1) as M1. unfold La, Lb in M1. apply Rabs_le_inv in M1. apply Rabs_le. lra.
Qed.
Lemma La_Lf t : Rabs t <= 81 -> Rabs (Lf t - La t) <= 0.000104.
Proof.
  intros H. destruct (chk_ok _ _ lib _ _ _ _ _ _ _ b_nut) as (V1 & _ & _). destruct (chk_ok _ _ lib _ _ _ _ _ _ _ b_gxc) as (V2 & _ & _).
  specialize (V1 t ltac:(lra)). specialize (V2 t ltac:(lra)). un. unfold Lf, La. apply Rabs_le. lra.
Qed.
Lemma ev_err t : FIN t -> Rabs (FR t) <= 81 -> Rabs (FR (ev A t) - er (FR t) E_ev) <= / 1000000000.
Proof.
  intros F H. destruct (chk_ok _ _ lib _ _ _ _ _ _ _ b_evl) as (_ & _ & R). destruct (R t F ltac:(lra)) as [_ E]. change (ef fsin fcos t E_ev) with (ev A t) in E. un. lra.
Qed.

(** ** A step of Newton's method *)
Lemma newton_f (k s v1 H : R) (t x w : float) eta d : FIN t -> FIN x -> FIN w -> Rabs (FR t) <= 80.9 -> 590 <= v1 -> v1 <= FR (ev A t) <= 670 -> FIN (ev A t) ->
  (forall u, Rabs (u - FR t) <= / 100 -> Rabs (Lf u - Lf (FR t) - er (FR t) E_ev * (u - FR t)) <= (k + s * Rabs (u - FR t)) * Rabs (u - FR t)) -> 0 <= k -> 0 <= s ->
  Rabs (FR x - Lf (FR t)) <= eta -> Rabs (Lf (FR t) - FR w) <= d -> eta + d <= 1 -> eta + d <= v1 * (H - / 10000000000000) -> 
  let t' := (t + (w - x) / ev A t)%float in
  FIN t' /\ Rabs (FR t' - FR t) <= / 100 /\ Rabs (FR t' - FR t) <= H /\ Rabs (Lf (FR t') - FR w) <= eta + (k + s * H + / 100000000) * H + / 50000000000.
Proof.
  intros Ft Fx Fw Ht V1 Hv Fv S K0 S0 Hx Hd D1 DH t'. pose proof (ev_err t Ft ltac:(lra)) as Ev. apply Rabs_le_inv in Ht, Hx, Hd, Ev. set (v := FR (ev A t)) in *.
  destruct (fsub_b w x 2 Fw Fx ltac:(lra) ltac:(lra)) as (F1 & _ & N1). nea. set (u := (w - x)%float) in *.
  set (m := eta + d) in *.
  assert (Bu : - m - / 1000000000000000 <= FR u <= m + / 1000000000000000) by (unfold m; lra).
  assert (Q : - (m / v1 + / 100000000000000000) <= FR u / v <= m / v1 + / 100000000000000000).
  { assert (M0 : 0 <= m) by (unfold m; lra). assert (I1 : 0 < / v1 <= / 590) by (split; [apply Rinv_0_lt_compat; lra|apply Rinv_le_contravar; lra]).
    assert (I2 : 0 < / v <= / v1) by (split; [apply Rinv_0_lt_compat; lra|apply Rinv_le_contravar; lra]). unfold Rdiv.
    assert (Rabs (FR u * / v) <= (m + / 1000000000000000) * / v1) as G.
    { apply Rmul_abs; [apply Rabs_le; lra|rewrite Rabs_pos_eq; lra]. }
    apply Rabs_le_inv in G. assert (/ 1000000000000000 * / v1 <= / 1000000000000000 * / 590) by (apply Rmult_le_compat_l; lra). lra. }
  assert (MH : m / v1 <= H - / 10000000000000) by (apply Rmult_le_reg_r with v1; [lra|]; unfold Rdiv; rewrite Rmult_assoc, Rinv_l by lra; lra).
  assert (M1 : m / v1 <= / 590). { apply Rmult_le_reg_r with v1; [lra|]; unfold Rdiv; rewrite Rmult_assoc, Rinv_l by lra; lra. }
  assert (M0 : 0 <= m / v1). { unfold m. apply Rmult_le_pos; [lra|]. apply Rlt_le, Rinv_0_lt_compat. lra. }
  destruct (fdiv_b u (ev A t) 1 F1 ltac:(fold v; lra) ltac:(fold v; lra) ltac:(lra)) as (F2 & _ & N2). fold v in N2. nea.
  destruct (fadd_b t (u / ev A t) 81 Ft F2 ltac:(lra) ltac:(lra)) as (F3 & _ & N3). nea. fold t' in F3, N3.
  split; [exact F3|]. set (h := FR t' - FR t) in *. set (r := h - FR u / v).
  assert (Hr : - / 50000000000000 <= r <= / 50000000000000) by (unfold r, h; lra).
  assert (B1 : Rabs h <= H) by (apply Rabs_le; unfold r in Hr; lra). assert (B2 : Rabs h <= / 100) by (apply Rabs_le; unfold r in Hr; lra).
  split; [exact B2|]. split; [exact B1|]. specialize (S (FR t') B2). fold h in S.
  pose proof (Rabs_pos h) as P0. assert (S' : Rabs (Lf (FR t') - Lf (FR t) - er (FR t) E_ev * h) <= (k + s * H) * H).
  { apply (Rle_trans _ _ _ S). apply Rmult_le_compat; try lra; [|]. - assert (0 <= s * Rabs h) by now apply Rmult_le_pos. lra. - assert (s * Rabs h <= s * H) by now apply Rmult_le_compat_l. lra. }
  replace (Lf (FR t') - FR w) with ((Lf (FR t') - Lf (FR t) - er (FR t) E_ev * h) + (Lf (FR t) - FR x) + (FR u - (FR w - FR x)) + v * r - (v - er (FR t) E_ev) * h)
    by (unfold r; field; lra).
  assert (G1 : Rabs (v * r) <= 670 * / 50000000000000) by (apply Rmul_abs; apply Rabs_le; lra).
  assert (G2 : Rabs ((v - er (FR t) E_ev) * h) <= / 1000000000 * H) by (apply Rmul_abs; [apply Rabs_le; lra|exact B1]).
  apply Rabs_le_inv in S', G1, G2. assert (H0 : 0 <= H) by lra. apply Rabs_le. lra.
Qed.

(** ** The time at which the longitude is [w] *)
Theorem saLonT_inv w : FIN w -> Rabs (FR w) <= 50500 ->
  exists t, saLonT A w = Ok t /\ FIN t /\ Rabs (FR t) <= 80.6 /\ Rabs (Lf (FR t) - FR w) <= 0.0000078.
Proof.
  intros F H. unfold saLonT. cbv zeta. destruct (saLonT_start w F H) as (F0 & N0 & B0). cbn [n_sub n_div n_lit n_add n_mul float_arith] in *.
  set (t := ((w - 1.75347 - ShouXing.PI) / 628.3319653318)%float) in *. assert (H81 : Rabs (FR t) <= 81) by lra.
  destruct (ev_b lib t F0 H81) as [Fv Vv]. destruct (saLon_short t F0 H81) as (x & -> & Fx & Vx & _). cbn [bind].
  pose proof (La_mean lib _ H81) as M. pose proof (La_Lf _ H81) as Mf.
  assert (D0 : Rabs (Lf (FR t) - FR w) <= 0.1026).
  { flit ShouXing.PI FP VP. apply Rabs_le_inv in N0, M, Mf, B0, H. apply Rabs_le. lra. }
  destruct (newton_f 2.76 22580.1 592.833 0.0001739 t x w 0.00045786 0.1026) as (F1 & B1 & _ & D1); try assumption; try lra.
  { intros u Hu. apply Lf_step; [exact H81|]. apply Rabs_le_inv in Hu, B0. apply Rabs_le. lra. }
  cbv zeta in F1, B1, D1. set (t1 := (t + (w - x) / ev A t)%float) in *.
  assert (B1' : Rabs (FR t1) <= 80.45) by (apply Rabs_le_inv in B0, B1; apply Rabs_le; lra). assert (H81' : Rabs (FR t1) <= 81) by lra.
  destruct (ev_b lib t1 F1 H81') as [Fv1 Vv1]. destruct (saLon_full t1 F1 H81') as (x1 & -> & Fx1 & Vx1). cbn [bind].
  destruct (newton_f 2.76 22580.1 592.833 0.000002739 t1 x1 w 0.00000005 0.001623) as (F2 & B2 & _ & D2); try assumption; try lra.
  { intros u Hu. apply Lf_step; [exact H81'|]. apply Rabs_le_inv in Hu, B1'. apply Rabs_le. lra. }
  cbv zeta in F2, B2, D2. eexists. split; [reflexivity|]. split; [exact F2|]. split; [|lra].
  apply Rabs_le_inv in B1', B2. apply Rabs_le. lra.
Qed.
(** ... and more sharply within 21 centuries *)
Theorem saLonT_invs w : FIN w -> Rabs (FR w) <= 13000 ->
  exists t, saLonT A w = Ok t /\ FIN t /\ Rabs (FR t) <= 20.8 /\ Rabs (Lf (FR t) - FR w) <= 0.00000034.
Proof.
  intros F H. unfold saLonT. cbv zeta. destruct (saLonT_start w F ltac:(lra)) as (F0 & N0 & _). cbn [n_sub n_div n_lit n_add n_mul float_arith] in *.
  set (t := ((w - 1.75347 - ShouXing.PI) / 628.3319653318)%float) in *.
  assert (B0 : Rabs (FR t) <= 20.7) by (flit ShouXing.PI FP VP; apply Rabs_le_inv in H, N0; apply Rabs_le; lra).
  assert (H21 : Rabs (FR t) <= 21) by lra. assert (H81 : Rabs (FR t) <= 81) by lra.
  destruct (ev_bs lib t F0 H21) as [Fv Vv]. destruct (saLon_short t F0 H81) as (x & -> & Fx & _ & Vx). specialize (Vx H21). cbn [bind].
  pose proof (La_means lib _ H21) as M. pose proof (La_Lf _ H81) as Mf.
  assert (D0 : Rabs (Lf (FR t) - FR w) <= 0.0418).
  { flit ShouXing.PI FP VP. apply Rabs_le_inv in N0, M, Mf, B0, H. apply Rabs_le. lra. }
  destruct (newton_f 0.645 15602.1 603.939 0.00006946 t x w 0.00014546 0.0418) as (F1 & B1 & _ & D1); try assumption; try lra.
  { intros u Hu. apply Rabs_le_inv in Hu, B0. apply Lf_step; try assumption; apply Rabs_le; lra. }
  cbv zeta in F1, B1, D1. set (t1 := (t + (w - x) / ev A t)%float) in *.
  assert (B1' : Rabs (FR t1) <= 20.75) by (apply Rabs_le_inv in B0, B1; apply Rabs_le; lra). assert (H21' : Rabs (FR t1) <= 21) by lra. assert (H81' : Rabs (FR t1) <= 81) by lra.
  destruct (ev_bs lib t1 F1 H21') as [Fv1 Vv1]. destruct (saLon_full t1 F1 H81') as (x1 & -> & Fx1 & Vx1). cbn [bind].
  destruct (newton_f 0.645 15602.1 603.939 0.000000441 t1 x1 w 0.00000005 0.00026575) as (F2 & B2 & _ & D2); try assumption; try lra.
  { intros u Hu. apply Rabs_le_inv in Hu, B1'. apply Lf_step; try assumption; apply Rabs_le; lra. }
  cbv zeta in F2, B2, D2. eexists. split; [reflexivity|]. split; [exact F2|]. split; [|lra].
  apply Rabs_le_inv in B1', B2. apply Rabs_le. lra.
Qed.
(** the longitude grows *)
Lemma Lf_slope t u : Rabs t <= 81 -> Rabs u <= 81 -> t <= u -> 590 * (u - t) <= Lf u - Lf t <= 667 * (u - t).
Proof.
  intros Ht Hu L. pose proof (La_slope lib t u Ht Hu L) as S.
  destruct (chk_ok _ _ lib _ _ _ _ _ _ _ b_nut) as (_ & S3 & _). specialize (S3 t u ltac:(lra) ltac:(lra) L).
  destruct (chk_ok _ _ lib _ _ _ _ _ _ _ b_gxc) as (_ & S4 & _). specialize (S4 t u ltac:(lra) ltac:(lra) L). un. unfold Lf, La in *. lra.
Qed.
Lemma Lf_inj t u e : Rabs t <= 81 -> Rabs u <= 81 -> Rabs (Lf t - Lf u) <= e -> Rabs (t - u) <= e / 590.
Proof.
  intros Ht Hu E. apply Rabs_le_inv in E. destruct (Rle_lt_dec t u) as [C|C].
  - pose proof (Lf_slope t u Ht Hu C). apply Rabs_le. lra.
  - pose proof (Lf_slope u t Hu Ht ltac:(lra)). apply Rabs_le. lra.
Qed.
End LIB.
