(** How far the solar terms of the years after 4000 are from their mean positions: more sharply than in SunTerm.v, where the
    largest terms of the series are taken as independent. *)
From Coq Require Import ZArith Lia Reals Lra Psatz.
From Flocq Require Import Core BinarySingleNaN PrimFloat.
From Coq Require Import Bool List Floats.
From Verif Require Import Py PyFloat FloatFacts FloatTac JulianDay T_ShouXing ShouXing FloatExpr Trig SunLon SunDt SunTerm SunQi.
Import ListNotations.
Open Scope R_scope.
Local Set Warnings "-inexact-float".

(** the values of an expression between two arguments *)
Definition rng (xl xh : Z) (e : expr) (l h : Z) : bool :=
  match an xl xh e with Some u => ((l * P2 <=? lo u * DD) && (hi u * DD <=? h * P2))%Z | None => false end.
Lemma rng_ok xl xh e l h x : rng xl xh e l h = true -> sc xl <= x <= sc xh -> dd l <= er x e <= dd h.
Proof.
  unfold rng. destruct (an xl xh e) as [u|] eqn:E; [|discriminate]. intros H D. apply andb_true_iff in H. destruct H as [H1 H2]. apply Z.leb_le in H1, H2.
  pose proof (so_val _ _ _ _ _ _ (an_ok _ _ libm_ref _ _ e u E) x D) as V. pose proof (dd_le _ _ H1). pose proof (dd_ge _ _ H2). lra.
Qed.
(** the mean motion and the yearly terms of the first three powers of the time *)
Definition S_3 : list terms := [[(17534704567.0, 0, 0); (334165646.0, 4.669256804, 6283.075849991)]; [(62833196674749.0, 0, 0); (20605886.0, 2.67823456, 6283.07584999)]; [(871984.0, 1.072097, 6283.07585)]]%float.
Definition E_3 : expr := Eval vm_compute in lon_expr S_3.
Lemma r_lin : rng 0 (65 * Q8) (ediff E_all E_lin) (-585300000) 998960000 = true. Proof. vm_cast_no_check (eq_refl true). Qed.
Lemma r_lin61 : rng 0 (61 * Q8) (ediff E_all E_lin) (-585300000) 923200000 = true. Proof. vm_cast_no_check (eq_refl true). Qed.
Lemma r_3 : rng 0 (65 * Q8) (ediff E_all E_3) (-1000000000) 441000000 = true. Proof. vm_cast_no_check (eq_refl true). Qed.
Lemma q8_sc z : sc (z * Q8) = IZR z / 8.
Proof. unfold sc. rewrite mult_IZR. change (IZR P2) with (IZR (8 * Q8)). rewrite mult_IZR. field. apply not_0_IZR. discriminate. Qed.
Lemma in_q8 B t : 0 <= t <= 10 * IZR B / 8 -> sc 0 <= t / 10 <= sc (B * Q8).
Proof. intros H. rewrite q8_sc, sc_0. lra. Qed.
Lemma lin_lo t : 0 <= t <= 81 -> -0.05853 <= er (t / 10) E_all - er (t / 10) E_lin.
Proof. intros H. pose proof (rng_ok _ _ _ _ _ _ r_lin (in_q8 65 t ltac:(lra))) as V. rewrite ediff_ok in V. unfold dd, DD in V. lra. Qed.
Lemma lin_61 t : 0 <= t <= 76.2 -> er (t / 10) E_all - er (t / 10) E_lin <= 0.09232.
Proof. intros H. pose proof (rng_ok _ _ _ _ _ _ r_lin61 (in_q8 61 t ltac:(lra))) as V. rewrite ediff_ok in V. unfold dd, DD in V. lra. Qed.

(** ** The yearly terms together *)
Lemma angle p q (d c s : float) : FIN d -> Rabs (FR d) <= 100 -> Rabs (q - (p + FR d)) <= / 1000000 -> rcos d = c -> rsin d = s -> FIN c -> FIN s ->
  Rabs (cos q - (FR c * cos p - FR s * sin p)) <= / 500000.
Proof.
  intros Fd Bd H <- <- _ _. destruct (libm_ref d Fd ltac:(change (IZR (2 ^ 23)) with 8388608; lra)) as [[_ E1] [_ E2]].
  assert (B40 : / IZR (2 ^ 40) <= / 1000000000000) by (change (IZR (2 ^ 40)) with 1099511627776; lra).
  pose proof (cos_lip q (p + FR d)) as L. rewrite cos_plus in L. pose proof (COS_bound p) as C. pose proof (SIN_bound p) as S.
  assert (X1 : Rabs ((FR (rcos d) - cos (FR d)) * cos p) <= / 1000000000000 * 1) by (apply Rmul_abs; [lra|apply Rabs_le; lra]).
  assert (X2 : Rabs ((FR (rsin d) - sin (FR d)) * sin p) <= / 1000000000000 * 1) by (apply Rmul_abs; [lra|apply Rabs_le; lra]).
  apply Rabs_le_inv in L, X1, X2, H. assert (L' : - / 1000000 <= cos q - (cos p * cos (FR d) - sin p * sin (FR d)) <= / 1000000).
  { assert (Rabs (q - (p + FR d)) <= / 1000000) as M by (apply Rabs_le; lra). lra. }
  apply Rabs_le. lra.
Qed.
Lemma E_3_lin x : er x E_3 - er x E_lin = (FR 334165646 * cos (FR 4.669256804 + x * FR 6283.075849991) + FR 20605886 * cos (FR 2.67823456 + x * FR 6283.07584999) * x + FR 871984 * cos (FR 1.072097 + x * FR 6283.07585) * (x * x)) / FR XL0_HEAD.
Proof.
  unfold E_3, E_lin. cbn [er]. fval XL0_HEAD 10000000000 eh. change 10000000000%float with XL0_HEAD. rewrite eh.
  fval 1%float 1 e1. fval 0%float 0 e0. rewrite e1, e0. flit 206264.80624709636%float Fs Vs. field. lra.
Qed.
Lemma yearly x : 7 <= x <= 8.125 -> Rabs (er x E_3 - er x E_lin) <= 0.0402.
Proof.
  intros Hx. rewrite E_3_lin. fval XL0_HEAD 10000000000 eh. fval 334165646%float 334165646 e1. fval 20605886%float 20605886 e2. fval 871984%float 871984 e3. rewrite eh, e1, e2, e3.
  flit 4.669256804%float F1 V1. flit 2.67823456%float F2 V2. flit 1.072097%float F3 V3. flit 6283.075849991%float F4 V4. flit 6283.07584999%float F5 V5. flit 6283.07585%float F6 V6.
  set (p := FR 4.669256804%float + x * FR 6283.075849991%float) in *.
  flit (2.67823456 - 4.669256804)%float Fd1 Vd1. flit (1.072097 - 4.669256804)%float Fd2 Vd2.
  assert (Q1 : Rabs (x * (FR 6283.07584999%float - FR 6283.075849991%float)) <= 9 * / 100000000) by (apply Rmul_abs; apply Rabs_le; lra).
  assert (Q2 : Rabs (x * (FR 6283.07585%float - FR 6283.075849991%float)) <= 9 * / 100000000) by (apply Rmul_abs; apply Rabs_le; lra).
  apply Rabs_le_inv in Q1, Q2.
  pose proof (angle p (FR 2.67823456%float + x * FR 6283.07584999%float) (2.67823456 - 4.669256804)%float _ _ Fd1 ltac:(apply Rabs_le; lra) ltac:(unfold p; apply Rabs_le; lra) eq_refl eq_refl) as A1.
  pose proof (angle p (FR 1.072097%float + x * FR 6283.07585%float) (1.072097 - 4.669256804)%float _ _ Fd2 ltac:(apply Rabs_le; lra) ltac:(unfold p; apply Rabs_le; lra) eq_refl eq_refl) as A2.
  flit (rcos (2.67823456 - 4.669256804)) Fc1 Vc1. flit (rsin (2.67823456 - 4.669256804)) Fs1 Vs1. flit (rcos (1.072097 - 4.669256804)) Fc2 Vc2. flit (rsin (1.072097 - 4.669256804)) Fs2 Vs2.
  set (c1 := FR (rcos (2.67823456 - 4.669256804))) in *. set (s1 := FR (rsin (2.67823456 - 4.669256804))) in *. set (c2 := FR (rcos (1.072097 - 4.669256804))) in *. set (s2 := FR (rsin (1.072097 - 4.669256804))) in *.
  set (C1 := cos (FR 2.67823456%float + x * FR 6283.07584999%float)) in *. set (C2 := cos (FR 1.072097%float + x * FR 6283.07585%float)) in *. clearbody C1 C2 c1 s1 c2 s2.
  pose proof (COS_bound p) as C. pose proof (SIN_bound p) as S. set (cp := cos p) in *. set (sp := sin p) in *. clearbody cp sp p.
  assert (K1 : -0.4081 <= c1 <= -0.4079) by lra. assert (K2 : -0.9131 <= s1 <= -0.9128) by lra. assert (K3 : -0.8981 <= c2 <= -0.8979) by lra. assert (K4 : 0.4398 <= s2 <= 0.4401) by lra.
  assert (X2 : 49 <= x * x <= 66.02) by (clear - Hx; nra). set (xx := x * x) in *. clearbody xx.
  assert (Y1 : 2.85 <= x * - c1 <= 3.32) by (clear - Hx K1; nra). assert (Y2 : 6.38 <= x * - s1 <= 7.43) by (clear - Hx K2; nra). assert (Y3 : 43.9 <= xx * - c2 <= 59.4) by (clear - X2 K3; nra). assert (Y4 : 21.5 <= xx * s2 <= 29.1) by (clear - X2 K4; nra).
  set (e1' := C1 - (c1 * cp - s1 * sp)) in *. set (e2' := C2 - (c2 * cp - s2 * sp)) in *.
  assert (W1 : Rabs (x * e1') <= 9 * / 500000) by (apply Rmul_abs; [apply Rabs_le; lra|exact (A1 Fc1 Fs1)]).
  assert (W2 : Rabs (xx * e2') <= 67 * / 500000) by (apply Rmul_abs; [apply Rabs_le; lra|exact (A2 Fc2 Fs2)]).
  set (AA := 334165646 - 20605886 * (x * - c1) - 871984 * (xx * - c2)). set (BB := 20605886 * (x * - s1) - 871984 * (xx * s2)).
  assert (Z1 : Rabs (AA * cp) <= 238000000 * 1) by (apply Rmul_abs; apply Rabs_le; unfold AA; lra). assert (Z2 : Rabs (BB * sp) <= 154000000 * 1) by (apply Rmul_abs; apply Rabs_le; unfold BB; lra).
  replace (334165646 * cp + 20605886 * C1 * x + 871984 * C2 * xx) with (AA * cp + BB * sp + 20605886 * (x * e1') + 871984 * (xx * e2')) by (unfold AA, BB, e1', e2'; ring).
  apply Rabs_le_inv in Z1, Z2, W1, W2. apply Rabs_le. lra.
Qed.
Lemma lin_hi t : 70 <= t <= 81 -> er (t / 10) E_all - er (t / 10) E_lin <= 0.0844.
Proof.
  intros H. pose proof (rng_ok _ _ _ _ _ _ r_3 (in_q8 65 t ltac:(lra))) as V. rewrite ediff_ok in V. unfold dd, DD in V. pose proof (yearly (t / 10) ltac:(lra)) as Y. apply Rabs_le_inv in Y. lra.
Qed.

Section LIB.
Context {fsin fcos : float -> float} (lib : libm fsin fcos).
Notation is_term := (@SunTerm.is_term fsin fcos).
(** the terms after 4000 *)
Definition k_late (k : Z) : Prop := (48000 <= k <= 192300)%Z.
Lemma term_late k T : is_term k T -> k_late k -> mean k - 7.43 <= FR T <= mean k + 3.96.
Proof.
  intros I K. assert (K0 : k_ok k) by (unfold k_ok, k_late in *; lia). destruct (is_term_at lib k T I K0) as (_ & t & d & H). pose proof (at_T _ _ _ _ H) as E. pose proof (at_La _ _ _ _ H) as L. pose proof (at_t _ _ _ _ H) as Bt.
  destruct (mean_at lib _ _ _ _ H) as [M _]. pose proof (mean_lin k K0) as ML. assert (HK : 48000 <= IZR k <= 192300) by (split; apply IZR_le; unfold k_late in K; lia). apply Rabs_le_inv in E, L, M, Bt.
  pose proof (d_bnd lib _ _ _ _ H K0) as D. pose proof (lin_lin lib t ltac:(apply Rabs_le; lra)) as LL. apply Rabs_le_inv in LL. pose proof (lin_lo t ltac:(lra)) as L1.
  unfold La in L. unfold mean in *. assert (U : 36525 * t - 36525 * (theta k - FR PI - 1.753370456) / 628.33196674749 <= 3.61) by lra.
  split; [|lra]. destruct (Rle_lt_dec t 76) as [C|C].
  - pose proof (lin_61 t ltac:(lra)) as L2. destruct (at_d _ _ _ _ H) as [_ D2]. assert (Y : 1990 <= yr (36525 * t) <= 9600.2) by (unfold yr; lra). specialize (D2 ltac:(lra)). apply Rabs_le_inv in D2. assert (V (yr (36525 * t)) <= 187630) by (unfold V; nra). lra.
  - pose proof (lin_hi t ltac:(lra)) as L2. lra.
Qed.
End LIB.
