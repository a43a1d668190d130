(** The days of the solar terms (util/ShouXingUtil.py qiHigh, qiLow, calcQi) against their instants, in binary64. *)
From Coq Require Import ZArith Lia Reals Lra Psatz.
From Flocq Require Import Core BinarySingleNaN PrimFloat.
From Coq Require Import Bool List Floats.
From Verif Require Import Py PyFloat FloatFacts FloatTac JulianDay T_ShouXing ShouXing FloatExpr SunLon SunDt SunTerm.
Import ListNotations.
Open Scope R_scope.
Local Set Warnings "-inexact-float".

(** the mean motion and the largest terms *)
Definition S_one : list terms := [[(17534704567.0, 0, 0); (334165646.0, 4.669256804, 6283.075849991)]; [(62833196674749.0, 0, 0)]]%float.
Definition S_two : list terms := [[(17534704567.0, 0, 0); (334165646.0, 4.669256804, 6283.075849991)]; [(62833196674749.0, 0, 0); (20605886.0, 2.67823456, 6283.07584999)]; [(5291887.0, 0, 0)]]%float.
Definition E_one : expr := Eval vm_compute in lon_expr S_one.
Definition E_two : expr := Eval vm_compute in lon_expr S_two.
Lemma d_one : chk 4 (ediff E_all E_one) (-18619000) 18619000 (-152699300000) 152699300000 10000000000000 = true. Proof. vm_cast_no_check (eq_refl true). Qed.
Lemma d_two : chk 65 (ediff E_all E_two) (-148019000) 148019000 (-667685300000) 667685300000 10000000000000 = true. Proof. vm_cast_no_check (eq_refl true). Qed.
(** the first correction in [saLonT2] *)
Definition E_c : expr :=
  (EAdd (EAdd (EMul (EMul (EL 0.000005297) EX) EX) (EMul (EL 0.0334166) (ECos (EAdd (EL 4.669257) (EMul (EL 628.307585) EX)))))
        (EMul (EMul (EL 0.0002061) (ECos (EAdd (EL 2.67823) (EMul (EL 628.307585) EX)))) EX))%float.
Lemma b_c : chk 648 E_c (-848650000) 848650000 (-314860000000) 314860000000 10 = true. Proof. vm_cast_no_check (eq_refl true). Qed.
(** its last term *)
Definition E_h : expr := EDiv (EAdd (EL 20.5) (EMul (EL 17.2) (ESin (ESub (EL 2.1824) (EMul (EL 33.75705) EX))))) (EL SECOND_PER_RAD).
Lemma b_h : chk 648 E_h 150000 1840000 (-300000000) 300000000 10 = true. Proof. vm_cast_no_check (eq_refl true). Qed.

(** the formula of [qiLow] *)
Definition E_lc : expr :=
  (EAdd (EAdd (EMul (EMul (EL 53) EX) EX) (EMul (EL 334116) (ECos (EAdd (EL 4.67) (EMul (EL 628.307585) EX)))))
        (EMul (EMul (EL 2061) (ECos (EAdd (EL 2.678) (EMul (EL 628.3076) EX)))) EX))%float.
Lemma b_lc : chk 40 E_lc (-3457470000000000) 3457470000000000 (-2165000000000000000) 2165000000000000000 100000 = true. Proof. vm_cast_no_check (eq_refl true). Qed.
Definition E_n : expr :=
  (ESub (ESub (EAdd (EAdd (EAdd (EAdd (EAdd (EL 48950621.66) (EMul (EL 6283319653.318) EX)) (EMul (EMul (EL 53) EX) EX))
     (EMul (EL 334166) (ECos (EAdd (EL 4.669257) (EMul (EL 628.307585) EX)))))
     (EMul (EL 3489) (ECos (EAdd (EL 4.6261) (EMul (EL 1256.61517) EX)))))
     (EMul (EMul (EL 2060.6) (ECos (EAdd (EL 2.67823) (EMul (EL 628.307585) EX)))) EX)) (EL 994))
     (EMul (EL 834) (ESin (ESub (EL 2.1824) (EMul (EL 33.75705) EX)))))%float.
Lemma b_n : chk 40 E_n (-315000000000000000000) 315000000000000000000 0 120000000000000000000 1000000 = true. Proof. vm_cast_no_check (eq_refl true). Qed.
(** ... and its correction *)
Definition E_D : expr := (EDiv (EDiv (ESub (EMul (EMul (EL 32) (EAdd EX (EL 1.8))) (EAdd EX (EL 1.8))) (EL 20)) (EL SECOND_PER_DAY)) (EL 36525))%float.
Lemma b_D : chk 40 E_D (-10000) 10000 (-1000000) 1000000 100 = true. Proof. vm_cast_no_check (eq_refl true). Qed.

Ltac un := unfold dd, DD in *.
Ltac fexact c E :=
  let F := fresh "F" in let V := fresh "V" in flit c F V;
  match type of V with (?a <= _ <= _) => assert (E : FR c = a) by lra end; clear F V.
Ltac fval c r E := let F := fresh "F" in let V := fresh "V" in flit c F V; assert (E : FR c = r) by lra; clear F V.
Lemma cos_near a b e : Rabs (a - b) <= e -> - e <= cos a - cos b <= e.
Proof. intros H. pose proof (cos_lip a b) as C. apply Rabs_le_inv. lra. Qed.

Section LIB.
Context {fsin fcos : float -> float} (lib : libm fsin fcos).
Notation A := (float_arith fsin fcos).
Notation is_term := (@SunTerm.is_term fsin fcos).

Lemma two_lin t : er (t / 10) E_two - er (t / 10) E_lin =
  (334165646 * cos (FR 4.669256804 + t / 10 * FR 6283.075849991) + 20605886 * cos (FR 2.67823456 + t / 10 * FR 6283.07584999) * (t / 10) + 5291887 * (t / 10 * (t / 10))) / 10000000000.
Proof.
  rewrite <- ediff_ok. replace (ediff E_two E_lin) with
    (EDiv (EAdd (EAdd (EAdd (EL 0) (EMul (EAdd (EL 0) (EMul (EL 334165646) (ECos (EAdd (EL 4.669256804) (EMul EX (EL 6283.075849991)))))) (EL 1)))
       (EMul (EAdd (EL 0) (EMul (EL 20605886) (ECos (EAdd (EL 2.67823456) (EMul EX (EL 6283.07584999)))))) (EMul (EL 1) EX)))
       (EMul (EAdd (EL 0) (EMul (EL 5291887) (ECos (EAdd (EL 0) (EMul EX (EL 0)))))) (EMul (EMul (EL 1) EX) EX))) (EL 10000000000)) by (vm_compute; reflexivity).
  cbn [er]. rewrite FR_zero. fexact 334165646%float lx1. fexact 20605886%float lx2. fexact 5291887%float lx3. fexact 10000000000%float lx4. fexact 1%float lx5.
  rewrite lx1, lx2, lx3, lx4, lx5. replace (0 + t / 10 * 0) with 0 by ring. rewrite cos_0. field.
Qed.
Lemma two_c t : Rabs t <= 81 -> Rabs (er (t / 10) E_all - (1.753470456 + 628.33196674749 * t) - er t E_c) <= 0.01655.
Proof.
  intros H. pose proof (lin_lin lib t H) as L. destruct (chk_ok _ _ lib _ _ _ _ _ _ _ d_two) as (D & _ & _).
  specialize (D (t / 10) ltac:(apply Rabs_le_inv in H; apply Rabs_le; lra)). rewrite ediff_ok in D. pose proof (two_lin t) as Q. un.
  unfold E_c. cbn [er].
  fexact 4.669256804%float xa1. fexact 6283.075849991%float xa2. fexact 2.67823456%float xa3. fexact 6283.07584999%float xa4. fexact 4.669257%float xb1. fexact 628.307585%float xb2. fexact 2.67823%float xb3.
  flit 0.000005297%float F1 V1. flit 0.0334166%float F2 V2. flit 0.0002061%float F3 V3.
  set (l1 := FR 0.000005297%float) in *. set (l2 := FR 0.0334166%float) in *. set (l3 := FR 0.0002061%float) in *.
  set (a1 := FR 4.669256804%float + t / 10 * FR 6283.075849991%float) in *. set (a2 := FR 2.67823456%float + t / 10 * FR 6283.07584999%float) in *.
  set (b1 := FR 4.669257%float + FR 628.307585%float * t). set (b2 := FR 2.67823%float + FR 628.307585%float * t).
  apply Rabs_le_inv in H.
  assert (C1 : - / 1000000 <= cos a1 - cos b1 <= / 1000000) by (apply cos_near; unfold a1, b1; rewrite xa1, xa2, xb1, xb2; apply Rabs_le; lra).
  assert (C2 : - / 100000 <= cos a2 - cos b2 <= / 100000) by (apply cos_near; unfold a2, b2; rewrite xa3, xa4, xb2, xb3; apply Rabs_le; lra).
  clearbody a1 a2 b1 b2. clear xa1 xa2 xa3 xa4 xb1 xb2 xb3. pose proof (COS_bound b1) as K1. pose proof (COS_bound b2) as K2.
  assert (P1 : Rabs ((l1 - 0.000005297) * (t * t)) <= / 1000000000000 * (81 * 81)) by (apply Rmul_abs; [apply Rabs_le; lra|apply (Rmul_abs 81 81); apply Rabs_le; lra]).
  assert (P2 : Rabs ((l2 - 0.0334166) * cos b1) <= / 1000000000000 * 1) by (apply Rmul_abs; apply Rabs_le; lra).
  assert (P3 : Rabs ((l3 - 0.0002061) * (cos b2 * t)) <= / 1000000000000 * (1 * 81)) by (apply Rmul_abs; [|apply Rmul_abs]; apply Rabs_le; lra).
  assert (P4 : Rabs ((cos a2 - cos b2) * t) <= / 100000 * 81) by (apply Rmul_abs; apply Rabs_le; lra).
  assert (P5 : Rabs (cos b2 * t) <= 1 * 81) by (apply Rmul_abs; apply Rabs_le; lra).
  assert (P6 : Rabs (t * t) <= 81 * 81) by (apply Rmul_abs; apply Rabs_le; lra).
  apply Rabs_le_inv in P1, P2, P3, P4, P5, P6, L. 
  replace (l1 * t * t) with ((l1 - 0.000005297) * (t * t) + 0.000005297 * (t * t)) by ring.
  replace (l2 * cos b1) with ((l2 - 0.0334166) * cos b1 + 0.0334166 * cos b1) by ring.
  replace (l3 * cos b2 * t) with ((l3 - 0.0002061) * (cos b2 * t) + 0.0002061 * (cos b2 * t)) by ring.
  replace (20605886 * cos a2 * (t / 10)) with (2060588.6 * ((cos a2 - cos b2) * t) + 2060588.6 * (cos b2 * t)) in Q by lra.
  replace (5291887 * (t / 10 * (t / 10))) with (52918.87 * (t * t)) in Q by lra.
  apply Rabs_le. lra.
Qed.
Lemma E_c_f t : ((0.000005297 * t * t + 0.0334166 * fcos (4.669257 + 628.307585 * t) + 0.0002061 * fcos (2.67823 + 628.307585 * t) * t))%float = ef fsin fcos t E_c.
Proof. reflexivity. Qed.
Lemma E_h_f t : ((20.5 + 17.2 * fsin (2.1824 - 33.75705 * t)) / SECOND_PER_RAD)%float = ef fsin fcos t E_h.
Proof. reflexivity. Qed.
Lemma eLon8_b t : FIN t -> Rabs (FR t) <= 81 -> exists x, eLon A t 8 = Ok x /\ FIN x /\ Rabs (FR x - er (FR t / 10) E_8) <= 0.00000005.
Proof.
  intros F H. rewrite eLon_8. eexists. split; [reflexivity|]. destruct (tenth t F H) as (F10 & N10 & B10). destruct (chk_ok _ _ lib _ _ _ _ _ _ _ b_8) as (V & S & R).
  destruct (R _ F10 B10) as [Fe He]. split; [exact Fe|].
  assert (B : Rabs (FR t / 10) <= IZR 65 / 8) by (apply Rabs_le_inv in H; apply Rabs_le; lra). un. apply Rabs_le_inv in He, N10. apply Rabs_le.
  destruct (Rle_lt_dec (FR t / 10) (FR (t / 10)%float)) as [C|C].
  - specialize (S _ _ B B10 C). lra.
  - apply Rlt_le in C. specialize (S _ _ B10 B C). lra.
Qed.
Lemma diff_8 t : Rabs t <= 81 -> Rabs (er (t / 10) E_all - er (t / 10) E_8) <= 0.0005021.
Proof.
  intros H. apply Rabs_le_inv in H. destruct (chk_ok _ _ lib _ _ _ _ _ _ _ d_8) as (V & _ & _).
  specialize (V (t / 10) ltac:(apply Rabs_le; lra)). rewrite ediff_ok in V. un. apply Rabs_le. lra.
Qed.
(** ** The time at which the longitude is about [w] *)
Lemma saLonT2_ok w : FIN w -> Rabs (FR w) <= 50500 ->
  exists t, saLonT2 A w = Ok t /\ FIN t /\ Rabs (FR t) <= 80.6 /\ Rabs (La (FR t) - FR w) <= 0.0021.
Proof.
  intros F H. unfold saLonT2. cbv zeta. destruct (saLonT_start w F H) as (F0 & N0 & B0). cbn [n_sub n_div n_lit n_add n_mul n_sin n_cos float_arith] in *.
  set (t := ((w - 1.75347 - PI) / 628.3319653318)%float) in *. rewrite E_c_f. set (v := 628.3319653318%float) in *.
  flit v Fv Vv. assert (Vq : - / 1000000000000 <= FR v - 628.3319653318 <= / 1000000000000) by lra.
  destruct (chk_ok _ _ lib _ _ _ _ _ _ _ b_c) as (Vc & Sc & Rc). assert (H8 : Rabs (FR t) <= 648 / 8) by lra. destruct (Rc _ F0 H8) as [Fc Ec]. specialize (Vc _ H8).
  set (c := ef fsin fcos t E_c) in *. set (cr := er (FR t) E_c) in *. un. apply Rabs_le_inv in Ec.
  assert (Q : - / 5000 <= FR c / FR v <= / 5000) by (split; apply Rmult_le_reg_r with (FR v); try lra; unfold Rdiv; rewrite Rmult_assoc, Rinv_l by lra; lra).
  destruct (fdiv_b c v 1 Fc ltac:(lra) ltac:(lra) ltac:(lra)) as (F1 & _ & N1). nea.
  destruct (fsub_b t (c / v)%float 100 F0 F1 ltac:(apply Rabs_le_inv in B0; lra) ltac:(lra)) as (F2 & _ & N2). nea. set (t1 := (t - c / v)%float) in *.
  assert (S1 : - / 50000000000 <= FR t1 - (FR t - cr / 628.3319653318) <= / 50000000000).
  { assert (D : - / 100000000000 <= FR c / FR v - cr / 628.3319653318 <= / 100000000000).
    { replace (FR c / FR v - cr / 628.3319653318) with (((FR c - cr) - FR c / FR v * (FR v - 628.3319653318)) / 628.3319653318) by (field; lra).
      assert (G : Rabs (FR c / FR v * (FR v - 628.3319653318)) <= / 5000 * / 1000000000000) by (apply Rmul_abs; apply Rabs_le; lra). apply Rabs_le_inv in G. lra. }
    lra. }
  assert (B1 : Rabs (FR t1) <= 80.5) by (apply Rabs_le_inv in B0; apply Rabs_le; lra). assert (H81 : Rabs (FR t1) <= 81) by lra.
  (* how near it is *)
  assert (D1 : Rabs (La (FR t1) - FR w) <= 0.0212).
  { pose proof (two_c _ H81) as T. set (c1 := er (FR t1) E_c) in *. assert (H8' : Rabs (FR t1) <= 648 / 8) by lra.
    assert (CC : - 0.0043 <= c1 - cr <= 0.0043).
    { destruct (Rle_lt_dec (FR t) (FR t1)) as [C|C]; [pose proof (Sc _ _ H8 H8' C) as X|apply Rlt_le in C; pose proof (Sc _ _ H8' H8 C) as X]; fold c1 cr in X; lra. }
    pose proof PI_val. apply Rabs_le_inv in T, N0, H, B0. unfold La. apply Rabs_le. lra. }
  destruct (eLon8_b t1 F2 H81) as (e & -> & Fe & Ve). cbn [bind]. rewrite E_h_f. pose proof (diff_8 _ H81) as Df.
  destruct (chk_ok _ _ lib _ _ _ _ _ _ _ b_h) as (Vh & _ & Rh). assert (H8' : Rabs (FR t1) <= 648 / 8) by lra. destruct (Rh _ F2 H8') as [Fh Eh]. specialize (Vh _ H8').
  set (h := ef fsin fcos t1 E_h) in *. un. 
  assert (U : FIN (w - e - PI + h)%float /\ Rabs (FR (w - e - PI + h)%float - (FR w - La (FR t1))) <= 0.00061).
  { unfold La in *. set (a := er (FR t1 / 10) E_all) in *. set (b := er (FR t1 / 10) E_8) in *. pose proof PI_val. apply Rabs_le_inv in Ve, Df, Eh, D1, H.
    destruct (fsub_b w e 1000000 F Fe ltac:(lra) ltac:(lra)) as (G1 & _ & M1). nea.
    destruct (fsub_b _ PI 1000 G1 PI_fin ltac:(lra) ltac:(lra)) as (G2 & _ & M2). nea.
    destruct (fadd_b _ h 1000 G2 Fh ltac:(lra) ltac:(lra)) as (G3 & _ & M3). nea.
    split; [exact G3|]. apply Rabs_le. lra. }
  destruct U as [Fu U].
  destruct (newton_u La 81 590.138 666.5251 628.331 628.332 0.0608 t1 (w - e - PI + h)%float v (FR w) 0.00061 0.0212) as (F3 & B3 & D3); try assumption; try lra; [exact (La_slope lib)|].
  cbv zeta in F3, B3, D3. eexists. split; [reflexivity|]. split; [exact F3|]. split; [|lra]. apply Rabs_le_inv in B1, B3. apply Rabs_le. lra.
Qed.
(** ** The high precision formula *)
Definition k_new (k : Z) : Prop := (-1100 <= k <= 192300)%Z.
Lemma new_ok k : k_new k -> k_ok k. Proof. unfold k_new, k_ok. lia. Qed.
Lemma yr_new k t : k_new k -> Rabs (36525 * t - mean k) <= 10 -> 1950 <= yr (36525 * t) <= 10013.
Proof.
  intros K M. pose proof (mean_lin k (new_ok k K)) as L. assert (HK : -1100 <= IZR k <= 192300) by (split; apply IZR_le; unfold k_new in K; lia). apply Rabs_le_inv in M. unfold yr. lra.
Qed.
Record about (k : Z) (e q ab_t ab_d : R) : Prop := mkAbout {
  ab_b : Rabs ab_t <= 80.7;
  ab_La : Rabs (La ab_t - theta k) <= e;
  ab_q : Rabs (q - (36525 * ab_t - ab_d + / 3)) <= / 1000000;
  ab_V : Rabs (86400 * ab_d - V (yr (36525 * ab_t))) <= 183
}.
Lemma La_near t u e : Rabs t <= 81 -> Rabs u <= 81 -> Rabs (La t - La u) <= e -> Rabs (t - u) <= e / 590.138.
Proof.
  intros Ht Hu E. apply Rabs_le_inv in E. apply Rabs_le. destruct (Rle_lt_dec t u) as [C|C]; [pose proof (La_slope lib t u Ht Hu C)|apply Rlt_le in C; pose proof (La_slope lib u t Hu Ht C)]; lra.
Qed.
Lemma about_T k q t d T : k_new k -> about k 0.002101 q t d -> is_term k T -> Rabs (q - FR T) <= 0.25.
Proof.
  intros K [B L Q D] I. pose proof (new_ok k K) as K'. destruct (is_term_at lib k T I K') as (F & t' & d' & H). pose proof (at_La _ _ _ _ H) as L'. pose proof (at_t _ _ _ _ H) as B'. pose proof (at_T _ _ _ _ H) as ET.
  destruct (at_d _ _ _ _ H) as [_ D']. pose proof (mean_at lib _ _ _ _ H) as [M _]. pose proof (yr_new k t' K ltac:(lra)) as Y'. specialize (D' ltac:(lra)).
  assert (N : Rabs (t - t') <= 0.003932 / 590.138) by (apply La_near; [lra|lra|apply Rabs_le_inv in L, L'; apply Rabs_le; lra]).
  apply Rabs_le_inv in N, M. pose proof (yr_new k t K ltac:(apply Rabs_le; lra)) as Y.
  pose proof (V_lip (yr (36525 * t)) (yr (36525 * t')) ltac:(lra) ltac:(lra)) as VL.
  assert (YY : Rabs (yr (36525 * t) - yr (36525 * t')) <= 0.001) by (unfold yr; apply Rabs_le; lra).
  assert (VV : Rabs (V (yr (36525 * t)) - V (yr (36525 * t'))) <= 0.1) by lra. apply Rabs_le_inv in VV, Q, ET, D, D'. apply Rabs_le. lra.
Qed.
Lemma mean_La k t e : Rabs t <= 81 -> Rabs (La t - theta k) <= e -> e <= 0.01 -> Rabs (36525 * t - mean k) <= 7.
Proof. intros B L E. pose proof (La_mean lib t B) as M. apply Rabs_le_inv in M, L. unfold mean. apply Rabs_le. lra. Qed.
Lemma near_midnight_ok x s : FIN x -> Rabs (FR x) <= 6000000 -> exists b, near_midnight A x s = Ok b.
Proof.
  intros F H. unfold near_midnight, n_mod1. cbn [n_floor n_add n_lit float_arith]. apply Rabs_le_inv in H. flit 0.5%float F5 V5.
  destruct (fadd_b x 0.5%float 7000000 F F5 ltac:(lra) ltac:(lra)) as (F1 & _ & _). rewrite (py_floor_spec _ F1). cbn [bind n_ltb float_arith].
  destruct (PrimFloat.ltb _ _); eauto.
Qed.
Lemma qiHigh_ok k w : k_new k -> is_w k w -> exists q t d, qiHigh A w = Ok q /\ FIN q /\ about k 0.002101 (FR q) t d.
Proof.
  intros K I. pose proof I as [F W]. pose proof (new_ok k K) as K'. pose proof (theta_bnd k K') as B. apply Rabs_le_inv in W. unfold qiHigh.
  assert (HW : Rabs (FR w) <= 50500) by (apply Rabs_le; lra).
  destruct (saLonT2_ok w F HW) as (t & -> & Ft & Bt & Lt). cbn [bind]. cbn [n_mul n_lit n_add n_sub float_arith].
  assert (Lt' : Rabs (La (FR t) - theta k) <= 0.002101) by (apply Rabs_le_inv in Lt; apply Rabs_le; lra).
  pose proof (mean_La k (FR t) 0.002101 ltac:(lra) Lt' ltac:(lra)) as M.
  destruct (compose t 0%float Ft ltac:(lra)) as (F1 & N1 & _); [flit 0%float F0 V0; exact F0|flit 0%float F0 V0; apply Rabs_le; lra|].
  destruct (dtT_at lib _ k (FR t) F1 ltac:(lra) K' ltac:(lra)) as (d & -> & Fd & Bd & Vd). cbn [bind].
  pose proof (yr_new k (FR t) K ltac:(lra)) as Y. destruct Vd as [_ Vd]. specialize (Vd ltac:(lra)).
  destruct (compose t d Ft ltac:(lra) Fd Bd) as (_ & _ & F2 & N2). set (q := (t * 36525 - d + ONE_THIRD)%float) in *.
  assert (Bq : Rabs (FR q - mean k) <= 12) by (apply Rabs_le_inv in N2, M, Bd; apply Rabs_le; lra). pose proof (mean_bnd k K') as MB.
  destruct (near_midnight_ok q 1200%float F2 ltac:(apply Rabs_le_inv in Bq; apply Rabs_le; lra)) as [b ->]. cbn [bind]. destruct b.
  - destruct (saLonT_ok lib w F HW) as (x & Ex & _). destruct (saLonT_fin lib w x k I K' Ex) as (Fx & Bx & Lx & _). rewrite Ex. cbn [bind].
    pose proof (mean_La k (FR x) 0.002101 ltac:(lra) ltac:(lra) ltac:(lra)) as Mx. pose proof (yr_new k (FR x) K ltac:(lra)) as Yx.
    assert (Nx : Rabs (FR x - FR t) <= 0.00395 / 590.138) by (apply La_near; [lra|lra|apply Rabs_le_inv in Lx, Lt'; apply Rabs_le; lra]). apply Rabs_le_inv in Nx.
    assert (Yq : Rabs (yr (FR q) - yr (36525 * FR x)) <= / 50) by (apply Rabs_le_inv in N2, Bd; unfold yr; apply Rabs_le; lra). pose proof Yq as Yq'. apply Rabs_le_inv in Yq'.
    destruct (dtT_new lib q F2 ltac:(apply Rabs_le_inv in Bq; apply Rabs_le; lra) ltac:(lra)) as (d2 & -> & Fd2 & Vd2). cbn [bind].
    pose proof (V_lip (yr (FR q)) (yr (36525 * FR x)) ltac:(lra) ltac:(lra)) as VL. assert (VV : Rabs (V (yr (FR q)) - V (yr (36525 * FR x))) <= 1.04) by lra.
    pose proof (V_small (yr (FR q)) ltac:(lra)) as VS. apply Rabs_le_inv in VV, Vd2.
    destruct (compose x d2 Fx ltac:(lra) Fd2 ltac:(apply Rabs_le; lra)) as (_ & _ & F3 & N3). eexists. exists (FR x), (FR d2). split; [reflexivity|]. split; [exact F3|].
    split; [lra|lra|exact N3|apply Rabs_le; lra].
  - exists q, (FR t), (FR d). split; [reflexivity|]. split; [exact F2|]. split; [lra|exact Lt'|exact N2|lra].
Qed.
(** ** The low precision formula *)
Lemma one_lin t : er (t / 10) E_one - er (t / 10) E_lin = 0.0334165646 * cos (FR 4.669256804 + t / 10 * FR 6283.075849991).
Proof.
  rewrite <- ediff_ok. replace (ediff E_one E_lin) with
    (EDiv (EAdd (EL 0) (EMul (EAdd (EL 0) (EMul (EL 334165646) (ECos (EAdd (EL 4.669256804) (EMul EX (EL 6283.075849991)))))) (EL 1))) (EL 10000000000)) by (vm_compute; reflexivity).
  cbn [er]. rewrite FR_zero. fexact 334165646%float lx1. fexact 10000000000%float lx4. fexact 1%float lx5.
  rewrite lx1, lx4, lx5. lra.
Qed.
Lemma n_La t : Rabs t <= 5 -> Rabs (er t E_n / 10000000 - La t) <= 0.0045 /\ Rabs (er (t / 10) E_all - (1.753470456 + 628.33196674749 * t) - er t E_lc / 10000000) <= 0.0045.
Proof.
  intros H. pose proof (lin_lins lib t ltac:(lra)) as L. destruct (chk_ok _ _ lib _ _ _ _ _ _ _ d_one) as (D & _ & _).
  specialize (D (t / 10) ltac:(apply Rabs_le_inv in H; apply Rabs_le; lra)). rewrite ediff_ok in D. pose proof (one_lin t) as Q. un.
  unfold E_n, E_lc, La. cbn [er].
  fexact 4.669256804%float xa1. fexact 6283.075849991%float xa2. fexact 4.669257%float xb1. fexact 628.307585%float xb2. fexact 4.67%float xc1.
  set (a1 := FR 4.669256804%float + t / 10 * FR 6283.075849991%float) in *.
  set (b1 := FR 4.669257%float + FR 628.307585%float * t). set (b2 := FR 2.67823%float + FR 628.307585%float * t). set (b3 := FR 4.6261%float + _). set (b4 := FR 2.1824%float - _).
  set (c1 := FR 4.67%float + FR 628.307585%float * t). set (c2 := FR 2.678%float + _).
  fval 53%float 53 k1. fval 334166%float 334166 k2. fval 3489%float 3489 k3. fval 994%float 994 k4. fval 834%float 834 k5. fval 334116%float 334116 k6. fval 2061%float 2061 k7. rewrite k1, k2, k3, k4, k5, k6, k7.
  flit 48950621.66%float F1 V1. flit 6283319653.318%float F2 V2. flit 2060.6%float F3 V3.
  set (l1 := FR 48950621.66%float) in *. set (l2 := FR 6283319653.318%float) in *. set (l3 := FR 2060.6%float) in *.
  apply Rabs_le_inv in H.
  assert (C1 : - / 1000000 <= cos a1 - cos b1 <= / 1000000) by (apply cos_near; unfold a1, b1; rewrite xa1, xa2, xb1, xb2; apply Rabs_le; lra).
  assert (C2 : - / 1000 <= cos a1 - cos c1 <= / 1000) by (apply cos_near; unfold a1, c1; rewrite xa1, xa2, xc1, xb2; apply Rabs_le; lra).
  clearbody a1 b1 b2 b3 b4 c1 c2. pose proof (COS_bound b1). pose proof (COS_bound b2). pose proof (COS_bound b3). pose proof (SIN_bound b4). pose proof (COS_bound c1). pose proof (COS_bound c2). pose proof (COS_bound a1).
  assert (P1 : Rabs (t * t) <= 5 * 5) by (apply Rmul_abs; apply Rabs_le; lra).
  assert (P2 : Rabs (l3 * (cos b2 * t)) <= 2061 * (1 * 5)) by (apply Rmul_abs; [|apply Rmul_abs]; apply Rabs_le; lra).
  assert (P3 : Rabs ((l2 - 6283319653.318) * t) <= / 1000 * 5) by (apply Rmul_abs; apply Rabs_le; lra).
  assert (P4 : Rabs (cos c2 * t) <= 1 * 5) by (apply Rmul_abs; apply Rabs_le; lra).
  replace (l2 * t) with ((l2 - 6283319653.318) * t + 6283319653.318 * t) by ring. rewrite !(Rmult_assoc 53), (Rmult_assoc l3), (Rmult_assoc 2061).
  set (tt := t * t) in *. set (u := cos b2 * t) in *. set (u' := cos c2 * t) in *. set (z := (l2 - _) * t) in *. set (lu := l3 * u) in *. clearbody tt u u' z lu. pose proof PI_val.
  apply Rabs_le_inv in P1, P2, P3, P4, L. split; apply Rabs_le; lra.
Qed.
Lemma newton_r (L : R -> R) (T s1 s2 k v t t' W eta d : R) :
  (forall a b, Rabs a <= T -> Rabs b <= T -> a <= b -> s1 * (b - a) <= L b - L a <= s2 * (b - a)) ->
  Rabs t <= T -> Rabs t' <= T -> 0 < s1 -> 0 < v -> (1 - k) * v <= s1 -> s2 <= (1 + k) * v -> 0 <= k <= 1 -> s1 <= s2 ->
  Rabs ((t' - t) * v - (W - L t)) <= eta -> Rabs (L t - W) <= d -> Rabs (L t' - W) <= k * d + (1 + k) * eta.
Proof.
  intros S Ht Ht' P1 Pv K1 K2 K0 S12 He Hd.
  assert (SG : exists g, s1 <= g <= s2 /\ L t' - L t = g * (t' - t)).
  { destruct (Rtotal_order t t') as [C|[C|C]].
    - exists ((L t' - L t) / (t' - t)). pose proof (S _ _ Ht Ht' ltac:(lra)) as P. split; [|field; lra].
      split; apply Rmult_le_reg_r with (t' - t); try lra; unfold Rdiv; rewrite Rmult_assoc, Rinv_l by lra; lra.
    - exists s1. split; [lra|]. rewrite C. ring.
    - exists ((L t' - L t) / (t' - t)). pose proof (S _ _ Ht' Ht ltac:(lra)) as P. split; [|field; lra].
      assert (G : (L t' - L t) / (t' - t) = (L t - L t') / (t - t')) by (field; lra). rewrite G.
      split; apply Rmult_le_reg_r with (t - t'); try lra; unfold Rdiv; rewrite Rmult_assoc, Rinv_l by lra; lra. }
  destruct SG as (g & Hg & G).
  assert (Q : 1 - k <= g / v <= 1 + k) by (split; apply Rmult_le_reg_r with v; try lra; unfold Rdiv; rewrite (Rmult_assoc g), Rinv_l by lra; lra).
  replace (L t' - W) with ((L t - W) * (1 - g / v) + ((t' - t) * v - (W - L t)) * (g / v)) by (replace (L t') with (L t + g * (t' - t)) by lra; field; lra).
  assert (A1 : Rabs ((L t - W) * (1 - g / v)) <= d * k) by (apply Rmul_abs; [exact Hd|apply Rabs_le; lra]).
  assert (A2 : Rabs (((t' - t) * v - (W - L t)) * (g / v)) <= eta * (1 + k)) by (apply Rmul_abs; [exact He|apply Rabs_le; lra]).
  apply Rabs_le_inv in A1, A2. apply Rabs_le. lra.
Qed.
Definition k_low (k : Z) : Prop := (-8600 <= k <= -900)%Z.
Lemma low_old k : k_low k -> k_old k. Proof. unfold k_low, k_old. lia. Qed.
Lemma theta_low k : k_low k -> -2252 <= theta k <= -235.
Proof. intros [H1 H2]. apply IZR_le in H1, H2. unfold theta. pose proof PI_val. nra. Qed.
Lemma quot a b v0 e M : Rabs (a / b) <= M -> 1 <= b -> 1 <= v0 -> Rabs (b - v0) <= e -> Rabs (a / b - a / v0) <= M * e.
Proof.
  intros Q Hb Hv E. replace (a / b - a / v0) with (a / b * ((v0 - b) * / v0)) by (field; lra). apply Rmul_abs; [exact Q|].
  replace e with (e * 1) by ring. apply Rmul_abs; [rewrite Rabs_minus_sym; exact E|]. rewrite Rabs_pos_eq by (left; apply Rinv_0_lt_compat; lra). replace 1 with (/ 1) by lra. apply Rinv_le_contravar; lra.
Qed.
Lemma quot_b a b M : - (M * b) <= a <= M * b -> 0 < b -> Rabs (a / b) <= M.
Proof. intros H Hb. apply Rabs_le. split; apply Rmult_le_reg_r with b; try lra; unfold Rdiv; rewrite Rmult_assoc, Rinv_l by lra; lra. Qed.
Lemma qiLow_ok k w : k_low k -> is_w k w -> FIN (qiLow A w) /\ exists t, Rabs t <= 4 /\ Rabs (La t - theta k) <= 0.0052 /\ Rabs (FR (qiLow A w) - (36525 * t + / 3)) <= 0.04.
Proof.
  intros K [F W]. pose proof (theta_low k K) as B. apply Rabs_le_inv in W. unfold qiLow. cbv zeta. cbn [n_sub n_div n_lit n_add n_mul n_sin n_cos float_arith] in *.
  set (v := 628.3319653318%float) in *. flit v Fv Vv. assert (Vq : Rabs (FR v - 628.3319653318) <= / 1000000000000) by (apply Rabs_le; lra).
  assert (Vr : 628.33196533 <= FR v <= 628.33196534) by lra. clear Vv.
  flit 4.895062166%float Fc Vc. set (cc := FR 4.895062166%float) in *.
  destruct (fsub_b w 4.895062166%float 3000 F Fc ltac:(fold cc; lra) ltac:(lra)) as (F1 & _ & N1). fold cc in N1. nea. set (a := (w - 4.895062166)%float) in *.
  assert (Qa : Rabs (FR a / FR v) <= 3.61) by (apply quot_b; lra). pose proof (quot (FR a) (FR v) 628.3319653318 _ _ Qa ltac:(lra) ltac:(lra) Vq) as Ra. apply Rabs_le_inv in Qa, Ra.
  destruct (fdiv_b a v 10 F1 ltac:(lra) ltac:(lra) ltac:(lra)) as (F2 & _ & N2). nea. set (t := (a / v)%float) in *.
  assert (T0 : - / 10000000000 <= FR t - (FR w - 4.895062166) / 628.3319653318 <= / 10000000000) by lra.
  assert (B0 : Rabs (FR t) <= 3.62) by (apply Rabs_le; lra). clear N1 N2 Ra.
  change (53 * t * t + 334116 * fcos (4.67 + 628.307585 * t) + 2061 * fcos (2.678 + 628.3076 * t) * t)%float with (ef fsin fcos t E_lc).
  destruct (chk_ok _ _ lib _ _ _ _ _ _ _ b_lc) as (Vl & Sl & Rl). assert (H8 : Rabs (FR t) <= 40 / 8) by lra. destruct (Rl _ F2 H8) as [Fl El]. specialize (Vl _ H8).
  set (c := ef fsin fcos t E_lc) in *. set (cr := er (FR t) E_lc) in *. un. apply Rabs_le_inv in El.
  assert (Qc : Rabs (FR c / FR v) <= 551) by (apply quot_b; lra). pose proof (quot (FR c) (FR v) 628.3319653318 _ _ Qc ltac:(lra) ltac:(lra) Vq) as Rc. apply Rabs_le_inv in Qc, Rc.
  destruct (fdiv_b c v 1000 Fl ltac:(lra) ltac:(lra) ltac:(lra)) as (F3 & _ & N3). nea. flit 10000000%float F7 V7. assert (E7 : FR 10000000 = 10000000) by lra.
  destruct (fdiv_b (c / v)%float 10000000%float 1 F3 ltac:(lra) ltac:(rewrite E7; lra) ltac:(lra)) as (F4 & _ & N4). rewrite E7 in N4. nea.
  destruct (fsub_b t (c / v / 10000000)%float 5 F2 F4 ltac:(apply Rabs_le_inv in B0; lra) ltac:(lra)) as (F5 & _ & N5). nea. set (t1 := (t - c / v / 10000000)%float) in *.
  assert (S1 : - / 10000000000 <= FR t1 - (FR t - cr / 6283319653.318) <= / 10000000000) by lra. clear N3 N4 N5 Rc.
  assert (B1 : Rabs (FR t1) <= 3.63) by (apply Rabs_le_inv in B0; apply Rabs_le; lra).
  destruct (n_La (FR t1) ltac:(lra)) as [NA NB]. assert (H8' : Rabs (FR t1) <= 40 / 8) by lra.
  assert (D1 : Rabs (La (FR t1) - FR w) <= 0.006).
  { set (c1 := er (FR t1) E_lc) in *.
    assert (CC : - 12000 <= c1 - cr <= 12000).
    { destruct (Rle_lt_dec (FR t) (FR t1)) as [C|C]; [pose proof (Sl _ _ H8 H8' C) as X|apply Rlt_le in C; pose proof (Sl _ _ H8' H8 C) as X]; fold c1 cr in X; lra. }
    pose proof PI_val. apply Rabs_le_inv in NB, B0. unfold La. apply Rabs_le. lra. }
  change (48950621.66 + 6283319653.318 * t1 + 53 * t1 * t1 + 334166 * fcos (4.669257 + 628.307585 * t1) + 3489 * fcos (4.6261 + 1256.61517 * t1) + 2060.6 * fcos (2.67823 + 628.307585 * t1) * t1 - 994 - 834 * fsin (2.1824 - 33.75705 * t1))%float with (ef fsin fcos t1 E_n).
  change ((32 * (t1 + 1.8) * (t1 + 1.8) - 20) / SECOND_PER_DAY / 36525)%float with (ef fsin fcos t1 E_D).
  destruct (chk_ok _ _ lib _ _ _ _ _ _ _ b_n) as (Vn & _ & Rn). destruct (Rn _ F5 H8') as [Fn En]. specialize (Vn _ H8'). set (n := ef fsin fcos t1 E_n) in *. set (nr := er (FR t1) E_n) in *.
  destruct (chk_ok _ _ lib _ _ _ _ _ _ _ b_D) as (VD & _ & RD). destruct (RD _ F5 H8') as [FD ED]. specialize (VD _ H8'). set (D := ef fsin fcos t1 E_D) in *. set (Dr := er (FR t1) E_D) in *. un.
  apply Rabs_le_inv in En, ED, NA.
  destruct (fdiv_b n 10000000%float 4000 Fn ltac:(lra) ltac:(rewrite E7; lra) ltac:(lra)) as (G1 & _ & M1). rewrite E7 in M1. nea. apply Rabs_le_inv in D1.
  destruct (fsub_b (n / 10000000)%float w 1 G1 F ltac:(lra) ltac:(lra)) as (G2 & _ & M2). nea. set (x := (n / 10000000 - w)%float) in *.
  set (v' := 628.332%float) in *. flit v' Fv' Vv'. assert (Vq' : Rabs (FR v' - 628.332) <= / 1000000000000) by (apply Rabs_le; lra).
  assert (Vr' : 628.33199 <= FR v' <= 628.33201) by lra. clear Vv'.
  assert (Qx : Rabs (FR x / FR v') <= 0.0001) by (apply quot_b; lra). pose proof (quot (FR x) (FR v') 628.332 _ _ Qx ltac:(lra) ltac:(lra) Vq') as Rx. apply Rabs_le_inv in Qx, Rx.
  destruct (fdiv_b x v' 1 G2 ltac:(lra) ltac:(lra) ltac:(lra)) as (G3 & _ & M3). nea.
  destruct (fadd_b (x / v')%float D 1 G3 FD ltac:(lra) ltac:(lra)) as (G4 & _ & M4). nea. apply Rabs_le_inv in B1.
  destruct (fsub_b t1 (x / v' + D)%float 5 F5 G4 ltac:(lra) ltac:(lra)) as (G5 & _ & M5). nea. set (t2 := (t1 - (x / v' + D))%float) in *.
  set (t' := FR t1 - FR x / 628.332).
  assert (T2 : - 0.00000105 <= FR t2 - t' <= 0.00000105) by (unfold t'; lra).
  flit 36525%float F36 V36. assert (E36 : FR 36525 = 36525) by lra. flit ONE_THIRD F13 V13.
  assert (B' : -3.64 <= t' <= 3.64) by (unfold t'; lra).
  destruct (fmul_b t2 36525%float 200000 G5 F36 ltac:(rewrite E36; lra) ltac:(lra)) as (G6 & _ & M6). rewrite E36 in M6. nea.
  destruct (fadd_b (t2 * 36525)%float ONE_THIRD 200000 G6 F13 ltac:(lra) ltac:(lra)) as (G7 & _ & M7). nea.
  split; [exact G7|]. exists t'. split; [apply Rabs_le; lra|]. split; [|apply Rabs_le; lra].
  assert (N : Rabs (La t' - FR w) <= 0.0398 * 0.006 + (1 + 0.0398) * 0.0046).
  { apply (newton_r La 21 603.332 653.332 0.0398 628.332 (FR t1)); try lra; [exact (La_slopes lib)|apply Rabs_le; lra| |apply Rabs_le; lra].
    unfold t'. replace ((FR t1 - FR x / 628.332 - FR t1) * 628.332) with (- FR x) by (field; lra). apply Rabs_le. lra. }
  apply Rabs_le_inv in N. apply Rabs_le. lra.
Qed.
Lemma qiLow_T k w T : k_low k -> is_w k w -> is_term k T -> FIN (qiLow A w) /\ Rabs (FR (qiLow A w) - FR T) <= 0.55.
Proof.
  intros K W I. destruct (qiLow_ok k w K W) as (F & t & B & L & Q). split; [exact F|]. pose proof (low_old k K) as O. destruct (is_term_at lib k T I (old_ok _ O)) as (FT & t' & d' & H).
  destruct (at_old _ _ _ _ H O) as [B' L']. pose proof (at_T _ _ _ _ H) as ET. pose proof (d_bnd lib _ _ _ _ H (old_ok _ O)) as _. destruct (mean_at lib _ _ _ _ H) as [_ M]. specialize (M O).
  assert (Y : yr (36525 * t') <= 2026).
  { pose proof (theta_low k K). pose proof PI_val. apply Rabs_le_inv in M. unfold mean in M. unfold yr. lra. }
  destruct (at_d _ _ _ _ H) as [D _]. specialize (D Y).
  assert (N : - 0.35 <= 36525 * t - 36525 * t' <= 0.35).
  { apply Rabs_le_inv in L, L'. destruct (Rle_lt_dec t t') as [C|C]; [pose proof (La_slopes lib t t' ltac:(lra) ltac:(lra) C)|apply Rlt_le in C; pose proof (La_slopes lib t' t ltac:(lra) ltac:(lra) C)]; lra. }
  apply Rabs_le_inv in Q, ET. apply Rabs_le. lra.
Qed.
(** ** The day of a term *)
Lemma div24 a : FIN a -> Rabs (FR a) <= 12000000 -> FIN (a / 365.2422 * 24)%float /\ Rabs (FR (a / 365.2422 * 24)%float - FR a * 24 / 365.2422) <= / 10000000.
Proof.
  intros F B. apply Rabs_le_inv in B. flit 365.2422%float F1 V1. flit 24%float F2 V2. assert (E2 : FR 24 = 24) by lra.
  set (v := FR 365.2422%float) in *. set (x := FR a) in *.
  assert (Vq : Rabs (v - 365.2422) <= / 10000000000000) by (apply Rabs_le; lra). assert (Vr : 365.2421 <= v <= 365.2423) by lra. clear V1.
  assert (Q : Rabs (x / v) <= 32900) by (apply quot_b; lra). pose proof (quot x v 365.2422 _ _ Q ltac:(lra) ltac:(lra) Vq) as R. apply Rabs_le_inv in Q, R.
  destruct (fdiv_b a 365.2422%float 33000 F ltac:(fold v; lra) ltac:(fold v x; lra) ltac:(lra)) as (F4 & _ & N4). fold v x in N4. nea.
  destruct (fmul_b _ 24%float 800000 F4 F2 ltac:(rewrite E2; lra) ltac:(lra)) as (F5 & _ & N5). rewrite E2 in N5. nea. split; [exact F5|]. apply Rabs_le. lra.
Qed.
Lemma w_of_k' k : k_ok k -> is_w k (float_of_Z k * PI / 12)%float.
Proof.
  intros K. pose proof (theta_bnd k K) as B. destruct (float_of_Z_spec k ltac:(unfold k_ok in K; lia)) as [F2 E2].
  assert (HK : -49000 <= IZR k <= 192300) by (split; apply IZR_le; unfold k_ok in K; lia). pose proof PI_val. unfold theta in B. fval 12%float 12 v12. flit 12%float F12 V12.
  destruct (fmul_b (float_of_Z k) PI 700000 F2 PI_fin ltac:(rewrite E2; lra) ltac:(lra)) as (F & _ & N). rewrite E2 in N. nea.
  destruct (fdiv_b _ 12%float 60000 F ltac:(lra) ltac:(rewrite v12; lra) ltac:(lra)) as (F' & _ & N'). rewrite v12 in N'. nea. split; [exact F'|]. unfold theta. apply Rabs_le. lra.
Qed.
(** [X] lies where term [k] is expected *)
Definition at_k (X : float) (k : Z) : Prop := FIN X /\ IZR k + 0.01 <= (FR X + 293) * 24 / 365.2422 <= IZR k + 0.99.
Lemma jd_of X k : at_k X k -> k_ok k -> FIN (X + 2451545)%float /\ Rabs (FR (X + 2451545)%float - (FR X + 2451545)) <= / 100000000 /\ Rabs (FR X) <= 3000000.
Proof.
  intros [F H] K. assert (HK : -49000 <= IZR k <= 192300) by (split; apply IZR_le; unfold k_ok in K; lia). fval 2451545%float 2451545 e1. flit 2451545%float F1 V1.
  destruct (fadd_b X 2451545%float 6000000 F F1 ltac:(lra) ltac:(lra)) as (F2 & _ & N). rewrite e1 in N. nea. split; [exact F2|]. split; apply Rabs_le; lra.
Qed.
Lemma qi_w_ok X k : at_k X k -> k_ok k -> exists w, qi_w (X + 2451545)%float = Ok w /\ is_w k w.
Proof.
  intros H K. destruct (jd_of X k H K) as (F & N & B). destruct H as [FX H]. apply Rabs_le_inv in N, B. unfold qi_w. set (J := (X + 2451545)%float) in *.
  fval 7%float 7 e7. flit 7%float F7 V7. fval 2451259%float 2451259 e2. flit 2451259%float F2 V2.
  destruct (fadd_b J 7%float 6000000 F F7 ltac:(lra) ltac:(lra)) as (G1 & _ & M1). rewrite e7 in M1. nea.
  destruct (fsub_b _ 2451259%float 6000000 G1 F2 ltac:(lra) ltac:(lra)) as (G2 & _ & M2). rewrite e2 in M2. nea.
  destruct (div24 _ G2 ltac:(apply Rabs_le; lra)) as [G3 M3]. apply Rabs_le_inv in M3. rewrite (py_floor_spec _ G3). cbn [bind].
  assert (E : Zfloor (FR ((J + 7 - 2451259) / 365.2422 * 24)%float) = k) by (apply Zfloor_imp; rewrite plus_IZR; lra). rewrite E. eexists. split; [reflexivity|]. now apply w_of_k'.
Qed.
Lemma half_floor_ok q : FIN q -> Rabs (FR q) <= 6000000 -> exists n, half_floor A q = Ok n /\ Rabs (IZR n - FR q) <= 0.500001.
Proof.
  intros F B. apply Rabs_le_inv in B. unfold half_floor. cbn [n_floor n_add n_lit float_arith]. fval 0.5%float 0.5 e5. flit 0.5%float F5 V5.
  destruct (fadd_b q 0.5%float 7000000 F F5 ltac:(lra) ltac:(lra)) as (F1 & _ & N1). rewrite e5 in N1. nea. rewrite (py_floor_spec _ F1). eexists. split; [reflexivity|].
  pose proof (Zfloor_lb (FR (q + 0.5)%float)). pose proof (Zfloor_ub (FR (q + 0.5)%float)). apply Rabs_le. lra.
Qed.
Lemma term_bnd k T : is_term k T -> k_ok k -> Rabs (FR T - mean k) <= 9.
Proof.
  intros I K. destruct (is_term_at lib k T I K) as (F & t & d & H). destruct (mean_at lib _ _ _ _ H) as [M _]. pose proof (d_bnd lib _ _ _ _ H K) as D. pose proof (at_T _ _ _ _ H) as E.
  apply Rabs_le_inv in M, E. apply Rabs_le. lra.
Qed.
(** [calcQi] by its three branches *)
Definition f2 : float := (QI_END - 7)%float.
Lemma calcQi_high X k : at_k X k -> k_new k -> PrimFloat.leb 2436935 (X + 2451545)%float = true ->
  exists q, calcQi A X = Ok q /\ forall T, is_term k T -> Rabs (IZR q - FR T) <= 0.7501.
Proof.
  intros H K C. pose proof (new_ok k K) as K'. destruct (qi_w_ok X k H K') as (w & Ew & W). destruct (qiHigh_ok k w K W) as (q & t & d & Eq & Fq & AB).
  destruct (term_of lib k K') as (T & _ & _ & I & _ & _). pose proof (about_T k _ t d T K AB I) as Q. pose proof (term_bnd k T I K') as TB. pose proof (mean_bnd k K') as MB. apply Rabs_le_inv in Q, TB.
  destruct (half_floor_ok q Fq ltac:(apply Rabs_le; lra)) as (n & En & Bn). exists n. split.
  - unfold calcQi. cbv zeta. rewrite C, orb_true_r. rewrite Ew. cbn [bind n_lit float_arith]. rewrite Eq. cbn [bind]. exact En.
  - intros T' I'. pose proof (about_T k _ t d T' K AB I') as Q'. apply Rabs_le_inv in Q', Bn. apply Rabs_le. lra.
Qed.
Lemma correct_1 d s i : Rabs (IZR (correct d s i) - IZR d) <= 1.
Proof. unfold correct. destruct (PyStr.str_eqb _ _); [|destruct (PyStr.str_eqb _ _)]; rewrite ?plus_IZR, ?minus_IZR; apply Rabs_le; lra. Qed.
Lemma calcQi_low X k : at_k X k -> k_low k -> PrimFloat.ltb (X + 2451545) (1640650.479938 - 7)%float = false -> PrimFloat.leb 2436935 (X + 2451545)%float = false -> PrimFloat.ltb (X + 2451545)%float f2 = false ->
  PrimFloat.leb f2 (X + 2451545)%float = true -> PrimFloat.ltb (X + 2451545)%float 2436935 = true ->
  exists q, calcQi A X = Ok q /\ forall T, is_term k T -> Rabs (IZR q - FR T) <= 2.051.
Proof.
  intros H K C1 C3 C2 C2' C3'. pose proof (old_ok k (low_old k K)) as K'. destruct (qi_w_ok X k H K') as (w & Ew & W).
  destruct (term_of lib k K') as (T & _ & _ & I & _ & _). destruct (qiLow_T k w T K W I) as [Fq Q]. pose proof (term_bnd k T I K') as TB. pose proof (mean_bnd k K') as MB. apply Rabs_le_inv in Q, TB.
  destruct (half_floor_ok (qiLow A w) Fq ltac:(apply Rabs_le; lra)) as (n & En & Bn).
  destruct (jd_of X k H K') as (F & N & B). apply Rabs_le_inv in N, B.
  assert (I2 : exists i, py_floor ((X + 2451545 - f2) / 365.2422 * 24)%float = Ok i).
  { flit f2 Ff Vf. destruct (fsub_b _ f2 6000000 F Ff ltac:(lra) ltac:(lra)) as (G1 & _ & M1). nea. destruct (div24 _ G1 ltac:(apply Rabs_le; lra)) as [G2 _]. rewrite (py_floor_spec _ G2). eauto. }
  destruct I2 as [i Ei]. exists (correct n QB i). split.
  - unfold calcQi. cbv zeta. change (QI_END - 7)%float with f2. rewrite C1, C3. cbn [orb]. rewrite C2, andb_false_r. rewrite C2', C3'. cbn [andb]. rewrite Ew. cbn [bind n_lit float_arith]. rewrite En. cbn [bind]. rewrite Ei. reflexivity.
  - intros T' I'. destruct (qiLow_T k w T' K W I') as [_ Q']. pose proof (correct_1 n QB i) as C. apply Rabs_le_inv in Q', Bn, C. apply Rabs_le. lra.
Qed.
End LIB.
