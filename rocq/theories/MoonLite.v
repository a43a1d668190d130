(** The new moons of years after 3000 in plain floats: a quick evaluation of the lunar series whose distance from the
    value of the code is bounded beforehand, for every C library that meets [libm]. *)
From Coq Require Import ZArith Lia Reals Lra Psatz.
From Flocq Require Import Core BinarySingleNaN PrimFloat.
From Coq Require Import Bool List Floats.
From Verif Require Import Py PyFloat FloatFacts FloatTac T_ShouXing ShouXing FloatExpr Trig SunLon SunTerm SunQi Cert CertSky.
Import ListNotations.
Open Scope R_scope.
Local Set Warnings "-inexact-float".

(** ** The analysis of FloatExpr.v for less accurate sines *)
Definition te : Z := Eval vm_compute in (4 * P2 / 10 ^ 9 + 1)%Z.
Definition tm : Z := Eval vm_compute in (4999990 * P2)%Z.
Definition libq (fsin fcos : float -> float) : Prop := forall x, FIN x -> Rabs (FR x) <= sc tm ->
  (FIN (fsin x) /\ Rabs (FR (fsin x) - sin (FR x)) <= sc te) /\ (FIN (fcos x) /\ Rabs (FR (fcos x) - cos (FR x)) <= sc te).
Lemma tm_val : sc tm = 4999990. Proof. change tm with (4999990 * P2)%Z. apply sc_int. Qed.
Lemma te_val : 4 / 1000000000 <= sc te <= 5 / 1000000000.
Proof. unfold sc, te. change (IZR P2) with 1152921504606846976. lra. Qed.
Lemma libm_q fsin fcos : libm fsin fcos -> libq fsin fcos.
Proof.
  intros lib x F B. rewrite tm_val in B. destruct (lib x F ltac:(change (IZR (2 ^ 23)) with 8388608; lra)) as [[F1 E1] [F2 E2]]. pose proof te_val.
  assert (/ IZR (2 ^ 40) <= 91 / 100000000000000) by (change (IZR (2 ^ 40)) with 1099511627776; lra). repeat split; try assumption; lra.
Qed.
Lemma q_q : libq qsin qcos.
Proof.
  intros x F B. rewrite tm_val in B. pose proof te_val. destruct (qsin_ok x F ltac:(lra)) as [F1 E1]. destruct (qcos_ok x F ltac:(lra)) as [F2 E2]. repeat split; try assumption; lra.
Qed.
Definition qan_trig (is_cos : bool) (u : av) : option av :=
  if (amax (lo u) (hi u) + ee u <=? tm)%Z then
    let s := amax (sl u) (sh u) in Some (mkAv (- P2) P2 (- s) s (ee u + te)%Z)
  else None.
Fixpoint qan (xl xh : Z) (e : expr) : option av :=
  match e with
  | EX => if (amax xl xh <=? cap)%Z then Some (mkAv xl xh P2 P2 0) else None
  | EL c => obind (lit_av c) (fun p => Some (mkAv (fst p) (snd p) 0 0 0))
  | EAdd a b => obind (qan xl xh a) (fun u => obind (qan xl xh b) (an_add false u))
  | ESub a b => obind (qan xl xh a) (fun u => obind (qan xl xh b) (an_add true u))
  | EMul a b => obind (qan xl xh a) (fun u => obind (qan xl xh b) (an_mul u))
  | EDiv a (EL c) => obind (qan xl xh a) (fun u => obind (lit_av c) (fun p => if (fst p =? snd p)%Z then an_div u (fst p) else None))
  | EDiv _ _ => None
  | ESin a => obind (qan xl xh a) (qan_trig false)
  | ECos a => obind (qan xl xh a) (qan_trig true)
  end.
Section SOUND.
Variables fsin fcos : float -> float.
Hypothesis lib : libq fsin fcos.
Variables xl xh : Z.
Local Notation sound := (sound fsin fcos xl xh).
Local Notation dom := (dom xl xh).
Lemma qan_trig_ok (is_cos : bool) a u w : sound a u -> qan_trig is_cos u = Some w -> sound (if is_cos then ECos a else ESin a) w.
Proof.
  intros Sa. unfold qan_trig. cbv zeta. destruct (Z.leb_spec (amax (lo u) (hi u) + ee u) tm) as [C|C]; [|discriminate]. intros Ew.
  assert (Err : forall xf, FIN xf -> dom (FR xf) -> FIN (ef fsin fcos xf (if is_cos then ECos a else ESin a)) /\
    Rabs (FR (ef fsin fcos xf (if is_cos then ECos a else ESin a)) - er (FR xf) (if is_cos then ECos a else ESin a)) <= sc (ee u + te)).
  { intros xf F D. destruct (so_err _ _ _ _ _ _ Sa xf F D) as [Fa Ea]. pose proof (amax_ok _ _ _ (so_val _ _ _ _ _ _ Sa _ D)) as Ba.
    assert (M : Rabs (FR (ef fsin fcos xf a)) <= sc tm).
    { eapply Rle_trans; [eapply near_abs; [exact Ea|exact Ba]|]. rewrite <- sc_add. apply sc_le. exact C. }
    destruct (lib _ Fa M) as [[Fs Es] [Fc Ec]].
    rewrite sc_add. set (fa := ef fsin fcos xf a) in *. set (ra := er (FR xf) a) in *.
    destruct is_cos; cbn [ef er]; fold fa; fold ra; (split; [assumption|]).
    - pose proof (cos_lip (FR fa) ra). replace (FR (fcos fa) - cos ra) with ((FR (fcos fa) - cos (FR fa)) + (cos (FR fa) - cos ra)) by ring.
      eapply Rle_trans; [apply Rabs_triang|]. lra.
    - pose proof (sin_lip (FR fa) ra). replace (FR (fsin fa) - sin ra) with ((FR (fsin fa) - sin (FR fa)) + (sin (FR fa) - sin ra)) by ring.
      eapply Rle_trans; [apply Rabs_triang|]. lra. }
  injection Ew as <-. split; cbn [lo hi sl sh ee]; [| |exact Err].
  - intros x D. match goal with |- sc ?a <= _ <= _ => change a with (- P2)%Z end. rewrite sc_opp, sc_one. destruct is_cos; cbn [er]; [apply COS_bound|apply SIN_bound].
  - intros x y Dx Dy L. rewrite sc_opp. pose proof (so_slope _ _ _ _ _ _ Sa x y Dx Dy L) as [S1 S2].
      assert (A1 : sc (- amax (sl u) (sh u)) <= sc (sl u)) by (apply sc_le; unfold amax; lia). assert (A2 : sc (sh u) <= sc (amax (sl u) (sh u))) by (apply sc_le; unfold amax; lia).
      rewrite sc_opp in A1. assert (X : Rabs (er y a - er x a) <= sc (amax (sl u) (sh u)) * (y - x)) by (apply Rabs_le; nra).
      destruct is_cos; cbn [er]; [pose proof (cos_lip (er y a) (er x a)) as Y|pose proof (sin_lip (er y a) (er x a)) as Y];
        pose proof (Rle_trans _ _ _ Y X) as W; apply Rabs_le_inv in W; lra.
Qed.
Lemma qan_ok e : forall u, qan xl xh e = Some u -> sound e u.
Proof.
  induction e as [|c|a IHa b IHb|a IHa b IHb|a IHa b IHb|a IHa b IHb|a IHa|a IHa]; intros u E; cbn [qan] in E.
  - destruct (Z.leb_spec (amax xl xh) cap); [|discriminate]. injection E as <-. split; cbn [lo hi sl sh ee er ef].
    + intros x D. exact D.
    + intros x y _ _ _. rewrite sc_one. lra.
    + intros xf F D. split; [exact F|]. rewrite Rminus_diag_eq, Rabs_R0, sc_0 by reflexivity. lra.
  - apply obind_some in E. destruct E as (p & L & E). injection E as <-. destruct (lit_av_ok _ _ L) as [F V]. split; cbn [lo hi sl sh ee er ef].
    + intros x _. exact V.
    + intros x y _ _ _. rewrite sc_0. lra.
    + intros xf _ _. split; [exact F|]. rewrite Rminus_diag_eq, Rabs_R0, sc_0 by reflexivity. lra.
  - apply obind_some in E. destruct E as (v & E1 & E). apply obind_some in E. destruct E as (w & E2 & E). exact (an_add_ok _ _ _ _ false _ _ _ _ _ (IHa _ E1) (IHb _ E2) E).
  - apply obind_some in E. destruct E as (v & E1 & E). apply obind_some in E. destruct E as (w & E2 & E). exact (an_add_ok _ _ _ _ true _ _ _ _ _ (IHa _ E1) (IHb _ E2) E).
  - apply obind_some in E. destruct E as (v & E1 & E). apply obind_some in E. destruct E as (w & E2 & E). exact (an_mul_ok _ _ _ _ _ _ _ _ _ (IHa _ E1) (IHb _ E2) E).
  - destruct b as [|c| | | | | | ]; try discriminate. apply obind_some in E. destruct E as (v & E1 & E). apply obind_some in E. destruct E as ([z z'] & E2 & E).
    cbn [fst snd] in E. destruct (Z.eqb_spec z z') as [->|]; [|discriminate]. exact (an_div_ok _ _ _ _ _ _ _ _ _ (IHa _ E1) E2 E).
  - apply obind_some in E. destruct E as (v & E1 & E). exact (qan_trig_ok false _ _ _ (IHa _ E1) E).
  - apply obind_some in E. destruct E as (v & E1 & E). exact (qan_trig_ok true _ _ _ (IHa _ E1) E).
Qed.
End SOUND.

(** ** The series as expressions in the time *)
(** the only comparison the series make is [0 < t - 10] *)
Definition late_ltb (a b : expr) : res bool :=
  match a, b with EL c, ESub EX (EL d) => if lit_eqb c 0 && lit_eqb d 10 then Ok true else Raise ExcType | _, _ => Raise ExcType end.
Definition late_arith : Arith := mkArith expr EL EAdd ESub EMul EDiv ESin ECos (fun _ => Raise ExcType) late_ltb.
Lemma lit_eqb_fin c d : lit_eqb c d = true -> FIN c.
Proof. unfold lit_eqb. intros H. apply FIN_SF. destruct (Prim2SF c); try discriminate; reflexivity. Qed.
Lemma late_rel fsin fcos t : FIN t -> 10.001 <= FR t <= 81 -> arel late_arith (float_arith fsin fcos) (fun e x => x = ef fsin fcos t e).
Proof.
  intros F B. constructor; cbn; try (intros; subst; reflexivity); try discriminate.
  intros a b x y k -> -> E. unfold late_ltb in E. destruct a as [|c| | | | | | ]; try discriminate. destruct b as [| | |b1 b2| | | | ]; try discriminate. destruct b1; try discriminate. destruct b2 as [|d| | | | | | ]; try discriminate.
  destruct (lit_eqb c 0) eqn:E1; [|discriminate]. destruct (lit_eqb d 10) eqn:E2; [|discriminate]. cbn [andb] in E. injection E as <-. cbn [ef]. f_equal.
  pose proof (lit_eqb_ok _ _ E1) as V1. pose proof (lit_eqb_ok _ _ E2) as V2. pose proof (lit_eqb_fin _ _ E1) as F1. pose proof (lit_eqb_fin _ _ E2) as F2.
  rewrite FR_zero in V1. fexact 10%float l10. rewrite l10 in V2. destruct (fsub_b t d 100 F F2 ltac:(lra) ltac:(lra)) as (F3 & _ & N3). nea. apply fltb_spec; [assumption..|]. lra.
Qed.
Definition okE (r : res expr) : expr := match r with Ok e => e | Raise _ => EL 0 end.
Definition LT : tabs late_arith := all_tabs late_arith.
Definition E_m20 : expr := Eval vm_compute in okE (mF late_arith (m20 _ LT) EX).
Section EX.
Local Infix "+" := EAdd.
Local Infix "-" := ESub.
Local Infix "*" := EMul.
Local Infix "/" := EDiv.
Local Notation "# x" := (EL x%float) (at level 1, x at level 0, format "# x").
Local Notation sin := ESin.
Local Notation cos := ECos.
Local Notation t := EX.
Local Notation t2 := (EX * EX).
(** util/ShouXingUtil.py:532-541 [msaLonT2]: the corrected time, the longitudes of the moon and of the sun, the speed *)
Definition E_t1 : expr :=
  t - (#(-0.00003309) * t2 + #0.10976 * cos (#0.784758 + #8328.6914246 * t + #0.000152292 * t2)
       + #0.02224 * cos (#0.18740 + #7214.0628654 * t - #0.00021848 * t2) - #0.03342 * cos (#4.669257 + #628.307585 * t)) / #7771.37714500204.
Definition E_sun : expr :=
  #4.8950632 + #628.3319653318 * t + #0.000005297 * t2 + #0.0334166 * cos (#4.669257 + #628.307585 * t)
  + #0.0002061 * cos (#2.67823 + #628.307585 * t) * t + #0.000349 * cos (#4.6261 + #1256.61517 * t) - #20.5 / EL SECOND_PER_RAD.
Definition E_n : expr := E_m20 - E_sun.
Definition E_vL : expr :=
  #7771.38 - #914 * sin (#0.7848 + #8328.691425 * t + #0.0001523 * t2) - #179 * sin (#2.543 + #15542.7543 * t) - #160 * sin (#0.1874 + #7214.0629 * t).
(** util/ShouXingUtil.py:475-497 past 2128, in the day *)
Definition E_dt : expr :=
  let y := t / #365.2425 + #2000 in let dy := (y - #1820) * #1 / #100 in (#(-20) + EL (float_of_Z 31) * dy * dy) / EL SECOND_PER_DAY.
Definition E_s : expr := t - E_dt + EL ONE_THIRD.
End EX.

(** ** How far two evaluations are apart *)
Definition xlo : Z := Eval vm_compute in (10001 * P2 / 1000 + 1)%Z.
Definition xhi : Z := Eval vm_compute in (81 * P2)%Z.
Definition ylo : Z := Eval vm_compute in (360000 * P2)%Z.
Definition yhi : Z := Eval vm_compute in (3000000 * P2)%Z.
(** in units of 10^-14: bounds of the value (in units of 1), of the slope and of twice the error *)
Definition qchk (xl xh : Z) (e : expr) (v1 v2 s d : Z) : bool :=
  match qan xl xh e with
  | Some u => (v1 * P2 <=? lo u) && (hi u <=? v2 * P2) && (amax (sl u) (sh u) * 10 ^ 14 <=? s * P2) && (2 * ee u * 10 ^ 14 <=? d * P2)
  | None => false
  end%Z.
Lemma near_ef xl xh e v1 v2 s d f1 g1 f2 g2 x y : qchk xl xh e v1 v2 s d = true -> libq f1 g1 -> libq f2 g2 -> FIN x -> FIN y -> sc xl <= FR x <= sc xh -> sc xl <= FR y <= sc xh ->
  FIN (ef f1 g1 x e) /\ FIN (ef f2 g2 y e) /\ Rabs (FR (ef f1 g1 x e) - FR (ef f2 g2 y e)) <= IZR s / 100000000000000 * Rabs (FR x - FR y) + IZR d / 100000000000000 /\
  IZR v1 - IZR d / 100000000000000 <= FR (ef f1 g1 x e) <= IZR v2 + IZR d / 100000000000000 /\ IZR v1 - IZR d / 100000000000000 <= FR (ef f2 g2 y e) <= IZR v2 + IZR d / 100000000000000.
Proof.
  unfold qchk. destruct (qan xl xh e) as [u|] eqn:E; [|discriminate]. intros C L1 L2 Fx Fy Dx Dy. apply andb_true_iff in C. destruct C as [C C4]. apply andb_true_iff in C. destruct C as [C C3]. apply andb_true_iff in C. destruct C as [C1 C2].
  apply Z.leb_le in C1, C2, C3, C4. pose proof (qan_ok f1 g1 L1 xl xh e u E) as S1. pose proof (qan_ok f2 g2 L2 xl xh e u E) as S2.
  destruct (so_err _ _ _ _ _ _ S1 x Fx Dx) as [F1 E1]. destruct (so_err _ _ _ _ _ _ S2 y Fy Dy) as [F2 E2]. pose proof (so_val _ _ _ _ _ _ S1 _ Dx) as V1. pose proof (so_val _ _ _ _ _ _ S1 _ Dy) as V2.
  apply sc_le in C1, C2. rewrite !sc_int in C1, C2.
  assert (P : 0 < IZR P2) by (change (IZR P2) with 1152921504606846976; lra).
  assert (C3' : sc (amax (sl u) (sh u)) <= IZR s / 100000000000000).
  { apply IZR_le in C3. rewrite !mult_IZR in C3. change (IZR (10 ^ 14)) with 100000000000000 in C3. unfold sc. apply Rmult_le_reg_r with (IZR P2); [exact P|]. unfold Rdiv. rewrite Rmult_assoc, Rinv_l by lra. lra. }
  assert (C4' : 2 * sc (ee u) <= IZR d / 100000000000000).
  { apply IZR_le in C4. rewrite !mult_IZR in C4. change (IZR (10 ^ 14)) with 100000000000000 in C4. unfold sc. apply Rmult_le_reg_r with (IZR P2); [exact P|]. unfold Rdiv. rewrite !Rmult_assoc, Rinv_l by lra. lra. }
  assert (A1 : sc (- amax (sl u) (sh u)) <= sc (sl u)) by (apply sc_le; unfold amax; lia). assert (A2 : sc (sh u) <= sc (amax (sl u) (sh u))) by (apply sc_le; unfold amax; lia). rewrite sc_opp in A1.
  assert (A0 : 0 <= sc (ee u)) by (pose proof (Rabs_pos (FR (ef f1 g1 x e) - er (FR x) e)); lra).
  assert (G : Rabs (er (FR x) e - er (FR y) e) <= sc (amax (sl u) (sh u)) * Rabs (FR x - FR y)).
  { destruct (Rle_lt_dec (FR x) (FR y)) as [L|L].
    - pose proof (so_slope _ _ _ _ _ _ S1 _ _ Dx Dy L) as W. rewrite (Rabs_minus_sym (FR x)), (Rabs_pos_eq (FR y - FR x)) by lra. apply Rabs_le. nra.
    - pose proof (so_slope _ _ _ _ _ _ S1 _ _ Dy Dx ltac:(lra)) as W. rewrite (Rabs_pos_eq (FR x - FR y)) by lra. apply Rabs_le. nra. }
  assert (G' : sc (amax (sl u) (sh u)) * Rabs (FR x - FR y) <= IZR s / 100000000000000 * Rabs (FR x - FR y)) by (apply Rmult_le_compat_r; [apply Rabs_pos|exact C3']).
  apply Rabs_le_inv in E1, E2, G. split; [exact F1|]. split; [exact F2|]. split; [apply Rabs_le; lra|]. split; lra.
Qed.
Lemma k_t1 : qchk xlo xhi E_t1 9 82 120000000000000 200 = true. Proof. vm_cast_no_check (eq_refl true). Qed.
Lemma k_n : qchk xlo xhi E_n 30000 680000 940000000000000000 700000 = true. Proof. vm_cast_no_check (eq_refl true). Qed.
Lemma k_vL : qchk xlo xhi E_vL 6500 9100 1200000000000000000000 1200000000 = true. Proof. vm_cast_no_check (eq_refl true). Qed.
Lemma k_s : qchk ylo yhi E_s 350000 3001000 100000000000000 280000 = true. Proof. vm_cast_no_check (eq_refl true). Qed.
Lemma step_near w tc tq xc xq vc vq dt dx dv : FIN w -> FIN tc -> FIN tq -> FIN xc -> FIN xq -> FIN vc -> FIN vq ->
  0 <= FR w <= 700000 -> 0 <= FR xc <= 700000 -> 0 <= FR xq <= 700000 -> 0 <= FR tc <= 82 -> 0 <= FR tq <= 82 -> 6000 <= FR vc -> 6000 <= FR vq ->
  Rabs (FR tc - FR tq) <= dt -> Rabs (FR xc - FR xq) <= dx -> Rabs (FR vc - FR vq) <= dv -> dx <= 1 / 1000 -> dv <= 1 -> Rabs (FR (w - xq)%float) <= 1 ->
  FIN (tc + (w - xc) / vc)%float /\ FIN (tq + (w - xq) / vq)%float /\ Rabs (FR (tc + (w - xc) / vc)%float - FR (tq + (w - xq) / vq)%float) <= dt + dx / 6000 + dv / 30000000 + 3 / 10000000000000 /\
  -2 <= FR (tc + (w - xc) / vc)%float <= 84 /\ -2 <= FR (tq + (w - xq) / vq)%float <= 84.
Proof.
  intros Fw Ftc Ftq Fxc Fxq Fvc Fvq Bw Bxc Bxq Btc Btq Bvc Bvq Dt Dx Dv Sx Sv R1.
  destruct (fsub_b w xc 700000 Fw Fxc ltac:(lra) ltac:(lra)) as (F1 & _ & N1). destruct (fsub_b w xq 700000 Fw Fxq ltac:(lra) ltac:(lra)) as (F2 & _ & N2). nea.
  set (rc := (w - xc)%float) in *. set (rq := (w - xq)%float) in *. apply Rabs_le_inv in Dt, Dx, Dv, R1.
  assert (B1 : -1.01 <= FR rc <= 1.01) by lra.
  assert (I1 : 0 < / FR vc <= / 6000) by (split; [apply Rinv_0_lt_compat; lra|apply Rinv_le_contravar; lra]). assert (I2 : 0 < / FR vq <= / 6000) by (split; [apply Rinv_0_lt_compat; lra|apply Rinv_le_contravar; lra]).
  assert (Q1 : -1 <= FR rc / FR vc <= 1) by (unfold Rdiv; nra). assert (Q2 : -1 <= FR rq / FR vq <= 1) by (unfold Rdiv; nra).
  destruct (fdiv_b rc vc 1 F1 ltac:(lra) Q1 ltac:(lra)) as (F3 & _ & N3). destruct (fdiv_b rq vq 1 F2 ltac:(lra) Q2 ltac:(lra)) as (F4 & _ & N4). nea.
  set (qc := (rc / vc)%float) in *. set (qq := (rq / vq)%float) in *.
  destruct (fadd_b tc qc 84 Ftc F3 ltac:(lra) ltac:(lra)) as (F5 & _ & N5). destruct (fadd_b tq qq 84 Ftq F4 ltac:(lra) ltac:(lra)) as (F6 & _ & N6). nea.
  split; [exact F5|]. split; [exact F6|].
  assert (K : Rabs (FR rc / FR vc - FR rq / FR vq) <= (dx + 4 / 10000000000) / 6000 + dv / 30000000).
  { replace (FR rc / FR vc - FR rq / FR vq) with ((FR rc - FR rq) * / FR vc + (FR rq * (FR vq - FR vc)) * (/ FR vc * / FR vq)) by (field; lra).
    assert (X1 : Rabs ((FR rc - FR rq) * / FR vc) <= (dx + 4 / 10000000000) * / 6000) by (apply Rmul_abs; apply Rabs_le; lra).
    assert (X2 : Rabs (FR rq * (FR vq - FR vc)) <= 1 * dv) by (apply Rmul_abs; apply Rabs_le; lra).
    assert (X3 : Rabs (/ FR vc * / FR vq) <= / 6000 * / 6000) by (apply Rmul_abs; apply Rabs_le; lra).
    pose proof (Rmul_abs _ _ _ _ X2 X3) as X4. assert (0 <= dv) by lra. eapply Rle_trans; [apply Rabs_triang|]. lra. }
  apply Rabs_le_inv in K. split; [apply Rabs_le; lra|lra].
Qed.

Lemma dtT_late f g x : FIN x -> 360000 <= FR x <= 3000000 -> dtT (float_arith f g) x = Ok (ef f g x E_dt).
Proof.
  intros F B. unfold dtT, dtCalc. cbn [n_div n_add n_lit n_ltb float_arith]. flit 365.2425%float F1 V1. fexact 2000%float l1. flit 2000%float F2 V2. fexact 2028%float l2. flit 2028%float F3 V3. fexact 100%float l3. flit 100%float F4 V4.
  assert (Q : 900 <= FR x / FR 365.2425%float <= 9000).
  { split; [apply Rmult_le_reg_r with (FR 365.2425%float)|apply Rmult_le_reg_r with (FR 365.2425%float)]; try lra; unfold Rdiv; rewrite Rmult_assoc, Rinv_l by lra; lra. }
  destruct (fdiv_b x 365.2425%float 10000 F ltac:(lra) ltac:(lra) ltac:(lra)) as (F5 & _ & N5). destruct (fadd_b _ 2000%float 12000 F5 F2 ltac:(nea; lra) ltac:(lra)) as (F6 & _ & N6). nea.
  destruct (fadd_b 2028%float 100%float 2128 F3 F4 ltac:(lra) ltac:(lra)) as (F7 & _ & N7). nea.
  set (y := (x / 365.2425 + 2000)%float) in *.
  replace (PrimFloat.ltb y 2028) with false. 2: { symmetry. destruct (PrimFloat.ltb y 2028) eqn:E; [|reflexivity]. apply fltb_spec in E; [lra|assumption..]. }
  cbn [bind negb]. replace (PrimFloat.ltb (2028 + 100) y) with true. 2: { symmetry. apply fltb_spec; [assumption..|]. lra. }
  cbn [bind]. unfold dtExt, n_Z. cbn [n_div n_add n_lit n_sub n_mul float_arith]. subst y. reflexivity.
Qed.
Lemma not_near f g x n : FIN x -> Rabs (FR x - IZR n) <= 0.479165 -> (Z.abs n <= 4000000)%Z -> near_midnight (float_arith f g) x 1800%float = Ok false.
Proof.
  intros F B Bn. apply Rabs_le_inv in B. assert (Bz : -4000000 <= IZR n <= 4000000) by (split; [apply (IZR_le (-4000000))|apply IZR_le]; lia).
  unfold near_midnight, n_mod1. cbn [n_floor n_add n_lit n_sub n_mul n_ltb float_arith]. fexact 0.5%float l5. flit 0.5%float F5 V5. 
  destruct (fadd_b x 0.5%float 5000000 F F5 ltac:(lra) ltac:(lra)) as (F1 & _ & N1). nea. set (y := (x + 0.5)%float) in *.
  rewrite (py_floor_spec _ F1). assert (Zfloor (FR y) = n) as -> by (apply Zfloor_imp; rewrite plus_IZR; lra). cbn [bind]. unfold n_Z. cbn [n_lit float_arith].
  destruct (float_of_Z_spec n ltac:(lia)) as [F2 V2]. destruct (fsub_b y (float_of_Z n) 1 F1 F2 ltac:(lra) ltac:(lra)) as (F3 & _ & N3). nea. set (z := (y - float_of_Z n)%float) in *.
  unfold SECOND_PER_DAY. fexact 86400%float l6. flit 86400%float F6 V6. fexact 1800%float l7. flit 1800%float F7 V7.
  destruct (fmul_b z 86400%float 100000 F3 F6 ltac:(rewrite l6; lra) ltac:(lra)) as (F8 & _ & N8). nea. set (v := (z * 86400)%float) in *.
  destruct (fsub_b 86400%float 1800%float 100000 F6 F7 ltac:(lra) ltac:(lra)) as (F9 & _ & N9). nea. rewrite l6 in N8.
  replace (PrimFloat.ltb v 1800) with false. 2: { symmetry. destruct (PrimFloat.ltb v 1800) eqn:E; [|reflexivity]. apply fltb_spec in E; [lra|assumption..]. }
  cbn [bind]. f_equal. destruct (PrimFloat.ltb (86400 - 1800) v) eqn:E; [|reflexivity]. apply fltb_spec in E; [lra|assumption..].
Qed.
Lemma half_floor_at f g x n : FIN x -> Rabs (FR x - IZR n) <= 0.499 -> (Z.abs n <= 4000000)%Z -> half_floor (float_arith f g) x = Ok n.
Proof.
  intros F B Bn. apply Rabs_le_inv in B. assert (Bz : -4000000 <= IZR n <= 4000000) by (split; [apply (IZR_le (-4000000))|apply IZR_le]; lia).
  unfold half_floor. cbn [n_floor n_add n_lit float_arith]. fexact 0.5%float l5. flit 0.5%float F5 V5. 
  destruct (fadd_b x 0.5%float 5000000 F F5 ltac:(lra) ltac:(lra)) as (F1 & _ & N1). nea. rewrite (py_floor_spec _ F1). f_equal. apply Zfloor_imp; rewrite plus_IZR; lra.
Qed.

(** ** The quick evaluation *)
Definition QA : Arith := float_arith qsin qcos.
Definition moon_w (k : Z) : float := (float_of_Z k * PI * 2)%float.
(** the day of new moon [k], if it is 29 or 30 days after [N] and the quick formula decides it *)
Definition lite (k N : Z) : option Z :=
  (let w := moon_w k in
   let t0 := (w + 1.08472) / 7771.37714500204 in
   if (10.01 <? t0) && (t0 <? 80.5) then
     let t1 := ef qsin qcos t0 E_t1 in
     if (10.01 <? t1) && (t1 <? 80.9) then
       match mF QA M20 t1 with
       | Ok m =>
           let r := w - (m - ef qsin qcos t1 E_sun) in
           if (-1 <? r) && (r <? 1) then
             let x := (t1 + r / ef qsin qcos t1 E_vL) * 36525 in
             if (361000 <? x) && (x <? 2999000) then
               let d := ef qsin qcos x E_s - float_of_Z N in
               if (28.52085 <? d) && (d <? 29.47915) then Some (N + 29)%Z
               else if (29.52085 <? d) && (d <? 30.47915) then Some (N + 30)%Z
               else None
             else None
           else None
       | Raise _ => None
       end
     else None
   else None)%float.
Lemma QA_rel : arel QA QA eq.
Proof. constructor; intros; subst; congruence. Qed.
Section LITE.
Variables f g : float -> float.
Hypothesis lib : libq f g.
Local Notation FA := (float_arith f g).
Lemma code_m20 t : FIN t -> 10.001 <= FR t <= 81 -> mLon FA t 20 = Ok (ef f g t E_m20).
Proof.
  intros F B. pose proof (late_rel f g t F B) as R. pose proof (l_mF' _ _ _ R 20 (m20 _ LT) EX t (t_m20 _ _ _ _ (all_tabs_ok _ _ _ R)) eq_refl) as Q.
  destruct (Q E_m20 ltac:(vm_cast_no_check (eq_refl (@Ok expr E_m20)))) as (r & -> & ->). reflexivity.
Qed.
End LITE.
Lemma quick_m20 t m : FIN t -> 10.001 <= FR t <= 81 -> mF QA M20 t = Ok m -> m = ef qsin qcos t E_m20.
Proof.
  intros F B E. pose proof (t_m20 _ _ _ _ (all_tabs_ok _ _ _ QA_rel)) as T.
  assert (EM : m20 QA (all_tabs QA) = M20) by (vm_cast_no_check (eq_refl M20)). rewrite EM in T.
  destruct (l_mF' _ _ _ QA_rel 20 M20 t t T eq_refl m E) as (r & Er & ->). pose proof (code_m20 qsin qcos t F B) as Q. unfold QA in Er. congruence.
Qed.
Lemma ltb_dec x y : FIN x -> FIN y -> PrimFloat.ltb x y = true -> FR x < FR y.
Proof. intros. now apply fltb_spec. Qed.
Ltac fin_cmp H := match type of H with PrimFloat.ltb ?a ?b = true => apply ltb_dec in H; [|first [assumption|let F := fresh in let V := fresh in flit a F V; exact F]|first [assumption|let F := fresh in let V := fresh in flit b F V; exact F]] end.
Section OK.
Variables f g : float -> float.
Hypothesis lib : libq f g.
Local Notation FA := (float_arith f g).
Theorem lite_ok k N N' : (12000 <= k <= 100000)%Z -> (300000 <= N <= 3000000)%Z -> lite k N = Some N' -> (let! t := shuoHigh FA (moon_w k) in half_floor FA t) = Ok N' /\ (29 <= N' - N <= 30)%Z.
Proof.
  intros Bk BN E. unfold lite in E. cbv zeta in E.
  assert (Fw : FIN (moon_w k) /\ 0 <= FR (moon_w k) <= 640000).
  { unfold moon_w. destruct (float_of_Z_spec k ltac:(lia)) as [F1 V1]. unfold PI. flit 3.141592653589793%float F2 V2. fexact 2%float l2. flit 2%float F3 V3.
    assert (12000 <= IZR k <= 100000) by (split; apply IZR_le; lia).
    destruct (fmul_b _ _ 320000 F1 F2 ltac:(rewrite V1; nra) ltac:(lra)) as (F4 & _ & N4). nea. rewrite V1 in N4. assert (30000 <= FR (float_of_Z k * 3.141592653589793)%float <= 319000) by nra.
    destruct (fmul_b _ _ 700000 F4 F3 ltac:(rewrite l2; lra) ltac:(lra)) as (F5 & _ & N5). nea. rewrite l2 in N5. split; [exact F5|lra]. }
  set (w := moon_w k) in *. clearbody w. destruct Fw as [Fw Bw].
  flit 1.08472%float F1 V1. flit 7771.37714500204%float F2 V2. destruct (fadd_b w 1.08472%float 640010 Fw F1 ltac:(lra) ltac:(lra)) as (F3 & _ & N3). nea.
  assert (Q : -1 <= FR (w + 1.08472)%float / FR 7771.37714500204%float <= 100).
  { split; apply Rmult_le_reg_r with (FR 7771.37714500204%float); try lra; unfold Rdiv; rewrite Rmult_assoc, Rinv_l by lra; lra. }
  destruct (fdiv_b (w + 1.08472)%float 7771.37714500204%float 100 F3 ltac:(lra) ltac:(lra) ltac:(lra)) as (Ft0 & _ & _).
  set (t0 := ((w + 1.08472) / 7771.37714500204)%float) in *.
  destruct (PrimFloat.ltb 10.01 t0) eqn:C1; [|discriminate]. destruct (PrimFloat.ltb t0 80.5) eqn:C2; [|discriminate]. cbn [andb] in E. fin_cmp C1. fin_cmp C2.
  flit 10.01%float F4 V4. flit 80.5%float F5 V5. flit 80.9%float F6 V6.
  assert (X1 : sc xlo <= 10.005) by (unfold sc, xlo; change (IZR P2) with 1152921504606846976; lra). assert (X1' : 10.001 <= sc xlo) by (unfold sc, xlo; change (IZR P2) with 1152921504606846976; lra).
  assert (X2 : sc xhi = 81) by (change xhi with (81 * P2)%Z; apply sc_int).
  destruct (near_ef _ _ _ _ _ _ _ f g qsin qcos t0 t0 k_t1 lib q_q Ft0 Ft0 ltac:(lra) ltac:(lra)) as (Ftc & Ftq & Dt & Bt1 & Bt2).
  replace (FR t0 - FR t0) with 0 in Dt by ring. rewrite Rabs_R0 in Dt.
  set (tc := ef f g t0 E_t1) in *. set (tq := ef qsin qcos t0 E_t1) in *.
  destruct (PrimFloat.ltb 10.01 tq) eqn:C3; [|discriminate]. destruct (PrimFloat.ltb tq 80.9) eqn:C4; [|discriminate]. cbn [andb] in E. fin_cmp C3. fin_cmp C4.
  assert (Dt' : Rabs (FR tc - FR tq) <= 2 / 1000000000000) by lra. pose proof Dt' as Dt2. apply Rabs_le_inv in Dt2.
  destruct (near_ef _ _ _ _ _ _ _ f g qsin qcos tc tq k_n lib q_q Ftc Ftq ltac:(lra) ltac:(lra)) as (Fxc & Fxq & Dx & Bxc & Bxq).
  destruct (near_ef _ _ _ _ _ _ _ f g qsin qcos tc tq k_vL lib q_q Ftc Ftq ltac:(lra) ltac:(lra)) as (Fvc & Fvq & Dv & Bvc & Bvq).
  destruct (mF QA M20 tq) as [m|] eqn:Em; [|discriminate]. apply quick_m20 in Em; [|exact Ftq|lra]. subst m.
  change (ef qsin qcos tq E_m20 - ef qsin qcos tq E_sun)%float with (ef qsin qcos tq E_n) in E.
  set (xc := ef f g tc E_n) in *. set (xq := ef qsin qcos tq E_n) in *. set (vc := ef f g tc E_vL) in *. set (vq := ef qsin qcos tq E_vL) in *.
  destruct (fsub_b w xq 700000 Fw Fxq ltac:(lra) ltac:(lra)) as (Fr & _ & _).
  destruct (PrimFloat.ltb (-1) (w - xq)) eqn:C5; [|discriminate]. destruct (PrimFloat.ltb (w - xq) 1) eqn:C6; [|discriminate]. cbn [andb] in E. fin_cmp C5. fin_cmp C6.
  fexact (-1)%float l3. fexact 1%float l4. rewrite l3 in C5. rewrite l4 in C6.
  destruct (step_near w tc tq xc xq vc vq (2 / 1000000000000) (3 / 100000000) (4 / 100000) Fw Ftc Ftq Fxc Fxq Fvc Fvq ltac:(lra) ltac:(lra) ltac:(lra) ltac:(lra) ltac:(lra) ltac:(lra) ltac:(lra) Dt' ltac:(lra) ltac:(lra) ltac:(lra) ltac:(lra) ltac:(apply Rabs_le; lra)) as (Fc & Fq & D & Bc & Bq).
  unfold shuoHigh, msaLonT2. cbn [n_add n_sub n_mul n_div n_sin n_cos n_lit float_arith]. cbv zeta. fold t0. change (t0 - _)%float with tc.
  rewrite (code_m20 f g tc Ftc ltac:(lra)). cbn [bind]. change (ef f g tc E_m20 - _)%float with xc. change (7771.38 - _ - _ - _)%float with vc.
  set (tc' := (tc + (w - xc) / vc)%float) in *. set (tq' := (tq + (w - xq) / vq)%float) in *. apply Rabs_le_inv in D.
  fexact 36525%float l5. flit 36525%float F7 V7.
  destruct (fmul_b tc' 36525%float 3100000 Fc F7 ltac:(rewrite l5; lra) ltac:(lra)) as (Fxc' & _ & N7). destruct (fmul_b tq' 36525%float 3100000 Fq F7 ltac:(rewrite l5; lra) ltac:(lra)) as (Fxq' & _ & N8). nea. rewrite l5 in N7, N8.
  set (yc := (tc' * 36525)%float) in *. set (yq := (tq' * 36525)%float) in *.
  destruct (PrimFloat.ltb 361000 yq) eqn:C7; [|discriminate]. destruct (PrimFloat.ltb yq 2999000) eqn:C8; [|discriminate]. cbn [andb] in E. fin_cmp C7. fin_cmp C8.
  fexact 361000%float l6. fexact 2999000%float l7.
  assert (X3 : sc ylo = 360000) by (change ylo with (360000 * P2)%Z; apply sc_int). assert (X4 : sc yhi = 3000000) by (change yhi with (3000000 * P2)%Z; apply sc_int).
  assert (Dy : Rabs (FR yc - FR yq) <= 4 / 10000000) by (apply Rabs_le; lra). pose proof Dy as Dy'. apply Rabs_le_inv in Dy'.
  rewrite (dtT_late f g yc Fxc' ltac:(lra)). cbn [bind]. change (yc - ef f g yc E_dt + ONE_THIRD)%float with (ef f g yc E_s).
  destruct (near_ef _ _ _ _ _ _ _ f g qsin qcos yc yq k_s lib q_q Fxc' Fxq' ltac:(lra) ltac:(lra)) as (Fsc & Fsq & Ds & Bsc & Bsq).
  set (zc := ef f g yc E_s) in *. set (zq := ef qsin qcos yq E_s) in *.
  assert (Ds' : Rabs (FR zc - FR zq) <= 1 / 1000000) by lra. apply Rabs_le_inv in Ds'.
  destruct (float_of_Z_spec N ltac:(lia)) as [FN VN]. assert (BN' : 300000 <= IZR N <= 3000000) by (split; apply IZR_le; lia).
  destruct (fsub_b zq (float_of_Z N) 4000000 Fsq FN ltac:(lra) ltac:(lra)) as (Fd & _ & Nd). nea. set (d := (zq - float_of_Z N)%float) in *.
  assert (G : forall n, Rabs (FR zc - IZR (N + n)) <= 0.479165 -> (29 <= n <= 30)%Z ->
    (let! t := (let! near := near_midnight FA zc 1800%float in if near : bool then (let! x := msaLonT FA w in let! d0 := dtT FA zc in Ok (x * 36525 - d0 + ONE_THIRD)%float) else Ok zc) in half_floor FA t) = Ok (N + n)%Z /\ (29 <= N + n - N <= 30)%Z).
  { intros n G Bn. split; [|lia]. rewrite (not_near f g zc (N + n) Fsc G ltac:(lia)). cbn [bind]. apply half_floor_at; [exact Fsc|lra|lia]. }
  destruct (PrimFloat.ltb 28.52085 d && PrimFloat.ltb d 29.47915)%bool eqn:C9.
  - injection E as <-. apply andb_true_iff in C9. destruct C9 as [C9 C10]. fin_cmp C9. fin_cmp C10. flit 28.52085%float F8 V8. flit 29.47915%float F9 V9. apply G; [|lia]. rewrite plus_IZR. apply Rabs_le. lra.
  - destruct (PrimFloat.ltb 29.52085 d && PrimFloat.ltb d 30.47915)%bool eqn:C11; [|discriminate]. injection E as <-. apply andb_true_iff in C11. destruct C11 as [C11 C12]. fin_cmp C11. fin_cmp C12.
    flit 29.52085%float F8 V8. flit 30.47915%float F9 V9. apply G; [|lia]. rewrite plus_IZR. apply Rabs_le. lra.
Qed.
End OK.
