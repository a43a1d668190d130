(** Bounds on the difference between dynamical and universal time computed by [dtT] (util/ShouXingUtil.py:470-497), in binary64. *)
From Coq Require Import ZArith Lia Reals Lra Psatz.
From Flocq Require Import Core BinarySingleNaN PrimFloat.
From Coq Require Import Bool List Floats.
From Verif Require Import Py PyFloat FloatFacts FloatTac T_ShouXing ShouXing FloatExpr SunLon.
Import ListNotations.
Open Scope R_scope.
Local Set Warnings "-inexact-float".

(** A row of the table as an expression of the year. *)
Definition E_row (r : float * float * float * float * float) (next : float) : expr :=
  let '(r0, r1, r2, r3, r4) := r in
  let t1 := EMul (EDiv (ESub EX (EL r0)) (EL (next - r0)%float)) (EL 10) in
  let t2 := EMul t1 t1 in
  let t3 := EMul t2 t1 in
  EAdd (EAdd (EAdd (EL r1) (EMul (EL r2) t1)) (EMul (EL r3) t2)) (EMul (EL r4) t3).
Definition E_ext : expr := Eval vm_compute in dtExt expr_arith EX 31.

(** The values, scaled, of the rows met by the years from [yl] to [yh]. *)
Definition row0 (r : float * float * float * float * float) : float := let '(r0, _, _, _, _) := r in r0.
Definition exact (c : float) : option Z := match lit_av c with Some (a, b) => if (a =? b)%Z then Some a else None | None => None end.
Fixpoint dt_rng (yl yh lo0 hi0 : Z) (rows : list (float * float * float * float * float)) (y_end : float) : bool :=
  match rows with
  | [] => true
  | r :: rest =>
      let next := match rest with n :: _ => row0 n | [] => y_end end in
      match exact (row0 r), exact next with
      | Some z0, Some z1 =>
          (if (z1 <=? yl)%Z then true
           else match an (Z.max yl z0) (Z.min yh z1) (E_row r next) with
                | Some u => (lo0 <=? lo u - ee u)%Z && (hi u + ee u <=? hi0)%Z
                | None => false
                end)
          && (if (yh <? z1)%Z then true else dt_rng yl yh lo0 hi0 rest y_end)
      | _, _ => false
      end
  end.
Lemma exact_ok c z : exact c = Some z -> FIN c /\ FR c = sc z.
Proof.
  unfold exact. destruct (lit_av c) as [[a b]|] eqn:E; [|discriminate]. destruct (Z.eqb_spec a b) as [->|]; [|discriminate]. intros [= <-].
  destruct (lit_av_ok _ _ E) as [F V]. cbn [fst snd] in V. split; [exact F|lra].
Qed.
Section LIB.
Context {fsin fcos : float -> float} (lib : libm fsin fcos).
Notation A := (float_arith fsin fcos).
Lemma E_row_ef y r0 r1 r2 r3 r4 next : ef fsin fcos y (E_row (r0, r1, r2, r3, r4) next) =
  (let t1 := (y - r0) / (next - r0) * 10 in let t2 := t1 * t1 in let t3 := t2 * t1 in r1 + r2 * t1 + r3 * t2 + r4 * t3)%float.
Proof. reflexivity. Qed.
Lemma dt_rng_ok yl yh lo0 hi0 y_end y : FIN y -> sc yl <= FR y <= sc yh -> forall rows, dt_rng yl yh lo0 hi0 rows y_end = true ->
  match rows with r :: _ => FR (row0 r) <= FR y | [] => FR y_end <= FR y end -> FR y < FR y_end ->
  exists d, dtCalc_row A y rows y_end = Ok d /\ FIN d /\ sc lo0 <= FR d <= sc hi0.
Proof.
  intros Fy Hy. induction rows as [|r rest IH]; cbn [dt_rng]; [intros; lra|]. set (next := match rest with n :: _ => row0 n | [] => y_end end).
  intros H L U. destruct (exact (row0 r)) as [z0|] eqn:E0; [|discriminate]. destruct (exact next) as [z1|] eqn:E1; [|discriminate].
  apply andb_true_iff in H. destruct H as [H1 H2]. destruct (exact_ok _ _ E0) as [F0 V0]. destruct (exact_ok _ _ E1) as [F1 V1].
  cbn [dtCalc_row]. destruct r as [[[[r0 r1] r2] r3] r4]. cbn [row0] in *.
  assert (N : match rest with [] => y_end | (n0, _, _, _, _) :: _ => n0 end = next) by (unfold next; destruct rest as [|[[[[? ?] ?] ?] ?] ?]; reflexivity).
  rewrite N. cbn [n_ltb n_lit float_arith bind]. destruct (PrimFloat.ltb y next) eqn:C.
  - apply fltb_spec in C; [|assumption..]. eexists. split; [reflexivity|].
    destruct (Z.leb_spec z1 yl) as [G|G]; [apply sc_le in G; lra|].
    destruct (an _ _ _) as [u|] eqn:Eu; [|discriminate]. apply andb_true_iff in H1. destruct H1 as [Ha Hb]. apply Z.leb_le in Ha, Hb.
    pose proof (an_ok _ _ lib _ _ _ _ Eu) as S.
    assert (D : dom (Z.max yl z0) (Z.min yh z1) (FR y)).
    { unfold dom. destruct (Z.max_spec yl z0) as [[_ ->]|[_ ->]], (Z.min_spec yh z1) as [[_ ->]|[_ ->]]; lra. }
    destruct (so_err _ _ _ _ _ _ S y Fy D) as [Fd Ed]. pose proof (so_val _ _ _ _ _ _ S _ D) as Vd. rewrite E_row_ef in Fd, Ed.
    split; [exact Fd|]. apply sc_le in Ha, Hb. rewrite sc_sub in Ha. rewrite sc_add in Hb. apply Rabs_le_inv in Ed. cbv zeta in Ed. cbn [n_add n_mul n_sub n_div float_arith]. lra.
  - assert (C' : ~ FR y < FR next) by (rewrite <- fltb_spec by assumption; congruence).
    destruct (Z.ltb_spec yh z1) as [G|G].
    { exfalso. apply C'. rewrite V1. assert (sc yh < sc z1); [|lra]. unfold sc. apply Rmult_lt_compat_r; [apply Rinv_0_lt_compat, P2_pos|apply IZR_lt; lia]. }
    apply IH; [exact H2| |exact U]. unfold next in C'. destruct rest as [|n ?]; lra.
Qed.

(** ** The years before 2028 *)
Definition DT_rows : list (float * float * float * float * float) := Eval vm_compute in groups5 ShouXing_DT_AT.
(** from 150 BC to 2028: between -900 and 12800 seconds; from 1900 between -60 and 120 *)
Lemma rng_old : dt_rng (-150 * P2) (2028 * P2) (-900 * P2) (12800 * P2) (skipn 2 DT_rows) 2028 = true. Proof. vm_compute. reflexivity. Qed.
Lemma rng_new : dt_rng (1900 * P2) (2028 * P2) (-60 * P2) (120 * P2) (skipn 2 DT_rows) 2028 = true. Proof. vm_compute. reflexivity. Qed.

Definition DV : float := Eval vm_compute in (dtExt (float_arith (fun x => x) (fun x => x)) 2028 31 - 98.6)%float.
Definition E_near : expr := ESub E_ext (EDiv (EMul (EL DV) (ESub (EL 2128) EX)) (EL 100)).
Definition V (y : R) : R := -20 + 31 * ((y - 1820) / 100) * ((y - 1820) / 100).
Lemma er_ext y : er y E_ext = V y.
Proof.
  unfold E_ext. cbn [er]. flit (-20)%float F1 V1. flit 31%float F2 V2. flit 1820%float F3 V3. flit 1%float F4 V4. flit 100%float F5 V5.
  assert (E1 : FR (-20)%float = -20) by lra. assert (E2 : FR 31 = 31) by lra. assert (E3 : FR 1820 = 1820) by lra. assert (E4 : FR 1 = 1) by lra. assert (E5 : FR 100 = 100) by lra.
  rewrite E1, E2, E3, E4, E5. unfold V. lra.
Qed.
Lemma er_near y : 2028 <= y <= 2128 -> V y - 16 <= er y E_near <= V y.
Proof.
  intros H. unfold E_near. cbn [er]. rewrite er_ext. flit DV F1 V1. flit 2128%float F2 V2. flit 100%float F3 V3.
  assert (E2 : FR 2128 = 2128) by lra. assert (E3 : FR 100 = 100) by lra. rewrite E2, E3. nra.
Qed.
Lemma ext_ok y : FIN y -> 1900 <= FR y <= 10100 -> FIN (dtExt A y 31) /\ Rabs (FR (dtExt A y 31) - V (FR y)) <= 1.
Proof.
  intros F H. assert (E : match an (1900 * P2) (10100 * P2) E_ext with Some u => (ee u <=? P2)%Z | None => false end = true) by (vm_compute; reflexivity).
  destruct (an _ _ _) as [u|] eqn:Eu; [|discriminate]. apply Z.leb_le, sc_le in E. rewrite sc_one in E.
  assert (D : dom (1900 * P2) (10100 * P2) (FR y)) by (unfold dom; rewrite !sc_int; lra).
  destruct (so_err _ _ _ _ _ _ (an_ok _ _ lib _ _ _ _ Eu) y F D) as [Fd Ed]. rewrite er_ext in Ed. change (ef fsin fcos y E_ext) with (dtExt A y 31) in *.
  split; [exact Fd|lra].
Qed.
Lemma near_ok y : FIN y -> 2028 <= FR y <= 2128 -> FIN (ef fsin fcos y E_near) /\ V (FR y) - 17 <= FR (ef fsin fcos y E_near) <= V (FR y) + 1.
Proof.
  intros F H. assert (E : match an (2028 * P2) (2128 * P2) E_near with Some u => (ee u <=? P2)%Z | None => false end = true) by (vm_compute; reflexivity).
  destruct (an _ _ _) as [u|] eqn:Eu; [|discriminate]. apply Z.leb_le, sc_le in E. rewrite sc_one in E.
  assert (D : dom (2028 * P2) (2128 * P2) (FR y)) by (unfold dom; rewrite !sc_int; lra).
  destruct (so_err _ _ _ _ _ _ (an_ok _ _ lib _ _ _ _ Eu) y F D) as [Fd Ed]. pose proof (er_near _ H). apply Rabs_le_inv in Ed. split; [exact Fd|lra].
Qed.
Lemma skip_row y r rest y_end : FIN y -> FIN (row0 (hd r rest)) -> rest <> [] -> FR (row0 (hd r rest)) <= FR y -> dtCalc_row A y (r :: rest) y_end = dtCalc_row A y rest y_end.
Proof.
  intros Fy Fn N H. cbn [dtCalc_row]. destruct r as [[[[r0 r1] r2] r3] r4]. destruct rest as [|[[[[n0 n1] n2] n3] n4] rest]; [easy|]. cbn [hd row0] in *. cbn [n_ltb n_lit float_arith bind].
  destruct (PrimFloat.ltb y n0) eqn:C; [apply fltb_spec in C; [lra|assumption..]|reflexivity].
Qed.
Lemma dtCalc_old y : FIN y -> -150 <= FR y < 2028 -> exists d, dtCalc A y = Ok d /\ FIN d /\ -900 <= FR d <= 12800 /\ (1900 <= FR y -> -60 <= FR d <= 120).
Proof.
  intros F H. unfold dtCalc. cbn [n_ltb n_lit n_add float_arith bind]. flit 2028%float F1 V1. assert (E1 : FR 2028 = 2028) by lra.
  assert (L : PrimFloat.ltb y 2028 = true) by (apply fltb_spec; [assumption..|rewrite E1; lra]). rewrite L. cbn [negb].
  change (groups5 ShouXing_DT_AT) with DT_rows. flit (-150)%float F2 V2. flit (-500)%float F3 V3.
  assert (S : dtCalc_row A y DT_rows 2028 = dtCalc_row A y (skipn 2 DT_rows) 2028).
  { assert (N1 : skipn 1 DT_rows <> []) by discriminate. assert (N2 : skipn 2 DT_rows <> []) by discriminate.
    transitivity (dtCalc_row A y (skipn 1 DT_rows) 2028).
    - exact (skip_row y (hd (0, 0, 0, 0, 0)%float DT_rows) (skipn 1 DT_rows) 2028 F F3 N1 ltac:(cbn [DT_rows skipn row0 hd]; lra)).
    - exact (skip_row y (hd (0, 0, 0, 0, 0)%float (skipn 1 DT_rows)) (skipn 2 DT_rows) 2028 F F2 N2 ltac:(cbn [DT_rows skipn row0 hd]; lra)). }
  rewrite S.
  assert (H0 : match skipn 2 DT_rows with r :: _ => FR (row0 r) <= FR y | [] => FR 2028 <= FR y end) by (cbn [DT_rows skipn row0]; lra).
  destruct (dt_rng_ok (-150 * P2) (2028 * P2) (-900 * P2) (12800 * P2) 2028 y F ltac:(rewrite !sc_int; lra) _ rng_old H0 ltac:(lra)) as (d & E & Fd & Vd). rewrite !sc_int in Vd.
  exists d. split; [exact E|]. split; [exact Fd|]. split; [lra|]. intros G.
  destruct (dt_rng_ok (1900 * P2) (2028 * P2) (-60 * P2) (120 * P2) 2028 y F ltac:(rewrite !sc_int; lra) _ rng_new H0 ltac:(lra)) as (d' & E' & _ & Vd'). rewrite !sc_int in Vd'.
  assert (Ok d = Ok d') as [= <-] by congruence. lra.
Qed.
Lemma dtCalc_new y : FIN y -> 1900 <= FR y <= 10100 -> exists d, dtCalc A y = Ok d /\ FIN d /\ Rabs (FR d - V (FR y)) <= 180.
Proof.
  intros F H. destruct (Rlt_le_dec (FR y) 2028) as [C|C].
  - destruct (dtCalc_old y F ltac:(lra)) as (d & E & Fd & _ & Vd). specialize (Vd ltac:(lra)). exists d. split; [exact E|]. split; [exact Fd|].
    assert (-20 <= V (FR y) <= 116) by (unfold V; nra). apply Rabs_le. lra.
  - unfold dtCalc. cbn [n_ltb n_lit n_add n_sub n_mul n_div float_arith bind]. flit 2028%float F1 V1. assert (E1 : FR 2028 = 2028) by lra.
    assert (L : PrimFloat.ltb y 2028 = false).
    { destruct (PrimFloat.ltb y 2028) eqn:L; [|reflexivity]. apply fltb_spec in L; [|assumption..]. lra. }
    rewrite L. cbn [negb]. change (2028 + 100)%float with 2128%float. flit 2128%float F2 V2. assert (E2 : FR 2128 = 2128) by lra.
    destruct (PrimFloat.ltb 2128 y) eqn:G.
    + eexists. split; [reflexivity|]. destruct (ext_ok y F H) as [Fd Vd]. split; [exact Fd|lra].
    + assert (G' : FR y <= 2128).
      { destruct (Rle_lt_dec (FR y) 2128) as [K|K]; [exact K|]. assert (PrimFloat.ltb 2128 y = true); [|congruence]. apply fltb_spec; [assumption..|lra]. }
      destruct (near_ok y F ltac:(lra)) as [Fd Vd]. exists (ef fsin fcos y E_near). split; [reflexivity|]. split; [exact Fd|]. apply Rabs_le. lra.
Qed.

(** ** Of a day counted from J2000 *)
Definition yr (t : R) : R := t / 365.2425 + 2000.
Lemma yr_f t : FIN t -> Rabs (FR t) <= 3000000 -> FIN (t / 365.2425 + 2000)%float /\ Rabs (FR (t / 365.2425 + 2000)%float - yr (FR t)) <= / 1000000000.
Proof.
  intros F H. apply Rabs_le_inv in H. flit 365.2425%float F1 V1. flit 2000%float F2 V2. set (v := FR 365.2425%float) in *. set (x := FR t) in *.
  assert (Vq : - / 1000000000000 <= v - 365.2425 <= / 1000000000000) by lra. clear V1.
  assert (Q : - 8214 <= x / v <= 8214) by (split; apply Rmult_le_reg_r with v; try lra; unfold Rdiv; rewrite Rmult_assoc, Rinv_l by lra; lra).
  destruct (fdiv_b t 365.2425%float 10000 F ltac:(fold v; lra) ltac:(fold v x; lra) ltac:(lra)) as (F3 & _ & N3). fold v x in N3. nea.
  destruct (fadd_b _ 2000%float 12000 F3 F2 ltac:(lra) ltac:(lra)) as (F4 & _ & N4). nea. split; [exact F4|].
  assert (D : - / 10000000000 <= x / v - x / 365.2425 <= / 10000000000).
  { replace (x / v - x / 365.2425) with (- (x / v * (v - 365.2425)) / 365.2425) by (field; lra).
    assert (- / 100000000 <= x / v * (v - 365.2425) <= / 100000000).
    { apply Rabs_le_inv. rewrite Rabs_mult. replace (/ 100000000) with (10000 * / 1000000000000) by lra. apply Rmult_le_compat; try apply Rabs_pos; apply Rabs_le; lra. }
    lra. }
  unfold yr. apply Rabs_le. lra.
Qed.
Lemma sec_day d : FIN d -> Rabs (FR d) <= 400000 -> FIN (d / SECOND_PER_DAY)%float /\ Rabs (86400 * FR (d / SECOND_PER_DAY)%float - FR d) <= / 1000000.
Proof.
  intros F H. apply Rabs_le_inv in H. flit SECOND_PER_DAY F1 V1. assert (E : FR SECOND_PER_DAY = 86400) by lra.
  destruct (fdiv_b d SECOND_PER_DAY 10 F ltac:(lra) ltac:(rewrite E; lra) ltac:(lra)) as (F3 & _ & N3). rewrite E in N3. nea. split; [exact F3|]. apply Rabs_le. lra.
Qed.
Lemma dtT_new t : FIN t -> Rabs (FR t) <= 3000000 -> 1901 <= yr (FR t) <= 10090 ->
  exists d, dtT A t = Ok d /\ FIN d /\ Rabs (86400 * FR d - V (yr (FR t))) <= 181.
Proof.
  intros F H Hy. unfold dtT. cbn [n_div n_add n_lit float_arith]. destruct (yr_f t F H) as [Fy Vy]. apply Rabs_le_inv in Vy. set (y := (t / 365.2425 + 2000)%float) in *.
  destruct (dtCalc_new y Fy ltac:(lra)) as (d & -> & Fd & Vd). cbn [bind]. set (x := yr (FR t)) in *. apply Rabs_le_inv in Vd.
  assert (B : - / 2 <= V (FR y) - V x <= / 2).
  { replace (V (FR y) - V x) with (31 / 10000 * (FR y - x) * (FR y + x - 3640)) by (unfold V; field).
    assert (G : - / 10 <= (FR y - x) * (FR y + x - 3640) <= / 10).
    { apply Rabs_le_inv. rewrite Rabs_mult. replace (/ 10) with (/ 1000000000 * 100000000) by lra. apply Rmult_le_compat; try apply Rabs_pos; apply Rabs_le; lra. }
    lra. }
  assert (B0 : -20 <= V x <= 220000) by (unfold V; nra).
  destruct (sec_day d Fd ltac:(apply Rabs_le; lra)) as [F' V']. eexists. split; [reflexivity|]. split; [exact F'|]. apply Rabs_le_inv in V'. apply Rabs_le. lra.
Qed.
Lemma dtT_old t : FIN t -> -149 <= yr (FR t) <= 2027 -> exists d, dtT A t = Ok d /\ FIN d /\ -901 <= 86400 * FR d <= 12801.
Proof.
  intros F Hy. assert (H : Rabs (FR t) <= 3000000) by (unfold yr in Hy; apply Rabs_le; lra). unfold dtT. cbn [n_div n_add n_lit float_arith]. destruct (yr_f t F H) as [Fy Vy]. apply Rabs_le_inv in Vy. set (y := (t / 365.2425 + 2000)%float) in *.
  destruct (dtCalc_old y Fy ltac:(lra)) as (d & -> & Fd & Vd & _). cbn [bind].
  destruct (sec_day d Fd ltac:(apply Rabs_le; lra)) as [F' V']. eexists. split; [reflexivity|]. split; [exact F'|]. apply Rabs_le_inv in V'. lra.
Qed.
(** more finely, for the years from [yl] to [yh], scaled *)
Definition dt_in (yl yh lo0 hi0 : Z) : bool := ((-150 * P2 <=? yl) && (yh <? 2028 * P2) && (-900 * P2 <=? lo0) && (hi0 <=? 12800 * P2) && dt_rng yl yh lo0 hi0 (skipn 2 DT_rows) 2028)%Z%bool.
Lemma dtT_in yl yh lo0 hi0 t d : dt_in yl yh lo0 hi0 = true -> FIN t -> sc yl + / 100000000 <= yr (FR t) <= sc yh - / 100000000 -> dtT A t = Ok d ->
  sc lo0 - / 100000 <= 86400 * FR d <= sc hi0 + / 100000.
Proof.
  unfold dt_in. intros K F Hy. repeat (apply andb_true_iff in K; destruct K as [K ?]). rewrite Z.leb_le, Z.ltb_lt in *.
  repeat match goal with X : (_ <= _)%Z |- _ => apply sc_le in X end. assert (L : sc yh < 2028).
  { rewrite <- (sc_int 2028). unfold sc. apply Rmult_lt_compat_r; [apply Rinv_0_lt_compat, P2_pos|now apply IZR_lt]. }
  rewrite !sc_int in *.
  assert (H' : Rabs (FR t) <= 3000000) by (unfold yr in Hy; apply Rabs_le; lra). unfold dtT. cbn [n_div n_add n_lit float_arith]. destruct (yr_f t F H') as [Fy Vy]. apply Rabs_le_inv in Vy. set (y := (t / 365.2425 + 2000)%float) in *.
  unfold dtCalc. cbn [n_ltb n_lit n_add float_arith bind]. flit 2028%float F1 V1. assert (E1 : FR 2028 = 2028) by lra.
  assert (L' : PrimFloat.ltb y 2028 = true) by (apply fltb_spec; [assumption..|rewrite E1; lra]). rewrite L'. cbn [negb].
  change (groups5 ShouXing_DT_AT) with DT_rows. flit (-150)%float F2 V2. flit (-500)%float F3 V3.
  assert (S : dtCalc_row A y DT_rows 2028 = dtCalc_row A y (skipn 2 DT_rows) 2028).
  { assert (N1 : skipn 1 DT_rows <> []) by discriminate. assert (N2 : skipn 2 DT_rows <> []) by discriminate.
    transitivity (dtCalc_row A y (skipn 1 DT_rows) 2028).
    - exact (skip_row y (hd (0, 0, 0, 0, 0)%float DT_rows) (skipn 1 DT_rows) 2028 Fy F3 N1 ltac:(cbn [DT_rows skipn row0 hd]; lra)).
    - exact (skip_row y (hd (0, 0, 0, 0, 0)%float (skipn 1 DT_rows)) (skipn 2 DT_rows) 2028 Fy F2 N2 ltac:(cbn [DT_rows skipn row0 hd]; lra)). }
  rewrite S.
  assert (H0' : match skipn 2 DT_rows with r :: _ => FR (row0 r) <= FR y | [] => FR 2028 <= FR y end) by (cbn [DT_rows skipn row0]; lra).
  destruct (dt_rng_ok yl yh lo0 hi0 2028 y Fy ltac:(lra) _ ltac:(eassumption) H0' ltac:(lra)) as (d' & -> & Fd & Vd). cbn [bind]. intros E. injection E as <-.
  destruct (sec_day d' Fd ltac:(apply Rabs_le; lra)) as [F' V']. cbn [n_div n_lit float_arith]. apply Rabs_le_inv in V'. lra.
Qed.
End LIB.
