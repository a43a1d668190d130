(** On which civil day the moon overtakes the sun: the longitude of the moon less that of the sun ([msaLon], util/ShouXingUtil.py:510-511) at the two
    ends of a day, from shortened series whose distance from the whole ones is bounded beforehand; in binary64, for every C library with [libm]. *)
From Coq Require Import ZArith Lia Reals Lra Psatz.
From Flocq Require Import Core BinarySingleNaN PrimFloat.
From Coq Require Import Bool List Floats.
From Verif Require Import Py PyFloat FloatFacts FloatTac T_ShouXing ShouXing FloatExpr Trig SunLon SunTerm SunQi SunLate Cert CertSky MoonLite.
Import ListNotations.
Open Scope R_scope.
Local Set Warnings "-inexact-float".

(** ** The series *)
(** the comparison [0 < t - 10] up to the year 3000 *)
Definition early_ltb (a b : expr) : res bool :=
  match a, b with EL c, ESub EX (EL d) => if lit_eqb c 0 && lit_eqb d 10 then Ok false else Raise ExcType | _, _ => Raise ExcType end.
Definition early_arith : Arith := mkArith expr EL EAdd ESub EMul EDiv ESin ECos (fun _ => Raise ExcType) early_ltb.
Definition rows_of (ns : list nat) (ts : list (list row6)) : list (list row6) := map (fun '(n, l) => firstn n l) (combine ns ts).
Definition rows3_of (ns : list nat) (ts : list (list row3)) : list (list row3) := map (fun '(n, l) => firstn n l) (combine ns ts).
(** the moon: the largest terms, more of them, all; the sun likewise *)
Definition R1 : list (list row6) := Eval vm_compute in rows_of [8; 1; 0; 0]%nat MALL.
Definition R2 : list (list row6) := Eval vm_compute in rows_of [20; 6; 6; 1]%nat MALL.
Definition R3 : list (list row6) := Eval vm_compute in rows_of [60; 20; 10; 2]%nat MALL.
Definition S1 : list (list row3) := Eval vm_compute in rows3_of [3; 2; 2; 1; 1; 0]%nat ELALL.
Definition S2 : list (list row3) := Eval vm_compute in rows3_of [8; 4; 3; 2; 2; 1]%nat ELALL.
Definition S3 : list (list row3) := Eval vm_compute in rows3_of [20; 10; 8; 4; 4; 2]%nat ELALL.
Definition mexpr (late : bool) (rows : list (list row6)) : expr :=
  if late then okE (mF late_arith (map (map (lit6 late_arith)) rows) EX) else okE (mF early_arith (map (map (lit6 early_arith)) rows) EX).
Definition sexpr (rows : list (list row3)) : expr :=
  let v := esum late_arith (map (map (lit3 late_arith)) rows) EX (EL 0) (EL 1) in
  EAdd (EDiv v (EL XL0_HEAD)) (EDiv (ESub (ESub (ESub (EL (-0.0728)) (EMul (EL 2.7702) EX)) (EMul (EL 1.1019) (EMul EX EX))) (EMul (EL 0.0996) (EMul (EMul EX EX) EX))) (EL SECOND_PER_RAD)).
Section SUMS.
Variables f g : float -> float.
Local Notation FA := (float_arith f g).
Variable t : float.
Local Notation ev := (ef f g t).
Lemma fold6 (ltb : expr -> expr -> res bool) (l : list row6) a a2 a3 a4 : forall c,
  let EA := mkArith expr EL EAdd ESub EMul EDiv ESin ECos (fun _ => Raise ExcType) ltb in
  ev (fold_left (fun c '(f0, f1, f2, f3, f4, f5) => EAdd c (EMul f0 (ECos (EAdd (EAdd (EAdd (EAdd f1 (EMul a f2)) (EMul a2 f3)) (EMul a3 f4)) (EMul a4 f5))))) (map (lit6 EA) l) c) =
  fold_left (fun c '(f0, f1, f2, f3, f4, f5) => (c + f0 * g (f1 + ev a * f2 + ev a2 * f3 + ev a3 * f4 + ev a4 * f5))%float) l (ev c).
Proof. cbv zeta. induction l as [|[[[[[x0 x1] x2] x3] x4] x5] l IH]; intros c; [reflexivity|]. cbn [map fold_left lit6]. rewrite IH. reflexivity. Qed.
Lemma msum_ef (ltb : expr -> expr -> res bool) (ts : list (list row6)) a a2 a3 a4 : forall v n,
  let EA := mkArith expr EL EAdd ESub EMul EDiv ESin ECos (fun _ => Raise ExcType) ltb in
  ev (msum EA (map (map (lit6 EA)) ts) a a2 a3 a4 v n) = msum FA ts (ev a) (ev a2) (ev a3) (ev a4) (ev v) (ev n).
Proof.
  cbv zeta. induction ts as [|l ts IH]; intros v n; [reflexivity|]. cbn [map msum]. rewrite IH. cbn [n_add n_mul n_cos n_lit ef float_arith num] in *. rewrite fold6. reflexivity.
Qed.
Lemma fold3 (l : list row3) a : forall c,
  ev (fold_left (fun c '(f0, f1, f2) => EAdd c (EMul f0 (ECos (EAdd f1 (EMul a f2))))) (map (lit3 late_arith) l) c) =
  fold_left (fun c '(f0, f1, f2) => (c + f0 * g (f1 + ev a * f2))%float) l (ev c).
Proof. induction l as [|[[x0 x1] x2] l IH]; intros c; [reflexivity|]. cbn [map fold_left lit3]. rewrite IH. reflexivity. Qed.
Lemma esum_ef (ts : list (list row3)) a : forall v n, ev (esum late_arith (map (map (lit3 late_arith)) ts) a v n) = esum FA ts (ev a) (ev v) (ev n).
Proof.
  induction ts as [|l ts IH]; intros v n; [reflexivity|]. cbn [map esum]. rewrite IH. cbn [n_add n_mul n_cos n_lit ef float_arith late_arith num] in *. rewrite fold3. reflexivity.
Qed.
Lemma mF_ef late (rows : list (list row6)) : PrimFloat.ltb 0 (t - 10) = late -> mF FA rows t = Ok (ev (mexpr late rows)).
Proof.
  intros L. unfold mF. cbv zeta. cbn [n_ltb n_lit n_sub float_arith]. rewrite L. cbn [bind]. f_equal. unfold mexpr.
  destruct late; unfold mF; cbv zeta; (match goal with |- context [n_ltb ?A ?a ?b] => let r := eval vm_compute in (n_ltb A a b) in change (n_ltb A a b) with r end); cbn [bind okE].
  - match goal with |- _ = ev ?e => match e with n_div late_arith ?m ?s => change (ev e) with (ev m / SECOND_PER_RAD)%float end end. unfold late_arith. rewrite msum_ef. reflexivity.
  - match goal with |- _ = ev ?e => match e with n_div early_arith ?m ?s => change (ev e) with (ev m / SECOND_PER_RAD)%float end end. unfold early_arith. rewrite msum_ef. reflexivity.
Qed.
End SUMS.
Lemma eF_ef f g t (rows : list (list row3)) : eF (float_arith f g) rows t = ef f g (t / 10)%float (sexpr rows).
Proof. unfold eF, sexpr. cbv zeta. cbn [ef]. rewrite esum_ef. reflexivity. Qed.
(** ** The term of frequency 0 *)
Definition null (e : expr) : bool := match e with EAdd (EL a) (EMul EX (EL b)) => lit_eqb a 0 && lit_eqb b 0 | _ => false end.
Fixpoint simp (e : expr) : expr := match e with
  | ECos a => if null a then EL 1 else ECos (simp a)
  | ESin a => ESin (simp a)
  | EAdd a b => EAdd (simp a) (simp b)
  | ESub a b => ESub (simp a) (simp b)
  | EMul a b => EMul (simp a) (simp b)
  | EDiv a b => EDiv (simp a) (simp b)
  | e => e
  end.
Lemma FR_null x : FIN x -> FR x = 0 -> x = 0%float \/ x = (-0)%float.
Proof.
  intros F E. assert (P : Prim2SF x = S754_zero false \/ Prim2SF x = S754_zero true).
  { unfold FIN, FR in *. rewrite <- (B2SF_Prim2B x). destruct (Prim2B x) as [s|s| |s m e H]; try discriminate F; [destruct s; cbn; auto|]. exfalso. cbn in E. apply eq_0_F2R in E. destruct s; discriminate. }
  destruct P as [P|P]; [left|right]; apply Prim2SF_inj; rewrite P; reflexivity.
Qed.
Lemma null_ok e : null e = true -> exists a b, e = EAdd (EL a) (EMul EX (EL b)) /\ FIN a /\ FIN b /\ FR a = 0 /\ FR b = 0.
Proof.
  destruct e as [| |a b| | | | |]; try discriminate. destruct a as [|a| | | | | |]; try discriminate. destruct b as [| | | |b1 b2| | |]; try discriminate. destruct b1; try discriminate. destruct b2 as [|b| | | | | |]; try discriminate.
  cbn [null]. intros H. apply andb_true_iff in H. destruct H as [H1 H2]. exists a, b. split; [reflexivity|]. pose proof (lit_eqb_ok _ _ H1). pose proof (lit_eqb_ok _ _ H2). rewrite FR_zero in *. pose proof (lit_eqb_fin _ _ H1). pose proof (lit_eqb_fin _ _ H2). auto.
Qed.
Lemma simp_er x e : er x (simp e) = er x e.
Proof.
  induction e as [|c|a IHa b IHb|a IHa b IHb|a IHa b IHb|a IHa b IHb|a IHa|a IHa]; cbn [simp er]; try congruence.
  destruct (null a) eqn:N; [|cbn [er]; congruence]. destruct (null_ok _ N) as (u & v & -> & _ & _ & E1 & E2). cbn [er]. rewrite E1, E2, Rmult_0_r, Rplus_0_r, cos_0. fexact 1%float l1. rewrite l1. lra.
Qed.
Lemma simp_ef t e : FIN t -> Rabs (FR t) <= 100 -> ef qsin qcos t (simp e) = ef qsin qcos t e.
Proof.
  intros F B. apply Rabs_le_inv in B. induction e as [|c|a IHa b IHb|a IHa b IHb|a IHa b IHb|a IHa b IHb|a IHa|a IHa]; cbn [simp ef]; try congruence.
  destruct (null a) eqn:N; [|cbn [ef]; congruence]. destruct (null_ok _ N) as (u & v & -> & Fu & Fv & E1 & E2). cbn [ef].
  destruct (fmul_b t v 1 F Fv ltac:(rewrite E2; lra) ltac:(lra)) as (F1 & N1 & _). rewrite E2, Rmult_0_r, RN_0 in N1.
  destruct (fadd_b u (t * v) 1 Fu F1 ltac:(lra) ltac:(lra)) as (F2 & N2 & _). rewrite E1, N1, Rplus_0_r, RN_0 in N2.
  destruct (FR_null _ F2 N2) as [-> | ->]; vm_compute; reflexivity.
Qed.
(** ** The code *)
Section CODE.
Variables f g : float -> float.
Local Notation FA := (float_arith f g).
Lemma FA_rel : arel FA FA eq. Proof. constructor; intros; subst; congruence. Qed.
Lemma code_msa t x : msaF FA t MALL ELALL = Ok x -> msaLon FA t (-1) (-1) = Ok x.
Proof.
  intros E. pose proof (all_tabs_ok _ _ _ FA_rel) as T. pose proof (t_mall _ _ _ _ T) as T6. pose proof (t_eall _ _ _ _ T) as T3.
  assert (EM : mall FA (all_tabs FA) = MALL) by (vm_cast_no_check (eq_refl MALL)). assert (EL : eall FA (all_tabs FA) = ELALL) by (vm_cast_no_check (eq_refl ELALL)). rewrite EM in T6. rewrite EL in T3.
  destruct (l_msaF _ _ _ FA_rel (-1) (-1) MALL ELALL t t T6 T3 eq_refl x E) as (r & -> & <-). reflexivity.
Qed.
Lemma msaF_ef late rows srows t : PrimFloat.ltb 0 (t - 10) = late ->
  msaF FA t rows srows = Ok (ef f g t (mexpr late rows) + -3.4e-6 - (ef f g (t / 10)%float (sexpr srows) + ef f g t E_gxc + ShouXing.PI))%float.
Proof. intros L. unfold msaF. rewrite (mF_ef f g t late rows L). cbn [bind]. rewrite eF_ef. reflexivity. Qed.
End CODE.
Lemma late_float t : FIN t -> 10 < FR t <= 100 -> PrimFloat.ltb 0 (t - 10) = true.
Proof.
  intros F B. fexact 10%float l10. flit 10%float F10 V10. flit 0%float F0 V0. destruct (fsub_b t 10%float 100 F F10 ltac:(lra) ltac:(lra)) as (F1 & E1 & N1). nea. apply fltb_spec; [assumption..|]. rewrite FR_zero. destruct (Rlt_le_dec (FR t) 11) as [C|C]; [|lra].
  assert (X : FR 10 = IZR 10) by lra. rewrite E1, X, (frac_exact t 10 F ltac:(lia)) by lra. lra.
Qed.
Lemma early_float t : FIN t -> -100 <= FR t <= 10 -> PrimFloat.ltb 0 (t - 10) = false.
Proof.
  intros F B. fexact 10%float l10. flit 10%float F10 V10. flit 0%float F0 V0. destruct (fsub_b t 10%float 200 F F10 ltac:(lra) ltac:(lra)) as (F1 & E1 & _). destruct (PrimFloat.ltb 0 (t - 10)) eqn:E; [|reflexivity].
  apply fltb_spec in E; [|assumption..]. rewrite FR_zero, E1 in E. pose proof (RN_mono (FR t - FR 10) 0 ltac:(lra)) as M. rewrite RN_0 in M. lra.
Qed.
(** ** Bounds *)
Definition xl (late : bool) : Z := if late then (79 * Q8)%Z else (-32 * Q8)%Z.
Definition xh (late : bool) : Z := if late then (488 * Q8)%Z else (81 * Q8)%Z.
Definition zone (late : bool) (t : R) : Prop := if late then 10 <= t <= 60.95 else -3.95 <= t <= 10.
Lemma zone_sc late t : zone late t -> sc (xl late) <= t <= sc (xh late).
Proof. destruct late; unfold zone, xl, xh; rewrite !q8_sc; lra. Qed.
Lemma zone_10 late t : zone late t -> sc (-4 * Q8) <= t / 10 <= sc (49 * Q8).
Proof. destruct late; unfold zone; rewrite !q8_sc; lra. Qed.
Definition qer (xl xh : Z) (e : expr) (d : Z) : bool := match qan xl xh e with Some u => (ee u * 10 ^ 14 <=? d * P2)%Z | None => false end.
Lemma qer_ok f g xl xh e d t : libq f g -> qer xl xh e d = true -> FIN t -> sc xl <= FR t <= sc xh -> FIN (ef f g t e) /\ Rabs (FR (ef f g t e) - er (FR t) e) <= IZR d / 100000000000000.
Proof.
  intros lib. unfold qer. destruct (qan xl xh e) as [u|] eqn:E; [|discriminate]. intros C F D. apply Z.leb_le in C. pose proof (qan_ok f g lib xl xh e u E) as S. destruct (so_err _ _ _ _ _ _ S t F D) as [F1 E1]. split; [exact F1|].
  assert (P : 0 < IZR P2) by (change (IZR P2) with 1152921504606846976; lra).
  assert (C' : sc (ee u) <= IZR d / 100000000000000).
  { apply IZR_le in C. rewrite !mult_IZR in C. change (IZR (10 ^ 14)) with 100000000000000 in C. unfold sc. apply Rmult_le_reg_r with (IZR P2); [exact P|]. unfold Rdiv. rewrite Rmult_assoc, Rinv_l by lra. lra. }
  lra.
Qed.
(** the terms that a shortened series leaves out *)
Definition rest_of (ns : list nat) (ts : list (list row6)) : list (list row6) := map (fun '(n, l) => skipn n l) (combine ns ts).
Section REST.
Variable x : R.
Local Notation ev := (er x).
Fixpoint rsum (l : list row6) (a a2 a3 a4 : R) : R := match l with [] => 0 | (f0, f1, f2, f3, f4, f5) :: l => FR f0 * cos (FR f1 + a * FR f2 + a2 * FR f3 + a3 * FR f4 + a4 * FR f5) + rsum l a a2 a3 a4 end.
Lemma rsum_app l l' a a2 a3 a4 : rsum (l ++ l') a a2 a3 a4 = rsum l a a2 a3 a4 + rsum l' a a2 a3 a4.
Proof. induction l as [|[[[[[x0 x1] x2] x3] x4] x5] l IH]; cbn [app rsum]; [ring|]. rewrite IH. ring. Qed.
Fixpoint rmsum (ts : list (list row6)) (t t2 t3 t4 tn : R) : R := match ts with [] => 0 | l :: ts => rsum l t t2 t3 t4 * tn + rmsum ts t t2 t3 t4 (tn * t) end.
Lemma er_fold6 (ltb : expr -> expr -> res bool) (l : list row6) a a2 a3 a4 : forall c,
  let EA := mkArith expr EL EAdd ESub EMul EDiv ESin ECos (fun _ => Raise ExcType) ltb in
  ev (fold_left (fun c '(f0, f1, f2, f3, f4, f5) => EAdd c (EMul f0 (ECos (EAdd (EAdd (EAdd (EAdd f1 (EMul a f2)) (EMul a2 f3)) (EMul a3 f4)) (EMul a4 f5))))) (map (lit6 EA) l) c) =
  ev c + rsum l (ev a) (ev a2) (ev a3) (ev a4).
Proof.
  cbv zeta. induction l as [|[[[[[x0 x1] x2] x3] x4] x5] l IH]; intros c; cbn [map fold_left lit6 rsum]; [ring|]. rewrite IH. cbn [n_lit er]. ring.
Qed.
Lemma er_msum (ltb : expr -> expr -> res bool) (ts : list (list row6)) a a2 a3 a4 : forall v n,
  let EA := mkArith expr EL EAdd ESub EMul EDiv ESin ECos (fun _ => Raise ExcType) ltb in
  ev (msum EA (map (map (lit6 EA)) ts) a a2 a3 a4 v n) = ev v + rmsum ts (ev a) (ev a2) (ev a3) (ev a4) (ev n).
Proof.
  cbv zeta. induction ts as [|l ts IH]; intros v n; cbn [map msum rmsum]; [ring|]. rewrite IH. cbn [n_add n_mul n_cos n_lit num er] in *. rewrite er_fold6. cbn [er]. rewrite FR_zero. ring.
Qed.
Lemma rmsum_split ns : forall (ts : list (list row6)) a a2 a3 a4 n, List.length ns = List.length ts -> rmsum ts a a2 a3 a4 n = rmsum (rows_of ns ts) a a2 a3 a4 n + rmsum (rest_of ns ts) a a2 a3 a4 n.
Proof.
  induction ns as [|k ns IH]; intros [|l ts] a a2 a3 a4 n E; try discriminate E; cbn [rmsum rows_of rest_of combine map]; [ring|]. injection E as E.
  fold (rows_of ns ts). fold (rest_of ns ts). rewrite (IH ts a a2 a3 a4 (n * a) E). rewrite <- (firstn_skipn k l) at 1. rewrite rsum_app. ring.
Qed.
(** the longitude of the moon with the rows given: a polynomial and their sum *)
Definition mhead (late : bool) : R := er x (mexpr late []).
Lemma mexpr_er late (rows : list (list row6)) : er x (mexpr late rows) = mhead late + rmsum rows x (x * x / FR 1e4) (x * x * x / FR 1e8) (x * x * x * x / FR 1e8) (FR 1) / FR SECOND_PER_RAD.
Proof.
  unfold mhead, mexpr. destruct late; unfold mF; cbv zeta; (match goal with |- context [n_ltb ?A ?a ?b] => let r := eval vm_compute in (n_ltb A a b) in change (n_ltb A a b) with r end); cbn [bind okE].
  - match goal with |- ev ?e = ev ?d + _ => match e with n_div late_arith ?m ?s => change (ev e) with (ev m / FR SECOND_PER_RAD) end; match d with n_div late_arith ?m ?s => change (ev d) with (ev m / FR SECOND_PER_RAD) end end.
    unfold late_arith. rewrite !er_msum. cbn [rmsum]. rewrite Rplus_0_r. cbn [n_mul n_div n_lit er]. unfold Rdiv. ring.
  - match goal with |- ev ?e = ev ?d + _ => match e with n_div early_arith ?m ?s => change (ev e) with (ev m / FR SECOND_PER_RAD) end; match d with n_div early_arith ?m ?s => change (ev d) with (ev m / FR SECOND_PER_RAD) end end.
    unfold early_arith. rewrite !er_msum. cbn [rmsum]. rewrite Rplus_0_r. cbn [n_mul n_div n_lit er]. unfold Rdiv. ring.
Qed.
End REST.
(** *** Amplitudes and speeds *)
Definition lit_abs (c : float) : option Z := match lit_av c with Some p => Some (amax (fst p) (snd p)) | None => None end.
Lemma lit_abs_ok c z : lit_abs c = Some z -> FIN c /\ Rabs (FR c) <= sc z.
Proof. unfold lit_abs. destruct (lit_av c) as [p|] eqn:E; [|discriminate]. intros H. injection H as <-. destruct (lit_av_ok _ _ E) as [F V]. split; [exact F|]. apply amax_ok. exact V. Qed.
(** amplitude and speed of a row; the bounds under which its rounding errors are small *)
Definition row_m (r : row6) : option (Z * Z) := let '(f0, f1, f2, f3, f4, f5) := r in
  match lit_abs f0, lit_abs f1, lit_abs f2, lit_abs f3, lit_abs f4, lit_abs f5 with
  | Some z0, Some z1, Some z2, Some z3, Some z4, Some z5 =>
      if (z0 <=? 22640 * P2) && (z1 <=? 7 * P2) && (z2 <=? 57400 * P2) && (z3 <=? 9 * P2) && (z4 <=? 126 * P2) && (z5 <=? P2)
      then Some (z0, z0 * (z2 + (z3 / 80 + 1) + (z4 / 8000 + 1) + (z5 / 100 + 1)) / P2 + 1) else None
  | _, _, _, _, _, _ => None
  end%Z.
Fixpoint rows_m (l : list row6) (a s : Z) : option (Z * Z) := match l with [] => Some (a, s) | r :: l => match row_m r with Some (a', s') => rows_m l (a + a') (s + s') | None => None end end%Z.
Fixpoint amp (l : list row6) : R := match l with [] => 0 | (f0, _, _, _, _, _) :: l => Rabs (FR f0) + amp l end.
Fixpoint spd (l : list row6) : R := match l with [] => 0 | (f0, _, f2, f3, f4, f5) :: l => Rabs (FR f0) * (Rabs (FR f2) + Rabs (FR f3) / 80 + Rabs (FR f4) / 8000 + Rabs (FR f5) / 100) + spd l end.
Definition row_b (r : row6) : Prop := let '(f0, f1, f2, f3, f4, f5) := r in (FIN f0 /\ Rabs (FR f0) <= 22640) /\ (FIN f1 /\ Rabs (FR f1) <= 7) /\ (FIN f2 /\ Rabs (FR f2) <= 57400) /\
  (FIN f3 /\ Rabs (FR f3) <= 9) /\ (FIN f4 /\ Rabs (FR f4) <= 126) /\ (FIN f5 /\ Rabs (FR f5) <= 1).
Lemma sc_div a k : (0 < k)%Z -> sc a / IZR k <= sc (a / k + 1).
Proof.
  intros K. unfold sc. assert (P : 0 < IZR P2) by (change (IZR P2) with 1152921504606846976; lra). assert (K' : 0 < IZR k) by (apply IZR_lt; lia).
  assert (H : IZR a <= IZR (a / k + 1) * IZR k). { rewrite <- mult_IZR. apply IZR_le. pose proof (Z.div_mod a k ltac:(lia)). pose proof (Z.mod_pos_bound a k K). nia. }
  apply Rmult_le_reg_r with (IZR P2 * IZR k); [nra|]. replace (IZR a / IZR P2 / IZR k * (IZR P2 * IZR k)) with (IZR a) by (field; lra). replace (IZR (a / k + 1) / IZR P2 * (IZR P2 * IZR k)) with (IZR (a / k + 1) * IZR k) by (field; lra). exact H.
Qed.
Lemma sc_mul a b : sc a * sc b <= sc (a * b / P2 + 1).
Proof.
  eapply Rle_trans; [|apply sc_div; unfold P2; lia]. unfold sc. rewrite mult_IZR. assert (P : 0 < IZR P2) by (change (IZR P2) with 1152921504606846976; lra). apply Req_le. field. lra.
Qed.
Lemma sc_nn z x : Rabs x <= sc z -> 0 <= sc z. Proof. intros H. pose proof (Rabs_pos x). lra. Qed.
Lemma row_m_ok r a s : row_m r = Some (a, s) -> row_b r /\ amp [r] <= sc a /\ spd [r] <= sc s.
Proof.
  destruct r as [[[[[f0 f1] f2] f3] f4] f5]. unfold row_m. destruct (lit_abs f0) as [z0|] eqn:E0; [|discriminate]. destruct (lit_abs f1) as [z1|] eqn:E1; [|discriminate]. destruct (lit_abs f2) as [z2|] eqn:E2; [|discriminate].
  destruct (lit_abs f3) as [z3|] eqn:E3; [|discriminate]. destruct (lit_abs f4) as [z4|] eqn:E4; [|discriminate]. destruct (lit_abs f5) as [z5|] eqn:E5; [|discriminate]. destruct (_ && _) eqn:C; [|discriminate]. intros H. injection H as <- <-.
  rewrite !andb_true_iff, !Z.leb_le in C. destruct C as (((((C0 & C1) & C2) & C3) & C4) & C5). apply sc_le in C0, C1, C2, C3, C4, C5. rewrite !sc_int in C0, C1, C2, C3, C4. rewrite sc_one in C5.
  apply lit_abs_ok in E0, E1, E2, E3, E4, E5. destruct E0 as [F0 V0], E1 as [F1 V1], E2 as [F2 V2], E3 as [F3 V3], E4 as [F4 V4], E5 as [F5 V5]. cbn [amp spd row_b]. rewrite !Rplus_0_r.
  split; [repeat split; try assumption; lra|]. split; [exact V0|]. eapply Rle_trans; [|apply sc_mul].
  apply Rmult_le_compat; [apply Rabs_pos| |exact V0|].
  - pose proof (Rabs_pos (FR f2)). pose proof (Rabs_pos (FR f3)). pose proof (Rabs_pos (FR f4)). pose proof (Rabs_pos (FR f5)). lra.
  - rewrite !sc_add. pose proof (sc_div z3 80 ltac:(lia)). pose proof (sc_div z4 8000 ltac:(lia)). pose proof (sc_div z5 100 ltac:(lia)). rewrite !sc_add in *. lra.
Qed.
Lemma amp_cons r l : amp (r :: l) = amp [r] + amp l. Proof. destruct r as [[[[[f0 f1] f2] f3] f4] f5]. cbn [amp]. ring. Qed.
Lemma spd_cons r l : spd (r :: l) = spd [r] + spd l. Proof. destruct r as [[[[[f0 f1] f2] f3] f4] f5]. cbn [spd]. ring. Qed.
Lemma rows_m_ok l : forall a s A S, rows_m l a s = Some (A, S) -> Forall row_b l /\ sc a + amp l <= sc A /\ sc s + spd l <= sc S.
Proof.
  induction l as [|r l IH]; intros a s A S H; cbn [rows_m] in H; [injection H as -> ->; cbn [amp spd]; split; [constructor|lra]|].
  destruct (row_m r) as [[a' s']|] eqn:E; [|discriminate]. destruct (row_m_ok _ _ _ E) as (B & B1 & B2). destruct (IH _ _ _ _ H) as (C & C1 & C2). rewrite !sc_add in *. rewrite amp_cons, spd_cons. split; [constructor; assumption|lra].
Qed.
Definition sec (l : list row6) (n : nat) (a s : Z) : bool := match rows_m l 0 0 with Some (a', s') => (List.length l <=? n)%nat && (a' * DD <=? a * P2)%Z && (s' * DD <=? s * P2)%Z | None => false end.
Definition sec_b (l : list row6) (n : nat) (a s : Z) : Prop := Forall row_b l /\ (List.length l <= n)%nat /\ amp l <= dd a /\ spd l <= dd s.
Lemma sec_ok l n a s : sec l n a s = true -> sec_b l n a s.
Proof.
  unfold sec. destruct (rows_m l 0 0) as [[a' s']|] eqn:E; [|discriminate]. intros H. rewrite !andb_true_iff, !Z.leb_le, Nat.leb_le in H. destruct H as ((H1 & H2) & H3). destruct (rows_m_ok _ _ _ _ _ E) as (B & B1 & B2). rewrite sc_0 in *.
  pose proof (dd_ge _ _ H2). pose proof (dd_ge _ _ H3). split; [exact B|]. split; [exact H1|]. lra.
Qed.
Definition mall_ok (rows : list (list row6)) : bool := match rows with
  | [l0; l1; l2; l3] => sec l0 442 331800000000000 2987600000000000000 && sec l1 149 42000000000 231000000000000 && sec l2 34 142000000 660000000000 && sec l3 2 140000 300000
  | _ => false end.
Lemma m_all : mall_ok MALL = true. Proof. vm_cast_no_check (eq_refl true). Qed.
Lemma m_r1 : mall_ok R1 = true. Proof. vm_cast_no_check (eq_refl true). Qed.
Lemma m_r2 : mall_ok R2 = true. Proof. vm_cast_no_check (eq_refl true). Qed.
Lemma m_r3 : mall_ok R3 = true. Proof. vm_cast_no_check (eq_refl true). Qed.
(** *** The sums of a section, over the reals *)
Definition at_t (l : list row6) (t : R) : R := rsum l t (t * t / 10000) (t * t * t / 100000000) (t * t * t * t / 100000000).
Lemma rsum_amp l a a2 a3 a4 : Rabs (rsum l a a2 a3 a4) <= amp l.
Proof.
  induction l as [|[[[[[f0 f1] f2] f3] f4] f5] l IH]; cbn [rsum amp]; [rewrite Rabs_R0; lra|]. eapply Rle_trans; [apply Rabs_triang|]. apply Rplus_le_compat; [|exact IH].
  rewrite Rabs_mult. rewrite <- (Rmult_1_r (Rabs (FR f0))) at 2. apply Rmult_le_compat_l; [apply Rabs_pos|]. apply Rabs_le. pose proof (COS_bound (FR f1 + a * FR f2 + a2 * FR f3 + a3 * FR f4 + a4 * FR f5)). lra.
Qed.
Definition wide (t : R) : Prop := -4 <= t <= 61.
Lemma pow_lip t u : wide t -> wide u -> t <= u -> Rabs (u * u - t * t) <= 122 * (u - t) /\ Rabs (u * u * u - t * t * t) <= 11163 * (u - t) /\ Rabs (u * u * u * u - t * t * t * t) <= 907924 * (u - t).
Proof.
  unfold wide. intros Ht Hu L. assert (S : -8 <= u + t <= 122) by lra. assert (Q : 0 <= u * u + t * t <= 7442) by (split; nra). assert (C : 0 <= u * u + u * t + t * t <= 11163) by (split; nra).
  assert (D : Rabs ((u + t) * (u * u + t * t)) <= 122 * 7442) by (apply Rmul_abs; apply Rabs_le; lra). apply Rabs_le_inv in D.
  replace (u * u - t * t) with ((u + t) * (u - t)) by ring. replace (u * u * u - t * t * t) with ((u * u + u * t + t * t) * (u - t)) by ring.
  replace (u * u * u * u - t * t * t * t) with (((u + t) * (u * u + t * t)) * (u - t)) by ring.
  assert (P : Rabs (u - t) <= u - t) by (apply Rabs_le; lra). repeat split; apply Rmul_abs; try exact P; apply Rabs_le; lra.
Qed.
Lemma at_lip l t u : wide t -> wide u -> t <= u -> Rabs (at_t l u - at_t l t) <= spd l * (u - t).
Proof.
  intros Ht Hu L. destruct (pow_lip t u Ht Hu L) as (P2 & P3 & P4). unfold at_t. induction l as [|[[[[[f0 f1] f2] f3] f4] f5] l IH]; cbn [rsum spd]; [rewrite Rminus_diag_eq, Rabs_R0 by reflexivity; lra|].
  match goal with |- Rabs (_ * cos ?a + ?r - (_ * cos ?b + ?s)) <= _ => set (au := a) in *; set (ab := b) in *; set (ru := r) in *; set (rt := s) in * end.
  replace (FR f0 * cos au + ru - (FR f0 * cos ab + rt)) with (FR f0 * (cos au - cos ab) + (ru - rt)) by ring. eapply Rle_trans; [apply Rabs_triang|]. rewrite Rmult_plus_distr_r. apply Rplus_le_compat; [|exact IH].
  rewrite Rabs_mult, Rmult_assoc. apply Rmult_le_compat_l; [apply Rabs_pos|]. eapply Rle_trans; [apply cos_lip|].
  replace (au - ab) with (FR f2 * (u - t) + FR f3 * ((u * u - t * t) / 10000) + FR f4 * ((u * u * u - t * t * t) / 100000000) + FR f5 * ((u * u * u * u - t * t * t * t) / 100000000)) by (unfold au, ab; field).
  assert (X2 : Rabs (FR f2 * (u - t)) <= Rabs (FR f2) * (u - t)) by (apply Rmul_abs; [lra|apply Rabs_le; lra]).
  assert (X3 : Rabs (FR f3 * ((u * u - t * t) / 10000)) <= Rabs (FR f3) * ((u - t) / 80)) by (apply Rmul_abs; [lra|apply Rabs_le_inv in P2; apply Rabs_le; lra]).
  assert (X4 : Rabs (FR f4 * ((u * u * u - t * t * t) / 100000000)) <= Rabs (FR f4) * ((u - t) / 8000)) by (apply Rmul_abs; [lra|apply Rabs_le_inv in P3; apply Rabs_le; lra]).
  assert (X5 : Rabs (FR f5 * ((u * u * u * u - t * t * t * t) / 100000000)) <= Rabs (FR f5) * ((u - t) / 100)) by (apply Rmul_abs; [lra|apply Rabs_le_inv in P4; apply Rabs_le; lra]).
  eapply Rle_trans; [apply Rabs_triang|]. eapply Rle_trans; [apply Rplus_le_compat_r, Rabs_triang|]. eapply Rle_trans; [apply Rplus_le_compat_r, Rplus_le_compat_r, Rabs_triang|]. lra.
Qed.
Definition tot (rows : list (list row6)) (t : R) : R := match rows with [l0; l1; l2; l3] => at_t l0 t + at_t l1 t * t + at_t l2 t * (t * t) + at_t l3 t * (t * t * t) | _ => 0 end.
Lemma e4 : FR 1e4 = 10000. Proof. fval 1e4%float 10000 E. exact E. Qed.
Lemma e8 : FR 1e8 = 100000000. Proof. fval 1e8%float 100000000 E. exact E. Qed.
Lemma e1 : FR 1 = 1. Proof. fval 1%float 1 E. exact E. Qed.
Lemma tot_eq l0 l1 l2 l3 x : rmsum [l0; l1; l2; l3] x (x * x / FR 1e4) (x * x * x / FR 1e8) (x * x * x * x / FR 1e8) (FR 1) = tot [l0; l1; l2; l3] x.
Proof. rewrite e4, e8, e1. cbn [rmsum tot]. unfold at_t. ring. Qed.
Lemma tot_amp l0 l1 l2 l3 a0 a1 a2 a3 t : amp l0 <= a0 -> amp l1 <= a1 -> amp l2 <= a2 -> amp l3 <= a3 -> wide t -> Rabs (tot [l0; l1; l2; l3] t) <= a0 + a1 * 61 + a2 * 3721 + a3 * 226981.
Proof.
  unfold wide. intros A0 A1 A2 A3 W. cbn [tot]. unfold at_t.
  pose proof (fun l => rsum_amp l t (t * t / 10000) (t * t * t / 100000000) (t * t * t * t / 100000000)) as B. set (r := fun l => rsum l t (t * t / 10000) (t * t * t / 100000000) (t * t * t * t / 100000000)) in *.
  pose proof (B l0) as B0. pose proof (B l1) as B1. pose proof (B l2) as B2. pose proof (B l3) as B3. fold (r l0) (r l1) (r l2) (r l3) in *.
  assert (T2 : 0 <= t * t <= 3721) by (split; nra). assert (T3 : Rabs (t * t * t) <= 3721 * 61) by (apply Rmul_abs; apply Rabs_le; lra).
  assert (X1 : Rabs (r l1 * t) <= a1 * 61) by (apply Rmul_abs; [lra|apply Rabs_le; lra]). assert (X2 : Rabs (r l2 * (t * t)) <= a2 * 3721) by (apply Rmul_abs; [lra|apply Rabs_le; lra]).
  assert (X3 : Rabs (r l3 * (t * t * t)) <= a3 * 226981) by (apply Rmul_abs; lra). apply Rabs_le_inv in B0, X1, X2, X3. apply Rabs_le. lra.
Qed.
Lemma tot_lip l0 l1 l2 l3 a1 a2 a3 s0 s1 s2 s3 t u : amp l1 <= a1 -> amp l2 <= a2 -> amp l3 <= a3 -> spd l0 <= s0 -> spd l1 <= s1 -> spd l2 <= s2 -> spd l3 <= s3 -> wide t -> wide u -> t <= u ->
  Rabs (tot [l0; l1; l2; l3] u - tot [l0; l1; l2; l3] t) <= (s0 + (s1 * 61 + a1) + (s2 * 3721 + a2 * 122) + (s3 * 226981 + a3 * 11163)) * (u - t).
Proof.
  intros A1 A2 A3 S0 S1 S2 S3 Ht Hu L. destruct (pow_lip t u Ht Hu L) as (P2 & P3 & _). cbn [tot].
  pose proof (at_lip l0 t u Ht Hu L) as B0. pose proof (at_lip l1 t u Ht Hu L) as B1. pose proof (at_lip l2 t u Ht Hu L) as B2. pose proof (at_lip l3 t u Ht Hu L) as B3.
  assert (C1 : Rabs (at_t l1 t) <= a1) by (pose proof (rsum_amp l1 t (t * t / 10000) (t * t * t / 100000000) (t * t * t * t / 100000000)); unfold at_t; lra).
  assert (C2 : Rabs (at_t l2 t) <= a2) by (pose proof (rsum_amp l2 t (t * t / 10000) (t * t * t / 100000000) (t * t * t * t / 100000000)); unfold at_t; lra).
  assert (C3 : Rabs (at_t l3 t) <= a3) by (pose proof (rsum_amp l3 t (t * t / 10000) (t * t * t / 100000000) (t * t * t * t / 100000000)); unfold at_t; lra).
  assert (D : 0 <= u - t) by lra. unfold wide in *. assert (U2 : 0 <= u * u <= 3721) by (split; nra). assert (U3 : Rabs (u * u * u) <= 3721 * 61) by (apply Rmul_abs; apply Rabs_le; lra).
  assert (M : forall s k, s <= k -> s * (u - t) <= k * (u - t)) by (intros; apply Rmult_le_compat_r; lra).
  pose proof (M _ _ S0). pose proof (M _ _ S1). pose proof (M _ _ S2). pose proof (M _ _ S3).
  set (d := u - t) in *. assert (Xt : Rabs d <= d) by (apply Rabs_le; lra).
  assert (X1 : Rabs ((at_t l1 u - at_t l1 t) * u) <= (s1 * d) * 61) by (apply Rmul_abs; [lra|apply Rabs_le; lra]).
  assert (Y1 : Rabs (at_t l1 t * d) <= a1 * d) by (apply Rmul_abs; lra).
  assert (X2 : Rabs ((at_t l2 u - at_t l2 t) * (u * u)) <= (s2 * d) * 3721) by (apply Rmul_abs; [lra|apply Rabs_le; lra]).
  assert (Y2 : Rabs (at_t l2 t * (u * u - t * t)) <= a2 * (122 * d)) by (apply Rmul_abs; lra).
  assert (X3 : Rabs ((at_t l3 u - at_t l3 t) * (u * u * u)) <= (s3 * d) * 226981) by (apply Rmul_abs; lra).
  assert (Y3 : Rabs (at_t l3 t * (u * u * u - t * t * t)) <= a3 * (11163 * d)) by (apply Rmul_abs; lra).
  match goal with |- Rabs ?x <= _ => replace x with ((at_t l0 u - at_t l0 t) + ((at_t l1 u - at_t l1 t) * u + at_t l1 t * d) + ((at_t l2 u - at_t l2 t) * (u * u) + at_t l2 t * (u * u - t * t)) + ((at_t l3 u - at_t l3 t) * (u * u * u) + at_t l3 t * (u * u * u - t * t * t))) by (unfold d; ring) end.
  apply Rabs_le_inv in B0, X1, Y1, X2, Y2, X3, Y3. apply Rabs_le. lra.
Qed.
(** *** The sums of a section in floats *)
Section ERR.
Variables f g : float -> float.
Hypothesis lib : libq f g.
Section ROW.
Variables t t2 t3 t4 : float.
Hypothesis Ft : FIN t.
Hypothesis W : wide (FR t).
Hypothesis F2 : FIN t2.
Hypothesis F3 : FIN t3.
Hypothesis F4 : FIN t4.
Hypothesis N2 : Rabs (FR t2 - FR t * FR t / 10000) <= / 1000000000000.
Hypothesis N3 : Rabs (FR t3 - FR t * FR t * FR t / 100000000) <= / 1000000000000.
Hypothesis N4 : Rabs (FR t4 - FR t * FR t * FR t * FR t / 100000000) <= / 1000000000000.
Lemma row_err f0 f1 f2 f3 f4 f5 : row_b (f0, f1, f2, f3, f4, f5) ->
  let p := (f0 * g (f1 + t * f2 + t2 * f3 + t3 * f4 + t4 * f5))%float in
  FIN p /\ Rabs (FR p - rsum [(f0, f1, f2, f3, f4, f5)] (FR t) (FR t * FR t / 10000) (FR t * FR t * FR t / 100000000) (FR t * FR t * FR t * FR t / 100000000)) <= Rabs (FR f0) * / 100000000 + / 100000000000.
Proof.
  cbn [row_b rsum]. intros ([G0 A0] & [G1 A1] & [G2 A2] & [G3 A3] & [G4 A4] & [G5 A5]). cbv zeta. unfold wide in W.
  set (x := FR t) in *. set (x2 := x * x / 10000) in *. set (x3 := x * x * x / 100000000) in *. set (x4 := x * x * x * x / 100000000) in *.
  assert (Q2 : 0 <= x * x <= 3721) by (split; nra). assert (Q3 : Rabs (x * x * x) <= 3721 * 61) by (apply Rmul_abs; apply Rabs_le; lra). assert (Q4 : Rabs (x * x * x * x) <= (3721 * 61) * 61) by (apply Rmul_abs; [exact Q3|apply Rabs_le; lra]).
  assert (X2 : Rabs x2 <= 0.38) by (unfold x2; apply Rabs_le; lra). assert (X3 : Rabs x3 <= 0.003) by (apply Rabs_le_inv in Q3; unfold x3; apply Rabs_le; lra). assert (X4 : Rabs x4 <= 0.14) by (apply Rabs_le_inv in Q4; unfold x4; apply Rabs_le; lra).
  clearbody x2 x3 x4. assert (V2 : Rabs (FR t2) <= 0.39) by (apply Rabs_le_inv in N2, X2; apply Rabs_le; lra). assert (V3 : Rabs (FR t3) <= 0.004) by (apply Rabs_le_inv in N3, X3; apply Rabs_le; lra). assert (V4 : Rabs (FR t4) <= 0.15) by (apply Rabs_le_inv in N4, X4; apply Rabs_le; lra).
  assert (M1 : Rabs (x * FR f2) <= 61 * 57400) by (apply Rmul_abs; [apply Rabs_le; lra|exact A2]). assert (M2 : Rabs (FR t2 * FR f3) <= 0.39 * 9) by (apply Rmul_abs; assumption).
  assert (M3 : Rabs (FR t3 * FR f4) <= 0.004 * 126) by (apply Rmul_abs; assumption). assert (M4 : Rabs (FR t4 * FR f5) <= 0.15 * 1) by (apply Rmul_abs; assumption).
  assert (D2 : Rabs ((FR t2 - x2) * FR f3) <= / 1000000000000 * 9) by (apply Rmul_abs; assumption). assert (D3 : Rabs ((FR t3 - x3) * FR f4) <= / 1000000000000 * 126) by (apply Rmul_abs; assumption). assert (D4 : Rabs ((FR t4 - x4) * FR f5) <= / 1000000000000 * 1) by (apply Rmul_abs; assumption).
  apply Rabs_le_inv in M1, M2, M3, M4, D2, D3, D4, A1.
  destruct (fmul_b t f2 3600000 Ft G2 ltac:(fold x; lra) ltac:(lra)) as (H1 & _ & R1). destruct (fmul_b t2 f3 10 F2 G3 ltac:(lra) ltac:(lra)) as (H2 & _ & R2). destruct (fmul_b t3 f4 10 F3 G4 ltac:(lra) ltac:(lra)) as (H3 & _ & R3). destruct (fmul_b t4 f5 10 F4 G5 ltac:(lra) ltac:(lra)) as (H4 & _ & R4).
  nea. fold x in R1. set (p1 := (t * f2)%float) in *. set (p2 := (t2 * f3)%float) in *. set (p3 := (t3 * f4)%float) in *. set (p4 := (t4 * f5)%float) in *.
  destruct (fadd_b f1 p1 3600000 G1 H1 ltac:(lra) ltac:(lra)) as (H5 & _ & R5). nea. set (q1 := (f1 + p1)%float) in *. destruct (fadd_b q1 p2 3600000 H5 H2 ltac:(lra) ltac:(lra)) as (H6 & _ & R6). nea. set (q2 := (q1 + p2)%float) in *.
  destruct (fadd_b q2 p3 3600000 H6 H3 ltac:(lra) ltac:(lra)) as (H7 & _ & R7). nea. set (q3 := (q2 + p3)%float) in *. destruct (fadd_b q3 p4 3600000 H7 H4 ltac:(lra) ltac:(lra)) as (H8 & _ & R8). nea. set (q := (q3 + p4)%float) in *.
  set (th := FR f1 + x * FR f2 + x2 * FR f3 + x3 * FR f4 + x4 * FR f5). assert (K : Rabs (FR q - th) <= 45 / 10000000000) by (unfold th; apply Rabs_le; lra).
  assert (B : Rabs (FR q) <= sc tm) by (rewrite tm_val; apply Rabs_le; lra). destruct (lib q H8 B) as [_ [Fc Ec]]. pose proof te_val. pose proof (cos_lip (FR q) th) as L. clearbody q th.
  assert (E : Rabs (FR (g q) - cos th) <= 95 / 10000000000) by (apply Rabs_le_inv in Ec, L, K; assert (- (45 / 10000000000) <= cos (FR q) - cos th <= 45 / 10000000000) by (assert (Rabs (FR q - th) <= 45 / 10000000000) by (apply Rabs_le; lra); lra); apply Rabs_le; lra).
  pose proof (COS_bound th) as CB. assert (Gb : Rabs (FR (g q)) <= 1.1) by (apply Rabs_le_inv in E; apply Rabs_le; lra).
  assert (P : Rabs (FR f0 * FR (g q)) <= 22640 * 1.1) by (apply Rmul_abs; assumption). apply Rabs_le_inv in P. destruct (fmul_b f0 (g q) 30000 G0 Fc ltac:(lra) ltac:(lra)) as (H9 & _ & R9). nea. split; [exact H9|].
  assert (Z : Rabs (FR f0 * (FR (g q) - cos th)) <= Rabs (FR f0) * (95 / 10000000000)) by (apply Rmul_abs; [lra|exact E]). pose proof (Rabs_pos (FR f0)). apply Rabs_le_inv in Z. apply Rabs_le. lra.
Qed.
Lemma sum_err l : Forall row_b l -> forall c C e m n, FIN c -> Rabs (FR c - C) <= e -> Rabs C <= m -> (List.length l <= n)%nat -> (n <= 500)%nat -> m + amp l <= 40000 -> e + amp l * / 100000000 + INR n * (2 / 100000000000) <= 1 ->
  let r := fold_left (fun c '(f0, f1, f2, f3, f4, f5) => (c + f0 * g (f1 + t * f2 + t2 * f3 + t3 * f4 + t4 * f5))%float) l c in
  FIN r /\ Rabs (FR r - (C + at_t l (FR t))) <= e + amp l * / 100000000 + INR n * (2 / 100000000000).
Proof.
  induction l as [|[[[[[f0 f1] f2] f3] f4] f5] l IH]; intros FA c C e m n Fc Ec Bc Ln Hn Bm Be; cbv zeta; cbn [fold_left].
  - split; [exact Fc|]. unfold at_t. cbn [rsum amp]. rewrite Rplus_0_r. pose proof (pos_INR n). lra.
  - inversion FA as [|? ? HB HF]; subst. destruct n as [|n]; [cbn [List.length] in Ln; lia|]. cbn [List.length] in Ln. rewrite S_INR in *. destruct (row_err _ _ _ _ _ _ HB) as [Fp Ep]. cbv zeta in Fp, Ep. pose proof (rsum_amp [(f0, f1, f2, f3, f4, f5)] (FR t) (FR t * FR t / 10000) (FR t * FR t * FR t / 100000000) (FR t * FR t * FR t * FR t / 100000000)) as Ap.
    set (p := (f0 * g (f1 + t * f2 + t2 * f3 + t3 * f4 + t4 * f5))%float) in *. set (P := rsum [(f0, f1, f2, f3, f4, f5)] _ _ _ _) in *. cbn [amp] in Ap, Bm, Be. rewrite Rplus_0_r in Ap. pose proof (pos_INR n) as PN. pose proof (Rabs_pos (FR f0)) as P0.
    assert (PA : 0 <= amp l) by (clear; induction l as [|[[[[[? ?] ?] ?] ?] ?] l IH]; cbn [amp]; [lra|]; match goal with |- context [Rabs ?x] => pose proof (Rabs_pos x) end; lra).
    apply Rabs_le_inv in Ec, Bc, Ep, Ap. destruct (fadd_b c p 40002 Fc Fp ltac:(lra) ltac:(lra)) as (Fs & _ & Ns). nea.
    destruct (IH HF (c + p)%float (C + P) (e + Rabs (FR f0) * / 100000000 + 2 / 100000000000) (m + Rabs (FR f0)) n Fs) as [R1 R2]; [apply Rabs_le; lra|apply Rabs_le; lra|lia|lia|lra|lra|].
    split; [exact R1|]. unfold at_t in *. cbn [rsum]. unfold P in R2. cbn [rsum] in R2. rewrite Rplus_0_r in R2. rewrite <- Rplus_assoc. cbn [amp]. lra.
Qed.
End ROW.
End ERR.
(** *** The polynomial *)
Definition mpoly (late : bool) : expr := match mexpr late [] with EDiv v _ => v | e => e end.
Definition mpow (late : bool) (k : nat) : expr := let t2 := EMul EX EX in let t3 := EMul t2 EX in match k with 2%nat => EDiv t2 (EL 1e4) | 3%nat => EDiv t3 (EL 1e8) | _ => EDiv (EMul t3 EX) (EL 1e8) end.
Lemma mexpr_ef f g t late rows : ef f g t (mexpr late rows) = (msum (float_arith f g) rows t (ef f g t (mpow late 2)) (ef f g t (mpow late 3)) (ef f g t (mpow late 4)) (ef f g t (mpoly late)) 1 / SECOND_PER_RAD)%float.
Proof.
  unfold mexpr, mpoly. destruct late; unfold mexpr, mF; cbv zeta; (match goal with |- context [n_ltb ?A ?a ?b] => let r := eval vm_compute in (n_ltb A a b) in change (n_ltb A a b) with r end); cbn [bind okE map msum].
  - match goal with |- ef f g t ?e = _ => match e with n_div late_arith ?m ?s => change (ef f g t e) with (ef f g t m / SECOND_PER_RAD)%float end end. unfold late_arith. rewrite msum_ef. reflexivity.
  - match goal with |- ef f g t ?e = _ => match e with n_div early_arith ?m ?s => change (ef f g t e) with (ef f g t m / SECOND_PER_RAD)%float end end. unfold early_arith. rewrite msum_ef. reflexivity.
Qed.
Lemma mhead_poly x late : mhead x late = er x (mpoly late) / FR SECOND_PER_RAD. Proof. destruct late; reflexivity. Qed.
Definition poly_ok (late : bool) : bool := match qan (xl late) (xh late) (mpoly late) with
  | Some u => (ee u * 10 ^ 14 <=? 30000000000 * P2) && (1732500000 * P2 <=? sl u) && (sh u <=? 1732800000 * P2) && (-120000000000 * P2 <=? lo u) && (hi u <=? 120000000000 * P2) | None => false end%Z.
Lemma p_late : poly_ok true = true. Proof. vm_cast_no_check (eq_refl true). Qed.
Lemma p_early : poly_ok false = true. Proof. vm_cast_no_check (eq_refl true). Qed.
Definition pow_ok (late : bool) : bool := qer (xl late) (xh late) (mpow late 2) 100 && qer (xl late) (xh late) (mpow late 3) 100 && qer (xl late) (xh late) (mpow late 4) 100.
Lemma w_late : pow_ok true = true. Proof. vm_cast_no_check (eq_refl true). Qed.
Lemma w_early : pow_ok false = true. Proof. vm_cast_no_check (eq_refl true). Qed.

Lemma poly_err f g late t : libq f g -> FIN t -> zone late (FR t) -> FIN (ef f g t (mpoly late)) /\ Rabs (FR (ef f g t (mpoly late)) - er (FR t) (mpoly late)) <= 3 / 10000 /\ -120000000000 <= er (FR t) (mpoly late) <= 120000000000.
Proof.
  intros lib F Z. assert (P : poly_ok late = true) by (destruct late; [exact p_late|exact p_early]). unfold poly_ok in P. destruct (qan (xl late) (xh late) (mpoly late)) as [u|] eqn:E; [|discriminate].
  rewrite !andb_true_iff, !Z.leb_le in P. destruct P as ((((P1 & P2') & P3) & P4) & P5). pose proof (qan_ok f g lib _ _ _ _ E) as S. destruct (so_err _ _ _ _ _ _ S t F (zone_sc _ _ Z)) as [F1 E1]. pose proof (so_val _ _ _ _ _ _ S (FR t) (zone_sc _ _ Z)) as V.
  apply sc_le in P4, P5. rewrite sc_int in P4, P5. split; [exact F1|]. split; [|lra].
  assert (sc (ee u) <= 3 / 10000). { apply IZR_le in P1. rewrite !mult_IZR in P1. change (IZR (10 ^ 14)) with 100000000000000 in P1. unfold sc. assert (P : 0 < IZR P2) by (change (IZR P2) with 1152921504606846976; lra).
    apply Rmult_le_reg_r with (IZR P2); [exact P|]. unfold Rdiv at 1. rewrite Rmult_assoc, Rinv_l by lra. lra. }
  lra.
Qed.
Lemma poly_slope late t u : zone late t -> zone late u -> t <= u -> 1732500000 * (u - t) <= er u (mpoly late) - er t (mpoly late) <= 1732800000 * (u - t).
Proof.
  intros Zt Zu L. assert (P : poly_ok late = true) by (destruct late; [exact p_late|exact p_early]). unfold poly_ok in P. destruct (qan (xl late) (xh late) (mpoly late)) as [v|] eqn:E; [|discriminate].
  rewrite !andb_true_iff, !Z.leb_le in P. destruct P as ((((P1 & P2') & P3) & P4) & P5). pose proof (so_slope _ _ _ _ _ _ (qan_ok _ _ q_q _ _ _ _ E) t u (zone_sc _ _ Zt) (zone_sc _ _ Zu) L) as S.
  apply sc_le in P2', P3. rewrite sc_int in P2', P3. assert (M : forall a b, a <= b -> a * (u - t) <= b * (u - t)) by (intros; apply Rmult_le_compat_r; lra). pose proof (M _ _ P2'). pose proof (M _ _ P3). lra.
Qed.
Lemma zone_wide late t : zone late t -> wide t. Proof. unfold wide. destruct late; cbn [zone]; lra. Qed.
Lemma spr : 206264.8 <= FR SECOND_PER_RAD <= 206264.81. Proof. fexact SECOND_PER_RAD l. lra. Qed.
(** the longitude of the moon: the polynomial and the sum of the rows *)
Definition moon (late : bool) (rows : list (list row6)) (t : R) : R := (er t (mpoly late) + tot rows t) / FR SECOND_PER_RAD.
Lemma moon_err f g late rows t : libq f g -> mall_ok rows = true -> FIN t -> zone late (FR t) ->
  FIN (ef f g t (mexpr late rows)) /\ Rabs (FR (ef f g t (mexpr late rows)) - moon late rows (FR t)) <= / 100000000.
Proof.
  intros lib C F Z. destruct rows as [|l0 [|l1 [|l2 [|l3 [|? ?]]]]]; try discriminate C. cbn [mall_ok] in C. rewrite !andb_true_iff in C. destruct C as (((C0 & C1) & C2) & C3). apply sec_ok in C0, C1, C2, C3.
  destruct C0 as (B0 & n0 & A0 & _), C1 as (B1 & n1 & A1 & _), C2 as (B2 & n2 & A2 & _), C3 as (B3 & n3 & A3 & _). unfold dd in A0, A1, A2, A3. change (IZR DD) with 10000000000 in *.
  pose proof (zone_wide _ _ Z) as W. pose proof (zone_sc _ _ Z) as ZS. assert (PW : pow_ok late = true) by (destruct late; [exact w_late|exact w_early]). unfold pow_ok in PW. rewrite !andb_true_iff in PW. destruct PW as ((W2 & W3) & W4).
  destruct (qer_ok f g _ _ _ _ t lib W2 F ZS) as [F2 N2]. destruct (qer_ok f g _ _ _ _ t lib W3 F ZS) as [F3 N3]. destruct (qer_ok f g _ _ _ _ t lib W4 F ZS) as [F4 N4]. cbn [mpow er] in N2, N3, N4. rewrite e4 in N2. rewrite e8 in N3, N4.
  destruct (poly_err f g late t lib F Z) as (Fp & Np & Vp).
  rewrite mexpr_ef. unfold moon. cbn [msum tot]. cbn [n_add n_mul n_cos n_lit num float_arith].
  set (t2 := ef f g t (mpow late 2)) in *. set (t3 := ef f g t (mpow late 3)) in *. set (t4 := ef f g t (mpow late 4)) in *. set (p := ef f g t (mpoly late)) in *. set (pr := er (FR t) (mpoly late)) in *.
  assert (K2 : Rabs (FR t2 - FR t * FR t / 10000) <= / 1000000000000) by (eapply Rle_trans; [exact N2|lra]). assert (K3 : Rabs (FR t3 - FR t * FR t * FR t / 100000000) <= / 1000000000000) by (eapply Rle_trans; [exact N3|lra]). assert (K4 : Rabs (FR t4 - FR t * FR t * FR t * FR t / 100000000) <= / 1000000000000) by (eapply Rle_trans; [exact N4|lra]).
  flit 0%float G0 V0.
  pose proof (fun l B n L H => sum_err f g lib t t2 t3 t4 F W F2 F3 F4 K2 K3 K4 l B 0%float 0 0 0 n G0 ltac:(rewrite FR_zero, Rminus_0_r, Rabs_R0; lra) ltac:(rewrite Rabs_R0; lra) L H) as SE. cbv zeta in SE.
  assert (I0 : INR 442 = 442) by (rewrite INR_IZR_INZ; reflexivity). assert (I1 : INR 149 = 149) by (rewrite INR_IZR_INZ; reflexivity). assert (I2 : INR 34 = 34) by (rewrite INR_IZR_INZ; reflexivity). assert (I3 : INR 2 = 2) by (rewrite INR_IZR_INZ; reflexivity).
  destruct (SE l0 B0 442%nat n0 ltac:(lia) ltac:(lra) ltac:(rewrite I0; lra)) as [H0 E0]. destruct (SE l1 B1 149%nat n1 ltac:(lia) ltac:(lra) ltac:(rewrite I1; lra)) as [H1 E1].
  destruct (SE l2 B2 34%nat n2 ltac:(lia) ltac:(lra) ltac:(rewrite I2; lra)) as [H2 E2]. destruct (SE l3 B3 2%nat n3 ltac:(lia) ltac:(lra) ltac:(rewrite I3; lra)) as [H3 E3]. clear SE. rewrite I0 in E0. rewrite I1 in E1. rewrite I2 in E2. rewrite I3 in E3. rewrite Rplus_0_l in E0, E1, E2, E3.
  assert (Y : forall l a, amp l <= a -> Rabs (at_t l (FR t)) <= a) by (intros l a Ha; unfold at_t; eapply Rle_trans; [apply rsum_amp|exact Ha]).
  pose proof (Y _ _ A0) as Y0. pose proof (Y _ _ A1) as Y1. pose proof (Y _ _ A2) as Y2. pose proof (Y _ _ A3) as Y3. clear Y.
  match goal with |- context [msum] => fail | |- context [(p + ?a * _ + ?b * _ + ?c * _ + ?d * _)%float] => set (c0 := a) in *; set (c1 := b) in *; set (c2 := c) in *; set (c3 := d) in * end.
  set (s0 := at_t l0 (FR t)) in *. set (s1 := at_t l1 (FR t)) in *. set (s2 := at_t l2 (FR t)) in *. set (s3 := at_t l3 (FR t)) in *. clearbody c0 c1 c2 c3 s0 s1 s2 s3 p pr t2 t3 t4.
  assert (D0 : Rabs (FR c0 - s0) <= 0.00035) by lra. assert (D1 : Rabs (FR c1 - s1) <= 0.00000005) by lra. assert (D2 : Rabs (FR c2 - s2) <= 0.000000001) by lra. assert (D3 : Rabs (FR c3 - s3) <= 0.0000000001) by lra. clear E0 E1 E2 E3 A0 A1 A2 A3.
  unfold wide in W. set (x := FR t) in *. assert (Q2 : 0 <= x * x <= 3721) by (split; nra). assert (Q3 : Rabs (x * x * x) <= 3721 * 61) by (apply Rmul_abs; apply Rabs_le; lra).
  pose proof e1 as L1. flit 1%float F1 V1. apply Rabs_le_inv in Np, D0, D1, D2, D3, Y0, Y1, Y2, Y3, Q3.
  destruct (fmul_b c0 1%float 40000 H0 F1 ltac:(rewrite L1; lra) ltac:(lra)) as (G1 & _ & R1). nea. rewrite L1, Rmult_1_r in R1. destruct (fadd_b p (c0 * 1)%float 130000000000 Fp G1 ltac:(lra) ltac:(lra)) as (G2 & _ & R2). nea.
  set (v1 := (p + c0 * 1)%float) in *. destruct (fmul_b 1%float t 61 F1 F ltac:(rewrite L1; fold x; lra) ltac:(lra)) as (G3 & _ & R3). nea. rewrite L1, Rmult_1_l in R3. fold x in R3. set (m1 := (1 * t)%float) in *.
  assert (U1 : Rabs (FR m1 * x - x * x) <= 61 * 0.0000000000001). { replace (FR m1 * x - x * x) with (x * (FR m1 - x)) by ring. apply Rmul_abs; apply Rabs_le; lra. } apply Rabs_le_inv in U1.
  assert (X1 : Rabs (FR c1 * FR m1 - s1 * x) <= 0.00000005 * 62 + 5 * 0.0000000000001). { replace (FR c1 * FR m1 - s1 * x) with ((FR c1 - s1) * FR m1 + s1 * (FR m1 - x)) by ring. eapply Rle_trans; [apply Rabs_triang|]. apply Rplus_le_compat; apply Rmul_abs; apply Rabs_le; lra. }
  assert (S1 : Rabs (s1 * x) <= 5 * 61) by (apply Rmul_abs; apply Rabs_le; lra). apply Rabs_le_inv in X1, S1.
  destruct (fmul_b c1 m1 1000 H1 G3 ltac:(lra) ltac:(lra)) as (G4 & _ & R4). nea. destruct (fadd_b v1 (c1 * m1)%float 130000000000 G2 G4 ltac:(lra) ltac:(lra)) as (G5 & _ & R5). nea. set (v2 := (v1 + c1 * m1)%float) in *.
  destruct (fmul_b m1 t 4000 G3 F ltac:(fold x; lra) ltac:(lra)) as (G6 & _ & R6). nea. fold x in R6. set (m2 := (m1 * t)%float) in *.
  assert (U2 : Rabs (FR m2 * x - x * x * x) <= 61 * 0.00000000001). { replace (FR m2 * x - x * x * x) with (x * (FR m2 - x * x)) by ring. apply Rmul_abs; apply Rabs_le; lra. } apply Rabs_le_inv in U2.
  assert (X2 : Rabs (FR c2 * FR m2 - s2 * (x * x)) <= 0.000000001 * 3722 + 1 * 0.00000000001). { replace (FR c2 * FR m2 - s2 * (x * x)) with ((FR c2 - s2) * FR m2 + s2 * (FR m2 - x * x)) by ring. eapply Rle_trans; [apply Rabs_triang|]. apply Rplus_le_compat; apply Rmul_abs; apply Rabs_le; lra. }
  assert (S2 : Rabs (s2 * (x * x)) <= 1 * 3721) by (apply Rmul_abs; apply Rabs_le; lra). apply Rabs_le_inv in X2, S2.
  destruct (fmul_b c2 m2 4000 H2 G6 ltac:(lra) ltac:(lra)) as (G7 & _ & R7). nea. destruct (fadd_b v2 (c2 * m2)%float 130000000000 G5 G7 ltac:(lra) ltac:(lra)) as (G8 & _ & R8). nea. set (v3 := (v2 + c2 * m2)%float) in *.
  destruct (fmul_b m2 t 230000 G6 F ltac:(fold x; lra) ltac:(lra)) as (G9 & _ & R9). nea. fold x in R9. set (m3 := (m2 * t)%float) in *.
  assert (X3 : Rabs (FR c3 * FR m3 - s3 * (x * x * x)) <= 0.0000000001 * 230000 + 1 * 0.000000001). { replace (FR c3 * FR m3 - s3 * (x * x * x)) with ((FR c3 - s3) * FR m3 + s3 * (FR m3 - x * x * x)) by ring. eapply Rle_trans; [apply Rabs_triang|]. apply Rplus_le_compat; apply Rmul_abs; apply Rabs_le; lra. }
  assert (S3 : Rabs (s3 * (x * x * x)) <= 1 * 230000) by (apply Rmul_abs; apply Rabs_le; lra). apply Rabs_le_inv in X3, S3.
  destruct (fmul_b c3 m3 300000 H3 G9 ltac:(lra) ltac:(lra)) as (G10 & _ & R10). nea. destruct (fadd_b v3 (c3 * m3)%float 130000000000 G8 G10 ltac:(lra) ltac:(lra)) as (G11 & _ & R11). nea. set (v4 := (v3 + c3 * m3)%float) in *.
  set (r := pr + (s0 + s1 * x + s2 * (x * x) + s3 * (x * x * x))). assert (RR : Rabs (FR v4 - r) <= 0.0009) by (unfold r; apply Rabs_le; lra). pose proof spr as SP. set (q := FR SECOND_PER_RAD) in *.
  assert (IQ : 0 < / q <= / 206264.8) by (split; [apply Rinv_0_lt_compat; lra|apply Rinv_le; lra]).
  assert (DQ : Rabs ((FR v4 - r) * / q) <= 0.0009 * / 206264.8) by (apply Rmul_abs; [exact RR|apply Rabs_le; lra]).
  assert (VQ : Rabs (FR v4 * / q) <= 130000000000 * / 206264.8) by (apply Rmul_abs; apply Rabs_le; lra). apply Rabs_le_inv in DQ, VQ.
  destruct (fdiv_b v4 SECOND_PER_RAD 700000 G11 ltac:(fold q; lra) ltac:(fold q; unfold Rdiv; lra) ltac:(lra)) as (G12 & _ & R12). nea. fold q in R12. split; [exact G12|]. unfold Rdiv in *. apply Rabs_le. lra.
Qed.
Lemma moon_slope late rows t u : mall_ok rows = true -> zone late t -> zone late u -> t <= u -> 6942 * (u - t) <= moon late rows u - moon late rows t <= 9858 * (u - t).
Proof.
  intros C Zt Zu L. destruct rows as [|l0 [|l1 [|l2 [|l3 [|? ?]]]]]; try discriminate C. cbn [mall_ok] in C. rewrite !andb_true_iff in C. destruct C as (((C0 & C1) & C2) & C3). apply sec_ok in C0, C1, C2, C3.
  destruct C0 as (_ & _ & A0 & S0), C1 as (_ & _ & A1 & S1), C2 as (_ & _ & A2 & S2), C3 as (_ & _ & A3 & S3). unfold dd in *. change (IZR DD) with 10000000000 in *.
  pose proof (tot_lip l0 l1 l2 l3 _ _ _ _ _ _ _ t u A1 A2 A3 S0 S1 S2 S3 (zone_wide _ _ Zt) (zone_wide _ _ Zu) L) as T. pose proof (poly_slope late t u Zt Zu L) as P. unfold moon. set (rs := [l0; l1; l2; l3]) in *. pose proof spr as SP. set (q := FR SECOND_PER_RAD) in *. clearbody q.
  replace ((er u (mpoly late) + tot rs u) / q - (er t (mpoly late) + tot rs t) / q) with ((er u (mpoly late) - er t (mpoly late) + (tot rs u - tot rs t)) / q) by (field; lra).
  apply Rabs_le_inv in T. set (D := er u (mpoly late) - er t (mpoly late) + (tot rs u - tot rs t)) in *. assert (B : 1432080000 * (u - t) <= D <= 2033220000 * (u - t)) by (unfold D; lra).
  split; apply Rmult_le_reg_r with q; try lra; replace (D / q * q) with D by (field; lra); nra.
Qed.
Lemma moon_val late rows t : mall_ok rows = true -> zone late t -> Rabs (moon late rows t) <= 582000.
Proof.
  intros C Z. destruct rows as [|l0 [|l1 [|l2 [|l3 [|? ?]]]]]; try discriminate C. cbn [mall_ok] in C. rewrite !andb_true_iff in C. destruct C as (((C0 & C1) & C2) & C3). apply sec_ok in C0, C1, C2, C3.
  destruct C0 as (_ & _ & A0 & _), C1 as (_ & _ & A1 & _), C2 as (_ & _ & A2 & _), C3 as (_ & _ & A3 & _). unfold dd in *. change (IZR DD) with 10000000000 in *.
  pose proof (tot_amp l0 l1 l2 l3 _ _ _ _ t A0 A1 A2 A3 (zone_wide _ _ Z)) as T.
  assert (V : -120000000000 <= er t (mpoly late) <= 120000000000).
  { assert (P : poly_ok late = true) by (destruct late; [exact p_late|exact p_early]). unfold poly_ok in P. destruct (qan (xl late) (xh late) (mpoly late)) as [v|] eqn:E; [|discriminate].
    rewrite !andb_true_iff, !Z.leb_le in P. destruct P as ((_ & P4) & P5). pose proof (so_val _ _ _ _ _ _ (qan_ok _ _ q_q _ _ _ _ E) t (zone_sc _ _ Z)) as S. apply sc_le in P4, P5. rewrite sc_int in P4, P5. lra. }
  unfold moon. apply Rabs_le_inv in T. pose proof spr as SP. set (q := FR SECOND_PER_RAD) in *. assert (IQ : 0 < / q <= / 206264.8) by (split; [apply Rinv_0_lt_compat; lra|apply Rinv_le; lra]).
  apply Rle_trans with (120000040000 * / 206264.8); [|lra]. unfold Rdiv. apply Rmul_abs; apply Rabs_le; lra.
Qed.
(** *** What a shortened series leaves out *)
Definition rest_ok (ns : list nat) (a0 a1 a2 a3 : Z) : bool := match rest_of ns MALL with [l0; l1; l2; l3] => sec l0 442 a0 2987600000000000000 && sec l1 149 a1 231000000000000 && sec l2 34 a2 660000000000 && sec l3 2 a3 300000 | _ => false end.
Lemma rest_moon late ns rows a0 a1 a2 a3 t : rest_ok ns a0 a1 a2 a3 = true -> List.length ns = 4%nat -> rows_of ns MALL = rows -> (exists l0 l1 l2 l3, rows = [l0; l1; l2; l3]) -> zone late t ->
  Rabs (moon late MALL t - moon late rows t) <= (dd a0 + dd a1 * 61 + dd a2 * 3721 + dd a3 * 226981) / 206264.8.
Proof.
  unfold rest_ok. intros C Ln Er (k0 & k1 & k2 & k3 & ->) Z. destruct (rest_of ns MALL) as [|l0 [|l1 [|l2 [|l3 [|? ?]]]]] eqn:Es; try discriminate C. rewrite !andb_true_iff in C. destruct C as (((C0 & C1) & C2) & C3). apply sec_ok in C0, C1, C2, C3.
  destruct C0 as (_ & _ & A0 & _), C1 as (_ & _ & A1 & _), C2 as (_ & _ & A2 & _), C3 as (_ & _ & A3 & _). pose proof (tot_amp l0 l1 l2 l3 _ _ _ _ t A0 A1 A2 A3 (zone_wide _ _ Z)) as T.
  assert (EM : exists m0 m1 m2 m3, MALL = [m0; m1; m2; m3]) by (unfold MALL; eauto 10). destruct EM as (m0 & m1 & m2 & m3 & EM).
  pose proof (rmsum_split ns MALL t (t * t / FR 1e4) (t * t * t / FR 1e8) (t * t * t * t / FR 1e8) (FR 1) ltac:(rewrite Ln, EM; reflexivity)) as S. rewrite Er, Es, EM, !tot_eq in S.
  unfold moon. rewrite EM, S. set (a := er t (mpoly late)). set (b := tot [k0; k1; k2; k3] t) in *. set (c := tot [l0; l1; l2; l3] t) in *. pose proof spr as SP. set (q := FR SECOND_PER_RAD) in *.
  replace ((a + (b + c)) / q - (a + b) / q) with (c * / q) by (field; lra). assert (IQ : 0 < / q <= / 206264.8) by (split; [apply Rinv_0_lt_compat; lra|apply Rinv_le; lra]).
  unfold Rdiv at 1. apply Rmul_abs; [exact T|apply Rabs_le; lra].
Qed.
Lemma r1_ok : rest_ok [8; 1; 0; 0]%nat 13187000000000 25010000000 142000000 140000 = true. Proof. vm_cast_no_check (eq_refl true). Qed.
Lemma r2_ok : rest_ok [20; 6; 6; 1]%nat 3068000000000 7300000000 30000000 20000 = true. Proof. vm_cast_no_check (eq_refl true). Qed.
Lemma r3_ok : rest_ok [60; 20; 10; 2]%nat 453300000000 2270000000 20000000 0 = true. Proof. vm_cast_no_check (eq_refl true). Qed.
Definition sq (rows : list (list row3)) : bool := qer (-4 * Q8) (49 * Q8) (simp (sexpr rows)) 200000.
Definition sd (rows : list (list row3)) (d : Z) : bool := rng (-4 * Q8) (49 * Q8) (ediff E_all (sexpr rows)) (- d) d.
Lemma sq1 : sq S1 = true. Proof. vm_cast_no_check (eq_refl true). Qed.
Lemma sq2 : sq S2 = true. Proof. vm_cast_no_check (eq_refl true). Qed.
Lemma sq3 : sq S3 = true. Proof. vm_cast_no_check (eq_refl true). Qed.
Lemma sq4 : sq ELALL = true. Proof. vm_cast_no_check (eq_refl true). Qed.
Lemma sd1 : sd S1 11900000 = true. Proof. vm_cast_no_check (eq_refl true). Qed.
Lemma sd2 : sd S2 3650000 = true. Proof. vm_cast_no_check (eq_refl true). Qed.
Lemma sd3 : sd S3 1270000 = true. Proof. vm_cast_no_check (eq_refl true). Qed.
Lemma gq late : qer (xl late) (xh late) E_gxc 10000 = true. Proof. destruct late; vm_cast_no_check (eq_refl true). Qed.
Lemma sexpr_all : sexpr ELALL = E_all. Proof. vm_cast_no_check (eq_refl E_all). Qed.
Lemma sd4 : sd ELALL 0 = true. Proof. unfold sd. rewrite sexpr_all. vm_cast_no_check (eq_refl true). Qed.
(** the moon less the sun, as [msaLon] with all terms has it, over the reals *)
Definition sun (t : R) : R := er (t / 10) E_all + er t E_gxc + FR ShouXing.PI.
Definition G (late : bool) (t : R) : R := moon late MALL t + FR (-3.4e-6) - sun t.
Lemma zone_81 late t : zone late t -> Rabs t <= 81. Proof. intros H. apply Rabs_le. destruct late; cbn [zone] in H; lra. Qed.
Lemma sun_slope late t u : zone late t -> zone late u -> t <= u -> 590 * (u - t) <= sun u - sun t <= 667 * (u - t).
Proof.
  intros Zt Zu L. apply zone_81 in Zt, Zu. apply Rabs_le_inv in Zt, Zu. destruct (chk_ok _ _ libm_ref _ _ _ _ _ _ _ b_all) as (_ & S & _). destruct (chk_ok _ _ libm_ref _ _ _ _ _ _ _ b_gxc) as (_ & C & _).
  specialize (S (t / 10) (u / 10) ltac:(apply Rabs_le; lra) ltac:(apply Rabs_le; lra) ltac:(lra)). specialize (C t u ltac:(apply Rabs_le; lra) ltac:(apply Rabs_le; lra) L). unfold dd in *. change (IZR DD) with 10000000000 in *. unfold sun. lra.
Qed.
Lemma G_slope late t u : zone late t -> zone late u -> t <= u -> 6275 * (u - t) <= G late u - G late t <= 9270 * (u - t).
Proof. intros Zt Zu L. pose proof (sun_slope late t u Zt Zu L). pose proof (moon_slope late MALL t u m_all Zt Zu L). unfold G. lra. Qed.
(** the sum of its parts, in floats *)
Lemma parts_err a s c A S C ea es : FIN a -> FIN s -> FIN c -> Rabs (FR a - A) <= ea -> Rabs (FR s - S) <= es -> Rabs (FR c - C) <= / 10000000000 -> ea <= 1 -> es <= 1 -> Rabs A <= 583000 -> Rabs S <= 52000 -> Rabs C <= 1 ->
  let r := (a + -3.4e-6 - (s + c + ShouXing.PI))%float in FIN r /\ Rabs (FR r - (A + FR (-3.4e-6) - (S + C + FR ShouXing.PI))) <= ea + es + 7 / 10000000000.
Proof.
  intros Fa Fs Fc Na Ns Nc Be Bs BA BS BC. cbv zeta. flit (-3.4e-6)%float F1 V1. pose proof PI_val as PV. pose proof PI_fin as PF. apply Rabs_le_inv in Na, Ns, Nc, BA, BS, BC.
  destruct (fadd_b a (-3.4e-6)%float 600000 Fa F1 ltac:(lra) ltac:(lra)) as (G1 & _ & R1). destruct (fadd_b s c 60000 Fs Fc ltac:(lra) ltac:(lra)) as (G2 & _ & R2). nea.
  destruct (fadd_b (s + c)%float ShouXing.PI 60000 G2 PF ltac:(lra) ltac:(lra)) as (G3 & _ & R3). nea. destruct (fsub_b _ _ 700000 G1 G3 ltac:(lra) ltac:(lra)) as (G4 & _ & R4). nea. split; [exact G4|]. apply Rabs_le. lra.
Qed.
Lemma tenth_sun t late : FIN t -> zone late (FR t) -> FIN (t / 10)%float /\ sc (-4 * Q8) <= FR (t / 10)%float <= sc (49 * Q8) /\ Rabs (FR (t / 10)%float) <= IZR 65 / 8 /\ Rabs (er (FR (t / 10)%float) E_all - er (FR t / 10) E_all) <= / 1000000000 /\ Rabs (er (FR t / 10) E_all) <= 51500.
Proof.
  intros F Z. destruct (tenth t F (zone_81 _ _ Z)) as (F10 & N & B). pose proof (zone_10 _ _ Z) as Z10. rewrite !q8_sc in *. apply Rabs_le_inv in N.
  assert (Z' : -3.95 / 10 <= FR t / 10 <= 60.95 / 10) by (destruct late; cbn [zone] in Z; lra). split; [exact F10|]. split; [lra|]. split; [exact B|].
  destruct (chk_ok _ _ libm_ref _ _ _ _ _ _ _ b_all) as (V & S & _). unfold dd in *. change (IZR DD) with 10000000000 in *. assert (B' : Rabs (FR t / 10) <= IZR 65 / 8) by (apply Rabs_le; lra). split; [|pose proof (V _ B'); apply Rabs_le; lra].
  apply Rabs_le. destruct (Rle_lt_dec (FR (t / 10)%float) (FR t / 10)) as [L|L]; [pose proof (S _ _ B B' L)|pose proof (S _ _ B' B (Rlt_le _ _ L))]; lra.
Qed.
Lemma gxc_err f g late t : libq f g -> FIN t -> zone late (FR t) -> FIN (ef f g t E_gxc) /\ Rabs (FR (ef f g t E_gxc) - er (FR t) E_gxc) <= / 10000000000 /\ Rabs (er (FR t) E_gxc) <= 1.
Proof.
  intros lib F Z. destruct (qer_ok f g _ _ _ _ t lib (gq late) F (zone_sc _ _ Z)) as [F1 E1]. split; [exact F1|]. split; [lra|]. pose proof (zone_81 _ _ Z) as B. apply Rabs_le_inv in B. destruct (chk_ok _ _ libm_ref _ _ _ _ _ _ _ b_gxc) as (V & _ & _).
  specialize (V (FR t) ltac:(apply Rabs_le; lra)). unfold dd in V. change (IZR DD) with 10000000000 in V. apply Rabs_le. lra.
Qed.
Lemma ltb_zone late t : FIN t -> zone late (FR t) -> (late = true -> FR t <> 10) -> PrimFloat.ltb 0 (t - 10) = late.
Proof. intros F Z N. destruct late; cbn [zone] in Z; [apply late_float; [exact F|]; specialize (N eq_refl); lra|apply early_float; [exact F|lra]]. Qed.
(** the quick formula *)
Lemma sq_ok rows t : sq rows = true -> FIN t -> sc (-4 * Q8) <= FR t <= sc (49 * Q8) -> FIN (ef qsin qcos t (sexpr rows)) /\ Rabs (FR (ef qsin qcos t (sexpr rows)) - er (FR t) (sexpr rows)) <= 3 / 1000000000.
Proof.
  unfold sq. generalize (sexpr rows). intros e C F Z. destruct (qer_ok qsin qcos _ _ _ _ _ q_q C F Z) as [Fs Ns]. rewrite !q8_sc in Z. assert (B100 : Rabs (FR t) <= 100) by (apply Rabs_le; lra). rewrite (simp_ef _ _ F B100) in Fs, Ns. rewrite simp_er in Ns. split; [exact Fs|lra].
Qed.
Lemma sd_ok rows d x : sd rows d = true -> sc (-4 * Q8) <= x <= sc (49 * Q8) -> Rabs (er x (sexpr rows) - er x E_all) <= dd d.
Proof. unfold sd. generalize (sexpr rows) E_all. intros e E C Z. pose proof (rng_ok _ _ _ _ _ _ C Z) as D. rewrite ediff_ok in D. unfold dd in *. rewrite opp_IZR in D. apply Rabs_le. lra. Qed.
Lemma quick_sum late rows srows t a b s d e : (late = true -> FR t <> 10) -> FIN t -> zone late (FR t) ->
   FIN (ef qsin qcos t (mexpr late rows)) -> Rabs (FR (ef qsin qcos t (mexpr late rows)) - a) <= / 100000000 -> Rabs (b - a) <= e -> Rabs a <= 582000 ->
   FIN (ef qsin qcos (t / 10)%float (sexpr srows)) -> Rabs (FR (ef qsin qcos (t / 10)%float (sexpr srows)) - s) <= 3 / 1000000000 -> Rabs (s - er (FR t / 10) E_all) <= d + / 1000000000 -> d <= 1 ->
  exists x, msaF (float_arith qsin qcos) t rows srows = Ok x /\ FIN x /\ Rabs (FR x - (b + FR (-3.4e-6) - sun (FR t))) <= e + d + 2 / 100000000.
Proof.
  intros N10 F Z Fm Nm Em Va Fs Ns Es Hd. destruct (tenth_sun t late F Z) as (F10 & Z10 & B10 & N & VS). destruct (gxc_err qsin qcos late t q_q F Z) as (Fg & Ng & Vg). rewrite (msaF_ef qsin qcos late rows srows t (ltb_zone _ _ F Z N10)). eexists. split; [reflexivity|].
  revert Fm Nm Fs Ns Es Fg Ng VS Vg. unfold sun. generalize (ef qsin qcos t (mexpr late rows)) (ef qsin qcos (t / 10)%float (sexpr srows)) (ef qsin qcos t E_gxc) (er (FR t / 10) E_all) (er (FR t) E_gxc). intros m v c S C Fm Nm Fs Ns Es Fg Ng VS Vg.
  assert (BD : Rabs s <= 52000) by (apply Rabs_le_inv in Es, VS; apply Rabs_le; lra).
  destruct (parts_err _ _ _ _ _ _ _ _ Fm Fs Fg Nm Ns Ng ltac:(lra) ltac:(lra) ltac:(lra) BD Vg) as [R1 R2]. cbv zeta in R1, R2. split; [exact R1|]. apply Rabs_le_inv in R2, Es, Em. apply Rabs_le. lra.
Qed.
Lemma quick_err late rows srows d e t : mall_ok rows = true -> sq srows = true -> sd srows d = true -> dd d <= 1 -> Rabs (moon late MALL (FR t) - moon late rows (FR t)) <= e -> FIN t -> zone late (FR t) -> (late = true -> FR t <> 10) ->
  exists x, msaF (float_arith qsin qcos) t rows srows = Ok x /\ FIN x /\ Rabs (FR x - G late (FR t)) <= e + dd d + 2 / 100000000.
Proof.
  intros Cm Cs Cd Hd1 Em F Z N10. destruct (moon_err qsin qcos late rows t q_q Cm F Z) as [Fm Nm]. destruct (tenth_sun t late F Z) as (F10 & Z10 & B10 & N & VS). destruct (sq_ok _ _ Cs F10 Z10) as [Fs Ns]. pose proof (sd_ok _ _ _ Cd Z10) as D.
  pose proof (moon_val late rows (FR t) Cm Z) as VM. unfold G. revert Em. generalize (moon late MALL (FR t)). intros b Em. refine (quick_sum late rows srows t _ b _ (dd d) e N10 F Z Fm Nm Em VM Fs Ns _ Hd1).
  apply Rabs_le_inv in D, N. apply Rabs_le. lra.
Qed.
Lemma quick1 late t : FIN t -> zone late (FR t) -> (late = true -> FR t <> 10) -> exists x, msaF QA t R1 S1 = Ok x /\ FIN x /\ Rabs (FR x - G late (FR t)) <= 0.0087.
Proof.
  intros F Z N. assert (ER : rows_of [8; 1; 0; 0]%nat MALL = R1) by (vm_cast_no_check (eq_refl R1)). assert (E4 : exists l0 l1 l2 l3, R1 = [l0; l1; l2; l3]) by (unfold R1; eauto 10).
  pose proof (rest_moon late [8; 1; 0; 0]%nat R1 _ _ _ _ (FR t) r1_ok eq_refl ER E4 Z) as D.
  destruct (quick_err late R1 S1 _ _ t m_r1 sq1 sd1 ltac:(unfold dd, DD; lra) D F Z N) as (x & E & Fx & Nx). exists x. split; [exact E|]. split; [exact Fx|]. eapply Rle_trans; [exact Nx|]. unfold dd, DD. lra.
Qed.
Lemma quick2 late t : FIN t -> zone late (FR t) -> (late = true -> FR t <> 10) -> exists x, msaF QA t R2 S2 = Ok x /\ FIN x /\ Rabs (FR x - G late (FR t)) <= 0.00214.
Proof.
  intros F Z N. assert (ER : rows_of [20; 6; 6; 1]%nat MALL = R2) by (vm_cast_no_check (eq_refl R2)). assert (E4 : exists l0 l1 l2 l3, R2 = [l0; l1; l2; l3]) by (unfold R2; eauto 10).
  pose proof (rest_moon late [20; 6; 6; 1]%nat R2 _ _ _ _ (FR t) r2_ok eq_refl ER E4 Z) as D.
  destruct (quick_err late R2 S2 _ _ t m_r2 sq2 sd2 ltac:(unfold dd, DD; lra) D F Z N) as (x & E & Fx & Nx). exists x. split; [exact E|]. split; [exact Fx|]. eapply Rle_trans; [exact Nx|]. unfold dd, DD. lra.
Qed.
Lemma quick3 late t : FIN t -> zone late (FR t) -> (late = true -> FR t <> 10) -> exists x, msaF QA t R3 S3 = Ok x /\ FIN x /\ Rabs (FR x - G late (FR t)) <= 0.00046.
Proof.
  intros F Z N. assert (ER : rows_of [60; 20; 10; 2]%nat MALL = R3) by (vm_cast_no_check (eq_refl R3)). assert (E4 : exists l0 l1 l2 l3, R3 = [l0; l1; l2; l3]) by (unfold R3; eauto 10).
  pose proof (rest_moon late [60; 20; 10; 2]%nat R3 _ _ _ _ (FR t) r3_ok eq_refl ER E4 Z) as D.
  destruct (quick_err late R3 S3 _ _ t m_r3 sq3 sd3 ltac:(unfold dd, DD; lra) D F Z N) as (x & E & Fx & Nx). exists x. split; [exact E|]. split; [exact Fx|]. eapply Rle_trans; [exact Nx|]. unfold dd, DD. lra.
Qed.
Lemma quick4 late t : FIN t -> zone late (FR t) -> (late = true -> FR t <> 10) -> exists x, msaF QA t MALL ELALL = Ok x /\ FIN x /\ Rabs (FR x - G late (FR t)) <= 3 / 100000000.
Proof.
  intros F Z N. assert (D : Rabs (moon late MALL (FR t) - moon late MALL (FR t)) <= 0) by (rewrite Rminus_diag_eq, Rabs_R0 by reflexivity; lra).
  destruct (quick_err late MALL ELALL _ _ t m_all sq4 sd4 ltac:(unfold dd, DD; lra) D F Z N) as (x & E & Fx & Nx). exists x. split; [exact E|]. split; [exact Fx|]. eapply Rle_trans; [exact Nx|]. unfold dd, DD. lra.
Qed.
(** the code *)
Lemma code_sum fsin fcos late t a s : (late = true -> FR t <> 10) -> FIN t -> zone late (FR t) -> libq fsin fcos ->
   FIN (ef fsin fcos t (mexpr late MALL)) -> Rabs (FR (ef fsin fcos t (mexpr late MALL)) - a) <= / 100000000 -> Rabs a <= 582000 ->
   FIN (ef fsin fcos (t / 10)%float E_all) -> Rabs (FR (ef fsin fcos (t / 10)%float E_all) - s) <= 5 / 100000000 -> Rabs s <= 51500 ->
  exists x, msaLon (float_arith fsin fcos) t (-1) (-1) = Ok x /\ FIN x /\ Rabs (FR x - (a + FR (-3.4e-6) - (s + er (FR t) E_gxc + FR ShouXing.PI))) <= 7 / 100000000.
Proof.
  intros N10 F Z lib Fm Nm Va Fs Ns Vs. destruct (gxc_err fsin fcos late t lib F Z) as (Fg & Ng & Vg). pose proof (msaF_ef fsin fcos late MALL ELALL t (ltb_zone _ _ F Z N10)) as E. rewrite sexpr_all in E. apply code_msa in E. eexists. split; [exact E|]. clear E.
  revert Fm Nm Fs Ns Fg Ng Vg. generalize (ef fsin fcos t (mexpr late MALL)) (ef fsin fcos (t / 10)%float E_all) (ef fsin fcos t E_gxc) (er (FR t) E_gxc). intros m v c C Fm Nm Fs Ns Fg Ng Vg.
  destruct (parts_err _ _ _ _ _ _ _ _ Fm Fs Fg Nm Ns Ng ltac:(lra) ltac:(lra) ltac:(lra) ltac:(lra) Vg) as [R1 R2]. cbv zeta in R1, R2. split; [exact R1|]. eapply Rle_trans; [exact R2|]. lra.
Qed.
Lemma code_err fsin fcos late t : libm fsin fcos -> FIN t -> zone late (FR t) -> (late = true -> FR t <> 10) -> exists x, msaLon (float_arith fsin fcos) t (-1) (-1) = Ok x /\ FIN x /\ Rabs (FR x - G late (FR t)) <= 7 / 100000000.
Proof.
  intros lib F Z N10. pose proof (libm_q _ _ lib) as lq. destruct (moon_err fsin fcos late MALL t lq m_all F Z) as [Fm Nm]. destruct (tenth_sun t late F Z) as (F10 & Z10 & B10 & N & VS).
  destruct (chk_ok _ _ lib _ _ _ _ _ _ _ b_all) as (_ & _ & S). destruct (S _ F10 B10) as [Fs Ns]. unfold dd in Ns. change (IZR DD) with 10000000000 in Ns.
  pose proof (moon_val late MALL (FR t) m_all Z) as VM. unfold G, sun. revert Nm VM. generalize (moon late MALL (FR t)). intros a Nm VM. refine (code_sum fsin fcos late t a _ N10 F Z lq Fm Nm VM Fs _ VS).
  apply Rabs_le_inv in Ns, N. apply Rabs_le. lra.
Qed.
(** ** The whole span *)
Definition span (t : R) : Prop := -3.95 <= t <= 60.95.
Definition late_of (t : R) : bool := if Rle_lt_dec t 10 then false else true.
Definition GG (t : R) : R := G (late_of t) t.
Lemma late_zone t : span t -> zone (late_of t) t. Proof. unfold span, late_of. intros H. destruct (Rle_lt_dec t 10); cbn [zone]; lra. Qed.
Lemma late_10 t : late_of t = true -> t <> 10. Proof. unfold late_of. destruct (Rle_lt_dec t 10); [discriminate|lra]. Qed.
Lemma step10 : -0.0000042 <= G true 10 - G false 10 <= 0.
Proof.
  assert (E : er 10 (mpoly true) - er 10 (mpoly false) = FR (-0.866)).
  { unfold mpoly, mexpr, mF. cbv zeta. cbn [n_ltb late_arith early_arith n_sub n_add n_mul n_div n_lit late_ltb early_ltb]. change (lit_eqb 0 0 && lit_eqb 10 10) with true. cbn [bind okE er map msum]. fexact 10%float l10. unfold Rdiv. replace (FR 10) with 10 by lra. ring. }
  unfold G, moon. pose proof spr as SP. set (q := FR SECOND_PER_RAD) in *. clearbody q. fexact (-0.866)%float l8. set (s := sun 10). set (m := tot MALL 10). clearbody s m.
  replace ((er 10 (mpoly true) + m) / q + FR (-3.4e-6) - s - ((er 10 (mpoly false) + m) / q + FR (-3.4e-6) - s)) with ((er 10 (mpoly true) - er 10 (mpoly false)) / q) by (field; lra). rewrite E.
  split; apply Rmult_le_reg_r with q; try lra; unfold Rdiv; rewrite Rmult_assoc, Rinv_l, Rmult_1_r by lra; lra.
Qed.
Lemma GG_slope t u : span t -> span u -> t <= u -> 6275 * (u - t) - 0.0000042 <= GG u - GG t <= 9270 * (u - t).
Proof.
  intros Ht Hu L. unfold GG. pose proof step10 as S. unfold late_of, span in *. destruct (Rle_lt_dec t 10) as [Ct|Ct], (Rle_lt_dec u 10) as [Cu|Cu]; try lra.
  - pose proof (G_slope false t u ltac:(cbn [zone]; lra) ltac:(cbn [zone]; lra) L). lra.
  - pose proof (G_slope false t 10 ltac:(cbn [zone]; lra) ltac:(cbn [zone]; lra) ltac:(lra)). pose proof (G_slope true 10 u ltac:(cbn [zone]; lra) ltac:(cbn [zone]; lra) ltac:(lra)). lra.
  - pose proof (G_slope true t u ltac:(cbn [zone]; lra) ltac:(cbn [zone]; lra) L). lra.
Qed.
Definition far (c : R) : Prop := c <= 9.9999995 \/ 10.0000005 <= c.
Lemma GG_far t u : span t -> span u -> far t \/ far u -> t <= u -> GG t <= GG u.
Proof.
  intros Ht Hu Fr L. pose proof (GG_slope t u Ht Hu L) as S. unfold GG in *. unfold late_of, span, far in *. destruct (Rle_lt_dec t 10) as [Ct|Ct], (Rle_lt_dec u 10) as [Cu|Cu]; try lra.
  - pose proof (G_slope false t u ltac:(cbn [zone]; lra) ltac:(cbn [zone]; lra) L). lra.
  - pose proof (G_slope true t u ltac:(cbn [zone]; lra) ltac:(cbn [zone]; lra) L). lra.
Qed.
Lemma code_at fsin fcos t : libm fsin fcos -> FIN t -> span (FR t) -> exists x, msaLon (float_arith fsin fcos) t (-1) (-1) = Ok x /\ FIN x /\ Rabs (FR x - GG (FR t)) <= 7 / 100000000.
Proof. intros lib F H. exact (code_err fsin fcos (late_of (FR t)) t lib F (late_zone _ H) (late_10 _)). Qed.
(** ** The check *)
Definition B1 : float := 0.0088%float.
Definition B2 : float := 0.0022%float.
Definition B3 : float := 0.00047%float.
Definition B4 : float := 0.0000002%float.
(** [x] is below, or above, [w] by more than [b] *)
Definition side (hi : bool) (b w x : float) : bool := if hi then PrimFloat.ltb (w + b)%float x else PrimFloat.ltb x (w - b)%float.
Definition try (hi : bool) (b w c : float) (rows : list (list row6)) (srows : list (list row3)) : bool := match msaF QA c rows srows with Ok x => side hi b w x | Raise _ => false end.
Definition decide (hi : bool) (w c : float) : bool := if try hi B1 w c R1 S1 then true else if try hi B2 w c R2 S2 then true else if try hi B3 w c R3 S3 then true else try hi B4 w c MALL ELALL.
(** a moment after the beginning, or before the end, of day [N] *)
Definition edge_time (hi : bool) (N : Z) : option float :=
  (let x := float_of_Z N + (if hi then 0.4999999 else -0.4999999) - ONE_THIRD in
   match dtT QA x with
   | Ok d0 => match dtT QA (x + d0) with
     | Ok d1 => let c := (x + d1) / 36525 in
       match dtT QA (c * 36525) with
       | Ok d => let z := c * 36525 - d + ONE_THIRD in let e := z - float_of_Z N in
           if PrimFloat.ltb (-0.49999995) e then if PrimFloat.ltb e 0.49999995 then if PrimFloat.ltb (-5000000) z then if PrimFloat.ltb z 5000000 then Some c else None else None else None else None
       | Raise _ => None end
     | Raise _ => None end
   | Raise _ => None end)%float.
Definition inside (c : float) : bool := if PrimFloat.ltb 10.000001 c then PrimFloat.ltb c 60.9 else if PrimFloat.ltb c 9.999999 then PrimFloat.ltb (-3.9) c else false.
(** one evaluation at the beginning [a] of the day often decides for its end [b] as well, as the difference grows by at least 6275 rad a century *)
Definition wide_day (a b : float) : bool := PrimFloat.ltb 0.000027365 (b - a)%float.
Definition both (w a b : float) : bool := match msaF QA a R1 S1 with
  | Ok x => if side false B1 w x then if PrimFloat.ltb (w - 0.1628)%float x then if wide_day a b then true else decide true w b else decide true w b
            else if decide false w a then decide true w b else false
  | Raise _ => false end.
Definition edges (k N : Z) : bool := match edge_time false N, edge_time true N with
  | Some a, Some b => if inside a then if inside b then both (moon_w k) a b else false else false
  | _, _ => false end.
(** the number of the new moon near day [N], counted from that of 2000-01-06 *)
Definition conj_k (N : Z) : Z := ((10000 * (N + 10)) / 295306)%Z.
Definition steady (N : Z) : bool := let r := ((10000 * (N + 10)) mod 295306)%Z in if (25306 <=? r)%Z then (r <? 270612)%Z else false.
Definition conjb (N : Z) : bool := if steady N then edges (conj_k N) N else false.
(** ** What it shows *)
Definition day_of (A : Arith) (t : num A) : res Z := let x := n_mul A t (n_lit A 36525) in let! d := dtT A x in half_floor A (n_add A (n_sub A x d) (n_lit A ONE_THIRD)).
Lemma side_ok hi b w x g beta k : FIN x -> FIN w -> FIN b -> 0 <= FR b <= 1 -> Rabs (FR w - 2 * Rtrigo1.PI * IZR k) <= / 1000000000 -> Rabs (FR w) <= 600000 -> Rabs (FR x - g) <= beta -> beta + 15 / 100000000 <= FR b -> side hi b w x = true ->
  if hi then 2 * Rtrigo1.PI * IZR k + 14 / 100000000 < g else g < 2 * Rtrigo1.PI * IZR k - 14 / 100000000.
Proof.
  intros Fx Fw Fb Bb Nw Bw Nx Hb. apply Rabs_le_inv in Nw, Bw, Nx. unfold side. destruct hi; intros H.
  - destruct (fadd_b w b 700000 Fw Fb ltac:(lra) ltac:(lra)) as (F1 & _ & N1). nea. apply ltb_dec in H; [|assumption..]. lra.
  - destruct (fsub_b w b 700000 Fw Fb ltac:(lra) ltac:(lra)) as (F1 & _ & N1). nea. apply ltb_dec in H; [|assumption..]. lra.
Qed.
Lemma moon_w_ok k : (-6000 <= k <= 90000)%Z -> FIN (moon_w k) /\ Rabs (FR (moon_w k) - 2 * Rtrigo1.PI * IZR k) <= / 1000000000 /\ Rabs (FR (moon_w k)) <= 600000.
Proof.
  intros H. destruct (float_of_Z_spec k ltac:(lia)) as [Fk Ek]. pose proof PI_val as V. pose proof PI_fin as FP. pose proof pi_bounds as P. unfold pi2z in P. change (IZR (2 ^ 80)) with 1208925819614629174706176 in P. change (1898976236818169290393996 + 1)%Z with 1898976236818169290393997%Z in P. assert (K : -6000 <= IZR k <= 90000) by (split; apply IZR_le; lia). unfold moon_w.
  assert (B : Rabs (IZR k * FR ShouXing.PI) <= 90000 * 3.15) by (apply Rmul_abs; apply Rabs_le; lra). assert (D : Rabs (IZR k * (FR ShouXing.PI - Rtrigo1.PI)) <= 90000 * / 500000000000000) by (apply Rmul_abs; apply Rabs_le; [lra|]; fexact ShouXing.PI lp; lra).
  apply Rabs_le_inv in B, D. destruct (fmul_b (float_of_Z k) ShouXing.PI 290000 Fk FP ltac:(rewrite Ek; lra) ltac:(lra)) as (F1 & _ & N1). nea. rewrite Ek in N1. flit 2%float F2 V2. fexact 2%float l2.
  destruct (fmul_b _ 2%float 590000 F1 F2 ltac:(rewrite l2; lra) ltac:(lra)) as (F3 & _ & N3). nea. rewrite l2 in N3. split; [exact F3|]. split; apply Rabs_le; lra.
Qed.

Lemma try_ok hi b w c rows srows beta k : (exists x, msaF QA c rows srows = Ok x /\ FIN x /\ Rabs (FR x - GG (FR c)) <= beta) -> FIN w -> FIN b -> 0 <= FR b <= 1 -> Rabs (FR w - 2 * Rtrigo1.PI * IZR k) <= / 1000000000 -> Rabs (FR w) <= 600000 ->
  beta + 15 / 100000000 <= FR b -> try hi b w c rows srows = true -> if hi then 2 * Rtrigo1.PI * IZR k + 14 / 100000000 < GG (FR c) else GG (FR c) < 2 * Rtrigo1.PI * IZR k - 14 / 100000000.
Proof. intros (x & E & Fx & Nx) Fw Fb Bb Nw Bw Hb H. unfold try in H. rewrite E in H. exact (side_ok hi b w x (GG (FR c)) beta k Fx Fw Fb Bb Nw Bw Nx Hb H). Qed.
Lemma decide_ok hi k c : (-6000 <= k <= 90000)%Z -> FIN c -> span (FR c) -> decide hi (moon_w k) c = true -> if hi then 2 * Rtrigo1.PI * IZR k + 14 / 100000000 < GG (FR c) else GG (FR c) < 2 * Rtrigo1.PI * IZR k - 14 / 100000000.
Proof.
  intros Hk Fc Sc. destruct (moon_w_ok k Hk) as (Fw & Nw & Bw). unfold decide. pose proof (late_zone _ Sc) as Z. pose proof (late_10 (FR c)) as L. unfold GG in *.
  flit B1 Fb1 Vb1. flit B2 Fb2 Vb2. flit B3 Fb3 Vb3. flit B4 Fb4 Vb4.
  destruct (try hi B1 (moon_w k) c R1 S1) eqn:T1; [intros _; exact (try_ok _ _ _ _ _ _ _ k (quick1 _ _ Fc Z L) Fw Fb1 ltac:(lra) Nw Bw ltac:(lra) T1)|].
  destruct (try hi B2 (moon_w k) c R2 S2) eqn:T2; [intros _; exact (try_ok _ _ _ _ _ _ _ k (quick2 _ _ Fc Z L) Fw Fb2 ltac:(lra) Nw Bw ltac:(lra) T2)|].
  destruct (try hi B3 (moon_w k) c R3 S3) eqn:T3; [intros _; exact (try_ok _ _ _ _ _ _ _ k (quick3 _ _ Fc Z L) Fw Fb3 ltac:(lra) Nw Bw ltac:(lra) T3)|].
  intros T4. exact (try_ok _ _ _ _ _ _ _ k (quick4 _ _ Fc Z L) Fw Fb4 ltac:(lra) Nw Bw ltac:(lra) T4).
Qed.
Lemma inside_ok c : inside c = true -> FIN c /\ -3.91 <= FR c <= 60.91 /\ far (FR c).
Proof.
  unfold inside, span, far. destruct (PrimFloat.ltb 10.000001 c) eqn:C1; [intros C2|destruct (PrimFloat.ltb c 9.999999) eqn:C2; [|discriminate]; intros C3].
  - assert (F : FIN c) by exact (ltb_fin _ _ _ C1 C2). fin_cmp C1. fin_cmp C2. fexact 10.000001%float l1. fexact 60.9%float l2. split; [exact F|]. split; [lra|right; lra].
  - assert (F : FIN c) by exact (ltb_fin _ _ _ C3 C2). fin_cmp C2. fin_cmp C3. fexact 9.999999%float l1. fexact (-3.9)%float l2. split; [exact F|]. split; [lra|left; lra].
Qed.
Lemma half_floor_near f g x n : FIN x -> Rabs (FR x - IZR n) <= 0.4999999 + 0.00000006 -> (Z.abs n <= 4000000)%Z -> half_floor (float_arith f g) x = Ok n.
Proof.
  intros F B Bn. apply Rabs_le_inv in B. assert (Bz : -4000000 <= IZR n <= 4000000) by (split; [apply (IZR_le (-4000000))|apply IZR_le]; lia).
  unfold half_floor. cbn [n_floor n_add n_lit float_arith]. fexact 0.5%float l5. flit 0.5%float F5 V5.
  destruct (fadd_b x 0.5%float 5000000 F F5 ltac:(lra) ltac:(lra)) as (F1 & _ & N1). nea. rewrite (py_floor_spec _ F1). f_equal. apply Zfloor_imp; rewrite plus_IZR; lra.
Qed.
Lemma edge_time_ok f g hi N c : (Z.abs N <= 4000000)%Z -> edge_time hi N = Some c -> day_of (float_arith f g) c = Ok N.
Proof.
  intros BN. unfold edge_time. cbv zeta. match goal with |- context [dtT QA ?x] => destruct (dtT QA x) as [d0|] end; [|discriminate].
  match goal with |- context [dtT QA (?x + d0)%float] => destruct (dtT QA (x + d0)%float) as [d1|] end; [|discriminate].
  match goal with |- context [dtT QA (?y * 36525)%float] => set (e := y) end. destruct (dtT QA (e * 36525)%float) as [d|] eqn:Ed; [|discriminate].
  set (z := (e * 36525 - d + ONE_THIRD)%float). destruct (PrimFloat.ltb (-0.49999995) (z - float_of_Z N)) eqn:C1; [|discriminate]. destruct (PrimFloat.ltb (z - float_of_Z N) 0.49999995) eqn:C2; [|discriminate].
  destruct (PrimFloat.ltb (-5000000) z) eqn:C3; [|discriminate]. destruct (PrimFloat.ltb z 5000000) eqn:C4; [|discriminate]. intros H. injection H as <-.
  unfold day_of. cbn [n_mul n_lit n_add n_sub float_arith]. cbv zeta. assert (Ed' : dtT (float_arith f g) (e * 36525)%float = Ok d) by exact Ed. rewrite Ed'. cbn [bind]. change (half_floor (float_arith f g) z = Ok N).
  assert (Fz : FIN z) by exact (ltb_fin _ _ _ C3 C4). assert (Fe : FIN (z - float_of_Z N)%float) by exact (ltb_fin _ _ _ C1 C2). clearbody z. destruct (float_of_Z_spec N ltac:(lia)) as [FN EN].
  fin_cmp C1. fin_cmp C2. fin_cmp C3. fin_cmp C4. fexact 5000000%float l5. fexact (-5000000)%float l6. fexact 0.49999995%float l7. fexact (-0.49999995)%float l8.
  assert (BZ : -4000000 <= IZR N <= 4000000) by (split; [apply (IZR_le (-4000000))|apply IZR_le]; lia).
  destruct (fsub_b z (float_of_Z N) 10000000 Fz FN ltac:(rewrite EN; lra) ltac:(lra)) as (_ & _ & N1). nea. rewrite EN in N1. apply half_floor_near; [exact Fz|apply Rabs_le; lra|exact BN].
Qed.
(** On civil day [N] the moon overtakes the sun for the [k]-th time since 2000-01-06: up to a moment [a] of that day its longitude less that of the sun
    is below, from a later moment [b] of the same day on it is above [k] revolutions. *)
Definition new_moon_on (f g : float -> float) (k N : Z) : Prop := let A := float_arith f g in let turn := 2 * Rtrigo1.PI * IZR k in
  exists a b, FIN a /\ FIN b /\ -3.91 <= FR a /\ FR a < FR b /\ FR b <= 60.91 /\ day_of A a = Ok N /\ day_of A b = Ok N /\
    (forall t, FIN t -> -3.95 <= FR t <= FR a -> exists x, msaLon A t (-1) (-1) = Ok x /\ FIN x /\ FR x < turn) /\
    (forall t, FIN t -> FR b <= FR t <= 60.95 -> exists x, msaLon A t (-1) (-1) = Ok x /\ FIN x /\ turn < FR x).
Lemma both_ok k a b : (-6000 <= k <= 90000)%Z -> FIN a -> FIN b -> -3.91 <= FR a <= 60.91 -> -3.91 <= FR b <= 60.91 -> both (moon_w k) a b = true ->
  GG (FR a) < 2 * Rtrigo1.PI * IZR k - 14 / 100000000 /\ 2 * Rtrigo1.PI * IZR k + 14 / 100000000 < GG (FR b).
Proof.
  intros Hk Fa Fb Ba Bb H. assert (Sa : span (FR a)) by (unfold span; lra). assert (Sb : span (FR b)) by (unfold span; lra). destruct (moon_w_ok k Hk) as (Fw & Nw & Bw).
  pose proof (decide_ok true k b Hk Fb Sb) as DB. pose proof (decide_ok false k a Hk Fa Sa) as DA. cbv iota in DA, DB. unfold both in H. revert H DA DB. set (w := moon_w k) in *. clearbody w. intros H DA DB.
  destruct (quick1 _ _ Fa (late_zone _ Sa) (late_10 (FR a))) as (x & E & Fx & Nx). change (G (late_of (FR a)) (FR a)) with (GG (FR a)) in Nx. rewrite E in H. clear E. flit B1 F1 V1.
  destruct (side false B1 w x) eqn:T; [|destruct (decide false w a); [|discriminate]; auto].
  pose proof (side_ok false B1 w x (GG (FR a)) 0.0087 k Fx Fw F1 ltac:(lra) Nw Bw Nx ltac:(lra) T) as GA. cbv iota in GA. split; [exact GA|].
  destruct (PrimFloat.ltb (w - 0.1628)%float x) eqn:C1; [|auto]. destruct (wide_day a b) eqn:C2; [|auto]. unfold wide_day in C2. clear H DA DB.
  apply Rabs_le_inv in Nw, Bw, Nx. flit 0.1628%float F2 V2. destruct (fsub_b w 0.1628%float 700000 Fw F2 ltac:(lra) ltac:(lra)) as (F3 & _ & N3). nea. apply ltb_dec in C1; [|assumption..].
  destruct (fsub_b b a 70 Fb Fa ltac:(lra) ltac:(lra)) as (F4 & _ & N4). nea. flit 0.000027365%float F5 V5. apply ltb_dec in C2; [|assumption..].
  pose proof (GG_slope (FR a) (FR b) Sa Sb ltac:(lra)) as S. lra.
Qed.
Lemma edges_ok f g k N : edges k N = true -> (-6000 <= k <= 90000)%Z -> (Z.abs N <= 4000000)%Z -> exists a b,
  FIN a /\ -3.91 <= FR a <= 60.91 /\ far (FR a) /\ day_of (float_arith f g) a = Ok N /\ GG (FR a) < 2 * Rtrigo1.PI * IZR k - 14 / 100000000 /\
  FIN b /\ -3.91 <= FR b <= 60.91 /\ far (FR b) /\ day_of (float_arith f g) b = Ok N /\ 2 * Rtrigo1.PI * IZR k + 14 / 100000000 < GG (FR b).
Proof.
  unfold edges. destruct (edge_time false N) as [a|] eqn:Ea; [|discriminate]. destruct (edge_time true N) as [b|] eqn:Eb; [|discriminate]. destruct (inside a) eqn:Ia; [|discriminate]. destruct (inside b) eqn:Ib; [|discriminate]. intros D Hk HN.
  destruct (inside_ok a Ia) as (Fa & Ba & Ra), (inside_ok b Ib) as (Fb & Bb & Rb). destruct (both_ok k a b Hk Fa Fb Ba Bb D) as [GA GB].
  exists a, b. pose proof (edge_time_ok f g false N a HN Ea). pose proof (edge_time_ok f g true N b HN Eb). tauto.
Qed.
Theorem conjb_ok f g N : libm f g -> conjb N = true -> (-150000 <= N <= 2600000)%Z -> new_moon_on f g (conj_k N) N.
Proof.
  intros lib H HN. unfold conjb in H. destruct (steady N); [|discriminate]. assert (Hk : (-6000 <= conj_k N <= 90000)%Z). { unfold conj_k. split; [apply Z.div_le_lower_bound; lia|apply Z.div_le_upper_bound; lia]. }
  destruct (edges_ok f g _ _ H Hk ltac:(lia)) as (a & b & Fa & Ba & Ra & Da & Ga & Fb & Bb & Rb & Db & Gb). set (k := conj_k N) in *.
  exists a, b. do 2 (split; [assumption|]). split; [lra|]. split. { destruct (Rlt_le_dec (FR a) (FR b)) as [L|L]; [exact L|]. pose proof (GG_far (FR b) (FR a) ltac:(unfold span; lra) ltac:(unfold span; lra) ltac:(auto) L). lra. }
  split; [lra|]. do 2 (split; [assumption|]). split; intros t Ft Bt.
  - destruct (code_at f g t lib Ft ltac:(unfold span; lra)) as (x & Ex & Fx & Nx). exists x. do 2 (split; [assumption|]). pose proof (GG_far (FR t) (FR a) ltac:(unfold span; lra) ltac:(unfold span; lra) ltac:(auto) ltac:(lra)). apply Rabs_le_inv in Nx. lra.
  - destruct (code_at f g t lib Ft ltac:(unfold span; lra)) as (x & Ex & Fx & Nx). exists x. do 2 (split; [assumption|]). pose proof (GG_far (FR b) (FR t) ltac:(unfold span; lra) ltac:(unfold span; lra) ltac:(auto) ltac:(lra)). apply Rabs_le_inv in Nx. lra.
Qed.
Lemma conj_next N n : conjb N = true -> (27 <= n <= 32)%Z -> conj_k (N + n) = (conj_k N + 1)%Z.
Proof.
  unfold conjb, steady, conj_k. intros H Hn. set (p := (10000 * (N + 10))%Z) in *. replace (10000 * (N + n + 10))%Z with (p + 10000 * n)%Z by (unfold p; ring). pose proof (Z.div_mod p 295306 ltac:(lia)) as D.
  destruct (Z.leb_spec 25306 (p mod 295306)) as [A|A]; [|discriminate H]. destruct (Z.ltb_spec (p mod 295306) 270612) as [B|B]; [|discriminate H].
  symmetry. apply Z.div_unique with (p mod 295306 + 10000 * n - 295306)%Z; lia.
Qed.
