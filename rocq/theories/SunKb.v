(** The days of the solar terms in the calendars before 1645 (the linear formulas of util/ShouXingUtil.py calcQi) against their instants. *)
From Coq Require Import ZArith Lia Reals Lra Psatz.
From Flocq Require Import Core BinarySingleNaN PrimFloat.
From Coq Require Import Bool List Floats.
From Verif Require Import Py PyFloat FloatFacts FloatTac JulianDay T_ShouXing ShouXing FloatExpr Trig SunLon SunDt SunTerm SunQi.
Import ListNotations.
Open Scope R_scope.
Local Set Warnings "-inexact-float".

(** the largest terms of the longitude *)
Definition S_ref : list terms := Eval vm_compute in map (filter (fun '(a, _, _) => PrimFloat.ltb 50000 a)) (firstn 3 S_all).
Definition E_ref : expr := Eval vm_compute in lon_expr S_ref.
Lemma d_ref : chk 17 (ediff E_all E_ref) (-1737300) 1737300 (-18728300000) 18728300000 10000000000000 = true. Proof. vm_cast_no_check (eq_refl true). Qed.
Lemma b_ref : chk 17 E_ref (-133503430000000) 133538500000000 0 70000000000000 130 = true. Proof. vm_cast_no_check (eq_refl true). Qed.

(** The latest difference of times, in seconds, of the 50 years from [50 b]. *)
Definition dt_tab : list Z := [10740; 10270; 9800; 9160; 8680; 8200; 7720; 7230; 6750; 6250; 5740; 5260]%Z.
Definition dt_max (b : Z) : Z := nth (Z.to_nat b) dt_tab 12802%Z.
Lemma dt_tab_ok : forallb (fun b => dt_in ((50 * b - 3) * P2) ((50 * b + 53) * P2) (-900 * P2) (dt_max b * P2))%Z (zrange 0 12) = true.
Proof. vm_compute. reflexivity. Qed.

(** Is term [k] at most 5 days away from [N] (ten thousandths of a day from J2000)?  By the mean motion: *)
Definition mean_z (k N : Z) : Z := (1521842457 * k - 10000 * N)%Z.
Definition not_late (m : Z) : bool := (m <=? 28454470000 - 278700000 + 499900000)%Z.
Definition not_early (m : Z) : bool := (28454470000 + 225800000 - 499900000 <=? m)%Z.
(** ... or by the longitude 5 days before it, [h] being the greatest difference of times: *)
Definition early_m (N h : Z) : Z := (100 * N - 4999000 - 333330 + (h * 1000000 / 86400 + 3))%Z.
Definition early_x (N h : Z) : float := (float_of_Z (early_m N h) / 365250000000)%float.
Definition not_early' (k N h : Z) : bool :=
  match py_floor (ef rsin rcos (early_x N h) E_ref * 10000000)%float with
  | Ok z => (z + 2 + 1738 + 31415927 - 1000 + 4312 <=? k * 26179938779914 / 10000000 - 1)%Z
  | Raise _ => false
  end.
Definition near_term (y k N : Z) : bool := let m := mean_z k N in not_late m && (if not_early m then true else (y <? 600)%Z && (N <=? 0)%Z && not_early' k N (dt_max (y / 50))).
Definition X0 (y : Z) : float := (float_of_Z (y - 2000) * 365.2422 + 355)%float.
Definition Xi (y i : Z) : float := (X0 y - 365.2422 + 15.2184 * float_of_Z i)%float.
Definition kb_fits (y k i q : Z) : bool :=
  near_term y k (10000 * q) &&
  (if (i =? 0)%Z then near_term y (k - 1) (10000 * q - 152184) else true) &&
  (if (i =? 25)%Z then forallb (fun m => near_term y (k + m) (10000 * q + 152184 * m)) [1; 2; 3; 4]%Z else true).
(** ... and is [q] so near the mean position of [k] that the multiple [k] is tried first? *)
Definition kb_near (k q : Z) : bool := let m := mean_z k (10000 * q) in (28454470000 - 650000000 <=? m)%Z && (m <=? 28454470000 + 780000000)%Z.
Definition f1 : float := (1640650.479938 - 7)%float.
Definition kb_check (y : Z) : bool :=
  forallb (fun i =>
    let J := (Xi y i + 2451545)%float in
    if PrimFloat.ltb J f2 then
      PrimFloat.leb f1 J && negb (PrimFloat.ltb J f1) && negb (PrimFloat.leb 2436935 J) &&
      match kb_day (J + 7)%float QI_ROWS QI_END with Ok q => kb_fits y (24 * (y - 2000) + 18 + i) i q && kb_near (24 * (y - 2000) + 18 + i) q | Raise _ => false end
    else true) (zrange 0 26).

(** The same, most of it in floats. *)
Definition kb_quick (k q : Z) : bool :=
  (-1000000 <=? q)%Z && (q <=? 1000000)%Z && (let d := float_of_Z k * 15.2184245676 - 284.5447 - float_of_Z q in PrimFloat.ltb (-2.73) d && PrimFloat.ltb d 2.2)%float.
Definition kb_check' (y : Z) : bool :=
  forallb (fun i =>
    let J := (Xi y i + 2451545)%float in
    if PrimFloat.ltb J f2 then
      PrimFloat.leb f1 J && negb (PrimFloat.ltb J f1) && negb (PrimFloat.leb 2436935 J) &&
      match kb_day (J + 7)%float QI_ROWS QI_END with
      | Ok q => let k := (24 * (y - 2000) + 18 + i)%Z in if kb_quick k q && negb (i =? 0)%Z && negb (i =? 25)%Z then true else kb_fits y k i q && kb_near k q
      | Raise _ => false
      end
    else true) (zrange 0 26).
Lemma kb_quick_ok y k i q : (-50000 <= k <= 0)%Z -> i <> 0%Z -> i <> 25%Z -> kb_quick k q = true -> kb_fits y k i q && kb_near k q = true.
Proof.
  intros Hk I0 I25 H. unfold kb_quick in H. cbv zeta in H. apply andb_true_iff in H. destruct H as [H1 H]. apply andb_true_iff in H1. destruct H1 as [H1 H2]. apply andb_true_iff in H. destruct H as [H3 H4]. apply Z.leb_le in H1, H2.
  destruct (float_of_Z_spec k ltac:(lia)) as [Fk Vk]. destruct (float_of_Z_spec q ltac:(lia)) as [Fq Vq]. assert (HK : -50000 <= IZR k <= 0) by (split; apply IZR_le; lia). assert (HQ : -1000000 <= IZR q <= 1000000) by (split; apply IZR_le; lia).
  assert (G1 : FIN 15.2184245676%float /\ 15.21842456759 <= FR 15.2184245676%float <= 15.21842456761) by (flit 15.2184245676%float F1 V1; split; [exact F1|lra]). destruct G1 as [F1 V1].
  assert (G2 : FIN 284.5447%float /\ 284.5446999 <= FR 284.5447%float <= 284.5447001) by (flit 284.5447%float F2 V2; split; [exact F2|lra]). destruct G2 as [F2 V2].
  assert (G3 : FIN (-2.73)%float /\ -2.730001 <= FR (-2.73)%float <= -2.729999) by (flit (-2.73)%float F3 V3; split; [exact F3|lra]). destruct G3 as [F3 V3].
  assert (G4 : FIN 2.2%float /\ 2.199999 <= FR 2.2%float <= 2.200001) by (flit 2.2%float F4 V4; split; [exact F4|lra]). destruct G4 as [F4 V4].
  assert (X : Rabs (FR (float_of_Z k) * FR 15.2184245676%float - 15.21842457 * IZR k) <= 0.0002).
  { rewrite Vk. replace (IZR k * FR 15.2184245676%float - 15.21842457 * IZR k) with (IZR k * (FR 15.2184245676%float - 15.21842457)) by ring. replace 0.0002 with (50000 * 0.000000004) by lra. apply Rmul_abs; apply Rabs_le; lra. }
  apply Rabs_le_inv in X. destruct (fmul_b (float_of_Z k) 15.2184245676%float 800000 Fk F1 ltac:(lra) ltac:(lra)) as (F5 & _ & N5). unfold near, eps52 in N5.
  destruct (fsub_b _ 284.5447%float 900000 F5 F2 ltac:(lra) ltac:(lra)) as (F6 & _ & N6). unfold near, eps52 in N6.
  destruct (fsub_b _ (float_of_Z q) 2000000 F6 Fq ltac:(lra) ltac:(lra)) as (F7 & _ & N7). unfold near, eps52 in N7. rewrite Vq in N7.
  apply fltb_spec in H3; [|assumption..]. apply fltb_spec in H4; [|assumption..].
  assert (L : 15.21842457 * IZR k - IZR q <= 284.5447 + 2.21 /\ 284.5447 - 2.74 <= 15.21842457 * IZR k - IZR q) by lra. clear - L I0 I25. destruct L as [L1 L2].
  assert (M : (1521842457 * k - 10000 * (10000 * q) <= 28454470000 + 221000000 /\ 28454470000 - 274000000 <= 1521842457 * k - 10000 * (10000 * q))%Z).
  { split; apply le_IZR; rewrite plus_IZR || rewrite minus_IZR; rewrite ?minus_IZR, !mult_IZR; lra. }
  unfold kb_fits, kb_near, near_term, not_late, not_early, mean_z. cbv zeta. replace (i =? 0)%Z with false by (symmetry; apply Z.eqb_neq; exact I0). replace (i =? 25)%Z with false by (symmetry; apply Z.eqb_neq; exact I25).
  destruct M as [M1 M2]. set (m := (1521842457 * k - 10000 * (10000 * q))%Z) in *. clearbody m.
  assert (E1 : (m <=? 28454470000 - 278700000 + 499900000)%Z = true) by (apply Z.leb_le; lia). assert (E2 : (28454470000 + 225800000 - 499900000 <=? m)%Z = true) by (apply Z.leb_le; lia).
  assert (E3 : (28454470000 - 650000000 <=? m)%Z = true) by (apply Z.leb_le; lia). assert (E4 : (m <=? 28454470000 + 780000000)%Z = true) by (apply Z.leb_le; lia). rewrite E1, E2, E3, E4. reflexivity.
Qed.
Lemma kb_check_old y : (0 <= y < 1660)%Z -> kb_check' y = true -> kb_check y = true.
Proof.
  intros Hy H. unfold kb_check', kb_check in *. apply forallb_forall. intros i Ii. rewrite forallb_forall in H. specialize (H i Ii). apply in_zrange in Ii. cbv beta zeta in *.
  destruct (PrimFloat.ltb _ f2); [|reflexivity]. apply andb_true_iff in H. destruct H as [H1 H2]. rewrite H1. cbn [andb]. destruct (kb_day _ _ _) as [q|]; [|discriminate].
  destruct (kb_quick _ q && negb (i =? 0)%Z && negb (i =? 25)%Z) eqn:E; [|exact H2]. apply andb_true_iff in E. destruct E as [E E3]. apply andb_true_iff in E. destruct E as [E1 E2].
  apply negb_true_iff, Z.eqb_neq in E2, E3. apply kb_quick_ok; [lia|exact E2|exact E3|exact E1].
Qed.

Section LIB.
Context {fsin fcos : float -> float} (lib : libm fsin fcos).
Notation A := (float_arith fsin fcos).
Notation is_term := (@SunTerm.is_term fsin fcos).
(** [k] is at most 5 days from [N] *)
Definition fits (k N : Z) : Prop := forall T, is_term k T -> Rabs (FR T - IZR N / 10000) <= 4.9992.

Lemma is_term_fine k T : is_term k T -> k_ok k -> exists t d, FIN t /\ FIN T /\ dtT A (t * 36525)%float = Ok d /\ Rabs (FR (t * 36525)%float - 36525 * FR t) <= / 10000000 /\ at_term k (FR T) (FR t) (FR d).
Proof.
  intros (w & W & E) K. pose proof (proj1 W) as F. pose proof (proj2 W) as W'. pose proof (theta_bnd k K) as B. apply Rabs_le_inv in W'. revert E.
  destruct (saLonT_ok lib w F ltac:(apply Rabs_le; lra)) as (t & E & _ & _ & _). destruct (saLonT_fin lib w t k W K E) as (Ft & Bt & Lt & Ot).
  unfold qiAccurate. rewrite E. cbn [bind]. cbn [n_mul n_lit n_add n_sub float_arith].
  pose proof (La_mean lib (FR t) ltac:(lra)) as M. assert (MM : Rabs (36525 * FR t - mean k) <= 10) by (apply Rabs_le_inv in Lt, M; unfold mean; apply Rabs_le; lra).
  destruct (compose t 0%float Ft ltac:(lra)) as (F1 & N1 & _); [flit 0%float F0 V0; exact F0|flit 0%float F0 V0; apply Rabs_le; lra|].
  destruct (dtT_at lib _ k (FR t) F1 ltac:(lra) K MM) as (d & Ed & Fd & Bd & Vd). rewrite Ed. cbn [bind].
  destruct (compose t d Ft ltac:(lra) Fd Bd) as (_ & _ & F2 & N2). intros E'. assert (T = t * 36525 - d + ONE_THIRD)%float as -> by congruence.
  exists t, d. split; [exact Ft|]. split; [exact F2|]. split; [exact Ed|]. split; [exact N1|]. now split.
Qed.
(** a term of the years up to 1650 *)
Definition k_kb (y k : Z) : Prop := (0 <= y < 1660)%Z /\ (24 * (y - 2000) + 17 <= k <= 24 * (y - 2000) + 47)%Z.
Lemma kb_old y k : k_kb y k -> k_old k. Proof. unfold k_kb, k_old. lia. Qed.
Lemma kb_year y k t : k_kb y k -> Rabs (36525 * t - mean k) <= 2.441 -> IZR y - 1 <= yr (36525 * t) <= IZR y + 2.
Proof.
  intros K M. pose proof (mean_lin k (old_ok k (kb_old y k K))) as L. destruct K as [[Y1 Y2] [K1 K2]]. apply IZR_le in Y1, K1, K2. apply IZR_lt in Y2.
  rewrite plus_IZR, mult_IZR, minus_IZR in K1, K2. apply Rabs_le_inv in M. unfold yr. lra.
Qed.
Lemma coarse y k T : k_kb y k -> is_term k T -> mean k - 2.2561 <= FR T <= mean k + 2.786.
Proof.
  intros K I. pose proof (kb_old y k K) as O. destruct (is_term_fine k T I (old_ok k O)) as (t & d & _ & _ & _ & _ & H).
  destruct (mean_at lib _ _ _ _ H) as [_ M]. specialize (M O). pose proof (kb_year y k _ K M) as Y. assert (IZR y <= 1660) by (apply IZR_le; unfold k_kb in K; lia).
  destruct (at_d _ _ _ _ H) as [D _]. specialize (D ltac:(lra)). pose proof (at_T _ _ _ _ H) as E. apply Rabs_le_inv in E, M. lra.
Qed.
Lemma not_late_ok y k N T : k_kb y k -> is_term k T -> not_late (mean_z k N) = true -> FR T - IZR N / 10000 <= 4.9992.
Proof.
  intros K I H. pose proof (coarse y k T K I) as C. pose proof (mean_lin k (old_ok k (kb_old y k K))) as L. unfold not_late, mean_z in H. apply Z.leb_le, IZR_le in H.
  rewrite plus_IZR, !minus_IZR, !mult_IZR in H. assert (B : -48000 <= IZR k <= 0) by (split; apply IZR_le; unfold k_kb in K; lia). lra.
Qed.
Lemma not_early_ok y k N T : k_kb y k -> is_term k T -> not_early (mean_z k N) = true -> -4.999 <= FR T - IZR N / 10000.
Proof.
  intros K I H. pose proof (coarse y k T K I) as C. pose proof (mean_lin k (old_ok k (kb_old y k K))) as L. unfold not_early, mean_z in H. apply Z.leb_le, IZR_le in H.
  rewrite !minus_IZR, plus_IZR, !mult_IZR in H. assert (B : -48000 <= IZR k <= 0) by (split; apply IZR_le; unfold k_kb in K; lia). lra.
Qed.
Lemma div_lb a b : (0 < b)%Z -> IZR (a / b) * IZR b <= IZR a < IZR (a / b) * IZR b + IZR b.
Proof.
  intros H. pose proof (Z.div_mod a b ltac:(lia)) as E. pose proof (Z.mod_pos_bound a b H) as M. rewrite <- mult_IZR, <- plus_IZR. split; [apply IZR_le|apply IZR_lt]; lia.
Qed.
Lemma not_early'_ok y k N h T : k_kb y k -> is_term k T -> not_early (mean_z k N) = false -> not_late (mean_z k N) = true -> (N <= 0)%Z -> (0 <= h <= 13000)%Z -> not_early' k N h = true ->
  (forall t d, FIN t -> dtT A t = Ok d -> IZR y - 1.1 <= yr (FR t) <= IZR y + 2.1 -> 86400 * FR d <= IZR h + / 100) -> -4.9992 <= FR T - IZR N / 10000.
Proof.
  intros K I NE NL HN Hh H D. pose proof (kb_old y k K) as O. pose proof (mean_lin k (old_ok k O)) as L. assert (Bk : -48000 <= IZR k <= 0) by (split; apply IZR_le; unfold k_kb in K; lia).
  (* the size of N *)
  unfold not_early, not_late, mean_z in NE, NL. apply Z.leb_gt, IZR_lt in NE. apply Z.leb_le, IZR_le in NL. rewrite !minus_IZR, plus_IZR, !mult_IZR in NE. rewrite plus_IZR, !minus_IZR, !mult_IZR in NL.
  apply IZR_le in HN. assert (BN : -7400000000 <= IZR N <= 0) by lra. clear NE NL.
  unfold not_early' in H. set (x := early_x N h) in *. set (m := early_m N h) in *.
  assert (Em : 100 * IZR N - 5332328 + IZR h * 1000000 / 86400 <= IZR m <= 100 * IZR N - 5332326.9 + IZR h * 1000000 / 86400).
  { unfold m, early_m. pose proof (div_lb (h * 1000000) 86400 ltac:(lia)) as Q. rewrite !plus_IZR, !minus_IZR, !mult_IZR in *. lra. }
  assert (Bh : 0 <= IZR h <= 13000) by (split; apply IZR_le; lia).
  assert (Bm : (-9007199254740992 <= m <= 9007199254740992)%Z) by (split; apply le_IZR; lra).
  destruct (float_of_Z_spec m ltac:(lia)) as [Fm Vm]. fval 365250000000%float 365250000000 e1.
  destruct (fdiv_b (float_of_Z m) 365250000000%float 10 Fm ltac:(lra) ltac:(rewrite Vm, e1; lra) ltac:(lra)) as (Fx & _ & Nx). rewrite Vm, e1 in Nx. change (float_of_Z m / 365250000000)%float with x in *. nea.
  assert (Bx : Rabs (FR x) <= IZR 17 / 8) by (apply Rabs_le; lra).
  destruct (chk_ok _ _ libm_ref _ _ _ _ _ _ _ b_ref) as (Vr & _ & Rr). destruct (Rr x Fx Bx) as [Fv Ev]. specialize (Vr _ Bx).
  destruct (chk_ok _ _ libm_ref _ _ _ _ _ _ _ d_ref) as (Vd & _ & _). specialize (Vd _ Bx). rewrite ediff_ok in Vd. set (v := ef rsin rcos x E_ref) in *. un. apply Rabs_le_inv in Ev.
  fval 10000000%float 10000000 e7. flit 10000000%float F7 V7.
  destruct (fmul_b v 10000000%float 200000000000 Fv F7 ltac:(rewrite e7; lra) ltac:(lra)) as (Fz & _ & Nz). rewrite e7 in Nz. nea. rewrite (py_floor_spec _ Fz) in H.
  set (z := Zfloor _) in H. pose proof (Zfloor_ub (FR (v * 10000000)%float)) as Uz. fold z in Uz. apply Z.leb_le, IZR_le in H. rewrite !minus_IZR, !plus_IZR, minus_IZR, !plus_IZR in H.
  pose proof (div_lb (k * 26179938779914) 10000000 ltac:(lia)) as Qk. rewrite mult_IZR in Qk.
  assert (Th : IZR k * 0.26179938779914 - 0.000000001 <= theta k).
  { pose proof PI_val. unfold theta. assert (G : Rabs (IZR k * (FR PI / 12 - 0.26179938779914)) <= 48000 * / 50000000000000) by (apply Rmul_abs; apply Rabs_le; lra). apply Rabs_le_inv in G. lra. }
  assert (Lx : La (10 * FR x) <= theta k - 0.000431).
  { unfold La. replace (10 * FR x / 10) with (FR x) by field. pose proof PI_val. lra. }
  destruct (is_term_fine k T I (old_ok k O)) as (t & d & Ft & FT & Ed & Nt & AT). destruct (mean_at lib _ _ _ _ AT) as [_ M]. specialize (M O). pose proof (kb_year y k _ K M) as Y.
  destruct (at_old _ _ _ _ AT O) as [Bt Lt]. pose proof (at_T _ _ _ _ AT) as ET. apply Rabs_le_inv in Lt, ET, Nt.
  assert (Fp : FIN (t * 36525)%float).
  { fval 36525%float 36525 e3. flit 36525%float F3 V3. apply Rabs_le_inv in Bt. destruct (fmul_b t 36525%float 3000000 Ft F3 ltac:(rewrite e3; lra) ltac:(lra)) as (Fp & _). exact Fp. }
  specialize (D _ _ Fp Ed ltac:(unfold yr in *; lra)).
  assert (C : 10 * FR x <= FR t).
  { destruct (Rle_lt_dec (10 * FR x) (FR t)) as [C|C]; [exact C|exfalso]. apply Rabs_le_inv in Bx. pose proof (La_slopes lib (FR t) (10 * FR x) ltac:(lra) ltac:(apply Rabs_le; lra) ltac:(lra)) as S. lra. }
  lra.
Qed.
Lemma dt_max_ok y t d : (0 <= y < 600)%Z -> FIN t -> dtT A t = Ok d -> IZR y - 1.1 <= yr (FR t) <= IZR y + 2.1 -> 86400 * FR d <= IZR (dt_max (y / 50)) + / 100.
Proof.
  intros Hy F E Y. pose proof (forallb_zrange _ _ _ dt_tab_ok (y / 50)%Z ltac:(split; [apply Z.div_pos; lia|apply Z.div_lt_upper_bound; lia])) as K. set (b := (y / 50)%Z) in *. cbv beta in K.
  pose proof (Z.div_mod y 50 ltac:(lia)) as Q. pose proof (Z.mod_pos_bound y 50 ltac:(lia)) as M. fold b in Q.
  assert (B : IZR (50 * b) <= IZR y <= IZR (50 * b + 49)) by (split; apply IZR_le; lia). rewrite plus_IZR, mult_IZR in B.
  pose proof (dtT_in lib _ _ _ _ t d K F) as D. rewrite !sc_int, minus_IZR, plus_IZR, mult_IZR in D. specialize (D ltac:(lra) E). lra.
Qed.
Lemma dt_max_b b : (0 <= dt_max b <= 13000)%Z.
Proof.
  unfold dt_max. generalize (Z.to_nat b). intros n. destruct (nth_in_or_default n dt_tab 12802%Z) as [I| ->]; [|lia].
  assert (F : forallb (fun x => (0 <=? x) && (x <=? 13000))%Z dt_tab = true) by reflexivity. rewrite forallb_forall in F. specialize (F _ I). lia.
Qed.
Lemma near_term_ok y k N : k_kb y k -> near_term y k N = true -> fits k N.
Proof.
  intros K H T I. unfold near_term in H. cbv zeta in H. apply andb_true_iff in H. destruct H as [NL H]. pose proof (not_late_ok y k N T K I NL) as U.
  assert (L : -4.9992 <= FR T - IZR N / 10000).
  { destruct (not_early (mean_z k N)) eqn:NE; [pose proof (not_early_ok y k N T K I NE); lra|]. apply andb_true_iff in H. destruct H as [H E]. apply andb_true_iff in H. destruct H as [H HN].
    apply Z.ltb_lt in H. apply Z.leb_le in HN. apply (not_early'_ok y k N _ T K I NE NL HN (dt_max_b (y / 50)) E). intros t d F Et Y. apply (dt_max_ok y t d); try assumption. unfold k_kb in K. lia. }
  apply Rabs_le. lra.
Qed.
Definition all_fit (k i q : Z) : Prop :=
  fits k (10000 * q) /\ (i = 0%Z -> fits (k - 1) (10000 * q - 152184)) /\ (i = 25%Z -> forall m, (1 <= m <= 4)%Z -> fits (k + m) (10000 * q + 152184 * m)).
Lemma kb_fits_ok y i q : (0 <= y < 1660)%Z -> (0 <= i <= 25)%Z -> kb_fits y (24 * (y - 2000) + 18 + i) i q = true -> all_fit (24 * (y - 2000) + 18 + i) i q.
Proof.
  intros Hy Hi H. unfold kb_fits in H. apply andb_true_iff in H. destruct H as [H H3]. apply andb_true_iff in H. destruct H as [H1 H2]. split; [|split].
  - apply (near_term_ok y); [unfold k_kb; lia|exact H1].
  - intros E. rewrite E in H2 |- *. apply (near_term_ok y); [unfold k_kb; lia|exact H2].
  - intros E m Hm. rewrite E in H3 |- *. change (25 =? 25)%Z with true in H3. cbv iota in H3. rewrite forallb_forall in H3. apply (near_term_ok y); [unfold k_kb; lia|]. apply H3. cbn [In]. lia.
Qed.
Lemma kb_near_ok k q : k_old k -> kb_near k q = true -> -7.82 <= IZR q - mean k <= 6.52.
Proof.
  intros O H. unfold kb_near, mean_z in H. cbv zeta in H. apply andb_true_iff in H. destruct H as [H1 H2]. apply Z.leb_le, IZR_le in H1, H2.
  repeat rewrite ?plus_IZR, ?minus_IZR, ?mult_IZR in H1; repeat rewrite ?plus_IZR, ?minus_IZR, ?mult_IZR in H2. pose proof (mean_lin k (old_ok k O)) as L. assert (HK : -49000 <= IZR k <= 49000) by (split; apply IZR_le; unfold k_old in O; lia). lra.
Qed.
(** the days at which the terms of year [y] are sought *)
Lemma X0_at y : (-30 <= y <= 10000)%Z -> FIN (X0 y) /\ Rabs (FR (X0 y) - (365.2422 * IZR (y - 2000) + 355)) <= / 10000000.
Proof.
  intros Hy. destruct (float_of_Z_spec (y - 2000) ltac:(lia)) as [F E]. assert (B : -2030 <= IZR (y - 2000) <= 8000) by (split; apply IZR_le; lia). unfold X0.
  flit 365.2422%float F1 V1. set (c := FR 365.2422%float) in *. assert (Vc : -/ 10000000000000 <= c - 365.2422 <= / 10000000000000) by lra. clear V1. fval 355%float 355 e5. flit 355%float F5 V5.
  assert (P : Rabs (IZR (y - 2000) * (c - 365.2422)) <= 8000 * / 10000000000000) by (apply Rmul_abs; apply Rabs_le; lra). apply Rabs_le_inv in P.
  destruct (fmul_b (float_of_Z (y - 2000)) 365.2422%float 4000000 F F1 ltac:(rewrite E; fold c; lra) ltac:(lra)) as (F2 & _ & N2). rewrite E in N2. fold c in N2. nea.
  destruct (fadd_b _ 355%float 4000000 F2 F5 ltac:(lra) ltac:(lra)) as (F3 & _ & N3). rewrite e5 in N3. nea. split; [exact F3|]. apply Rabs_le. lra.
Qed.
Lemma X0_k y : (-30 <= y <= 10000)%Z -> at_k (X0 y) (24 * (y - 2000) + 42).
Proof.
  intros Hy. destruct (X0_at y Hy) as [F E]. apply Rabs_le_inv in E. split; [exact F|]. rewrite plus_IZR, mult_IZR. assert (B : -2030 <= IZR (y - 2000) <= 8000) by (split; apply IZR_le; lia). lra.
Qed.
Lemma Xi_k y i : (-30 <= y <= 10000)%Z -> (0 <= i <= 26)%Z -> at_k (Xi y i) (24 * (y - 2000) + 18 + i) /\ Rabs (FR (Xi y i) - (365.2422 * IZR (y - 2000) - 10.2422 + 15.2184 * IZR i)) <= / 1000000.
Proof.
  intros Hy Hi. destruct (X0_at y Hy) as [F E]. apply Rabs_le_inv in E. assert (B : -2030 <= IZR (y - 2000) <= 8000) by (split; apply IZR_le; lia). assert (Bi : 0 <= IZR i <= 26) by (split; apply IZR_le; lia). unfold Xi.
  destruct (float_of_Z_spec i ltac:(lia)) as [Fi Ei]. flit 365.2422%float F1 V1. flit 15.2184%float F2 V2. set (c := FR 365.2422%float) in *. set (c' := FR 15.2184%float) in *.
  assert (P : Rabs (IZR i * (c' - 15.2184)) <= 26 * / 10000000000000) by (apply Rmul_abs; apply Rabs_le; lra). apply Rabs_le_inv in P.
  destruct (fsub_b (X0 y) 365.2422%float 4000000 F F1 ltac:(fold c; lra) ltac:(lra)) as (F3 & _ & N3). fold c in N3. nea.
  destruct (fmul_b 15.2184%float (float_of_Z i) 1000 F2 Fi ltac:(rewrite Ei; fold c'; lra) ltac:(lra)) as (F4 & _ & N4). rewrite Ei in N4. fold c' in N4. nea.
  destruct (fadd_b _ _ 4000000 F3 F4 ltac:(lra) ltac:(lra)) as (F5 & _ & N5). nea.
  assert (Q : Rabs (FR (X0 y - 365.2422 + 15.2184 * float_of_Z i)%float - (365.2422 * IZR (y - 2000) - 10.2422 + 15.2184 * IZR i)) <= / 1000000) by (apply Rabs_le; lra).
  split; [|exact Q]. apply Rabs_le_inv in Q. split; [exact F5|]. rewrite !plus_IZR, mult_IZR. lra.
Qed.
End LIB.
