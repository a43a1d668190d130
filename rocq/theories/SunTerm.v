(** The instants of the solar terms (util/ShouXingUtil.py qiAccurate, qiAccurate2), in binary64, for every C library with [libm]. *)
From Coq Require Import ZArith Lia Reals Lra Psatz.
From Flocq Require Import Core BinarySingleNaN PrimFloat.
From Coq Require Import Bool List Floats.
From Verif Require Import Py PyFloat FloatFacts FloatTac JulianDay T_ShouXing ShouXing FloatExpr SunLon SunDt.
Import ListNotations.
Open Scope R_scope.
Local Set Warnings "-inexact-float".

(** the longitude of term [k]: multiples of 15 degrees *)
Definition theta (k : Z) : R := IZR k * (FR PI / 12).
Lemma PI_val : 3.14159265358979 <= FR PI <= 3.1415926535898.
Proof. flit PI F Vp. lra. Qed.
Lemma PI_fin : FIN PI. Proof. flit PI F Vp. exact F. Qed.
Definition is_w (k : Z) (w : float) : Prop := FIN w /\ Rabs (FR w - theta k) <= / 1000000000.
(** the terms in question: years -40 .. 10000, and those up to 4040 *)
Definition k_ok (k : Z) : Prop := (-49000 <= k <= 192300)%Z.
Definition k_old (k : Z) : Prop := (-49000 <= k <= 49000)%Z.
(** what is known of the difference of times at [t] centuries *)
Definition Dd (t d : R) : Prop :=
  (yr (36525 * t) <= 2026 -> -902 <= 86400 * d <= 12802) /\
  (1902 <= yr (36525 * t) -> Rabs (86400 * d - V (yr (36525 * t))) <= 182).

Section LIB.
Context {fsin fcos : float -> float} (lib : libm fsin fcos).
Notation A := (float_arith fsin fcos).
Definition is_term (k : Z) (T : float) : Prop := exists w, is_w k w /\ qiAccurate A w = Ok T.

Lemma theta_bnd k : k_ok k -> -12829 <= theta k <= 50345.
Proof. intros [H1 H2]. apply IZR_le in H1, H2. unfold theta. pose proof PI_val. nra. Qed.
Lemma theta_old k : k_old k -> -12829 <= theta k <= 12829.
Proof. intros [H1 H2]. apply IZR_le in H1, H2. unfold theta. pose proof PI_val. nra. Qed.

Lemma old_ok k : k_old k -> k_ok k. Proof. unfold k_old, k_ok. lia. Qed.
Lemma Rmul_abs a b x y : Rabs x <= a -> Rabs y <= b -> Rabs (x * y) <= a * b.
Proof. intros Ha Hb. rewrite Rabs_mult. apply Rmult_le_compat; try apply Rabs_pos; assumption. Qed.
(** the mean position of term [k] *)
Definition mean (k : Z) : R := 36525 * (theta k - FR PI - 1.753370456) / 628.33196674749.

(** [t], [d]: the time in centuries and the correction from which the instant is composed *)
Record at_term (k : Z) (T t d : R) : Prop := mkAt {
  at_t : Rabs t <= 80.7;
  at_La : Rabs (La t - theta k) <= 0.00183;
  at_old : k_old k -> Rabs t <= 20.95 /\ Rabs (La t - theta k) <= 0.000431;
  at_T : Rabs (T - (36525 * t - d + / 3)) <= / 1000000;
  at_d : Dd t d
}.
Lemma mean_at k T t d : at_term k T t d -> Rabs (36525 * t - mean k) <= 6.02 /\ (k_old k -> Rabs (36525 * t - mean k) <= 2.441).
Proof.
  intros H. split.
  - pose proof (at_La _ _ _ _ H) as L. pose proof (La_mean lib t ltac:(pose proof (at_t _ _ _ _ H); lra)) as M. apply Rabs_le_inv in L, M. unfold mean. apply Rabs_le. lra.
  - intros O. destruct (at_old _ _ _ _ H O) as [Ht L]. pose proof (La_means lib t ltac:(lra)) as M. apply Rabs_le_inv in L, M. unfold mean. apply Rabs_le. lra.
Qed.
Lemma mean_bnd k : k_ok k -> -746100 <= mean k <= 2926300.
Proof. intros H. pose proof (theta_bnd k H). pose proof PI_val. unfold mean. lra. Qed.
Lemma saLonT_fin w t k : is_w k w -> k_ok k -> saLonT A w = Ok t ->
  FIN t /\ Rabs (FR t) <= 80.7 /\ Rabs (La (FR t) - theta k) <= 0.00183 /\ (k_old k -> Rabs (FR t) <= 20.95 /\ Rabs (La (FR t) - theta k) <= 0.000431).
Proof.
  intros [F W] K E. pose proof (theta_bnd k K) as B. apply Rabs_le_inv in W. 
  destruct (saLonT_ok lib w F ltac:(apply Rabs_le; lra)) as (t0 & E0 & F0 & B0 & L0). rewrite E in E0. injection E0 as <-.
  split; [exact F0|]. split; [lra|]. split; [apply Rabs_le_inv in L0; apply Rabs_le; lra|]. intros O. pose proof (theta_old k O) as Bo.
  destruct (saLonT_oks lib w F ltac:(apply Rabs_le; lra)) as (t1 & E1 & F1 & B1 & L1). rewrite E in E1. injection E1 as <-.
  split; [lra|]. apply Rabs_le_inv in L1; apply Rabs_le; lra.
Qed.
(** [x * 36525 - d + ONE_THIRD] *)
Lemma compose x d : FIN x -> Rabs (FR x) <= 81 -> FIN d -> Rabs (FR d) <= 4 ->
  FIN (x * 36525)%float /\ Rabs (FR (x * 36525)%float - 36525 * FR x) <= / 10000000 /\
  FIN (x * 36525 - d + ONE_THIRD)%float /\ Rabs (FR (x * 36525 - d + ONE_THIRD)%float - (36525 * FR x - FR d + / 3)) <= / 1000000.
Proof.
  intros F B Fd Bd. apply Rabs_le_inv in B, Bd. flit 36525%float F1 V1. assert (E1 : FR 36525 = 36525) by lra. flit ONE_THIRD F2 V2.
  destruct (fmul_b x 36525%float 3000000 F F1 ltac:(rewrite E1; lra) ltac:(lra)) as (F3 & _ & N3). rewrite E1 in N3. nea.
  destruct (fsub_b _ d 3000000 F3 Fd ltac:(lra) ltac:(lra)) as (F4 & _ & N4). nea.
  destruct (fadd_b _ ONE_THIRD 3000000 F4 F2 ltac:(lra) ltac:(lra)) as (F5 & _ & N5). nea.
  split; [exact F3|]. split; [apply Rabs_le; lra|]. split; [exact F5|]. apply Rabs_le. lra.
Qed.
Lemma V_small x : 1900 <= x <= 10090 -> -20 <= V x <= 220000. Proof. unfold V. intros. nra. Qed.
Lemma V_lip x y : 1900 <= x <= 10090 -> 1900 <= y <= 10090 -> Rabs (V x - V y) <= 52 * Rabs (x - y).
Proof.
  intros Hx Hy. replace (V x - V y) with ((31 / 10000 * (x + y - 3640)) * (x - y)) by (unfold V; field). rewrite Rabs_mult. apply Rmult_le_compat_r; [apply Rabs_pos|]. apply Rabs_le. lra.
Qed.
Lemma dtT_at (t : float) k T0 : FIN t -> Rabs (FR t - (36525 * T0)) <= / 1000000 -> k_ok k -> Rabs (36525 * T0 - mean k) <= 10 ->
  exists d, dtT A t = Ok d /\ FIN d /\ Rabs (FR d) <= 4 /\ Dd T0 (FR d).
Proof.
  intros F N K M. pose proof (mean_bnd k K) as MB. apply Rabs_le_inv in M. apply Rabs_le_inv in N.
  assert (B : Rabs (FR t) <= 3000000) by (apply Rabs_le; lra).
  assert (Y : - / 100000 <= yr (FR t) - yr (36525 * T0) <= / 100000) by (unfold yr; lra).
  assert (Y0 : -149 <= yr (FR t) <= 10080) by (unfold yr; lra).
  destruct (Rlt_le_dec (yr (FR t)) 1901.5) as [C|C].
  - destruct (dtT_old lib t F ltac:(lra)) as (d & E & Fd & Vd). exists d. split; [exact E|]. split; [exact Fd|]. split; [apply Rabs_le; lra|]. split; intros G; [|lra]. lra.
  - destruct (dtT_new lib t F B ltac:(lra)) as (d & E & Fd & Vd). exists d. split; [exact E|]. split; [exact Fd|].
    pose proof (V_small (yr (FR t)) ltac:(lra)) as VS. split; [apply Rabs_le_inv in Vd; apply Rabs_le; lra|]. split; intros G.
    + destruct (dtT_old lib t F ltac:(lra)) as (d' & E' & _ & Vd'). rewrite E in E'. injection E' as <-. lra.
    + pose proof (V_lip (yr (FR t)) (yr (36525 * T0)) ltac:(lra) ltac:(lra)) as VL. assert (Rabs (yr (FR t) - yr (36525 * T0)) <= / 100000) by (apply Rabs_le; lra).
      apply Rabs_le_inv in Vd. assert (VL' : Rabs (V (yr (FR t)) - V (yr (36525 * T0))) <= 0.001) by lra. apply Rabs_le_inv in VL'. apply Rabs_le. lra.
Qed.
Lemma term_at_ok k w : is_w k w -> k_ok k -> exists T t d, qiAccurate A w = Ok T /\ FIN T /\ at_term k (FR T) t d.
Proof.
  intros W K. pose proof (proj1 W) as F. pose proof (proj2 W) as W'. pose proof (theta_bnd k K) as B. apply Rabs_le_inv in W'.
  destruct (saLonT_ok lib w F ltac:(apply Rabs_le; lra)) as (t & E & _ & _ & _). destruct (saLonT_fin w t k W K E) as (Ft & Bt & Lt & Ot).
  unfold qiAccurate. rewrite E. cbn [bind]. cbn [n_mul n_lit n_add n_sub float_arith].
  pose proof (La_mean lib (FR t) ltac:(lra)) as M. assert (MM : Rabs (36525 * FR t - mean k) <= 10) by (apply Rabs_le_inv in Lt, M; unfold mean; apply Rabs_le; lra).
  destruct (compose t 0%float Ft ltac:(lra)) as (F1 & N1 & _); [flit 0%float F0 V0; exact F0|flit 0%float F0 V0; apply Rabs_le; lra|].
  destruct (dtT_at _ k (FR t) F1 ltac:(lra) K MM) as (d & -> & Fd & Bd & Vd). cbn [bind].
  destruct (compose t d Ft ltac:(lra) Fd Bd) as (_ & _ & F2 & N2). exists (t * 36525 - d + ONE_THIRD)%float, (FR t), (FR d). split; [reflexivity|]. split; [exact F2|].
  now split.
Qed.
Lemma is_term_at k T : is_term k T -> k_ok k -> FIN T /\ exists t d, at_term k (FR T) t d.
Proof.
  intros (w & W & E) K. destruct (term_at_ok k w W K) as (T' & t & d & E' & F & H). rewrite E in E'. injection E' as <-. eauto.
Qed.

(** ** Successive terms *)
Lemma yr_mean k t : k_ok k -> Rabs (36525 * t - mean k) <= 6.02 -> -43 <= yr (36525 * t) <= 10013.
Proof. intros K M. pose proof (mean_bnd k K). apply Rabs_le_inv in M. unfold yr. lra. Qed.
Lemma d_bnd k T t d : at_term k T t d -> k_ok k -> -0.0105 <= d <= 2.42.
Proof.
  intros H K. pose proof (yr_mean k t K (proj1 (mean_at _ _ _ _ H))) as Y. destruct (at_d _ _ _ _ H) as [D1 D2].
  destruct (Rle_lt_dec (yr (36525 * t)) 2026) as [C|C]; [specialize (D1 C); lra|]. specialize (D2 ltac:(lra)). apply Rabs_le_inv in D2.
  assert (-20 <= V (yr (36525 * t)) <= 208500) by (unfold V; nra). lra.
Qed.
Lemma d_diff k T t d k' T' t' d' : at_term k T t d -> at_term k' T' t' d' -> k_ok k -> k_ok k' -> Rabs (36525 * t' - 36525 * t) <= 70 ->
  Rabs (d' - d) <= 0.15862 /\ (1990 <= yr (36525 * t) -> Rabs (d' - d) <= 0.00434).
Proof.
  intros H H' K K' G. pose proof (yr_mean k t K (proj1 (mean_at _ _ _ _ H))) as Y. pose proof (yr_mean k' t' K' (proj1 (mean_at _ _ _ _ H'))) as Y'.
  destruct (at_d _ _ _ _ H) as [D1 D2]. destruct (at_d _ _ _ _ H') as [D1' D2'].
  assert (YY : Rabs (yr (36525 * t') - yr (36525 * t)) <= 0.192) by (apply Rabs_le_inv in G; unfold yr; apply Rabs_le; lra).
  assert (N : 1990 <= yr (36525 * t) -> Rabs (d' - d) <= 0.00434).
  { intros C. pose proof YY as YY'. apply Rabs_le_inv in YY'. specialize (D2 ltac:(lra)). specialize (D2' ltac:(lra)).
    pose proof (V_lip (yr (36525 * t')) (yr (36525 * t)) ltac:(lra) ltac:(lra)) as VL. assert (VL' : Rabs (V (yr (36525 * t')) - V (yr (36525 * t))) <= 10) by lra.
    apply Rabs_le_inv in D2, D2', VL'. apply Rabs_le. lra. }
  split; [|exact N]. destruct (Rle_lt_dec 1990 (yr (36525 * t))) as [C|C]; [specialize (N C); lra|].
  apply Rabs_le_inv in YY. specialize (D1 ltac:(lra)). specialize (D1' ltac:(lra)). apply Rabs_le. lra.
Qed.
Lemma theta_add k n : theta (k + n) = theta k + IZR n * (FR PI / 12).
Proof. unfold theta. rewrite plus_IZR. ring. Qed.
Lemma slope_gap (L : R -> R) B s1 s2 a b c e : (forall t u, Rabs t <= B -> Rabs u <= B -> t <= u -> s1 * (u - t) <= L u - L t <= s2 * (u - t)) ->
  0 < s1 -> 0 < s2 -> Rabs a <= B -> Rabs b <= B -> 0 < c <= L b - L a -> L b - L a <= e -> c <= s2 * (b - a) /\ s1 * (b - a) <= e.
Proof.
  intros S P1 P2 Ha Hb Hc He. destruct (Rle_lt_dec a b) as [C|C].
  - specialize (S a b Ha Hb C). lra.
  - specialize (S b a Hb Ha ltac:(lra)). nra.
Qed.
Lemma gap_t k n T t d T' t' d' : at_term k T t d -> at_term (k + n) T' t' d' -> (1 <= n <= 4)%Z ->
  (14.346 * IZR n - 0.2007 <= 36525 * t' - 36525 * t <= 16.2034 * IZR n + 0.2266) /\
  (k_old k -> k_old (k + n) -> 14.6358 * IZR n - 0.0483 <= 36525 * t' - 36525 * t <= 15.8491 * IZR n + 0.0523).
Proof.
  intros H H' Hn. assert (Hn' : 1 <= IZR n <= 4) by (split; apply IZR_le; lia). pose proof PI_val as PV. set (m := IZR n) in *.
  assert (Q : 0.26179938779 * m <= m * (FR PI / 12) <= 0.26179938780 * m) by nra.
  split; [|intros O O'].
  - pose proof (at_La _ _ _ _ H) as L. pose proof (at_La _ _ _ _ H') as L'. rewrite theta_add in L'. fold m in L'. apply Rabs_le_inv in L, L'.
    destruct (slope_gap La 81 590.138 666.5251 t t' (0.26179938779 * m - 0.00366) (0.26179938780 * m + 0.00366) (La_slope lib)) as [G1 G2];
      [lra|lra|pose proof (at_t _ _ _ _ H); lra|pose proof (at_t _ _ _ _ H'); lra|lra|lra|]. lra.
  - destruct (at_old _ _ _ _ H O) as [B L]. destruct (at_old _ _ _ _ H' O') as [B' L']. rewrite theta_add in L'. fold m in L'. apply Rabs_le_inv in L, L'.
    destruct (slope_gap La 21 603.332 653.332 t t' (0.26179938779 * m - 0.000862) (0.26179938780 * m + 0.000862) (La_slopes lib)) as [G1 G2]; lra.
Qed.
(** ... are so many days apart *)
Lemma gap k n T t d T' t' d' : at_term k T t d -> at_term (k + n) T' t' d' -> (1 <= n <= 4)%Z -> k_ok k -> k_ok (k + n) ->
  (14.346 * IZR n - 0.21 <= T' - T <= 16.2034 * IZR n + 0.235) /\ (k_old (k + n) -> 14.6358 * IZR n - 0.21 <= T' - T <= 15.8491 * IZR n + 0.215).
Proof.
  intros H H' Hn K K'. destruct (gap_t _ _ _ _ _ _ _ _ H H' Hn) as [G1 G2]. assert (Hn' : 1 <= IZR n <= 4) by (split; apply IZR_le; lia).
  destruct (d_diff _ _ _ _ _ _ _ _ H H' K K' ltac:(apply Rabs_le; lra)) as [D1 D2].
  pose proof (at_T _ _ _ _ H) as E. pose proof (at_T _ _ _ _ H') as E'. apply Rabs_le_inv in E, E'.
  assert (X : k_old (k + n) -> 14.6358 * IZR n - 0.21 <= T' - T <= 15.8491 * IZR n + 0.215).
  { intros O. apply Rabs_le_inv in D1. specialize (G2 ltac:(unfold k_old, k_ok in *; lia) O). lra. }
  split; [|exact X]. destruct (Z_le_gt_dec (k + n) 49000) as [C|C]; [specialize (X ltac:(unfold k_old, k_ok in *; lia)); lra|].
  assert (Y : 1990 <= yr (36525 * t)).
  { pose proof (proj1 (mean_at _ _ _ _ H)) as M. apply Rabs_le_inv in M. assert (Hk : (48900 <= k)%Z) by lia. apply IZR_le in Hk.
    assert (12000 <= theta k) by (unfold theta; pose proof PI_val; nra). pose proof PI_val. unfold mean in M. unfold yr. lra. }
  specialize (D2 Y). apply Rabs_le_inv in D2. lra.
Qed.

Lemma mean_lin k : k_ok k -> 15.2184245676 * IZR k - 0.001 <= mean k + 284.5447 <= 15.2184245676 * IZR k + 0.001.
Proof.
  intros K. assert (HK : -49000 <= IZR k <= 192300) by (split; apply IZR_le; unfold k_ok in K; lia). pose proof PI_val as PV.
  assert (P : Rabs (IZR k * (FR PI / 12 - 0.261799387799149)) <= 200000 * / 1000000000000) by (apply Rmul_abs; apply Rabs_le; lra).
  apply Rabs_le_inv in P. unfold mean, theta. lra.
Qed.
(** ** The choice of the term nearest a day *)
Definition k_in (k : Z) : Prop := (-48990 <= k <= 192290)%Z.
Lemma PI12 : FIN (PI / 12)%float /\ Rabs (FR (PI / 12)%float - FR PI / 12) <= / 1000000000000000.
Proof.
  pose proof PI_val. flit 12%float F1 V1. assert (E : FR 12 = 12) by lra.
  destruct (fdiv_b PI 12%float 1 PI_fin ltac:(lra) ltac:(rewrite E; lra) ltac:(lra)) as (F & _ & N). rewrite E in N. nea. split; [exact F|].
  apply Rabs_le. lra.
Qed.
Lemma w_err k : k_ok k -> FIN (float_of_Z k * (PI / 12))%float /\ Rabs (FR (float_of_Z k * (PI / 12))%float - theta k) <= 6 * / 10000000000.
Proof.
  intros K. pose proof (theta_bnd k K) as B. destruct PI12 as [F1 N1]. destruct (float_of_Z_spec k ltac:(unfold k_ok in K; lia)) as [F2 E2]. apply Rabs_le_inv in N1.
  assert (HK : -49000 <= IZR k <= 192300) by (split; apply IZR_le; unfold k_ok in K; lia).
  assert (P : - / 1000000000 <= 2 * (FR (float_of_Z k) * FR (PI / 12)%float - theta k) <= / 1000000000).
  { rewrite E2. unfold theta. replace (IZR k * FR (PI / 12)%float - IZR k * (FR PI / 12)) with (IZR k * (FR (PI / 12)%float - FR PI / 12)) by ring.
    assert (X : Rabs (IZR k * (FR (PI / 12)%float - FR PI / 12)) <= 200000 * / 1000000000000000) by (apply Rmul_abs; apply Rabs_le; lra). apply Rabs_le_inv in X. lra. }
  destruct (fmul_b (float_of_Z k) (PI / 12)%float 60000 F2 F1 ltac:(lra) ltac:(lra)) as (F & _ & N). nea. split; [exact F|]. apply Rabs_le. lra.
Qed.
Lemma w_of_k k : k_ok k -> is_w k (float_of_Z k * (PI / 12))%float.
Proof. intros K. destruct (w_err k K) as [F E]. split; [exact F|lra]. Qed.
Lemma w_prev k : k_ok k -> is_w (k - 1) (float_of_Z k * (PI / 12) - PI / 12)%float.
Proof.
  intros K. destruct (w_err k K) as [F E]. destruct PI12 as [F1 N1]. pose proof (theta_bnd k K) as B. pose proof PI_val. apply Rabs_le_inv in E, N1.
  destruct (fsub_b _ _ 60000 F F1 ltac:(lra) ltac:(lra)) as (F' & _ & N). nea. split; [exact F'|]. replace (k - 1)%Z with (k + (-1))%Z by lia. rewrite theta_add. apply Rabs_le. lra.
Qed.
Lemma w_next k : k_ok k -> is_w (k + 1) (float_of_Z k * (PI / 12) + PI / 12)%float.
Proof.
  intros K. destruct (w_err k K) as [F E]. destruct PI12 as [F1 N1]. pose proof (theta_bnd k K) as B. pose proof PI_val. apply Rabs_le_inv in E, N1.
  destruct (fadd_b _ _ 60000 F F1 ltac:(lra) ltac:(lra)) as (F' & _ & N). nea. split; [exact F'|]. rewrite theta_add. apply Rabs_le. lra.
Qed.
Lemma term_of k : k_ok k -> exists T t d, is_term k T /\ FIN T /\ at_term k (FR T) t d.
Proof.
  intros K. destruct (term_at_ok k _ (w_of_k k K) K) as (T & t & d & E & F & H). exists T, t, d. split; [|auto]. exists (float_of_Z k * (PI / 12))%float. split; [now apply w_of_k|exact E].
Qed.
(** [floor((jd + c) / 365.2422 * 24)] *)
Lemma k_index (X c : float) r : FIN X -> FIN c -> FR c = r -> Rabs (FR X) <= 6000000 -> Rabs r <= 6000000 -> 
  FIN ((X + c) / 365.2422 * 24)%float /\ Rabs (FR ((X + c) / 365.2422 * 24)%float - (FR X + r) * 24 / 365.2422) <= / 1000000.
Proof.
  intros F Fc <- B Bc. apply Rabs_le_inv in B, Bc. flit 365.2422%float F1 V1. flit 24%float F2 V2. assert (E2 : FR 24 = 24) by lra.
  destruct (fadd_b X c 12000000 F Fc ltac:(lra) ltac:(lra)) as (F3 & _ & N3). nea. set (a := (X + c)%float) in *. set (v := FR 365.2422%float) in *.
  assert (Vq : - / 1000000000000 <= v - 365.2422 <= / 1000000000000) by lra. clear V1. set (x := FR a) in *.
  assert (Bx : -12000001 <= x <= 12000001) by lra. set (x' := FR X + FR c) in *.
  assert (Q : - 32900 <= x / v <= 32900) by (split; apply Rmult_le_reg_r with v; try lra; unfold Rdiv; rewrite Rmult_assoc, Rinv_l by lra; lra).
  destruct (fdiv_b a 365.2422%float 33000 F3 ltac:(fold v; lra) ltac:(fold v x; lra) ltac:(lra)) as (F4 & _ & N4). fold v x in N4. nea.
  destruct (fmul_b _ 24%float 800000 F4 F2 ltac:(rewrite E2; lra) ltac:(lra)) as (F5 & _ & N5). rewrite E2 in N5. nea. split; [exact F5|].
  assert (D : - / 1000000000 <= x / v - x' / 365.2422 <= / 1000000000).
  { replace (x / v - x' / 365.2422) with (((x - x') - x / v * (v - 365.2422)) / 365.2422) by (field; lra).
    assert (G : Rabs (x / v * (v - 365.2422)) <= 33000 * / 1000000000000) by (apply Rmul_abs; apply Rabs_le; lra). apply Rabs_le_inv in G. lra. }
  apply Rabs_le. lra.
Qed.
Lemma qiAccurate2_ok X k : FIN X -> k_in k -> (forall T, is_term k T -> Rabs (FR T - FR X) <= 4.9995) -> exists T, qiAccurate2 A X = Ok T /\ is_term k T /\
  (IZR k + 0.01 <= (FR X + 293) * 24 / 365.2422 <= IZR k + 0.99 -> qiAccurate A (float_of_Z k * (PI / 12))%float = Ok T).
Proof.
  intros F K N. assert (K0 : k_ok k) by (unfold k_in, k_ok in *; lia). assert (Kp : k_ok (k + 1)) by (unfold k_in, k_ok in *; lia). assert (Km : k_ok (k - 1)) by (unfold k_in, k_ok in *; lia).
  destruct (term_of k K0) as (T & t & d & IT & FT & AT). pose proof (N T IT) as NT. apply Rabs_le_inv in NT.
  pose proof (d_bnd _ _ _ _ AT K0) as Bd. pose proof (proj1 (mean_at _ _ _ _ AT)) as M. apply Rabs_le_inv in M. pose proof (at_T _ _ _ _ AT) as ET. apply Rabs_le_inv in ET.
  pose proof (mean_bnd k K0) as MB. unfold qiAccurate2. cbv zeta. cbn [n_lit n_sub n_ltb float_arith].
  flit 293%float F293 V293. assert (E293 : FR 293 = 293) by lra.
  destruct (k_index X 293%float 293 F F293 E293 ltac:(apply Rabs_le; lra) ltac:(apply Rabs_le; lra)) as [Fi Ni]. rewrite (py_floor_spec _ Fi). cbn [bind].
  set (k0 := Zfloor _). pose proof (Zfloor_lb (FR ((X + 293) / 365.2422 * 24)%float)) as L1. pose proof (Zfloor_ub (FR ((X + 293) / 365.2422 * 24)%float)) as L2. fold k0 in L1, L2.
  apply Rabs_le_inv in Ni.
  assert (HK : -49000 <= IZR k <= 192300) by (split; apply IZR_le; unfold k_ok in K0; lia).
  pose proof (mean_lin k K0) as MK.
  assert (R1 : IZR k - 1 + / 1000 <= (FR X + 293) * 24 / 365.2422 <= IZR k + 2 - / 1000) by lra.
  assert (C : (k - 1 <= k0 <= k + 1)%Z).
  { assert (A1 : IZR (k - 2) < IZR k0) by (rewrite minus_IZR; lra). assert (A2 : IZR k0 < IZR (k + 2)) by (rewrite plus_IZR; lra). apply lt_IZR in A1, A2. lia. }
  assert (K0' : k_ok k0) by (unfold k_in, k_ok in *; lia).
  destruct (term_at_ok k0 _ (w_of_k k0 K0') K0') as (a & ta & da & Ea & Fa & ATa). rewrite Ea. cbn [bind].
  flit 5%float F5 V5. assert (E5 : FR 5 = 5) by lra. flit (-5)%float Fm5 Vm5. assert (Em5 : FR (-5)%float = -5) by lra.
  destruct (Z_lt_ge_dec k0 k) as [C1|C1]; [|destruct (Z_lt_ge_dec k k0) as [C2|C2]].
  - (* one too early *)
    assert (k0 = k - 1)%Z by lia. subst k0. rewrite H in *. clear C C1 H. pose proof (proj1 (gap (k - 1) 1 (FR a) ta da (FR T) t d ATa ltac:(replace (k - 1 + 1)%Z with k by lia; exact AT) ltac:(lia) Km ltac:(replace (k - 1 + 1)%Z with k by lia; exact K0))) as G.
    destruct (fsub_b a X 4000000 Fa F ltac:(lra) ltac:(lra)) as (Fs & _ & Ns). nea.
    destruct (PrimFloat.ltb 5 (a - X)%float) eqn:T1; [apply fltb_spec in T1; [lra|assumption..]|]. cbn [bind].
    assert (T2 : PrimFloat.ltb (a - X)%float (-5) = true) by (apply fltb_spec; [assumption..|lra]). rewrite T2.
    pose proof (w_next (k - 1) Km) as W. replace (k - 1 + 1)%Z with k in W by lia. destruct (term_at_ok k _ W K0) as (b & tb & db & Eb & _). exists b. split; [exact Eb|]. split; [eexists; split; [exact W|exact Eb]|]. rewrite minus_IZR in L2. lra.
  - assert (k0 = k + 1)%Z by lia. subst k0. rewrite H in *. clear C C1 C2 H. pose proof (proj1 (gap k 1 (FR T) t d (FR a) ta da AT ATa ltac:(lia) K0 Kp)) as G.
    destruct (fsub_b a X 4000000 Fa F ltac:(lra) ltac:(lra)) as (Fs & _ & Ns). nea.
    assert (T1 : PrimFloat.ltb 5 (a - X)%float = true) by (apply fltb_spec; [assumption..|lra]). rewrite T1. cbn [bind].
    pose proof (w_prev (k + 1) Kp) as W. replace (k + 1 - 1)%Z with k in W by lia. destruct (term_at_ok k _ W K0) as (b & tb & db & Eb & _). exists b. split; [exact Eb|]. split; [eexists; split; [exact W|exact Eb]|]. rewrite plus_IZR in L1. lra.
  - assert (k0 = k)%Z by lia. subst k0. rewrite H in *. clear C C1 C2 H.
    assert (Ia : is_term k a) by (eexists; split; [apply (w_of_k k K0)|exact Ea]). pose proof (N a Ia) as Na. apply Rabs_le_inv in Na.
    destruct (fsub_b a X 4000000 Fa F ltac:(lra) ltac:(lra)) as (Fs & _ & Ns). nea.
    destruct (PrimFloat.ltb 5 (a - X)%float) eqn:T1; [apply fltb_spec in T1; [lra|assumption..]|]. cbn [bind].
    destruct (PrimFloat.ltb (a - X)%float (-5)) eqn:T2; [apply fltb_spec in T2; [lra|assumption..]|]. exists a. split; [reflexivity|]. split; [exact Ia|]. intros _. exact Ea.
Qed.
End LIB.
