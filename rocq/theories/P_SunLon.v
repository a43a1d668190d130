(** C98: the instants in the table of a year are those at which the longitude of the sun is a multiple of 15 degrees, computed in binary64 with any C
    library whose sin and cos meet [libm]. *)
From Coq Require Import ZArith Lia Reals Lra Psatz.
From Flocq Require Import Core BinarySingleNaN PrimFloat.
From Coq Require Import Bool List Floats.
From Verif Require Import Py PyFloat FloatFacts FloatTac JulianDay T_ShouXing ShouXing FloatExpr Trig SunLon SunDt SunTerm SunQi SunYear SunDate SunInv CertTerms CalSpec DayNo Solar SolarProofs LunarYear Lunar TermProofs
  P_LunarYears P_SunTerms P_Real P_Zhong.
Import ListNotations.
Open Scope R_scope.
Local Set Warnings "-inexact-float".

(** [ShouXingUtil.saLonT] inverts [ShouXingUtil.saLon]. *)
Theorem C98_inverse : forall fsin fcos w, libm fsin fcos -> FIN w -> Rabs (FR w) <= 50500 ->
  exists t x, saLonT (float_arith fsin fcos) w = Ok t /\ saLon (float_arith fsin fcos) t (-1) = Ok x /\ FIN t /\ FIN x /\
    Rabs (FR x - FR w) <= 0.0000079 /\ (Rabs (FR w) <= 13000 -> Rabs (FR x - FR w) <= 0.0000004).
Proof.
  intros fsin fcos w lib F H. destruct (saLonT_inv lib w F H) as (t & E & Ft & Bt & L). destruct (saLon_full lib t Ft ltac:(lra)) as (x & Ex & Fx & Lx).
  exists t, x. do 4 (split; [assumption|]). apply Rabs_le_inv in L, Lx. split; [apply Rabs_le; lra|]. intros H1.
  destruct (saLonT_invs lib w F H1) as (t' & E' & _ & _ & L'). rewrite E in E'. injection E' as <-. apply Rabs_le_inv in L'. apply Rabs_le. lra.
Qed.
(** The longitude grows with the time, so that there is no other such time. *)
Theorem C98_increasing : forall fsin fcos t u x z, libm fsin fcos -> FIN t -> FIN u -> Rabs (FR t) <= 81 -> Rabs (FR u) <= 81 -> FR t <= FR u ->
  saLon (float_arith fsin fcos) t (-1) = Ok x -> saLon (float_arith fsin fcos) u (-1) = Ok z ->
  590 * (FR u - FR t) - 0.0000001 <= FR z - FR x <= 667 * (FR u - FR t) + 0.0000001.
Proof.
  intros fsin fcos t u x z lib Ft Fu Ht Hu L Ex Ez. pose proof (Lf_slope lib _ _ Ht Hu L) as S. destruct (saLon_full lib t Ft Ht) as (x' & E1 & _ & N1). destruct (saLon_full lib u Fu Hu) as (z' & E2 & _ & N2).
  rewrite Ex in E1. rewrite Ez in E2. injection E1 as <-. injection E2 as <-. apply Rabs_le_inv in N1, N2. lra.
Qed.
(** [c], [d], [x]: the time in Julian centuries after 2000-01-01 12:00 in the uniform scale of the series, the difference of the two time scales at that
    time in days, and the longitude of the sun at that time; the latter is [k] times 15 degrees, and any other time with that longitude is less than 43 s
    (up to 4039: 2.7 s) away. *)
Definition sun_at (fsin fcos : float -> float) (k : Z) (c d x : float) : Prop :=
  let A := float_arith fsin fcos in let longitude := IZR k * (Rtrigo1.PI / 12) in
  FIN c /\ FIN d /\ FIN x /\ dtT A (c * 36525)%float = Ok d /\
  saLon A c (-1) = Ok x /\ Rabs (FR x - longitude) <= 0.000008 /\ ((k <= 49000)%Z -> Rabs (FR x - longitude) <= 0.0000004) /\
  (forall c' x', FIN c' -> Rabs (FR c') <= 81 -> saLon A c' (-1) = Ok x' -> Rabs (FR x' - longitude) <= 0.00000005 ->
    36525 * 86400 * Rabs (FR c' - FR c) <= 43 /\ ((k <= 49000)%Z -> 36525 * 86400 * Rabs (FR c' - FR c) <= 2.7)).
Lemma term_sun fsin fcos k T : libm fsin fcos -> SunTerm.is_term (fsin := fsin) (fcos := fcos) k T -> k_ok k ->
  exists c d x, sun_at fsin fcos k c d x /\ Rabs (FR T - (36525 * FR c - FR d + / 3)) <= / 1000000.
Proof.
  intros lib (w & W & EQ) K. unfold sun_at. set (A := float_arith fsin fcos). set (longitude := IZR k * (Rtrigo1.PI / 12)). pose proof (theta_bnd k K) as B.
  assert (TH : Rabs (theta k - longitude) <= / 1000000000).
  { unfold theta, longitude. replace (IZR k * (FR ShouXing.PI / 12) - IZR k * (Rtrigo1.PI / 12)) with (IZR k * ((FR ShouXing.PI - Rtrigo1.PI) / 12)) by field.
    replace (/ 1000000000) with (200000 * / 200000000000000) by lra. pose proof PI_val. pose proof Pi_val. assert (HK : -49000 <= IZR k <= 192300) by (split; apply IZR_le; unfold k_ok in K; lia).
    apply Rmul_abs; apply Rabs_le; lra. }
  pose proof W as W0. destruct W as [Fw W]. apply Rabs_le_inv in W, TH.
  destruct (saLonT_inv lib w Fw ltac:(apply Rabs_le; lra)) as (c & Ec & Fc & Bc & Lc). destruct (saLon_full lib c Fc ltac:(lra)) as (x & Ex & Fx & Lx).
  unfold qiAccurate in EQ. rewrite Ec in EQ. cbn [bind n_mul n_lit n_add n_sub float_arith] in EQ. fold A in EQ.
  destruct (dtT A (c * 36525)%float) as [d|] eqn:Ed; [|discriminate EQ]. cbn [bind] in EQ.
  pose proof (La_mean lib (FR c) ltac:(lra)) as M. pose proof (La_Lf lib (FR c) ltac:(lra)) as M'.
  assert (MM : Rabs (36525 * FR c - mean k) <= 10) by (apply Rabs_le_inv in Lc, M, M'; unfold mean; apply Rabs_le; lra).
  destruct (compose c 0%float Fc ltac:(lra)) as (F1 & N1 & _); [flit 0%float F0 V0; exact F0|flit 0%float F0 V0; apply Rabs_le; lra|].
  destruct (dtT_at lib _ k (FR c) F1 ltac:(lra) K MM) as (d' & Ed' & Fd & Bd & _). fold A in Ed'. rewrite Ed in Ed'. injection Ed' as <-.
  destruct (compose c d Fc ltac:(lra) Fd Bd) as (_ & _ & F2 & N2). injection EQ as EQ. change (c * 36525 - d + ONE_THIRD = T)%float in EQ. rewrite EQ in F2, N2.
  assert (S : (k <= 49000)%Z -> Rabs (Lf (FR c) - FR w) <= 0.00000034).
  { intros Hs. pose proof (theta_old k ltac:(unfold k_old, k_ok in *; lia)) as Bo. destruct (saLonT_invs lib w Fw ltac:(apply Rabs_le; lra)) as (c' & Ec' & _ & _ & L'). rewrite Ec in Ec'. injection Ec' as <-. exact L'. }
  exists c, d, x. split; [|exact N2]. do 3 (split; [assumption|]). split; [exact Ed|]. split; [exact Ex|].
  apply Rabs_le_inv in Lc, Lx. split; [apply Rabs_le; lra|]. split; [intros Hs; specialize (S Hs); apply Rabs_le_inv in S; apply Rabs_le; lra|].
  intros c' x' Fc' Bc' Ex' Lx'. destruct (saLon_full lib c' Fc' Bc') as (x2 & Ex2 & _ & N4). fold A in Ex2. rewrite Ex' in Ex2. injection Ex2 as <-. apply Rabs_le_inv in Lx', N4.
  split.
  - pose proof (Lf_inj lib (FR c') (FR c) 0.000008 Bc' ltac:(lra) ltac:(apply Rabs_le; lra)). lra.
  - intros Hs. specialize (S Hs). apply Rabs_le_inv in S. pose proof (Lf_inj lib (FR c') (FR c) 0.000000445 Bc' ltac:(lra) ltac:(apply Rabs_le; lra)). lra.
Qed.
(** The entries of [LunarYear.getJieQiJulianDays]: entry [j] of year [y] is the Julian day, in the civil time of the meridian 120 degrees east, of the time
    at which the longitude of the sun is 24 * (y - 2000) + 17 + j times 15 degrees (in 2000, 255 degrees for 大雪 of the year before). *)
Theorem C98_terms : forall fsin fcos y t j, libm fsin fcos -> (0 <= y <= 9999)%Z -> real fsin fcos y = Ok t -> (0 <= j < 31)%Z ->
  exists T c d x, py_index (lterms t) j = Ok T /\ FIN T /\ sun_at fsin fcos (24 * (y - 2000) + 17 + j) c d x /\
    Rabs (FR T - (2451545 + 36525 * FR c - FR d + / 3)) <= 0.000002.
Proof.
  intros fsin fcos y t j lib Hy Et Hj. destruct (real_terms fsin fcos y t lib Hy Et) as [_ P]. destruct (P j Hj) as (T & E & I & _). assert (K : k_ok (24 * (y - 2000) + 17 + j)) by (unfold k_ok; lia).
  destruct (term_sun _ _ _ T lib I K) as (c & d & x & S & N). destruct (term_jd lib _ T I K) as [F N3]. exists (T + 2451545)%float, c, d, x. split; [exact E|]. split; [exact F|]. split; [exact S|].
  apply Rabs_le_inv in N, N3. apply Rabs_le. lra.
Qed.
(** The dates and times of [Lunar.getJieQiTable]: [instant] counts the seconds from midnight before the Julian day 0 in civil time. *)
Theorem C98_dates : forall fsin fcos s l i, libm fsin fcos -> termed_date s -> getLunar (real fsin fcos) s = Ok l -> (0 <= i < 31)%Z ->
  exists c d x, sun_at fsin fcos (24 * (sy s - 2000) + 17 + i) c d x /\
    Rabs (IZR (instant (term_at (l_jieQi l) i)) - 86400 * (2451545.5 + 36525 * FR c - FR d + / 3)) <= 0.7.
Proof.
  intros fsin fcos s l i lib [V Hy] E Hi. destruct (terms_of_year fsin fcos lib s l V Hy E) as (t & Et & Ej). pose proof (real_terms fsin fcos (sy s) t lib ltac:(lia) Et) as TA.
  assert (Q : exists T, SunTerm.is_term (fsin := fsin) (fcos := fcos) (24 * (sy s - 2000) + 17 + i) T /\ Rabs (IZR (instant (term_at (l_jieQi l) i)) - 86400 * (FR T + 2451545.5)) <= 0.52).
  { assert ((524 <= sy s <= 1582 \/ 4040 <= sy s <= 9998) \/ (1 <= sy s <= 523 \/ 1583 <= sy s <= 4039))%Z as [C|C] by lia.
    - destruct (mid_terms lib (sy s) _ _ C TA Ej i Hi) as (T & I & _ & B & _). eauto.
    - destruct (dated_terms lib (sy s) _ _ ltac:(unfold dated; lia) TA Ej i Hi) as (T & I & _ & _ & B). eauto. }
  destruct Q as (T & I & B). destruct (term_sun _ _ _ T lib I ltac:(unfold k_ok; lia)) as (c & d & x & S & N). exists c, d, x. split; [exact S|]. apply Rabs_le_inv in B, N. apply Rabs_le. lra.
Qed.
(** With [rsin] and [rcos] of Trig.v: 立春 of 2024, 24 * 24 + 21 = 597 times 15 degrees, which is 315 degrees after 24 whole circles. *)
Example C98_case : (exists l, termed_date (mkSolar 2024 2 4 12 0 0) /\ getLunar (real rsin rcos) (mkSolar 2024 2 4 12 0 0) = Ok l) /\ (exists t T, real rsin rcos 300 = Ok t /\ py_index (lterms t) 4 = Ok T) /\
  (let A := float_arith rsin rcos in let w := (597 * (ShouXing.PI / 12))%float in
   let! c := saLonT A w in let! x := saLon A c (-1) in Ok (PrimFloat.ltb (PrimFloat.abs (x - w)) 0.0000001 && PrimFloat.ltb 0.24 c && PrimFloat.ltb c 0.241)) = Ok true.
Proof.
  assert (Vs : valid_solar (mkSolar 2024 2 4 12 0 0)) by (split; [vm_compute; intuition discriminate|vm_compute; intuition discriminate]).
  split; [destruct (C47_code rsin rcos libm_ref _ Vs ltac:(cbn; lia)) as (l & _ & _ & E & _); exists l; split; [split; [exact Vs|cbn; lia]|exact E]|].
  split; [|vm_compute; reflexivity]. destruct C59_case as [(t & E & _) _]. exists t. destruct (C98_terms _ _ 300%Z t 4 libm_ref ltac:(lia) E ltac:(lia)) as (T & _ & _ & _ & HT & _). exists T. split; assumption.
Qed.
