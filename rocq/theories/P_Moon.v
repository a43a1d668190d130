(** C99: the first day of a month is the civil day of the new moon, for the tables which the code computes with any C library whose sin and cos meet
    [libm]; the longitudes of the moon and the sun are those of the code's own series with all their terms. *)
From Coq Require Import ZArith Lia Reals Lra Psatz.
From Flocq Require Import Core BinarySingleNaN PrimFloat.
From Coq Require Import Bool ZifyBool List Floats.
From Verif Require Import Py PyFloat FloatFacts FloatTac T_ShouXing ShouXing FloatExpr Trig SunLon SunTerm CertSky MoonLite MoonEdge.
From Verif Require Import CertTerms CertZhong CertYears CertFast CalSpec DayNo Solar SolarProofs JulianDay LunarYear Lunar LunarProofs YearProofs CalProofs CalCheck P_LunarYears RealYears P_Real P_Zhong.
Import ListNotations.
Open Scope Z_scope.

(** [ShouXingUtil.msaLon], the longitude of the moon less that of the sun, grows with the time (in Julian centuries after 2000-01-01 12:00), but for a step
    of less than 2.5 s in the year 3000, so that it passes through a value but once. *)
Theorem C99_increasing : forall fsin fcos t u x z, libm fsin fcos -> FIN t -> FIN u -> (-3.95 <= FR t)%R -> (FR t <= FR u)%R -> (FR u <= 60.95)%R ->
  msaLon (float_arith fsin fcos) t (-1) (-1) = Ok x -> msaLon (float_arith fsin fcos) u (-1) (-1) = Ok z ->
  (6275 * (FR u - FR t) - 0.0000044 <= FR z - FR x <= 9270 * (FR u - FR t) + 0.0000002)%R.
Proof.
  intros fsin fcos t u x z lib Ft Fu Ht L Hu Ex Ez. assert (St : span (FR t)) by (unfold span; lra). assert (Su : span (FR u)) by (unfold span; lra).
  destruct (code_at fsin fcos t lib Ft St) as (x' & E1 & _ & N1). destruct (code_at fsin fcos u lib Fu Su) as (z' & E2 & _ & N2). pose proof (GG_slope _ _ St Su L) as S.
  rewrite Ex in E1. rewrite Ez in E2. injection E1 as <-. injection E2 as <-. apply Rabs_le_inv in N1, N2. lra.
Qed.

(** days after 2000-01-01 *)
Definition dayJ (n : Z) : Z := n - dayno (2000, 1, 1).
Lemma moon_day_cases y m : moon_day y m = 1 \/ (moon_day y m = 0 \/ moon_day y m = 2) /\ In (y, m, moon_day y m) moon_days.
Proof.
  unfold moon_day. destruct (find _ moon_days) as [[[y' m'] d]|] eqn:E; [|auto]. right. apply find_some in E. destruct E as [I E]. apply andb_true_iff in E. rewrite !Z.eqb_eq in E. destruct E as [-> ->]. split; [|exact I].
  cbn [In moon_days] in I. repeat (destruct I as [I|I]; [injection I; intros; subst; auto|]). destruct I.
Qed.
Section LIB.
Context (fsin fcos : float -> float) (lib : libm fsin fcos).
Notation R := (real fsin fcos).
Lemma month_conj y t a : 1646 <= y <= 5000 \/ y = 8040 -> R y = Ok t -> In a (lmonths t) -> my a = y -> conjb (dayJ (mfirst a) + moon_day y (mm a) - 1) = true.
Proof.
  intros Hy Et Ia Ya. destruct (real_inv _ _ _ _ Et) as [_ Em]. pose proof (proj2 (months_placed fsin fcos lib) y ltac:(lia) ltac:(lia)) as Z0. rewrite <- Em in Z0. unfold zhong_ok in Z0. rewrite !andb_true_iff in Z0. destruct Z0 as [_ M].
  replace ((y <=? 5000) || (y =? 8040)) with true in M by lia. rewrite forallb_forall in M. specialize (M a Ia). unfold moon_ok in M. replace (my a =? y) with true in M by lia. unfold dayJ. change (dayno (2000, 1, 1)) with 2451545.
  replace (mfirst a - 2451545 + moon_day y (mm a) - 1) with (mfirst a + moon_day y (mm a) - 1 - 2451545) by ring. exact M.
Qed.
(** the month of a date, in the table of its own lunar year *)
Lemma own_month s l : valid_solar s -> 1646 <= l_year l <= 5000 \/ l_year l = 8040 -> 19 < sy s < 9999 -> getLunar R s = Ok l ->
  conjb (dayJ (dayno (sdate s)) + moon_day (l_year l) (l_month l) - l_day l) = true /\ (-150000 <= dayJ (dayno (sdate s)) + moon_day (l_year l) (l_month l) - l_day l <= 2600000).
Proof.
  intros V Hy Hs E. destruct (lunar_new lib s l V Hs E) as [Es H]. destruct (Lunar_new_inv _ _ _ _ _ _ _ _ H) as (t & mo & noon & t2 & Et & Em & Hd & En & ES & VT & _ & CP).
  destruct (getMonth_inv _ _ _ Em) as (Ia & Ya & Ma). destruct (real_inv _ _ _ _ Et) as [Yt _]. rewrite Yt in Ya. pose proof (cal_wf (real_Cal lib) (l_year l) t ltac:(lia) Et) as W. destruct (month_range (real_Cal lib) (l_year l) t mo ltac:(lia) Et Ia) as [M0 M1]. unfold mend in M1.
  destruct (whole_day (mfirst mo + l_day l - 1) ltac:(lia)) as (noon' & En' & Vn & Dn). rewrite En in En'. apply Ok_inj in En'. subst noon'.
  assert (Ds : dayno (sdate s) = mfirst mo + l_day l - 1) by (rewrite <- Es, ES; exact Dn). pose proof (wf_bounds W mo Ia) as B. unfold mend in B.
  pose proof (month_conj _ _ _ Hy Et Ia Ya) as C. rewrite Ma in C. replace (dayJ (dayno (sdate s)) + moon_day (l_year l) (l_month l) - l_day l) with (dayJ (mfirst mo) + moon_day (l_year l) (l_month l) - 1) by (unfold dayJ; lia). split; [exact C|].
  assert (J1 : 2310000 <= jan1 (l_year l - 1)) by (pose proof (jan1_mono 1644 (l_year l - 1) ltac:(lia)) as J; let v := eval vm_compute in (jan1 1644) in change (jan1 1644) with v in J; lia). assert (J2 : jan1 (l_year l + 2) <= 5030000) by (pose proof (jan1_mono (l_year l + 2) 8092 ltac:(lia)) as J; let v := eval vm_compute in (jan1 8092) in change (jan1 8092) with v in J; lia).
  unfold dayJ. change (dayno (2000, 1, 1)) with 2451545. destruct (moon_day_cases (l_year l) (l_month l)) as [-> | [[-> | ->] _]]; lia.
Qed.
(** In a month with a date [s], its [l_day l]-th, the moon overtakes the sun on day [moon_day]: on day 1, or in the 26 months listed on the day after it or
    the day before it. *)
Theorem C99_new_moon : forall s l, valid_solar s -> 19 < sy s < 9999 -> getLunar R s = Ok l -> 1646 <= l_year l <= 5000 \/ l_year l = 8040 ->
  exists k, new_moon_on fsin fcos k (dayJ (dayno (sdate s)) + moon_day (l_year l) (l_month l) - l_day l).
Proof. intros s l V Hs E Hy. destruct (own_month s l V Hy Hs E) as [C B]. eexists. exact (conjb_ok fsin fcos _ lib C B). Qed.
Theorem C99_first : forall s l, valid_solar s -> 19 < sy s < 9999 -> getLunar R s = Ok l -> 1646 <= l_year l <= 5000 \/ l_year l = 8040 -> l_day l = 1 ->
  (forall d, ~ In (l_year l, l_month l, d) moon_days) -> exists k, new_moon_on fsin fcos k (dayJ (dayno (sdate s))).
Proof.
  intros s l V Hs E Hy D1 X. destruct (C99_new_moon s l V Hs E Hy) as [k H]. exists k. destruct (moon_day_cases (l_year l) (l_month l)) as [M|[_ I]]; [|destruct (X _ I)]. rewrite M, D1 in H. replace (dayJ (dayno (sdate s)) + 1 - 1) with (dayJ (dayno (sdate s))) in H by ring. exact H.
Qed.
Theorem C99_since_1921 : forall s l, valid_solar s -> 19 < sy s < 9999 -> getLunar R s = Ok l -> 1921 <= l_year l <= 5000 -> l_day l = 1 -> exists k, new_moon_on fsin fcos k (dayJ (dayno (sdate s))).
Proof.
  intros s l V Hs E Hy D1. apply (C99_first s l V Hs E ltac:(lia) D1). intros d I. cbn [In moon_days] in I. repeat (destruct I as [I|I]; [injection I; lia|]). destruct I.
Qed.
(** From one month to the next it is the next new moon: none is left out. *)
Theorem C99_next : forall s l s' l', valid_solar s -> 19 < sy s < 9999 -> getLunar R s = Ok l -> 1646 <= l_year l <= 5000 \/ l_year l = 8040 -> l_day l = 1 ->
  valid_solar s' -> 19 < sy s' < 9999 -> getLunar R s' = Ok l' -> 1646 <= l_year l' <= 5000 \/ l_year l' = 8040 -> l_day l' = 1 -> 29 <= dayno (sdate s') - dayno (sdate s) <= 30 ->
  exists k, new_moon_on fsin fcos k (dayJ (dayno (sdate s)) + moon_day (l_year l) (l_month l) - 1) /\ new_moon_on fsin fcos (k + 1) (dayJ (dayno (sdate s')) + moon_day (l_year l') (l_month l') - 1).
Proof.
  intros s l s' l' V Hs E Hy D V' Hs' E' Hy' D' Hn. destruct (own_month s l V Hy Hs E) as [C B]. destruct (own_month s' l' V' Hy' Hs' E') as [C' B']. rewrite D in *. rewrite D' in *.
  set (N := dayJ (dayno (sdate s)) + moon_day (l_year l) (l_month l) - 1) in *. set (N' := dayJ (dayno (sdate s')) + moon_day (l_year l') (l_month l') - 1) in *.
  assert (H : 27 <= N' - N <= 32) by (unfold N, N', dayJ; destruct (moon_day_cases (l_year l) (l_month l)) as [-> | [[-> | ->] _]], (moon_day_cases (l_year l') (l_month l')) as [-> | [[-> | ->] _]]; lia).
  exists (conj_k N). split; [exact (conjb_ok fsin fcos N lib C B)|]. rewrite <- (conj_next N (N' - N) C H). replace (N + (N' - N)) with N' by ring. exact (conjb_ok fsin fcos N' lib C' B').
Qed.
(** The months listed exist; in them the moon overtakes the sun on day 2 or on the day before day 1. *)
Theorem C99_refuted : forall y m d, In (y, m, d) moon_days -> d <> 1 /\ exists l k, Lunar_new R y m 1 0 0 0 = Ok l /\ new_moon_on fsin fcos k (dayJ (dayno (sdate (l_solar l))) + d - 1).
Proof.
  intros y m d I.
  assert (X : exists a, In a (cert_months y) /\ my a = y /\ mm a = m /\ 1 <= mcount a /\ jan1 y <= mfirst a /\ mfirst a + mcount a <= jan1 (y + 2)).
  { assert (B : forallb (fun '(y, m, d) => existsb (fun a => (my a =? y) && (mm a =? m) && (1 <=? mcount a) && (jan1 y <=? mfirst a) && (mfirst a + mcount a <=? jan1 (y + 2))) (cert_months y)) moon_days = true) by (vm_compute; reflexivity).
    rewrite forallb_forall in B. specialize (B _ I). cbv beta iota in B. apply existsb_exists in B. destruct B as (a & Ia & B). exists a. split; [exact Ia|]. lia. }
  destruct X as (a & Ia & Ya & Ma & Hd & J1 & J2).
  assert (B : (1646 <= y <= 5000 \/ y = 8040) /\ d <> 1 /\ moon_day y m = d).
  { assert (B : forallb (fun '(y, m, d) => ((1646 <=? y) && (y <=? 5000) || (y =? 8040)) && negb (d =? 1) && (moon_day y m =? d)) moon_days = true) by (vm_compute; reflexivity).
    rewrite forallb_forall in B. specialize (B _ I). cbv beta iota in B. lia. }
  destruct B as (Hy & D1 & MD). split; [exact D1|]. destruct (cal_ok _ _ _ (real_Cal lib) y ltac:(lia)) as (t & jq & Et & _).
  assert (NE : cert_months y <> []) by (intros Z0; rewrite Z0 in Ia; destruct Ia).
  assert (It : In a (lmonths t)) by (destruct (real_inv _ _ _ _ Et) as [_ ->]; rewrite (cert_months_ok _ _ _ lib NE); exact Ia).
  pose proof (jan1_mono 19 y ltac:(lia)). pose proof (jan1_mono (y + 2) 10000 ltac:(lia)).
  destruct (new_spec (real_Cal lib) y t a 1 0 0 0 ltac:(lia) Et It Ya ltac:(lia) ltac:(unfold valid_time; lia) ltac:(change (9999 + 1) with 10000; lia)) as (l & El & V & D & L1 & L2 & L3 & _). rewrite Ma in El.
  destruct (new_lunar lib y m 1 0 0 0 l ltac:(lia) El) as (V' & Hs & G). destruct (C99_new_moon (l_solar l) l V' Hs G ltac:(lia)) as [k Hk]. exists l, k. split; [exact El|]. rewrite L1, L2, L3, Ma, MD in Hk. exact Hk.
Qed.
(** 10 February 2024, by whatever library: new year's day, and the day of new moon 298 after that of January 2000. *)
Example C99_case : let s := mkSolar 2024 2 10 0 0 0 in valid_solar s /\ exists l, getLunar R s = Ok l /\ (l_year l, l_month l, l_day l) = (2024, 1, 1) /\ new_moon_on fsin fcos 298 (dayJ (dayno (2024, 2, 10))).
Proof.
  cbv zeta. set (s := mkSolar 2024 2 10 0 0 0). assert (V : valid_solar s) by (split; [unfold valid_date; cbn; lia|unfold valid_time; cbn; lia]). split; [exact V|].
  destruct (getLunar_spec (real_Cal lib) s V ltac:(cbn; lia)) as (l & t & a & E & Et & Ia & Ha & A1 & A2 & A3 & _). exists l. split; [exact E|]. destruct (real_inv _ _ _ _ Et) as [_ Mt]. change (sy s) with 2024 in Mt. change (dayno (sdate s)) with 2460351 in *.
  assert (Q : exists ms, cert_months 2024 = ms /\ forallb (fun a => if (mfirst a <=? 2460351) && (2460351 <? mend a) then (my a =? 2024) && (mm a =? 1) && (mfirst a =? 2460351) else true) ms = true)
    by (eexists; split; [vm_compute; reflexivity|vm_compute; reflexivity]).
  destruct Q as (ms & Q1 & Q2). rewrite (cert_months_ok _ _ 2024 lib (cert_nonempty 2024 ltac:(lia))), Q1 in Mt. rewrite Mt in Ia. rewrite forallb_forall in Q2. specialize (Q2 a Ia). cbv beta in Q2.
  destruct ((mfirst a <=? 2460351) && (2460351 <? mend a)) eqn:B; [|lia]. assert (my a = 2024 /\ mm a = 1 /\ mfirst a = 2460351) as (X1 & X2 & X3) by lia. split; [rewrite A1, A2, A3, X1, X2, X3; reflexivity|].
  apply (conjb_ok fsin fcos 8806 lib); [vm_compute; reflexivity|lia].
Qed.
End LIB.
