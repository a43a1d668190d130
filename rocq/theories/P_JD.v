(** Property theorems for Julian days and weekdays (C07-C12).
    [jd_year y] is -4712 <= y <= 1000000; [FR] is the real value of a binary64 number. *)
From Coq Require Import ZArith Lia Bool ZifyBool Reals Lra.
From Flocq Require Import Core BinarySingleNaN PrimFloat.
From Coq Require Import Floats.
From Verif Require Import Py PyFloat FloatFacts FloatTac CalSpec DayNo Meeus Solar SolarProofs JulianDay FromJulianDay.
Open Scope Z_scope.

Lemma dayno_2000 : dayno (2000, 1, 1) = 2451545. Proof. vm_compute. reflexivity. Qed.
Lemma valid_2000 : valid_date (2000, 1, 1). Proof. apply valid_jan1. Qed.

Lemma jdn_dayno a n : valid_date a -> (days_later (n - 2451545) (2000, 1, 1) a <-> dayno a = n).
Proof. intros V. rewrite days_later_dayno by (exact V || exact valid_2000). rewrite dayno_2000. lia. Qed.

(** ** C07 *)
Theorem C07_noon_is_day_number : forall y m d n, valid_date (y, m, d) -> jd_year y ->
  days_later (n - 2451545) (2000, 1, 1) (y, m, d) ->
  getJulianDay (mkSolar y m d 12 0 0) = Ok (float_of_Z n).
Proof.
  intros y m d n V J D. rewrite jdn_dayno in D by exact V.
  pose proof (dayno_range _ _ _ V J) as RG.
  destruct (Z.eq_dec n 0) as [->|Z0].
  { assert (E : (y, m, d) = (-4712, 1, 1)).
    { apply dayno_inj; [exact V|apply valid_jan1|]. rewrite D. reflexivity. }
    injection E as -> -> ->. vm_compute. reflexivity. }
  destruct (getJulianDay_spec (mkSolar y m d 12 0 0)) as (jd & E & F & _ & X).
  { split; [exact V|unfold valid_time; cbn; lia]. }
  { exact J. }
  rewrite E. f_equal. destruct (float_of_Z_spec n ltac:(lia)) as [Fn En].
  assert (EX : FR jd = IZR n).
  { rewrite (X 4).
    - unfold sdate. cbn [sy sm sd]. rewrite D. lra.
    - cbn [sh smi ss]. replace (dayfrac 12 0 0) with 0.5%float by (vm_compute; reflexivity).
      rewrite (proj2 lit05). lra. }
  apply FR_inj; auto; [|congruence]. rewrite EX. apply IZR_neq. exact Z0.
Qed.

Theorem C07_midnight : forall y m d n, valid_date (y, m, d) -> jd_year y ->
  days_later (n - 2451545) (2000, 1, 1) (y, m, d) ->
  exists jd, getJulianDay (mkSolar y m d 0 0 0) = Ok jd /\ FIN jd /\ FR jd = (IZR n - 1 / 2)%R.
Proof.
  intros y m d n V J D. rewrite jdn_dayno in D by exact V.
  destruct (getJulianDay_spec (mkSolar y m d 0 0 0)) as (jd & E & F & _ & X).
  { split; [exact V|unfold valid_time; cbn; lia]. }
  { exact J. }
  exists jd. split; [exact E|]. split; [exact F|]. rewrite (X 0).
  - unfold sdate. cbn [sy sm sd]. rewrite D. lra.
  - cbn [sh smi ss]. rewrite FR_SF. replace (dayfrac 0 0 0) with 0%float by (vm_compute; reflexivity).
    cbn. lra.
Qed.

(** At any time of day the value is the exact one up to 3e-7 days (26 ms). *)
Theorem C07_accuracy : forall s n, valid_solar s -> jd_year (sy s) ->
  days_later (n - 2451545) (2000, 1, 1) (sdate s) ->
  exists jd, getJulianDay s = Ok jd /\ FIN jd /\
    (Rabs (FR jd - (IZR n - 1 / 2 + IZR (3600 * sh s + 60 * smi s + ss s) / 86400)) <= 3 / 10000000)%R.
Proof.
  intros s n V J D. rewrite jdn_dayno in D by apply V.
  destruct (getJulianDay_spec s V J) as (jd & E & F & B & _).
  exists jd. split; [exact E|]. split; [exact F|]. apply Rabs_le. unfold realJD, sod in B. rewrite D in B.
  replace (3600 * sh s + 60 * smi s + ss s) with (sh s * 3600 + smi s * 60 + ss s) by lia. lra.
Qed.

Example C07_case : getJulianDay (mkSolar 2000 1 1 12 0 0) = Ok 2451545%float /\
  getJulianDay (mkSolar (-4712) 1 1 12 0 0) = Ok 0%float /\
  getJulianDay (mkSolar 1582 10 15 0 0 0) = Ok 2299160.5%float /\
  valid_date (1582, 10, 15) /\ days_later (2451545 - 2451545) (2000, 1, 1) (2000, 1, 1).
Proof. repeat split; try (vm_compute; reflexivity); try (cbn; lia). Qed.

(** ** C08 *)
Lemma sod_real s : valid_solar s -> (0 <= IZR (sod s) <= 86399)%R.
Proof. intros V. pose proof (sod_bounds s V). split; apply IZR_le; lia. Qed.

Theorem C08_julian_day_monotone : forall a b, valid_solar a -> valid_solar b ->
  jd_year (sy a) -> jd_year (sy b) ->
  exists ja jb, getJulianDay a = Ok ja /\ getJulianDay b = Ok jb /\
    (PrimFloat.ltb ja jb = true <-> isBefore a b = true).
Proof.
  intros a b Va Vb Ja Jb.
  destruct (getJulianDay_spec a Va Ja) as (ja & Ea & Fa & Ba & _).
  destruct (getJulianDay_spec b Vb Jb) as (jb & Eb & Fb & Bb & _).
  exists ja, jb. split; [exact Ea|]. split; [exact Eb|].
  rewrite fltb_spec by assumption. rewrite isBefore_instant by assumption. rewrite Z.ltb_lt.
  assert (Ra : realJD a = (IZR (instant a) / 86400 - 1 / 2)%R).
  { unfold realJD, instant. rewrite plus_IZR, mult_IZR. lra. }
  assert (Rb : realJD b = (IZR (instant b) / 86400 - 1 / 2)%R).
  { unfold realJD, instant. rewrite plus_IZR, mult_IZR. lra. }
  rewrite Ra in Ba. rewrite Rb in Bb. clear Ra Rb.
  destruct (Z.lt_trichotomy (instant a) (instant b)) as [L|[E|L]].
  - split; [intros _; exact L|intros _]. assert (L' : (instant a + 1 <= instant b)) by lia.
    apply IZR_le in L'. rewrite plus_IZR in L'. lra.
  - assert (a = b) by (apply instant_inj; assumption). subst b.
    assert (ja = jb) by congruence. subst jb. split; intros; [lra|lia].
  - split; intros; [|lia]. assert (L' : (instant b + 1 <= instant a)) by lia.
    apply IZR_le in L'. rewrite plus_IZR in L'. lra.
Qed.

Example C08_case : isBefore (mkSolar 9999 12 31 23 59 58) (mkSolar 9999 12 31 23 59 59) = true /\
  valid_solar (mkSolar 9999 12 31 23 59 58) /\ jd_year 9999.
Proof. split; [reflexivity|]. unfold valid_solar, valid_date, valid_time, jd_year; cbn; lia. Qed.

(** ** C09 *)
Theorem C09_round_trip : forall s, valid_solar s -> jd_year (sy s) ->
  (let! jd := getJulianDay s in fromJulianDay jd) = Ok s.
Proof.
  intros s V J. destruct (getJulianDay_spec s V J) as (jd & E & F & B & X).
  rewrite E. cbn [bind]. pose proof (sod_real s V) as RS. pose proof (sod_bounds s V) as BS.
  destruct (dayno_range _ _ _ (proj1 V) J) as [D0 D1]. fold (sdate s) in D0, D1.
  assert (D1' : dayno (sdate s) <= 366963925).
  { destruct s as [y m d h mi c]. pose proof (dayno_year _ _ _ (proj1 V)) as DY. cbn [sy] in J. unfold jd_year in J.
    unfold sdate. cbn [sy sm sd] in *. pose proof (ybase_mono (y + 1) 1000001 ltac:(lia)) as K.
    change (ybase 1000001) with 366963925 in K. lia. }
  assert (RD : (0 <= IZR (dayno (sdate s)) <= 366963925)%R) by (split; apply IZR_le; lia).
  assert (HX : sod s = 0 -> FR jd = (IZR (dayno (sdate s)) - 1 / 2)%R).
  { intros S0. rewrite (X 0); [lra|].
    destruct V as [_ (A1 & A2 & A3)]. unfold sod in S0.
    replace (sh s) with 0 by lia. replace (smi s) with 0 by lia. replace (ss s) with 0 by lia.
    rewrite FR_SF. replace (dayfrac 0 0 0) with 0%float by (vm_compute; reflexivity). cbn. lra. }
  unfold realJD in B.
  destruct (fromJulianDay_spec jd F) as (Fx & N & S & y & m & d & BN & N0 & Vd & ED & BSS & TS & R).
  { split; [|lra]. destruct (Z.eq_dec (sod s) 0) as [S0|S0].
    - rewrite (HX S0). lra.
    - assert (1 <= IZR (sod s))%R by (apply IZR_le; lia). lra. }
  destruct lit05 as [FL EL].
  destruct (fadd_b jd 0.5 367000001 F FL) as (_ & Vx & Nx); try (rewrite ?EL; lra).
  rewrite EL in Vx, Nx. unfold near, eps52 in Nx.
  set (x := (jd + 0.5)%float) in *. clearbody x.
  assert (BX : (IZR (dayno (sdate s)) <= FR x /\
                - (1 / 1000000) <= FR x - IZR (dayno (sdate s)) - IZR (sod s) / 86400 <= 1 / 1000000)%R).
  { destruct (Z.eq_dec (sod s) 0) as [S0|S0].
    - rewrite (HX S0) in *. rewrite S0 in *. split; [|lra]. rewrite Vx. apply RN_ge_int; [lia|lra].
    - assert (1 <= IZR (sod s))%R by (apply IZR_le; lia). split; lra. }
  destruct BX as [BX1 BX2].
  assert (EN : N = dayno (sdate s)).
  { assert (A1 : (IZR N < IZR (dayno (sdate s)) + 1)%R) by lra.
    assert (A2 : (IZR (dayno (sdate s)) < IZR N + 1)%R) by lra.
    rewrite <- plus_IZR in A1, A2. apply lt_IZR in A1, A2. lia. }
  rewrite EN in *. apply dayno_inj in ED; [|exact Vd|apply V].
  assert (ES : S = sod s).
  { assert (A1 : (IZR S - IZR (sod s) < 1)%R) by lra.
    assert (A2 : (- (1) < IZR S - IZR (sod s))%R) by lra.
    rewrite <- minus_IZR in A1, A2. change (- (1))%R with (IZR (-1)) in A2. apply lt_IZR in A1, A2. lia. }
  rewrite R, ES. replace (sod s <? 86400) with true by lia.
  f_equal. destruct V as [_ (A1 & A2 & A3)]. destruct s as [y' m' d' h mi c]. unfold sdate, sod in *.
  cbn [sy sm sd sh smi ss] in *. injection ED as -> -> ->. f_equal; lia.
Qed.

Example C09_case : (let! jd := getJulianDay (mkSolar 9999 12 31 23 59 59) in fromJulianDay jd)
  = Ok (mkSolar 9999 12 31 23 59 59).
Proof. vm_compute. reflexivity. Qed.

(** ** C10 *)
Theorem C10_whole_days : forall y m d n, valid_date (y, m, d) -> 0 <= n <= 366900000 ->
  days_later (n - 2451545) (2000, 1, 1) (y, m, d) ->
  fromJulianDay (float_of_Z n) = Ok (mkSolar y m d 12 0 0).
Proof.
  intros y m d n V Hn D. rewrite jdn_dayno in D by exact V.
  destruct (float_of_Z_spec n ltac:(lia)) as [Fn En].
  assert (Rn : (0 <= IZR n <= 366900000)%R) by (split; apply IZR_le; lia).
  destruct (fromJulianDay_spec (float_of_Z n) Fn) as (Fx & N & S & y' & m' & d' & BN & N0 & Vd & ED & BSS & TS & R);
    [lra|].
  destruct lit05 as [FL EL].
  destruct (fadd_b (float_of_Z n) 0.5 367000001 Fn FL) as (_ & Vx & _); try (rewrite ?EL; lra).
  rewrite EL, En in Vx.
  replace (IZR n + 1 / 2)%R with (IZR (2 * n + 1) / IZR (2 ^ 1))%R in Vx
    by (rewrite plus_IZR, mult_IZR; change (2 ^ 1) with 2; lra).
  rewrite RN_dyadic in Vx by lia. change (2 ^ 1) with 2 in Vx. rewrite plus_IZR, mult_IZR in Vx.
  rewrite Vx in *. clear Vx.
  assert (NE : N = n).
  { assert (A1 : (IZR N < IZR n + 1)%R) by lra. assert (A2 : (IZR n < IZR N + 1)%R) by lra.
    rewrite <- plus_IZR in A1, A2. apply lt_IZR in A1, A2. lia. }
  rewrite NE in *. rewrite <- D in ED. apply dayno_inj in ED; [|exact Vd|exact V]. inversion ED; subst y' m' d'.
  assert (S = 43200).
  { assert (A1 : (IZR S < 43201)%R) by lra. assert (A2 : (43199 < IZR S)%R) by lra.
    apply lt_IZR in A1, A2. lia. }
  subst S. exact R.
Qed.

Theorem C10_half_days : forall y m d n jd, valid_date (y, m, d) -> 0 <= n <= 366900000 ->
  days_later (n - 2451545) (2000, 1, 1) (y, m, d) ->
  FIN jd -> FR jd = (IZR n - 1 / 2)%R ->
  fromJulianDay jd = Ok (mkSolar y m d 0 0 0).
Proof.
  intros y m d n jd V Hn D Fj Ej. rewrite jdn_dayno in D by exact V.
  assert (Rn : (0 <= IZR n <= 366900000)%R) by (split; apply IZR_le; lia).
  destruct (fromJulianDay_spec jd Fj) as (Fx & N & S & y' & m' & d' & BN & N0 & Vd & ED & BSS & TS & R); [lra|].
  destruct lit05 as [FL EL].
  destruct (fadd_b jd 0.5 367000001 Fj FL) as (_ & Vx & _); try (rewrite ?EL; lra).
  rewrite EL, Ej in Vx. replace (IZR n - 1 / 2 + 1 / 2)%R with (IZR n) in Vx by lra.
  rewrite RN_int in Vx by lia. rewrite Vx in *. clear Vx.
  assert (NE : N = n).
  { assert (A1 : (IZR N < IZR n + 1)%R) by lra. assert (A2 : (IZR n < IZR N + 1)%R) by lra.
    rewrite <- plus_IZR in A1, A2. apply lt_IZR in A1, A2. lia. }
  rewrite NE in *. rewrite <- D in ED. apply dayno_inj in ED; [|exact Vd|exact V]. inversion ED; subst y' m' d'.
  assert (S = 0).
  { assert (A1 : (IZR S < 1)%R) by lra. apply lt_IZR in A1. lia. }
  subst S. exact R.
Qed.

Example C10_case : fromJulianDay 2299160%float = Ok (mkSolar 1582 10 4 12 0 0) /\
  fromJulianDay 2299161%float = Ok (mkSolar 1582 10 15 12 0 0) /\
  fromJulianDay 2299160.5%float = Ok (mkSolar 1582 10 15 0 0 0).
Proof. repeat split; vm_compute; reflexivity. Qed.

(** ** C11: false as stated.  Rounding the seconds up at the end of a month gives day 32 (or 31,
    30, 29), and at the end of 4 October 1582 the constructor raises. *)
Theorem C11_always_existing_date_refuted :
  ~ (forall jd, FIN jd -> (0 <= FR jd <= 5373484)%R ->
       exists s, fromJulianDay jd = Ok s /\ valid_solar s).
Proof.
  intros H. destruct (H 2451575.499999%float) as (s & E & V & _).
  - apply FIN_SF. vm_compute. reflexivity.
  - destruct (lit_dyadic 2451575.499999%float 5264718298085277 31 ltac:(vm_compute; reflexivity) ltac:(lia)) as [_ B].
    rewrite B. lra.
  - assert (E' : fromJulianDay 2451575.499999 = Ok (mkSolar 2000 1 32 0 0 0)) by (vm_compute; reflexivity).
    rewrite E' in E. injection E as <-. destruct V as (_ & V & _). cbn in V. lia.
Qed.

Theorem C11_raises_refuted : exists jd, FIN jd /\ (0 <= FR jd <= 5373484)%R /\
  exists e, fromJulianDay jd = Raise e.
Proof.
  exists 2299160.499999%float. split; [apply FIN_SF; vm_compute; reflexivity|]. split.
  - destruct (lit_dyadic 2299160.499999%float 4937409577875357 31 ltac:(vm_compute; reflexivity) ltac:(lia)) as [_ B].
    rewrite B. lra.
  - eexists. vm_compute. reflexivity.
Qed.

(** What does hold: outside the last half second of a civil day the existing date-time nearest to
    the Julian Day is returned; in that half second the day number is increased without looking at
    the month end. *)
Theorem C11_existing_date_except_last_half_second : forall jd, FIN jd -> (-1 / 2 <= FR jd <= 366900000)%R ->
  (exists s n, fromJulianDay jd = Ok s /\ valid_solar s /\
     days_later (n - 2451545) (2000, 1, 1) (sdate s) /\
     (Rabs (IZR (86400 * n + 3600 * sh s + 60 * smi s + ss s) - 86400 * (FR jd + 1 / 2)) <= 51 / 100)%R)
  \/ (exists n y m d, valid_date (y, m, d) /\ days_later (n - 2451545) (2000, 1, 1) (y, m, d) /\
     (0 <= IZR n + 1 - (FR jd + 1 / 2) <= 51 / 100 / 86400)%R /\
     fromJulianDay jd = fromYmdHms y m (d + 1) 0 0 0).
Proof.
  intros jd Fj Rj.
  destruct (fromJulianDay_spec jd Fj) as (Fx & N & S & y & m & d & BN & N0 & Vd & ED & BSS & TS & R); [lra|].
  destruct lit05 as [FL EL].
  destruct (fadd_b jd 0.5 366900001 Fj FL) as (_ & _ & Nx); try (rewrite ?EL; lra).
  rewrite EL in Nx. unfold near, eps52 in Nx.
  destruct (Z.ltb_spec S 86400) as [L|L].
  - left. exists (mkSolar y m d (S / 3600) (S / 60 mod 60) (S mod 60)), N.
    split; [exact R|]. split; [split; [exact Vd|unfold valid_time; cbn [sh smi ss]; lia]|].
    split; [now apply jdn_dayno|]. apply Rabs_le. cbn [sh smi ss].
    replace (86400 * N + 3600 * (S / 3600) + 60 * (S / 60 mod 60) + S mod 60) with (86400 * N + S) by lia.
    rewrite plus_IZR, mult_IZR. lra.
  - assert (S = 86400) by lia. subst S.
    destruct (Rle_lt_dec (FR jd + 1 / 2) (IZR (N + 1))) as [G|G].
    + right. exists N, y, m, d. rewrite plus_IZR in *. repeat split; try apply Vd; try lra.
      * now apply jdn_dayno.
      * exact R.
    + exfalso. rewrite plus_IZR in G.
      assert (IZR N + 1 <= FR (jd + 0.5)%float)%R; [|lra].
      destruct (fadd_b jd 0.5 366900001 Fj FL) as (_ & Vx & _); try (rewrite ?EL; lra).
      rewrite EL in Vx. rewrite Vx. rewrite <- plus_IZR. apply RN_ge_int; [|rewrite plus_IZR; lra].
      assert (A : (IZR N < 366900001)%R) by lra. apply lt_IZR in A. lia.
Qed.

Example C11_case : fromJulianDay 2451575.4%float = Ok (mkSolar 2000 1 31 21 36 0).
Proof. vm_compute. reflexivity. Qed.

(** ** C12 *)
Lemma getWeek_spec s : valid_solar s -> jd_year (sy s) -> getWeek s = Ok ((dayno (sdate s) + 1) mod 7).
Proof.
  intros V J. destruct (getJulianDay_spec s V J) as (jd & E & F & B & X).
  unfold getWeek. rewrite E. cbn [bind]. pose proof (sod_real s V) as RS. pose proof (sod_bounds s V) as BS.
  destruct (dayno_range _ _ _ (proj1 V) J) as [D0 D1]. fold (sdate s) in D0, D1.
  assert (RD : (0 <= IZR (dayno (sdate s)) <= 367000000)%R) by (split; apply IZR_le; lia).
  assert (HX : sod s = 0 -> FR jd = (IZR (dayno (sdate s)) - 1 / 2)%R).
  { intros S0. rewrite (X 0); [lra|].
    destruct V as [_ (A1 & A2 & A3)]. unfold sod in S0.
    replace (sh s) with 0 by lia. replace (smi s) with 0 by lia. replace (ss s) with 0 by lia.
    rewrite FR_SF. replace (dayfrac 0 0 0) with 0%float by (vm_compute; reflexivity). cbn. lra. }
  unfold realJD in B.
  destruct lit05 as [FL EL].
  destruct (fadd_b jd 0.5 367000002 F FL) as (Fx & Vx & Nx); try (rewrite ?EL; lra).
  rewrite EL in Vx, Nx. unfold near, eps52 in Nx.
  rewrite py_int_spec by exact Fx. rewrite (Ztrunc_bnd _ (dayno (sdate s))); [|exact D0| |].
  - cbn [bind]. f_equal. lia.
  - destruct (Z.eq_dec (sod s) 0) as [S0|S0].
    + rewrite Vx, (HX S0). apply RN_ge_int; [lia|lra].
    + assert (1 <= IZR (sod s))%R by (apply IZR_le; lia). lra.
  - lra.
Qed.

(** Saturday 2000-01-01 and one weekday per civil day. *)
Theorem C12_week_cycle : forall s n, valid_solar s -> jd_year (sy s) ->
  days_later n (2000, 1, 1) (sdate s) -> getWeek s = Ok ((6 + n) mod 7).
Proof.
  intros s n V J D. rewrite getWeek_spec by assumption.
  rewrite days_later_dayno in D by (exact valid_2000 || apply V). rewrite dayno_2000 in D.
  f_equal. lia.
Qed.

Theorem C12_week_next : forall a b, valid_solar a -> valid_solar b -> jd_year (sy a) -> jd_year (sy b) ->
  sdate b = tomorrow (sdate a) ->
  exists w, getWeek a = Ok w /\ 0 <= w <= 6 /\ getWeek b = Ok (if w =? 6 then 0 else w + 1).
Proof.
  intros a b Va Vb Ja Jb E. exists ((dayno (sdate a) + 1) mod 7).
  split; [now apply getWeek_spec|]. split; [lia|].
  rewrite getWeek_spec, E, tomorrow_dayno by (assumption || apply Va). f_equal.
  destruct (Z.eqb_spec ((dayno (sdate a) + 1) mod 7) 6); lia.
Qed.

Example C12_case : getWeek (mkSolar 1582 10 4 23 59 59) = Ok 4 /\ getWeek (mkSolar 1582 10 15 0 0 0) = Ok 5 /\
  getWeek (mkSolar 2000 1 1 0 0 0) = Ok 6.
Proof. repeat split; vm_compute; reflexivity. Qed.

(** Before -4712 the formula breaks: int() truncates towards zero. *)
Theorem C12_all_years_refuted :
  ~ (forall s n, valid_solar s -> days_later n (2000, 1, 1) (sdate s) -> getWeek s = Ok ((6 + n) mod 7)).
Proof.
  intros H. specialize (H (mkSolar (-6000) 1 1 0 0 0)).
  set (n := dayno (-6000, 1, 1) - 2451545). specialize (H n).
  assert (V : valid_solar (mkSolar (-6000) 1 1 0 0 0)).
  { unfold valid_solar, valid_date, valid_time; cbn; lia. }
  specialize (H V). assert (D : days_later n (2000, 1, 1) (-6000, 1, 1)).
  { apply days_later_dayno; [exact valid_2000|apply V|]. rewrite dayno_2000. unfold n. lia. }
  specialize (H D). revert H. vm_compute. discriminate.
Qed.

Print Assumptions C09_round_trip.
