(** Property theorems for text order, months, seasons, weeks, zodiac and festivals (C17, C19-C26). *)
From Coq Require Import ZArith Lia Bool ZifyBool List String Floats.
From Verif Require Import Py PyFloat PyStr CalSpec DayNo Solar SolarProofs SolarProofs2 JulianDay P_JD
  P_Solar T_SolarUtil SolarUnits UnitsProofs.
Import ListNotations.
Open Scope Z_scope.

(** ** C17 *)
Theorem C17_toYmd_order : forall a b, valid_solar a -> valid_solar b ->
  0 <= sy a <= 9999 -> 0 <= sy b <= 9999 ->
  (str_ltb (toYmd a) (toYmd b) = true <-> earlier (sdate a) (sdate b)) /\
  (toYmd a = toYmd b <-> sdate a = sdate b).
Proof.
  intros a b Va Vb Ya Yb. destruct (toYmd_ltb a b (proj1 Va) (proj1 Vb) Ya Yb) as [L E]. split.
  - rewrite L, Z.ltb_lt. split.
    + intros H. exists (dayno (sdate b) - dayno (sdate a)). split; [lia|].
      apply days_later_dayno; [apply Va|apply Vb|lia].
    + intros (n & Hn & D). apply days_later_dayno in D; [|apply Va|apply Vb]. lia.
  - rewrite <- str_eqb_eq, E, Z.eqb_eq. split; [apply dayno_inj; [apply Va|apply Vb]|congruence].
Qed.

Theorem C17_toYmdHms_order : forall a b, valid_solar a -> valid_solar b ->
  0 <= sy a <= 9999 -> 0 <= sy b <= 9999 ->
  (str_ltb (toYmdHms a) (toYmdHms b) = true <-> isBefore a b = true) /\
  (toYmdHms a = toYmdHms b <-> a = b).
Proof.
  intros a b Va Vb Ya Yb. destruct (toYmdHms_ltb a b Va Vb Ya Yb) as [L E]. split.
  - rewrite L, isBefore_instant by assumption. reflexivity.
  - rewrite <- str_eqb_eq, E, Z.eqb_eq. split; [now apply instant_inj|congruence].
Qed.

Example C17_case : toYmd (mkSolar 7 3 9 0 0 0) = lit "0007-03-09" /\
  str_ltb (toYmdHms (mkSolar 999 12 31 23 59 59)) (toYmdHms (mkSolar 1000 1 1 0 0 0)) = true.
Proof. vm_compute. split; reflexivity. Qed.

(** Outside 0..9999 the order of the texts is not the order of time. *)
Theorem C17_all_years_refuted :
  ~ (forall a b, valid_solar a -> valid_solar b ->
       (str_ltb (toYmd a) (toYmd b) = true <-> earlier (sdate a) (sdate b))).
Proof.
  intros H. pose (a := mkSolar 9999 1 1 0 0 0). pose (b := mkSolar 10000 1 1 0 0 0).
  assert (Va : valid_solar a) by (split; [apply valid_jan1|unfold valid_time; cbn; lia]).
  assert (Vb : valid_solar b) by (split; [apply valid_jan1|unfold valid_time; cbn; lia]).
  destruct (H a b Va Vb) as [_ H2].
  assert (E : str_ltb (toYmd a) (toYmd b) = false) by (vm_compute; reflexivity).
  rewrite H2 in E; [discriminate|].
  exists (dayno (sdate b) - dayno (sdate a)). split; [vm_compute; reflexivity|].
  apply days_later_dayno; [apply Va|apply Vb|lia].
Qed.

(** ** C19 *)
Theorem C19_season : forall y m, 1 <= m <= 12 ->
  exists i, SolarSeason_getIndex (mkSolarSeason y m) = Ok i /\ 1 <= i <= 4 /\ 3 * i - 2 <= m <= 3 * i /\
    SolarSeason_getMonths (mkSolarSeason y m) =
      Ok [mkSolarMonth y (3 * i - 2); mkSolarMonth y (3 * i - 1); mkSolarMonth y (3 * i)].
Proof.
  intros y m Hm. exists (- ((- m) / 3)). unfold SolarSeason_getMonths, SolarSeason_getIndex. cbn [qm qy].
  rewrite ceil_div_ok by lia. cbn [bind]. repeat split; try lia.
  change (zrange 0 3) with [0; 1; 2]. cbn [map].
  replace (3 * (- (- m / 3) - 1) + 0 + 1) with (3 * - (- m / 3) - 2) by lia.
  replace (3 * (- (- m / 3) - 1) + 1 + 1) with (3 * - (- m / 3) - 1) by lia.
  replace (3 * (- (- m / 3) - 1) + 2 + 1) with (3 * - (- m / 3)) by lia. reflexivity.
Qed.

Theorem C19_half_year : forall y m, 1 <= m <= 12 ->
  exists i, SolarHalfYear_getIndex (mkSolarHalfYear y m) = Ok i /\ 1 <= i <= 2 /\ 6 * i - 5 <= m <= 6 * i /\
    SolarHalfYear_getMonths (mkSolarHalfYear y m) = Ok (map (mkSolarMonth y) (zrange (6 * i - 5) (6 * i + 1))).
Proof.
  intros y m Hm. exists (- ((- m) / 6)). unfold SolarHalfYear_getMonths, SolarHalfYear_getIndex. cbn [hm hy].
  rewrite ceil_div_ok by lia. cbn [bind]. repeat split; try lia. f_equal.
  unfold zrange at 2. replace (Z.to_nat (6 * - (- m / 6) + 1 - (6 * - (- m / 6) - 5))) with 6%nat by lia.
  change (zrange 0 6) with [0; 1; 2; 3; 4; 5]. cbn [map zseq]. generalize (- (- m / 6)) as i. intros i.
  repeat match goal with |- ?a :: _ = ?b :: _ => replace b with a by (f_equal; lia); f_equal end.
Qed.

Theorem C19_year_months : forall y, SolarYear_getMonths y = Ok (map (mkSolarMonth y) (zrange 1 13)).
Proof.
  intros y. unfold SolarYear_getMonths.
  assert (E : forall i, 1 <= i < 12 -> SolarMonth_next (mkSolarMonth y 1) i = Ok (mkSolarMonth y (i + 1))).
  { intros i Hi. destruct (SolarMonth_next_spec y 1 i ltac:(lia) ltac:(lia)) as (y' & m' & E & Hm & D).
    rewrite E. f_equal. assert (y' = y) by lia. f_equal; lia. }
  change (zrange 1 12) with [1; 2; 3; 4; 5; 6; 7; 8; 9; 10; 11]. cbn [mapM].
  rewrite !E by lia. reflexivity.
Qed.

(** The units of a year, concatenated, are the months of the year. *)
Theorem C19_partition : forall y,
  (let! l := mapM (fun m => SolarSeason_getMonths (mkSolarSeason y m)) [1; 4; 7; 10] in Ok (concat l)) = SolarYear_getMonths y /\
  (let! l := mapM (fun m => SolarHalfYear_getMonths (mkSolarHalfYear y m)) [1; 7] in Ok (concat l)) = SolarYear_getMonths y.
Proof. intros y. rewrite C19_year_months. split; reflexivity. Qed.

Theorem C19_season_next : forall y m n, 1 <= m <= 12 -> Z.abs n <= 2 ^ 50 ->
  exists y' m' i i', SolarSeason_next (mkSolarSeason y m) n = Ok (mkSolarSeason y' m') /\ 1 <= m' <= 12 /\
    12 * y' + m' = 12 * y + m + 3 * n /\
    SolarSeason_getIndex (mkSolarSeason y m) = Ok i /\ SolarSeason_getIndex (mkSolarSeason y' m') = Ok i' /\
    4 * y' + i' = 4 * y + i + n.
Proof.
  intros y m n Hm Hn. destruct (SolarMonth_next_spec y m (3 * n) Hm ltac:(lia)) as (y' & m' & E & Hm' & D).
  exists y', m', (- ((- m) / 3)), (- ((- m') / 3)). unfold SolarSeason_next. cbn [qy qm]. rewrite E. cbn [bind smy smm].
  unfold SolarSeason_getIndex. cbn [qm]. rewrite !ceil_div_ok by lia. repeat split; lia.
Qed.

Theorem C19_half_year_next : forall y m n, 1 <= m <= 12 -> Z.abs n <= 2 ^ 49 ->
  exists y' m' i i', SolarHalfYear_next (mkSolarHalfYear y m) n = Ok (mkSolarHalfYear y' m') /\ 1 <= m' <= 12 /\
    12 * y' + m' = 12 * y + m + 6 * n /\
    SolarHalfYear_getIndex (mkSolarHalfYear y m) = Ok i /\ SolarHalfYear_getIndex (mkSolarHalfYear y' m') = Ok i' /\
    2 * y' + i' = 2 * y + i + n.
Proof.
  intros y m n Hm Hn. destruct (SolarMonth_next_spec y m (6 * n) Hm ltac:(lia)) as (y' & m' & E & Hm' & D).
  exists y', m', (- ((- m) / 6)), (- ((- m') / 6)). unfold SolarHalfYear_next. cbn [hy hm]. rewrite E. cbn [bind smy smm].
  unfold SolarHalfYear_getIndex. cbn [hm]. rewrite !ceil_div_ok by lia. repeat split; lia.
Qed.

Theorem C19_year_next : forall y n, SolarYear_next y n = y + n.
Proof. reflexivity. Qed.

Example C19_case : SolarSeason_next (mkSolarSeason 2019 11) (-8) = Ok (mkSolarSeason 2017 11) /\
  SolarHalfYear_getMonths (mkSolarHalfYear 2019 8) = Ok (map (mkSolarMonth 2019) [7; 8; 9; 10; 11; 12]).
Proof. vm_compute. split; reflexivity. Qed.

(** ** C20 *)
Theorem C20_getDays_lists_the_month : forall y m, 1 <= m <= 12 ->
  SolarMonth_getDays (mkSolarMonth y m) =
  Ok (map (fun d => mkSolar y m d 0 0 0) (filter (valid_dateb y m) (zrange 1 32))).
Proof.
  intros y m Hm. destruct (SolarMonth_getDays_days y m Hm) as (l & E & F). rewrite E. f_equal.
  eapply days_unique; [exact F|]. clear l E F.
  pose proof (last_day_bounds y m) as LB.
  assert (V : forall d, valid_dateb y m d = true -> valid_date (y, m, d)) by (intros d; unfold valid_dateb, valid_date; lia).
  assert (K : map (fun d => dayno (y, m, d)) (filter (valid_dateb y m) (zrange 1 32)) =
              zseq (dayno (y, m, 1)) (Z.to_nat (mlen y m))).
  { unfold mlen. destruct (Z.eqb_spec y 1582) as [->|N].
    - dmonth m Hm; vm_compute; reflexivity.
    - cbn [andb].
      assert (L : forall d, dayno (y, m, d) = ybase y + cum y m + d).
      { intros d. unfold dayno, dord. destruct (Z.eqb_spec y 1582); [lia|]. reflexivity. }
      rewrite (map_ext _ _ L). rewrite L.
      assert (FE : filter (valid_dateb y m) (zrange 1 32) = filter (fun k => (1 <=? k) && (k <? last_day y m + 1)) (zrange 1 32)).
      { apply filter_ext_in. intros d Hd. apply in_zrange in Hd. unfold valid_dateb. lia. }
      rewrite FE. unfold zrange. rewrite filter_zseq by lia.
      replace (last_day y m + 1 - 1) with (last_day y m) by lia.
      generalize (ybase y + cum y m) as c. intros c. generalize (Z.to_nat (last_day y m)) as n. intros n.
      generalize 1 as a. induction n as [|n IH]; intros a; cbn [zseq map]; [reflexivity|].
      f_equal. rewrite IH. f_equal. lia. }
  rewrite <- K. clear K. induction (zrange 1 32) as [|d t IH]; cbn [filter map]; [constructor|].
  destruct (valid_dateb y m d) eqn:E; [|exact IH]. cbn [map]. constructor; [|exact IH].
  apply fromYmd_day. apply V. exact E.
Qed.

Example C20_case : (let! l := SolarMonth_getDays (mkSolarMonth 1582 10) in Ok (map sd l)) =
  Ok [1; 2; 3; 4; 15; 16; 17; 18; 19; 20; 21; 22; 23; 24; 25; 26; 27; 28; 29; 30; 31].
Proof. vm_compute. reflexivity. Qed.

(** ** C21 *)
(** The weekday (0 = Sunday) of a civil day: 1 January 2000 was a Saturday. *)
Definition weekday (a : date) (w : Z) : Prop := exists n, days_later n (2000, 1, 1) a /\ w = (6 + n) mod 7.

Lemma weekday_dayno a w : valid_date a -> (weekday a w <-> w = (dayno a + 1) mod 7).
Proof.
  intros V. unfold weekday. split.
  - intros (n & D & ->). apply days_later_dayno in D; [|exact valid_2000|exact V]. rewrite dayno_2000 in D. lia.
  - intros ->. exists (dayno a - 2451545). split; [|lia].
    apply days_later_dayno; [exact valid_2000|exact V|]. rewrite dayno_2000. lia.
Qed.

Lemma Forall2_nth {A B} (R : A -> B -> Prop) l1 l2 : Forall2 R l1 l2 -> forall i a b,
  nth_error l1 i = Some a -> nth_error l2 i = Some b -> R a b.
Proof.
  intros F. induction F; intros [|i]; cbn; intros; try discriminate.
  - congruence.
  - eauto.
Qed.

Lemma nth_zseq n : forall a i, (i < n)%nat -> nth_error (zseq a n) i = Some (a + Z.of_nat i).
Proof.
  induction n as [|n IH]; intros a i Hi; [lia|]. destruct i as [|i]; cbn [zseq nth_error].
  - f_equal. lia.
  - rewrite IH by lia. f_equal. lia.
Qed.

Theorem C21_getDays : forall w, valid_date (wy w, wm w, wd w) -> jd_year (wy w) -> 0 <= wstart w <= 6 ->
  exists days first, SolarWeek_getDays w = Ok days /\ List.length days = 7%nat /\
    SolarWeek_getFirstDay w = Ok first /\ weekday (sdate first) (wstart w) /\
    (forall i d, nth_error days i = Some d ->
       valid_solar d /\ sh d = 0 /\ smi d = 0 /\ ss d = 0 /\ days_later (Z.of_nat i) (sdate first) (sdate d)) /\
    In (mkSolar (wy w) (wm w) (wd w) 0 0 0) days.
Proof.
  intros w V J S. destruct (getDays_days w V J S) as (l & E & F). destruct (getFirstDay_day w V J S) as (f & Ef & Df).
  exists l, f. split; [exact E|]. split; [rewrite <- (Forall2_length _ _ _ F); apply zseq_length|]. split; [exact Ef|].
  destruct Df as (Vf & Mf & Nf). split.
  { apply weekday_dayno; [apply Vf|]. rewrite Nf. unfold woff. lia. }
  split.
  - intros i d Hi. assert (L : (i < 7)%nat).
    { assert (i < List.length l)%nat by (apply nth_error_Some; congruence).
      rewrite <- (Forall2_length _ _ _ F), zseq_length in H. exact H. }
    destruct (Forall2_nth _ _ _ F i _ d (nth_zseq _ _ _ L) Hi) as (Vd & (A & B & C) & D).
    split; [exact Vd|]. repeat (split; [assumption|]).
    apply days_later_dayno; [apply Vf|apply Vd|]. lia.
  - set (off := woff (dayno (wdate w)) (wstart w)) in *.
    assert (O : 0 <= off < 7) by (unfold off, woff; lia).
    destruct (nth_error l (Z.to_nat off)) as [d|] eqn:Ed.
    + pose proof (Forall2_nth _ _ _ F _ _ d (nth_zseq 7 _ (Z.to_nat off) ltac:(lia)) Ed) as D.
      replace (dayno (wdate w) - off + Z.of_nat (Z.to_nat off)) with (dayno (wdate w)) in D by lia.
      assert (d = mkSolar (wy w) (wm w) (wd w) 0 0 0) as <-.
      { eapply is_day_inj; [exact D|]. apply fromYmd_day. exact V. }
      eapply nth_error_In. exact Ed.
    + apply nth_error_None in Ed. rewrite <- (Forall2_length _ _ _ F), zseq_length in Ed. lia.
Qed.

Lemma filter_month w : valid_date (wy w, wm w, wd w) -> forall lo l,
  dayno (wy w, wm w, wd w) - 7 < lo <= dayno (wy w, wm w, wd w) ->
  Forall2 is_day (zseq lo 7) l ->
  filter (fun d => wm w =? sm d) l = filter (fun d => (sy d =? wy w) && (sm d =? wm w)) l.
Proof.
  intros V lo l Hlo F. apply filter_ext_in. intros d Hd.
  apply In_nth_error in Hd. destruct Hd as [i Hi].
  assert (L : (i < 7)%nat).
  { assert (i < List.length l)%nat by (apply nth_error_Some; congruence).
    rewrite <- (Forall2_length _ _ _ F), zseq_length in H. exact H. }
  destruct (Forall2_nth _ _ _ F i _ d (nth_zseq _ _ _ L) Hi) as (Vd & _ & D).
  destruct (Z.eqb_spec (wm w) (sm d)) as [E|N]; [|lia].
  rewrite (proj2 (Z.eqb_eq _ _) (eq_sym E)), andb_true_r. symmetry. apply Z.eqb_eq.
  (* two dates less than a week apart with the same month number have the same year *)
  destruct Vd as [Vd _]. unfold sdate in *. pose proof (dayno_year _ _ _ Vd) as Y1. pose proof (dayno_year _ _ _ V) as Y2.
  assert (HM : 1 <= wm w <= 12) by (destruct V; assumption).
  pose proof (dord_bounds _ _ _ V). pose proof (dord_bounds _ _ _ Vd).
  pose proof (mlen_bounds (wy w) (wm w)). pose proof (mlen_bounds (sy d) (sm d)).
  assert (CB : forall y, cum y (wm w) <= 335 /\ 0 <= cum y (wm w)).
  { intros y. pose proof (cum_mono y 1 (wm w) ltac:(lia) ltac:(lia) ltac:(lia)) as C1. rewrite cum_1 in C1.
    pose proof (cum_mono y (wm w) 12 ltac:(lia) ltac:(lia) ltac:(lia)) as C2.
    unfold cum in C2 at 2. destruct (leap y), (y =? 1582); cbn in C2; lia. }
  unfold dayno in *. rewrite <- E in *.
  assert (CD : forall y y', - 11 <= cum y (wm w) - cum y' (wm w) <= 11).
  { intros y y'. unfold cum. destruct (leap y), (leap y'), (y =? 1582), (y' =? 1582), (2 <? wm w), (10 <? wm w); cbn [andb]; lia. }
  pose proof (CD (wy w) (sy d)).
  destruct (Z.lt_trichotomy (wy w) (sy d)) as [L1|[L1|L1]]; [|congruence|].
  - pose proof (ybase_mono (wy w) (sy d) ltac:(lia)). lia.
  - pose proof (ybase_mono (sy d) (wy w) ltac:(lia)). lia.
Qed.

Theorem C21_getDaysInMonth : forall w, valid_date (wy w, wm w, wd w) -> jd_year (wy w) -> 0 <= wstart w <= 6 ->
  exists days inm, SolarWeek_getDays w = Ok days /\ SolarWeek_getDaysInMonth w = Ok inm /\
    inm = filter (fun d => (sy d =? wy w) && (sm d =? wm w)) days /\
    In (mkSolar (wy w) (wm w) (wd w) 0 0 0) inm /\
    SolarWeek_getFirstDayInMonth w = Ok (hd_error inm).
Proof.
  intros w V J S. destruct (getDays_days w V J S) as (l & E & F).
  destruct (C21_getDays w V J S) as (l' & f & E' & _ & _ & _ & _ & I). rewrite E in E'. apply Ok_inj in E'. subst l'.
  exists l. eexists. split; [exact E|]. unfold SolarWeek_getDaysInMonth, SolarWeek_getFirstDayInMonth. rewrite E. cbn [bind].
  split; [reflexivity|]. split; [|split].
  - eapply filter_month; [exact V| |exact F]. unfold wdate, woff. lia.
  - apply filter_In. split; [exact I|]. cbn [sm]. apply Z.eqb_refl.
  - f_equal. clear. induction l as [|a l IH]; cbn; [reflexivity|]. destruct (wm w =? sm a); [reflexivity|exact IH].
Qed.

Example C21_case : (let! l := SolarWeek_getDays (mkSolarWeek 1582 10 18 1) in Ok (map sdate l)) =
  Ok [(1582, 10, 18); (1582, 10, 19); (1582, 10, 20); (1582, 10, 21); (1582, 10, 22); (1582, 10, 23); (1582, 10, 24)].
Proof. vm_compute. reflexivity. Qed.

(** ** C22 *)
(** [starts_within start k n] counts the [i] in 1..n such that [i] days after a day of weekday [k]
    comes a weekday [start]. *)
Theorem C22_getIndex : forall w k n, valid_date (wy w, wm w, wd w) -> jd_year (wy w) -> 0 <= wstart w <= 6 ->
  ~ (wy w = 1582 /\ wm w = 10 /\ 15 <= wd w) ->
  weekday (wy w, wm w, 1) k -> days_later n (wy w, wm w, 1) (wy w, wm w, wd w) ->
  SolarWeek_getIndex w = Ok (1 + starts_within (wstart w) k n).
Proof.
  intros w k n V J S G W D. pose proof (last_day_bounds (wy w) (wm w)) as LB.
  assert (V1 : valid_date (wy w, wm w, 1)) by (destruct V as (? & ? & ?); unfold valid_date; lia).
  apply days_later_dayno in D; [|exact V1|exact V]. apply weekday_dayno in W; [|exact V1].
  unfold SolarWeek_getIndex. destruct (fromYmd_day _ _ _ V1) as [E I]. rewrite E. cbn [bind].
  rewrite getWeek_spec by (apply I || exact J). cbn [bind].
  change (sdate (mkSolar (wy w) (wm w) 1 0 0 0)) with (wy w, wm w, 1).
  rewrite woff_code by exact S.
  assert (N : n = wd w - 1).
  { rewrite dayno_first in D. unfold dayno, dord in D. destruct V as (Hm & Hd & Hg).
    destruct ((wy w =? 1582) && (wm w =? 10) && (4 <? wd w)) eqn:F; lia. }
  assert (O : 0 <= woff (dayno (wy w, wm w, 1)) (wstart w) <= 6) by (unfold woff; lia).
  destruct V as (Hm & Hd & Hg).
  rewrite ceil_div_ok by lia. f_equal. rewrite starts_within_closed by lia. unfold woff. lia.
Qed.

Theorem C22_getIndexInYear : forall w k n, valid_date (wy w, wm w, wd w) -> jd_year (wy w) -> 0 <= wstart w <= 6 ->
  weekday (wy w, 1, 1) k -> days_later n (wy w, 1, 1) (wy w, wm w, wd w) ->
  SolarWeek_getIndexInYear w = Ok (1 + starts_within (wstart w) k n).
Proof.
  intros w k n V J S W D. pose proof (valid_jan1 (wy w)) as V1.
  apply days_later_dayno in D; [|exact V1|exact V]. apply weekday_dayno in W; [|exact V1].
  unfold SolarWeek_getIndexInYear. destruct (fromYmd_day _ _ _ V1) as [E I]. rewrite E. cbn [bind].
  rewrite getWeek_spec by (apply I || exact J). cbn [bind].
  change (sdate (mkSolar (wy w) 1 1 0 0 0)) with (wy w, 1, 1).
  rewrite woff_code by exact S. rewrite getDaysInYear_ok by exact V. cbn [bind].
  pose proof (dayno_year _ _ _ V) as Y. rewrite ybase_succ in Y. pose proof (ylen_bounds (wy w)).
  rewrite dayno_jan1 in D. assert (N : cum (wy w) (wm w) + dord (wy w) (wm w) (wd w) = n + 1) by (unfold dayno in D; lia).
  rewrite N. assert (O : 0 <= woff (dayno (wy w, 1, 1)) (wstart w) <= 6) by (unfold woff; lia).
  rewrite ceil_div_ok by lia. f_equal. rewrite starts_within_closed by lia. unfold woff. lia.
Qed.

(** After the gap of October 1582 the number of the week in the month is too large: the code uses the
    raw day of the month.  Wednesday 20 October 1582 lies in the second week (weeks from Sunday) of
    that month; the code says 3. *)
Theorem C22_gap_refuted :
  ~ (forall w k n, valid_date (wy w, wm w, wd w) -> jd_year (wy w) -> 0 <= wstart w <= 6 ->
       weekday (wy w, wm w, 1) k -> days_later n (wy w, wm w, 1) (wy w, wm w, wd w) ->
       SolarWeek_getIndex w = Ok (1 + starts_within (wstart w) k n)).
Proof.
  intros H. assert (E : SolarWeek_getIndex (mkSolarWeek 1582 10 20 0) = Ok 3) by (vm_compute; reflexivity).
  specialize (H (mkSolarWeek 1582 10 20 0) 1 9). cbn [wy wm wd wstart] in H.
  assert (V1 : valid_date (1582, 10, 1)) by (unfold valid_date; cbn; lia).
  assert (V2 : valid_date (1582, 10, 20)) by (unfold valid_date; cbn; lia).
  rewrite E in H. assert (starts_within 0 1 9 = 1) as SW by (vm_compute; reflexivity). rewrite SW in H.
  assert (X : Ok 3 = Ok (1 + 1)).
  { apply H; [exact V2|unfold jd_year; lia|lia| |].
    - apply weekday_dayno; [exact V1|]. vm_compute. reflexivity.
    - apply days_later_dayno; [exact V1|exact V2|]. vm_compute. reflexivity. }
  discriminate X.
Qed.

Example C22_case : SolarWeek_getIndex (mkSolarWeek 2022 5 22 0) = Ok 4 /\ SolarWeek_getIndexInYear (mkSolarWeek 2022 5 22 0) = Ok 22
  /\ weekday (2022, 5, 1) 0 /\ starts_within 0 0 21 = 3.
Proof. repeat split; try (vm_compute; reflexivity). apply weekday_dayno; vm_compute; repeat split; try discriminate; try (intros (? & ?); discriminate). Qed.

(** ** C23 *)
(** The number of weeks touching the month is [1 + starts_within start k (n - 1)] for a month of [n]
    days beginning on weekday [k]; the code returns one less whenever [k < start]. *)
Theorem C23_getWeeksOfMonth : forall y m start k, jd_year y -> 1 <= m <= 12 -> 0 <= start <= 6 ->
  weekday (y, m, 1) k ->
  getWeeksOfMonth y m start =
  Ok (1 + starts_within start k (days_counted y m - 1) - (if k <? start then 1 else 0)).
Proof.
  intros y m start k J Hm S W. pose proof (last_day_bounds y m) as LB.
  assert (V1 : valid_date (y, m, 1)) by (unfold valid_date; lia).
  apply weekday_dayno in W; [|exact V1]. rewrite days_counted_mlen by exact Hm. pose proof (mlen_bounds y m) as MB.
  unfold getWeeksOfMonth. rewrite getDaysOfMonth_mlen by exact Hm. cbn [bind].
  destruct (fromYmd_day _ _ _ V1) as [E I]. rewrite E. cbn [bind].
  rewrite getWeek_spec by (apply I || exact J). cbn [bind].
  change (sdate (mkSolar y m 1 0 0 0)) with (y, m, 1). rewrite <- W.
  rewrite ceil_div_ok by lia. f_equal. rewrite starts_within_closed by lia.
  destruct (Z.ltb_spec k start); lia.
Qed.

Theorem C23_naive_refuted :
  ~ (forall y m start n l, jd_year y -> 1 <= m <= 12 -> 0 <= start <= 6 ->
       getWeeksOfMonth y m start = Ok n -> SolarMonth_getWeeks (mkSolarMonth y m) start = Ok l ->
       n = Z.of_nat (List.length l)).
Proof.
  intros H. assert (A : getWeeksOfMonth 2022 5 1 = Ok 5) by (vm_compute; reflexivity).
  assert (B : exists l, SolarMonth_getWeeks (mkSolarMonth 2022 5) 1 = Ok l /\ List.length l = 6%nat)
    by (eexists; split; vm_compute; reflexivity).
  destruct B as (l & B & L). specialize (H 2022 5 1 5 l ltac:(unfold jd_year; lia) ltac:(lia) ltac:(lia) A B). lia.
Qed.

(** ** C24 *)
Definition is_week (start d : Z) (i : Z) (w : SolarWeek) : Prop :=
  valid_date (wdate w) /\ dayno (wdate w) = d + 7 * i /\ wstart w = start.

Lemma year_of_dayno y m d y' m' d' : valid_date (y, m, d) -> valid_date (y', m', d') ->
  dayno (y, m, d) <= dayno (y', m', d') -> dayno (y', m', d') <= dayno (y, m, d) + 350 -> y <= y' <= y + 1.
Proof.
  intros V V' L L'. pose proof (dayno_year _ _ _ V). pose proof (dayno_year _ _ _ V').
  pose proof (ybase_succ y). pose proof (ybase_succ (y + 1)). pose proof (ylen_bounds (y + 1)).
  split.
  - destruct (Z.le_gt_cases y y') as [|G]; [assumption|]. pose proof (ybase_mono (y' + 1) y ltac:(lia)). lia.
  - destruct (Z.le_gt_cases y' (y + 1)) as [|G]; [assumption|]. pose proof (ybase_mono (y + 1 + 1) y' ltac:(lia)). lia.
Qed.

Lemma getWeeks_spec y m start : -4712 <= y < 1000000 -> 1 <= m <= 12 -> 0 <= start <= 6 ->
  exists l, SolarMonth_getWeeks (mkSolarMonth y m) start = Ok l /\
    Forall2 (is_week start (dayno (y, m, 1))) (zseq 0 (List.length l)) l /\
    Z.of_nat (List.length l) = 1 + (mlen y m - 1 + woff (dayno (y, m, 1)) start) / 7.
Proof.
  intros J Hm S. set (D := dayno (y, m, 1)). pose proof (last_day_bounds y m) as LB. pose proof (mlen_bounds y m) as MB.
  assert (V1 : valid_date (y, m, 1)) by (unfold valid_date; lia).
  set (K := 1 + (mlen y m - 1 + woff D start) / 7).
  assert (O : 0 <= woff D start <= 6) by (unfold woff; lia).
  unfold SolarMonth_getWeeks. cbn [smy smm].
  destruct (loop_rule
    (fun st : list SolarWeek * SolarWeek => let '(acc, w) := st in
       Z.of_nat (List.length acc) < K /\
       is_week start D (Z.of_nat (List.length acc)) w /\
       Forall2 (is_week start D) (zseq 0 (List.length acc)) (rev acc))
    (fun r => exists l, r = Ok l /\ Forall2 (is_week start D) (zseq 0 (List.length l)) l /\
              Z.of_nat (List.length l) = K)
    (fun st => K - Z.of_nat (List.length (fst st)))
    (getWeeks_step (mkSolarMonth y m)) 10 ([], mkSolarWeek y m 1 start)) as (r & E & Q).
  - intros [acc w] (H & _). cbn [fst]. lia.
  - intros [acc w] (HK & (Vw & Dw & Sw) & F). unfold getWeeks_step.
    unfold SolarWeek_next. change (0 =? 1) with false. cbn iota.
    destruct (fromYmd_day _ _ _ Vw) as [E1 I1]. rewrite E1. cbn [bind].
    destruct (next_day _ _ (1 * 7) I1) as (s' & E2 & I2). rewrite E2. cbn [bind].
    set (w' := mkSolarWeek (sy s') (sm s') (sd s') (wstart w)).
    assert (Vw' : valid_date (wdate w')) by apply I2.
    assert (Dw' : dayno (wdate w') = D + 7 * (Z.of_nat (List.length acc) + 1)).
    { destruct I2 as (_ & _ & I2). change (sdate s') with (wdate w') in I2.
      change (wy w, wm w, wd w) with (wdate w) in I2. lia. }
    assert (HK7 : K <= 6) by (unfold K; lia).
    assert (Y' : y <= wy w' <= y + 1).
    { apply (year_of_dayno y m 1 _ (wm w') (wd w') V1 Vw'); fold D; fold (wdate w'); lia. }
    destruct (getFirstDay_day w' Vw' ltac:(unfold jd_year; lia) ltac:(cbn; lia)) as (fd & E3 & I3).
    rewrite E3. cbn [bind smy smm].
    replace (woff (dayno (wdate w')) (wstart w')) with (woff D start) in I3 by (cbn [wstart w']; rewrite Dw', Sw; unfold woff; lia).
    rewrite Dw' in I3. destruct I3 as (V3 & _ & D3).
    assert (C : (y <? sy fd) || (m <? sm fd) = (D + mlen y m <=? dayno (sdate fd))).
    { pose proof (in_month y m fd Hm (proj1 V3)) as IM. fold D in IM.
      assert (LE : D <= dayno (sdate fd)) by lia.
      destruct (Z.leb_spec (D + mlen y m) (dayno (sdate fd))) as [L|L].
      - pose proof (proj1 V3) as Vfd.
        assert (LL : lex_lt (y, m, 1) (sdate fd)) by (apply dayno_lt_lex; [exact V1|exact Vfd|fold D; lia]).
        unfold sdate, lex_lt in LL. unfold sdate in *. lia.
      - assert ((sy fd =? y) && (sm fd =? m) = true) by lia. lia. }
    rewrite C. rewrite D3. destruct (Z.leb_spec (D + mlen y m) (D + 7 * (Z.of_nat (List.length acc) + 1) - woff D start)) as [L|L].
    + exists (rev (w :: acc)). split; [reflexivity|]. rewrite rev_length. cbn [List.length].
      split; [|unfold K in *; lia].
      replace (Datatypes.S (List.length acc)) with (List.length acc + 1)%nat by lia. rewrite zseq_app. cbn [rev].
      apply Forall2_app; [exact F|]. cbn [zseq]. constructor; [|constructor]. repeat split; [apply Vw..| |exact Sw]. lia.
    + split; [|cbn [fst List.length]; lia]. cbn [List.length].
      split; [unfold K; lia|]. split.
      * split; [exact Vw'|]. split; [rewrite Dw'; lia|exact Sw].
      * replace (Datatypes.S (List.length acc)) with (List.length acc + 1)%nat by lia. rewrite zseq_app. cbn [rev].
        apply Forall2_app; [exact F|]. cbn [zseq]. constructor; [|constructor]. repeat split; [apply Vw..| |exact Sw]. lia.
  - cbn [List.length zseq rev]. split; [unfold K; lia|]. split; [|constructor].
    split; [exact V1|]. split; [cbn [wdate wy wm wd]; fold D; unfold wdate; cbn [wy wm wd]; fold D; lia|reflexivity].
  - cbn [fst List.length]. unfold K. lia.
  - rewrite E. cbn [bind]. destruct Q as (l & -> & F & L). exists l. split; [reflexivity|]. split; assumption.
Qed.

Lemma concat_weeks start D : 0 <= start <= 6 -> forall l i, Forall2 (is_week start D) (zseq i (List.length l)) l ->
  (forall w, In w l -> jd_year (wy w)) ->
  exists ds, mapM SolarWeek_getDays l = Ok ds /\
    Forall2 is_day (zseq (D - woff D start + 7 * i) (7 * List.length l)) (concat ds).
Proof.
  intros S. induction l as [|w l IH]; intros i F J.
  - exists []. split; [reflexivity|]. constructor.
  - cbn [List.length zseq] in F. inversion F as [|? ? ? ? Hw F']; subst. destruct Hw as (Vw & Dw & Sw).
    destruct (IH (i + 1) F' ltac:(intros; apply J; now right)) as (ds & E & Fd).
    destruct (getDays_days w Vw (J w ltac:(now left)) ltac:(lia)) as (d & Ed & Fw).
    cbn [mapM]. rewrite Ed. cbn [bind]. rewrite E. cbn [bind]. eexists; split; [reflexivity|].
    cbn [concat List.length]. replace (7 * Datatypes.S (List.length l))%nat with (7 + 7 * List.length l)%nat by lia.
    rewrite zseq_app. apply Forall2_app.
    + replace (D - woff D start + 7 * i) with (dayno (wdate w) - woff (dayno (wdate w)) (wstart w));
        [exact Fw|]. rewrite Sw, Dw. unfold woff. lia.
    + replace (D - woff D start + 7 * i + Z.of_nat 7) with (D - woff D start + 7 * (i + 1)) by lia. exact Fd.
Qed.

Theorem C24_getWeeks_cover : forall y m start k, -4712 <= y < 1000000 -> 1 <= m <= 12 -> 0 <= start <= 6 ->
  weekday (y, m, 1) k ->
  exists weeks days month, SolarMonth_getWeeks (mkSolarMonth y m) start = Ok weeks /\
    mapM SolarWeek_getDays weeks = Ok days /\ SolarMonth_getDays (mkSolarMonth y m) = Ok month /\
    filter (fun d => (sy d =? y) && (sm d =? m)) (concat days) = month /\
    Z.of_nat (List.length weeks) = 1 + starts_within start k (days_counted y m - 1).
Proof.
  intros y m start k J Hm S W. destruct (getWeeks_spec y m start J Hm S) as (l & E & F & L).
  pose proof (last_day_bounds y m) as LB. pose proof (mlen_bounds y m) as MB.
  assert (V1 : valid_date (y, m, 1)) by (unfold valid_date; lia).
  assert (O : 0 <= woff (dayno (y, m, 1)) start <= 6) by (unfold woff; lia).
  destruct (concat_weeks start (dayno (y, m, 1)) S l 0 F) as (ds & Ed & Fd).
  { intros w Hw. apply In_nth_error in Hw. destruct Hw as [i Hi].
    assert (Li : (i < List.length l)%nat) by (apply nth_error_Some; congruence).
    destruct (Forall2_nth _ _ _ F i _ w (nth_zseq _ _ _ Li) Hi) as (Vw & Dw & _).
    assert (y <= wy w <= y + 1); [|unfold jd_year; lia].
    apply (year_of_dayno y m 1 _ (wm w) (wd w) V1 Vw); fold (wdate w); lia. }
  destruct (SolarMonth_getDays_days y m Hm) as (mo & Em & Fm).
  exists l, ds, mo. repeat (split; [assumption|]). split.
  - eapply days_unique; [|exact Fm].
    assert (FF := Forall2_filter is_day
      (fun k => (dayno (y, m, 1) <=? k) && (k <? dayno (y, m, 1) + mlen y m))
      (fun d => (sy d =? y) && (sm d =? m)) _ _ Fd).
    rewrite filter_zseq in FF by lia.
    replace (dayno (y, m, 1) + mlen y m - dayno (y, m, 1)) with (mlen y m) in FF by lia. apply FF.
    intros a b (Vb & _ & <-). symmetry. apply in_month; [exact Hm|apply Vb].
  - apply weekday_dayno in W; [|exact V1]. rewrite days_counted_mlen by exact Hm. rewrite L.
    rewrite starts_within_closed by lia. unfold woff. subst k. f_equal. f_equal. f_equal. lia.
Qed.

(** The weeks listed by SolarMonth.getWeeks need not belong to the month: the last one may carry a
    date of the following month, so that its getDaysInMonth lists days of that month. *)
Theorem C24_weeks_of_the_month_refuted :
  ~ (forall y m start l w, jd_year y -> 1 <= m <= 12 -> 0 <= start <= 6 ->
       SolarMonth_getWeeks (mkSolarMonth y m) start = Ok l -> In w l -> wm w = m).
Proof.
  intros H. assert (E : exists l, SolarMonth_getWeeks (mkSolarMonth 2021 5) 0 = Ok l /\ In (mkSolarWeek 2021 6 5 0) l).
  { eexists. split; [vm_compute; reflexivity|]. cbn. tauto. }
  destruct E as (l & E & I).
  specialize (H 2021 5 0 l _ ltac:(unfold jd_year; lia) ltac:(lia) ltac:(lia) E I). discriminate H.
Qed.

Example C24_case : (let! l := SolarMonth_getWeeks (mkSolarMonth 1582 10) 1 in Ok (map wdate l)) =
  Ok [(1582, 10, 1); (1582, 10, 18); (1582, 10, 25)].
Proof. vm_compute. reflexivity. Qed.

(** ** C25 *)
(** Sign, first day (month, day), last day, in the usual almanac. *)
Definition zodiac : list (str * (Z * Z) * (Z * Z)) := Eval vm_compute in
  map (fun x => let '(a, b, c, d, e) := x in (utf8 a, (b, c), (d, e)))
  [("白羊", 3, 21, 4, 19); ("金牛", 4, 20, 5, 20); ("双子", 5, 21, 6, 21); ("巨蟹", 6, 22, 7, 22);
   ("狮子", 7, 23, 8, 22); ("处女", 8, 23, 9, 22); ("天秤", 9, 23, 10, 23); ("天蝎", 10, 24, 11, 22);
   ("射手", 11, 23, 12, 21); ("摩羯", 12, 22, 1, 19); ("水瓶", 1, 20, 2, 18); ("双鱼", 2, 19, 3, 20)]%string.

(** [(m, d)] lies in the sign: in the month of its first day from that day on, or in the month of its
    last day up to that day. *)
Definition in_sign (m d : Z) (f l : Z * Z) : Prop := (m = fst f /\ snd f <= d) \/ (m = fst l /\ d <= snd l).
Definition in_signb (m d : Z) (f l : Z * Z) : bool := ((m =? fst f) && (snd f <=? d)) || ((m =? fst l) && (d <=? snd l)).
Definition sres_is (r : res str) (n : str) : bool := match r with Ok k => str_eqb k n | Raise _ => false end.
Lemma sres_is_eq r n : sres_is r n = true <-> r = Ok n.
Proof.
  destruct r; cbn; [|split; discriminate]. rewrite str_eqb_eq. split; [congruence|intros H; now apply Ok_inj in H].
Qed.

Lemma zodiac_table : forallb (fun m => forallb (fun d => forallb (fun x => let '(n, f, l) := x in
    Bool.eqb (sres_is (getXingZuo (mkSolar 0 m d 0 0 0)) n) (in_signb m d f l)) zodiac) (zrange 1 32)) (zrange 1 13) = true.
Proof. vm_compute. reflexivity. Qed.

Theorem C25_zodiac : forall s name f l, valid_date (sdate s) -> In (name, f, l) zodiac ->
  (getXingZuo s = Ok name <-> in_sign (sm s) (sd s) f l).
Proof.
  intros s name f l V I. pose proof (last_day_bounds (sy s) (sm s)) as LB. destruct V as (Hm & Hd & _).
  pose proof zodiac_table as T. pose proof (forallb_zrange _ _ _ T (sm s) ltac:(lia)) as T1.
  apply forallb_zrange with (x := sd s) in T1; [|lia]. rewrite forallb_forall in T1. specialize (T1 _ I).
  apply eqb_prop in T1. change (getXingZuo (mkSolar 0 (sm s) (sd s) 0 0 0)) with (getXingZuo s) in T1.
  rewrite <- sres_is_eq, T1. unfold in_signb, in_sign. lia.
Qed.

Theorem C25_always_a_sign : forall s, valid_date (sdate s) ->
  exists name f l, In (name, f, l) zodiac /\ getXingZuo s = Ok name.
Proof.
  intros s V. pose proof (last_day_bounds (sy s) (sm s)) as LB.
  assert (E : exists x, In x zodiac /\ let '(_, f, l) := x in in_sign (sm s) (sd s) f l).
  { assert (K : forallb (fun m => forallb (fun d => existsb (fun x => let '(_, f, l) := x in in_signb m d f l) zodiac)
      (zrange 1 32)) (zrange 1 13) = true) by (vm_compute; reflexivity).
    destruct V as (Hm & Hd & _).
    apply forallb_zrange with (x := sm s) in K; [|lia]. apply forallb_zrange with (x := sd s) in K; [|lia].
    apply existsb_exists in K. destruct K as ([[n f] l] & I & B). exists (n, f, l). split; [exact I|].
    unfold in_signb in B. unfold in_sign. lia. }
  destruct E as ([[n f] l] & I & B). exists n, f, l. split; [exact I|]. now apply (C25_zodiac s n f l V I).
Qed.

Theorem C25_year_independent : forall a b, sm a = sm b -> sd a = sd b -> getXingZuo a = getXingZuo b.
Proof. intros a b E1 E2. unfold getXingZuo, XingZuo_index. now rewrite E1, E2. Qed.

Example C25_case : getXingZuo (mkSolar 2020 2 29 0 0 0) = Ok (utf8 "双鱼") /\ getXingZuo (mkSolar 2020 1 19 0 0 0) = Ok (utf8 "摩羯").
Proof. vm_compute. split; reflexivity. Qed.

(** ** C26 *)
(** The day is the [n]-th of its weekday in its month: it lies in the [n]-th block of seven days. *)
Definition nth_weekday (n : Z) (a : date) : Prop :=
  let '(y, m, d) := a in exists j, 0 <= j <= 6 /\ days_later (7 * (n - 1) + j) (y, m, 1) (y, m, d).
(** No later day of the month has the same weekday. *)
Definition last_weekday (a : date) : Prop :=
  let '(y, m, d) := a in forall d', valid_date (y, m, d') -> ~ days_later 7 (y, m, d) (y, m, d').

(** Festival, month, number of the week (0: last), weekday. *)
Definition week_festivals : list (str * Z * Z * Z) := Eval vm_compute in
  map (fun x => let '(a, b, c, d) := x in (utf8 a, b, c, d))
  [("全国中小学生安全教育日", 3, 0, 1); ("母亲节", 5, 2, 0); ("全国助残日", 5, 3, 0); ("父亲节", 6, 3, 0);
   ("全民国防教育日", 9, 3, 6); ("世界住房日", 10, 1, 1); ("感恩节", 11, 4, 4)]%string.
(** Festivals on fixed days. *)
Definition fixed_festivals : list (str * Z * Z) := Eval vm_compute in
  map (fun x => let '(a, b, c) := x in (utf8 a, b, c))
  [("元旦节", 1, 1); ("情人节", 2, 14); ("妇女节", 3, 8); ("植树节", 3, 12); ("消费者权益日", 3, 15); ("愚人节", 4, 1);
   ("劳动节", 5, 1); ("青年节", 5, 4); ("儿童节", 6, 1); ("建党节", 7, 1); ("建军节", 8, 1); ("教师节", 9, 10); ("国庆节", 10, 1);
   ("万圣节前夜", 10, 31); ("万圣节", 11, 1); ("平安夜", 12, 24); ("圣诞节", 12, 25)]%string.

(** What getFestivals computes from month, day, weekday and whether the day is among the last seven. *)
Definition festivals_fun (m d c w : Z) (late : bool) : list str :=
  opt_list (assoc (str_of_Z m ++ [45] ++ str_of_Z d) SolarUtil_FESTIVAL) ++
  opt_list (assoc (str_of_Z m ++ [45] ++ str_of_Z c ++ [45] ++ str_of_Z w) SolarUtil_WEEK_FESTIVAL) ++
  (if late then opt_list (assoc (str_of_Z m ++ [45; 48; 45] ++ str_of_Z w) SolarUtil_WEEK_FESTIVAL) else []).

Definition mem (n : str) (l : list str) : bool := existsb (str_eqb n) l.
Lemma mem_In n l : mem n l = true <-> In n l.
Proof.
  unfold mem. rewrite existsb_exists. split.
  - intros (x & I & E). apply str_eqb_eq in E. now subst.
  - intros I. exists n. split; [exact I|apply str_eqb_refl].
Qed.

Lemma festivals_table : forallb (fun m => forallb (fun d => forallb (fun w => forallb (fun late : bool =>
   let fs := festivals_fun m d ((d + 6) / 7) w late in
   forallb (fun x => let '(n, m', c', w') := x in
      Bool.eqb (mem n fs) ((m =? m') && (w =? w') && (if c' =? 0 then late else c' =? (d + 6) / 7))) week_festivals &&
   forallb (fun x => let '(n, m', d') := x in Bool.eqb (mem n fs) ((m =? m') && (d =? d'))) fixed_festivals &&
   forallb (fun n => mem n (map (fun x => fst (fst (fst x))) week_festivals ++ map (fun x => fst (fst x)) fixed_festivals)) fs)
   [true; false]) (zrange 0 7)) (zrange 1 32)) (zrange 1 13) = true.
Proof. vm_compute. reflexivity. Qed.

Lemma getFestivals_fun s : valid_solar s -> jd_year (sy s) ->
  getFestivals s = Ok (festivals_fun (sm s) (sd s) ((sd s + 6) / 7) ((dayno (sdate s) + 1) mod 7) (mlen (sy s) (sm s) <? sd s + 7)).
Proof.
  intros V J. pose proof (last_day_bounds (sy s) (sm s)) as LB. destruct (proj1 V) as (Hm & Hd & _).
  unfold getFestivals. rewrite getWeek_spec by assumption. cbn [bind].
  rewrite ceil_day_ok by lia. cbn [bind]. rewrite getDaysOfMonth_mlen by assumption. cbn [bind]. reflexivity.
Qed.

Lemma festivals_at s : valid_solar s -> jd_year (sy s) ->
  exists fs, getFestivals s = Ok fs /\
  (forall n m c w, In (n, m, c, w) week_festivals ->
     (In n fs <-> sm s = m /\ (dayno (sdate s) + 1) mod 7 = w /\
        (if c =? 0 then mlen (sy s) (sm s) < sd s + 7 else c = (sd s + 6) / 7))) /\
  (forall n m d, In (n, m, d) fixed_festivals -> (In n fs <-> sm s = m /\ sd s = d)) /\
  (forall n, In n fs -> In n (map (fun x => fst (fst (fst x))) week_festivals ++ map (fun x => fst (fst x)) fixed_festivals)).
Proof.
  intros V J. eexists. split; [now apply getFestivals_fun|].
  pose proof (last_day_bounds (sy s) (sm s)) as LB. destruct (proj1 V) as (Hm & Hd & _).
  pose proof festivals_table as T.
  apply forallb_zrange with (x := sm s) in T; [|lia]. apply forallb_zrange with (x := sd s) in T; [|lia].
  apply forallb_zrange with (x := (dayno (sdate s) + 1) mod 7) in T; [|lia].
  rewrite forallb_forall in T. specialize (T (mlen (sy s) (sm s) <? sd s + 7)).
  assert (I : In (mlen (sy s) (sm s) <? sd s + 7) [true; false]) by (destruct (_ <? _); cbn; tauto).
  specialize (T I). cbv zeta in T. apply andb_prop in T. destruct T as [T T3]. apply andb_prop in T. destruct T as [T1 T2].
  rewrite forallb_forall in T1, T2, T3. split; [|split].
  - intros n m c w H. specialize (T1 _ H). apply eqb_prop in T1. rewrite <- mem_In, T1.
    destruct (c =? 0); lia.
  - intros n m d H. specialize (T2 _ H). apply eqb_prop in T2. rewrite <- mem_In, T2. lia.
  - intros n H. apply mem_In. now apply T3.
Qed.

Theorem C26_weekday_festivals : forall s k n m c w, valid_solar s -> jd_year (sy s) -> weekday (sdate s) k ->
  In (n, m, c, w) week_festivals ->
  exists fs, getFestivals s = Ok fs /\
    (In n fs <-> sm s = m /\ k = w /\ (if c =? 0 then last_weekday (sdate s) else nth_weekday c (sdate s))).
Proof.
  intros s k n m c w V J W I. destruct (festivals_at s V J) as (fs & E & F & _). exists fs. split; [exact E|].
  rewrite (F n m c w I). apply weekday_dayno in W; [|apply V]. rewrite <- W.
  assert (T : (c = 0 -> m = 3) /\ (m = 10 -> c = 1 /\ w = 1)).
  { assert (K : forallb (fun x => let '(_, m, c, w) := x in
      (negb (c =? 0) || (m =? 3)) && (negb (m =? 10) || ((c =? 1) && (w =? 1)))) week_festivals = true) by reflexivity.
    rewrite forallb_forall in K. specialize (K _ I). cbn beta iota in K. lia. }
  pose proof (last_day_bounds (sy s) (sm s)) as LB. destruct (proj1 V) as (Hm & Hd & Hg).
  assert (V1 : valid_date (sy s, sm s, 1)) by (unfold valid_date; lia).
  assert (NW : nth_weekday c (sdate s) <-> c = (dord (sy s) (sm s) (sd s) + 6) / 7).
  { unfold nth_weekday, sdate. split.
    - intros (j & Hj & D). apply days_later_dayno in D; [|exact V1|apply V]. rewrite dayno_first in D. unfold dayno in D. lia.
    - intros ->. exists ((dord (sy s) (sm s) (sd s) + 6) mod 7). split; [lia|].
      apply days_later_dayno; [exact V1|apply V|]. rewrite dayno_first. unfold dayno. lia. }
  destruct (Z.eqb_spec c 0) as [C|C].
  - (* last Monday of March *)
    assert (m = 3) by lia. split; intros (A & B & D); (split; [exact A|split; [exact B|]]).
    + unfold last_weekday, sdate. intros d' V' D'. apply days_later_dayno in D'; [|apply V|exact V'].
      unfold mlen in D. destruct V' as (_ & V' & _). rewrite A in *. subst m.
      unfold dayno, dord in D'. change (3 =? 10) with false in *. rewrite andb_false_r in *. cbn [andb] in *. lia.
    + unfold mlen. destruct (Z.lt_ge_cases (last_day (sy s) (sm s)) (sd s + 7)) as [L|L].
      * rewrite A in *. subst m. change (3 =? 10) with false. rewrite andb_false_r. exact L.
      * exfalso. unfold last_weekday, sdate in D. apply (D (sd s + 7)); [unfold valid_date; lia|].
        apply days_later_dayno; [apply V|unfold valid_date; lia|].
        rewrite A. subst m. unfold dayno, dord. change (3 =? 10) with false. rewrite andb_false_r. cbn [andb]. lia.
  - rewrite NW. unfold dord. destruct ((sy s =? 1582) && (sm s =? 10) && (4 <? sd s)) eqn:G; [|reflexivity].
    (* 15..31 October 1582: neither side holds *)
    assert (X : sy s = 1582 /\ sm s = 10 /\ 15 <= sd s <= 31) by (pose proof Hd; lia).
    destruct X as (X1 & X2 & X3). split; intros (A & B & D); exfalso.
    + assert (c = 1) by lia. lia.
    + assert (c = 1 /\ w = 1) as [-> ->] by lia. rewrite W in B. unfold sdate in B. rewrite X1, X2 in B.
      assert (DN : dayno (1582, 10, sd s) = 2299156 + (sd s - 10)).
      { unfold dayno, dord. destruct (Z.ltb_spec 4 (sd s)); [|lia]. 
        change (ybase 1582 + cum 1582 10) with 2299156. change ((1582 =? 1582) && (10 =? 10)) with true. cbn [andb]. lia. }
      rewrite DN in B. lia.
Qed.

Theorem C26_fixed_festivals : forall s n m d, valid_solar s -> jd_year (sy s) -> In (n, m, d) fixed_festivals ->
  exists fs, getFestivals s = Ok fs /\ (In n fs <-> sm s = m /\ sd s = d).
Proof.
  intros s n m d V J I. destruct (festivals_at s V J) as (fs & E & _ & F & _). exists fs. split; [exact E|]. now apply F.
Qed.

Theorem C26_no_other_festival : forall s fs n, valid_solar s -> jd_year (sy s) -> getFestivals s = Ok fs -> In n fs ->
  (exists m c w, In (n, m, c, w) week_festivals) \/ (exists m d, In (n, m, d) fixed_festivals).
Proof.
  intros s fs n V J E I. destruct (festivals_at s V J) as (fs' & E' & _ & _ & F). rewrite E in E'. apply Ok_inj in E'. subst fs'.
  apply F in I. apply in_app_or in I. destruct I as [I|I]; apply in_map_iff in I; destruct I as (x & <- & I).
  - left. destruct x as [[[a b] c] d]. exists b, c, d. exact I.
  - right. destruct x as [[a b] c]. exists b, c. exact I.
Qed.

Example C26_case : getFestivals (mkSolar 2021 5 9 0 0 0) = Ok [utf8 "母亲节"] /\
  getFestivals (mkSolar 2021 3 29 0 0 0) = Ok [utf8 "全国中小学生安全教育日"].
Proof. vm_compute. split; reflexivity. Qed.

(** ** C73 *)
Theorem C73_week_next : forall w n, valid_date (wy w, wm w, wd w) ->
  exists w', SolarWeek_next w n false = Ok w' /\ valid_date (wy w', wm w', wd w') /\ wstart w' = wstart w /\
    days_later (7 * n) (wy w, wm w, wd w) (wy w', wm w', wd w').
Proof.
  intros w n V. unfold SolarWeek_next. destruct (Z.eqb_spec 0 n) as [<-|N].
  - exists (mkSolarWeek (wy w) (wm w) (wd w) (wstart w)). cbn [wy wm wd wstart]. split; [reflexivity|].
    split; [exact V|]. split; reflexivity.
  - destruct (fromYmd_day _ _ _ V) as [E1 I1]. rewrite E1. cbn [bind].
    destruct (next_day _ _ (n * 7) I1) as (s' & E2 & I2). rewrite E2. cbn [bind].
    eexists; split; [reflexivity|]. cbn [wy wm wd wstart]. split; [apply I2|]. split; [reflexivity|].
    apply days_later_dayno; [exact V|apply I2|]. destruct I2 as (_ & _ & I2). unfold sdate in I2. lia.
Qed.

(** Hence the first day of the week moves by exactly [n] weeks. *)
Theorem C73_first_day : forall w n w' f f', valid_date (wy w, wm w, wd w) -> jd_year (wy w) -> 0 <= wstart w <= 6 ->
  SolarWeek_next w n false = Ok w' -> jd_year (wy w') ->
  SolarWeek_getFirstDay w = Ok f -> SolarWeek_getFirstDay w' = Ok f' -> days_later (7 * n) (sdate f) (sdate f').
Proof.
  intros w n w' f f' V J S E J' F F'.
  destruct (C73_week_next w n V) as (w2 & E2 & V' & S' & D). rewrite E in E2. apply Ok_inj in E2. subst w2.
  destruct (getFirstDay_day w V J S) as (g & G & (Vg & _ & Dg)). rewrite F in G. apply Ok_inj in G. subst g.
  destruct (getFirstDay_day w' V' J' ltac:(lia)) as (g & G & (Vg' & _ & Dg')). rewrite F' in G. apply Ok_inj in G. subst g.
  apply days_later_dayno in D; [|exact V|exact V']. apply days_later_dayno; [apply Vg|apply Vg'|].
  fold (wdate w) in D. fold (wdate w') in D. rewrite Dg, Dg', S', D. unfold woff. lia.
Qed.

Example C73_case : SolarWeek_next (mkSolarWeek 1582 10 2 0) 1 false = Ok (mkSolarWeek 1582 10 19 0).
Proof. vm_compute. reflexivity. Qed.
