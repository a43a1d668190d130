(** C95: dates that come from Python's datetime. *)
From Coq Require Import ZArith Lia Bool ZifyBool List Floats.
From Verif Require Import Py PyFloat FloatExpr Trig CalSpec DayNo Solar SolarProofs JulianDay P_JD SolarUnits UnitsProofs P_Units ShouXing LunarYear Lunar YearProofs P_YearTable P_LunarYears LunarProofs CalProofs RealYears PyDate.
Open Scope Z_scope.

(** The numbering of days is the one that Python documents: day 1 is 1 January of the year 1, and each day has the number after that of the
    day before. *)
Definition greg_tomorrow (y m d : Z) : Z * Z * Z :=
  if d <? greg_last y m then (y, m, d + 1) else if m <? 12 then (y, m + 1, 1) else (y + 1, 1, 1).
Definition on (y m d : Z) : DateTime := mkDateTime y m d 0 0 0 0.
Lemma toordinal_first : toordinal (on 1 1 1) = 1. Proof. reflexivity. Qed.
Lemma toordinal_next y m d : 1 <= m <= 12 -> 1 <= d <= greg_last y m ->
  let '(y', m', d') := greg_tomorrow y m d in toordinal (on y' m' d') = toordinal (on y m d) + 1.
Proof.
  intros Hm Hd. unfold greg_tomorrow. destruct (d <? greg_last y m) eqn:E; [unfold toordinal, on; cbn [dty dtm dtd]; lia|]. assert (d = greg_last y m) by lia. subst d.
  destruct (m <? 12) eqn:M.
  - unfold toordinal, on. cbn [dty dtm dtd]. assert (B : greg_before y (m + 1) = greg_before y m + greg_last y m).
    { unfold greg_before, greg_last. dmonth m Hm; cbn; destruct (greg_leap y); cbn; try lia. } lia.
  - assert (m = 12) by lia. subst m. unfold toordinal, on, greg_before. cbn [dty dtm dtd Z.ltb Z.compare Pos.compare Pos.compare_cont andb]. change (greg_last y 12) with 31. unfold greg_leap.
    destruct ((y mod 4 =? 0) && (negb (y mod 100 =? 0) || (y mod 400 =? 0))) eqn:L; replace (y + 1 - 1) with y by lia; lia.
Qed.

(** The ten days left out in October 1582. *)
Definition left_out (t : DateTime) : Prop := dty t = 1582 /\ dtm t = 10 /\ 5 <= dtd t <= 14.
(** By how many days the count of the code runs ahead of Python's for the same year, month and day: 0 since 15 October 1582. *)
Definition shift (t : DateTime) : Z :=
  if (1582 <? dty t) || ((dty t =? 1582) && ((10 <? dtm t) || ((dtm t =? 10) && (14 <? dtd t)))) then 0
  else let c := (if dtm t <=? 2 then dty t - 1 else dty t) / 100 in c - c / 4 - 2.

Lemma date_valid t : datetime_ok t -> ~ left_out t -> valid_solar (mkSolar (dty t) (dtm t) (dtd t) (dth t) (dtmi t) (dts t)).
Proof.
  intros (Hy & Hm & Hd & Hh & Hmi & Hs & _) G. unfold left_out in G. split; [|unfold valid_time; cbn; lia]. unfold valid_date, sdate. cbn [sy sm sd]. split; [exact Hm|]. split; [|lia].
  assert (greg_last (dty t) (dtm t) <= last_day (dty t) (dtm t)); [|lia].
  unfold greg_last, last_day, greg_leap, leap. set (m := dtm t) in *. clearbody m. dmonth m Hm; try lia. destruct (Z.leb_spec (dty t) 1582); [|lia]. destruct (dty t mod 4 =? 0); [destruct (_ || _)|]; cbn; lia.
Qed.
Lemma date_dayno t : datetime_ok t -> ~ left_out t -> dayno (dty t, dtm t, dtd t) = toordinal t + 1721425 + shift t.
Proof.
  intros (Hy & Hm & Hd & _) G. unfold left_out in G. unfold dayno, toordinal, shift, ybase, cum, dord, greg_before. unfold greg_last in Hd.
  set (y := dty t) in *. set (m := dtm t) in *. set (d := dtd t) in *. clearbody y m d. unfold greg_leap in *. unfold leap.
  destruct (Z.leb_spec y 1582) as [L|L].
  - replace (1582 <? y) with false by lia. cbn [orb]. 
    destruct (Z.eqb_spec y 1582) as [->|N].
    + clear Hy L. change (1582 mod 4 =? 0) with false in *. change (1582 - 1) with 1581. change (1581 / 4) with 395. change (1581 / 100) with 15. change (1581 / 400) with 3. change ((1582 + 3) / 4) with 396.
      change (1582 / 100) with 15. cbn [andb] in *. dmonth m Hm; cbn [Z.ltb Z.leb Z.eqb Z.compare Pos.compare Pos.compare_cont Pos.eqb andb orb] in *; change (1581 / 100) with 15; change (15 / 4) with 3; try lia.
      destruct (Z.ltb_spec 4 d), (Z.ltb_spec 14 d); lia.
    + assert (Dv : y = 100 * (y / 100) + y mod 100) by (apply Z.div_mod; lia).
      destruct (y mod 4 =? 0) eqn:E4; destruct (y mod 100 =? 0) eqn:E100; destruct (y mod 400 =? 0) eqn:E400; cbn [negb orb andb] in *; dmonth m Hm; cbn [Z.ltb Z.leb Z.eqb Z.compare Pos.compare Pos.compare_cont Pos.eqb andb orb] in *; lia.
  - replace (1582 <? y) with true by lia. replace (y =? 1582) with false by lia. cbn [andb orb].
    assert (B : 365 * y + (y + 3) / 4 - (y + 99) / 100 + (y + 399) / 400 = (y - 1) * 365 + (y - 1) / 4 - (y - 1) / 100 + (y - 1) / 400 + 366) by lia.
    destruct ((y mod 4 =? 0) && (negb (y mod 100 =? 0) || (y mod 400 =? 0))); dmonth m Hm; cbn [Z.ltb Z.leb Z.eqb Z.compare Pos.compare Pos.compare_cont Pos.eqb andb orb]; lia.
Qed.

(** ** C95 *)
(** Every datetime is accepted except those of the ten days left out, and its fields are kept: the microseconds are dropped. *)
Theorem C95_accepted : forall t, datetime_ok t ->
  (left_out t -> exists e, Solar_fromDate t = Raise e) /\
  (~ left_out t -> exists s, Solar_fromDate t = Ok s /\ valid_solar s /\ sdate s = (dty t, dtm t, dtd t) /\ (sh s, smi s, ss s) = (dth t, dtmi t, dts t)).
Proof.
  intros t D. split.
  - intros (E1 & E2 & E3). unfold Solar_fromDate, fromYmdHms. rewrite E1, E2. replace ((4 <? dtd t) && (dtd t <? 15)) with true by lia. cbn. eauto.
  - intros G. pose proof (date_valid t D G) as V. eexists. split; [|split; [exact V|split; reflexivity]]. destruct D as (Hy & Hm & Hd & Hh & Hmi & Hs & _). unfold left_out in G. unfold Solar_fromDate, fromYmdHms.
    replace ((dty t =? 1582) && (dtm t =? 10) && ((4 <? dtd t) && (dtd t <? 15))) with false by lia. replace ((dtm t <? 1) || (12 <? dtm t)) with false by lia. replace ((dtd t <? 1) || (31 <? dtm t)) with false by lia.
    replace ((dth t <? 0) || (23 <? dth t)) with false by lia. replace ((dtmi t <? 0) || (59 <? dtmi t)) with false by lia. replace ((dts t <? 0) || (59 <? dts t)) with false by lia. reflexivity.
Qed.
(** Every date of the years 1 to 9999 is that of a datetime, except the 29th of February of 100, 200, 300, 500, ..., 1500. *)
Theorem C95_reached : forall s, valid_solar s -> 1 <= sy s <= 9999 ->
  ((exists t, datetime_ok t /\ Solar_fromDate t = Ok s) <-> ~ (sm s = 2 /\ sd s = 29 /\ sy s <= 1582 /\ sy s mod 100 = 0 /\ sy s mod 400 <> 0)).
Proof.
  intros s [V T] Hy. unfold valid_date, sdate in V. unfold valid_time in T. destruct V as (Hm & Hd & G). split.
  - intros (t & D & E) (E1 & E2 & E3 & E4 & E5). destruct (C95_accepted t D) as [C1 C2].
    assert (NL : ~ left_out t) by (intros L; destruct (C1 L) as (e & E'); congruence). destruct (C2 NL) as (s' & E' & _ & S & _). rewrite E in E'. injection E' as <-. unfold sdate in S. injection S as S1 S2 S3.
    destruct D as (_ & _ & Hd' & _). rewrite <- S1, <- S2, <- S3, E1, E2 in Hd'. unfold greg_last, greg_leap in Hd'. rewrite E4 in Hd'. cbn [Z.eqb negb orb] in Hd'. replace (sy s mod 400 =? 0) with false in Hd' by lia. rewrite andb_false_r in Hd'. lia.
  - intros N. set (t := mkDateTime (sy s) (sm s) (sd s) (sh s) (smi s) (ss s) 0). assert (D : datetime_ok t).
    { unfold datetime_ok, t. cbn [dty dtm dtd dth dtmi dts dtus]. repeat split; try lia. unfold last_day in Hd. unfold greg_last, greg_leap. unfold leap in Hd.
      set (y := sy s) in *. set (m := sm s) in *. set (d := sd s) in *. clearbody y m d. dmonth m Hm; try lia.
      destruct (Z.leb_spec y 1582); destruct (y mod 4 =? 0) eqn:E4; destruct (y mod 100 =? 0) eqn:E100; destruct (y mod 400 =? 0) eqn:E400; cbn [negb orb andb] in *; lia. }
    exists t. split; [exact D|]. assert (NL : ~ left_out t) by (unfold left_out, t; cbn; lia). destruct (proj2 (C95_accepted t D) NL) as (s' & E' & _ & S & S'). rewrite E'. f_equal.
    unfold sdate, t in S, S'. cbn [dty dtm dtd dth dtmi dts] in S, S'. injection S as S1 S2 S3. injection S' as S4 S5 S6. destruct s, s'. cbn in *. congruence.
Qed.
(** Two datetimes are as many days apart as their Solars exactly if they have the same shift; from 15 October 1582 on they have. *)
Theorem C95_subtract : forall t t' s s', datetime_ok t -> datetime_ok t' -> Solar_fromDate t = Ok s -> Solar_fromDate t' = Ok s' ->
  (subtract s s' = Ok (toordinal t - toordinal t') <-> shift t = shift t').
Proof.
  intros t t' s s' D D' E E'.
  assert (NL : forall u x, datetime_ok u -> Solar_fromDate u = Ok x -> valid_solar x /\ dayno (sdate x) = toordinal u + 1721425 + shift u).
  { intros u x Du Eu. destruct (C95_accepted u Du) as [C1 C2]. assert (NL : ~ left_out u) by (intros L; destruct (C1 L) as (e & E0); congruence). destruct (C2 NL) as (x' & Ex & Vx & Sx & _). rewrite Eu in Ex. injection Ex as <-.
    split; [exact Vx|]. rewrite Sx. now apply date_dayno. }
  destruct (NL t s D E) as [V N]. destruct (NL t' s' D' E') as [V' N']. rewrite subtract_spec by assumption. split; [intros H; apply Ok_inj in H; lia|intros H; f_equal; lia].
Qed.
Definition gregorian (t : DateTime) : Prop := 1582 < dty t \/ dty t = 1582 /\ (10 < dtm t \/ dtm t = 10 /\ 15 <= dtd t).
Lemma gregorian_shift t : gregorian t -> shift t = 0.
Proof. intros G. unfold shift, gregorian in *. replace (_ || _) with true by lia. reflexivity. Qed.
(** From then on stepping, counting and the days of the week are those of datetime: [t] plus n days is [s.next(n)]. *)
Theorem C95_agree : forall t, datetime_ok t -> gregorian t -> exists s, Solar_fromDate t = Ok s /\
  getWeek s = Ok (isoweekday t mod 7) /\
  forall t', datetime_ok t' -> gregorian t' -> exists s', Solar_fromDate t' = Ok s' /\
    subtract s' s = Ok (toordinal t' - toordinal t) /\
    ((dth t', dtmi t', dts t') = (dth t, dtmi t, dts t) -> next s (toordinal t' - toordinal t) = Ok s').
Proof.
  assert (NG : forall t, gregorian t -> ~ left_out t) by (unfold gregorian, left_out; lia).
  intros t D G. destruct (proj2 (C95_accepted t D) (NG t G)) as (s & E & V & S & S'). exists s. split; [exact E|].
  pose proof (date_dayno t D (NG t G)) as N. rewrite (gregorian_shift t G) in N.
  assert (Y : sy s = dty t) by (unfold sdate in S; congruence).
  split.
  - rewrite getWeek_spec; [|exact V|unfold jd_year; destruct D; lia]. rewrite S, N. f_equal. unfold isoweekday. lia.
  - intros t' D' G'. destruct (proj2 (C95_accepted t' D') (NG t' G')) as (s1 & E1 & V1 & S1 & S1'). exists s1. split; [exact E1|].
    pose proof (date_dayno t' D' (NG t' G')) as N1. rewrite (gregorian_shift t' G') in N1.
    split; [apply (C95_subtract t' t s1 s D' D E1 E); now rewrite !gregorian_shift|]. intros T.
    destruct (nextDay_spec s (toordinal t' - toordinal t) V) as (s2 & E2 & V2 & T2 & D2). unfold next. rewrite E2. f_equal. apply instant_inj; [exact V2|exact V1|].
    unfold instant, sod. destruct T2 as (T21 & T22 & T23). rewrite D2, S1, S, N, N1, T21, T22, T23. assert (sh s1 = sh s /\ smi s1 = smi s /\ ss s1 = ss s) by (rewrite <- S1' in T; rewrite <- S' in T; injection T; auto). lia.
Qed.
(** The order of datetimes, up to the second, is that of their Solars, in every year. *)
Definition dt_second (t : DateTime) : Z := 86400 * toordinal t + 3600 * dth t + 60 * dtmi t + dts t.
Theorem C95_order : forall t t' s s', datetime_ok t -> datetime_ok t' -> Solar_fromDate t = Ok s -> Solar_fromDate t' = Ok s' ->
  (isBefore s s' = true <-> dt_second t < dt_second t').
Proof.
  assert (LX : forall u v, datetime_ok u -> datetime_ok v -> lex_lt (dty u, dtm u, dtd u) (dty v, dtm v, dtd v) -> toordinal u < toordinal v).
  { intros u v (Yu & Mu & Du & _) (Yv & Mv & Dv & _) L. unfold lex_lt in L. unfold toordinal, greg_before. unfold greg_last in Du, Dv. unfold greg_leap in *.
    set (y := dty u) in *. set (m := dtm u) in *. set (d := dtd u) in *. set (y' := dty v) in *. set (m' := dtm v) in *. set (d' := dtd v) in *. clearbody y m d y' m' d'.
    destruct L as [L|[<- [L|[<- L]]]].
    - assert (A1 : (y - 1) * 365 + (y - 1) / 4 - (y - 1) / 100 + (y - 1) / 400 + 365 + (if (y mod 4 =? 0) && (negb (y mod 100 =? 0) || (y mod 400 =? 0)) then 1 else 0) = y * 365 + y / 4 - y / 100 + y / 400).
      { destruct (y mod 4 =? 0) eqn:E4; destruct (y mod 100 =? 0) eqn:E100; destruct (y mod 400 =? 0) eqn:E400; cbn [negb orb andb]; lia. }
      assert (A2 : y * 365 + y / 4 - y / 100 + y / 400 <= (y' - 1) * 365 + (y' - 1) / 4 - (y' - 1) / 100 + (y' - 1) / 400) by lia.
      assert (B1 : (match m with 1 => 0 | 2 => 31 | 3 => 59 | 4 => 90 | 5 => 120 | 6 => 151 | 7 => 181 | 8 => 212 | 9 => 243 | 10 => 273 | 11 => 304 | _ => 334 end) + (if (2 <? m) && ((y mod 4 =? 0) && (negb (y mod 100 =? 0) || (y mod 400 =? 0))) then 1 else 0) + d
        <= 365 + (if (y mod 4 =? 0) && (negb (y mod 100 =? 0) || (y mod 400 =? 0)) then 1 else 0)).
      { clear - Mu Du. revert Du. destruct ((y mod 4 =? 0) && _); intros Du; dmonth m Mu; cbn [Z.ltb Z.compare Pos.compare Pos.compare_cont andb]; lia. }
      assert (B2 : 0 <= match m' with 1 => 0 | 2 => 31 | 3 => 59 | 4 => 90 | 5 => 120 | 6 => 151 | 7 => 181 | 8 => 212 | 9 => 243 | 10 => 273 | 11 => 304 | _ => 334 end) by (clear - Mv; dmonth m' Mv; lia).
      destruct ((2 <? m') && _); lia.
    - revert Du Dv. destruct ((y mod 4 =? 0) && _); intros Du Dv; clear - Mu Mv Du Dv L; dmonth m Mu; dmonth m' Mv; cbn [Z.ltb Z.compare Pos.compare Pos.compare_cont andb]; lia.
    - lia. }
  intros t t' s s' D D' E E'. destruct (C95_accepted t D) as [C1 C2]. assert (NL : ~ left_out t) by (intros L; destruct (C1 L) as (e & E0); congruence). destruct (C2 NL) as (x & Ex & V & S & S'). rewrite E in Ex. injection Ex as <-.
  destruct (C95_accepted t' D') as [C1' C2']. assert (NL' : ~ left_out t') by (intros L; destruct (C1' L) as (e & E0); congruence). destruct (C2' NL') as (x & Ex & V' & X & X'). rewrite E' in Ex. injection Ex as <-.
  rewrite isBefore_instant by assumption. rewrite Z.ltb_lt. unfold instant, sod, dt_second. injection S' as -> -> ->. injection X' as -> -> ->.
  pose proof D as (Yt & Mt & Dt & Ht & It & St & _). pose proof D' as (Yt' & Mt' & Dt' & Ht' & It' & St' & _).
  destruct (lex_total (sdate s) (sdate s')) as [Q|[Q|Q]].
  - rewrite S, X in *. injection Q as Q1 Q2 Q3. assert (toordinal t = toordinal t') by (unfold toordinal; rewrite Q1, Q2, Q3; reflexivity). rewrite Q1, Q2, Q3. lia.
  - pose proof (lex_lt_dayno _ _ (proj1 V) (proj1 V') Q). rewrite S, X in Q. pose proof (LX t t' D D' Q). lia.
  - pose proof (lex_lt_dayno _ _ (proj1 V') (proj1 V) Q). rewrite S, X in Q. pose proof (LX t' t D' D Q). lia.
Qed.
(** Before the change of calendar the two counts differ: one day apart here, eleven there. *)
Theorem C95_refuted : exists t t' s s', datetime_ok t /\ datetime_ok t' /\ Solar_fromDate t = Ok s /\ Solar_fromDate t' = Ok s' /\
  subtract s' s = Ok 1 /\ toordinal t' - toordinal t = 11.
Proof.
  exists (on 1582 10 4), (on 1582 10 15), (mkSolar 1582 10 4 0 0 0), (mkSolar 1582 10 15 0 0 0).
  split; [unfold datetime_ok; cbn; lia|]. split; [unfold datetime_ok; cbn; lia|]. vm_compute. auto.
Qed.
(** Lunar.fromDate never raises from 20 to 9998 except on the ten days, and its Lunar belongs to the date. *)
Theorem C95_lunar : forall fsin fcos t, libm fsin fcos -> datetime_ok t -> ~ left_out t -> 20 <= dty t <= 9998 ->
  exists s l, Solar_fromDate t = Ok s /\ Lunar_fromDate (real fsin fcos) t = Ok l /\ l_solar l = s /\ (l_hour l, l_minute l, l_second l) = (dth t, dtmi t, dts t).
Proof.
  intros fsin fcos t lib D NL Hy. destruct (proj2 (C95_accepted t D) NL) as (s & E & V & S & T). assert (Y : sy s = dty t) by (unfold sdate in S; congruence).
  destruct (getLunar_spec (real_Cal lib) s V ltac:(lia)) as (l & _ & _ & El & _ & _ & _ & _ & _ & _ & L1 & L2 & L3 & Es). exists s, l. unfold Lunar_fromDate. rewrite E. cbn [bind]. split; [reflexivity|]. split; [exact El|]. split; [exact Es|]. now rewrite L1, L2, L3.
Qed.
(** The week, month, season, half-year and year made from a datetime contain its day; each unit contains the smaller ones (the week only its day). *)
Theorem C95_units : forall t start, datetime_ok t -> ~ left_out t -> 0 <= start <= 6 ->
  exists days first mdays quarter half year,
    SolarWeek_getDays (SolarWeek_fromDate t start) = Ok days /\ List.length days = 7%nat /\ In (dty t, dtm t, dtd t) (map sdate days) /\
    SolarWeek_getFirstDay (SolarWeek_fromDate t start) = Ok first /\ weekday (sdate first) start /\
    SolarMonth_getDays (SolarMonth_fromDate t) = Ok mdays /\ In (dty t, dtm t, dtd t) (map sdate mdays) /\ (forall d, In d mdays -> sy d = dty t /\ sm d = dtm t) /\
    SolarSeason_getMonths (SolarSeason_fromDate t) = Ok quarter /\ List.length quarter = 3%nat /\ In (SolarMonth_fromDate t) quarter /\
    SolarHalfYear_getMonths (SolarHalfYear_fromDate t) = Ok half /\ List.length half = 6%nat /\ incl quarter half /\
    SolarYear_getMonths (SolarYear_fromDate t) = Ok year /\ List.length year = 12%nat /\ incl half year.
Proof.
  intros t start D G S. pose proof (date_valid t D G) as [V _]. unfold sdate in V. cbn [sy sm sd] in V. destruct D as (Hy & Hm & Hd & _).
  destruct (C21_getDays (SolarWeek_fromDate t start) V ltac:(unfold jd_year; cbn; lia) S) as (days & first & E1 & L1 & Ef & W & _ & I1).
  destruct (C19_season (dty t) (dtm t) Hm) as (i & _ & Hi & Hq & E3). destruct (C19_half_year (dty t) (dtm t) Hm) as (j & _ & Hj & Hh & E4).
  exists days, first. do 4 eexists.
  split; [exact E1|]. split; [exact L1|]. split; [apply in_map_iff; eexists; split; [|exact I1]; reflexivity|]. split; [exact Ef|]. split; [exact W|].
  split; [exact (C20_getDays_lists_the_month _ _ Hm)|].
  split. { apply in_map_iff. exists (mkSolar (dty t) (dtm t) (dtd t) 0 0 0). split; [reflexivity|]. apply in_map_iff. exists (dtd t). split; [reflexivity|]. apply filter_In. split; [apply in_zrange; unfold valid_date in V; pose proof (last_day_bounds (dty t) (dtm t)); lia|]. unfold valid_dateb, valid_date in *; lia. }
  split. { intros d I. apply in_map_iff in I. destruct I as (x & <- & _). split; reflexivity. }
  split; [exact E3|]. split; [reflexivity|]. split. { unfold SolarMonth_fromDate. cbn [In]. assert (dtm t = 3 * i - 2 \/ dtm t = 3 * i - 1 \/ dtm t = 3 * i) as [-> | [-> | ->]] by lia; auto. }
  split; [exact E4|]. split; [rewrite map_length; unfold zrange; rewrite zseq_length; lia|].
  split. { intros x [<- | [<- | [<- | []]]]; apply in_map; apply in_zrange; lia. }
  split; [exact (C19_year_months _)|]. split; [reflexivity|]. intros x I. apply in_map_iff in I. destruct I as (m & <- & I). apply in_zrange in I. apply in_map. apply in_zrange. lia.
Qed.
Example C95_case : datetime_ok (mkDateTime 2024 2 10 23 30 59 5) /\ toordinal (on 2024 2 10) = 738926 /\ isoweekday (on 2024 2 10) = 6 /\
  Solar_fromDate (mkDateTime 2024 2 10 23 30 59 5) = Ok (mkSolar 2024 2 10 23 30 59) /\ shift (on 1500 2 28) = 9 /\ shift (on 250 1 1) = 0 /\ shift (on 1 1 1) = -2.
Proof. split; [unfold datetime_ok; cbn; lia|]. vm_compute. auto 10. Qed.
