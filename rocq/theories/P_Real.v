(** The code itself: the properties stated elsewhere for any calendar that fits together, here for the tables which the code
    computes with any C library whose sin and cos meet [libm].  No hypothesis on the tables is left. *)
From Coq Require Import ZArith Lia Bool ZifyBool List String Floats Sorted.
From Verif Require Import Py PyFloat PyStr LunarYear LunarCache P_Cache ShouXing FloatExpr Trig SunLon SunTerm CertYears SunDate SunYear CalSpec DayNo Solar SolarProofs JulianDay UnitsProofs SolarUnits
  LunarUtil T_LunarUtil T_Misc AlmanacProofs LunarYear Lunar LunarTime LunarProofs YearProofs CalProofs CalCheck TermProofs P_Tables EightChar FotoTao
  P_YearTable P_LunarCal P_LunarYears EarlyYears P_SunTerms P_Terms P_Pillars P_Stars P_Seasons P_Times P_NewYear P_EightChar P_Luck P_FotoTao P_BaZi P_Day P_Year P_Fest P_FotoDays P_Accessors RealYears Demo.
Import ListNotations.
Open Scope Z_scope.

(** The solar years in which the terms of a date are dates that exist, and the calendar is known. *)
Definition termed_date (s : Solar) : Prop := valid_solar s /\ 20 <= sy s <= 9998.

Section LIB.
Context (fsin fcos : float -> float) (lib : libm fsin fcos).
Notation R := (real fsin fcos).

Lemma termed_ok s l : termed_date s -> getLunar R s = Ok l ->
  l_solar l = s /\ valid_solar (l_solar l) /\ good_terms (sy (l_solar l)) (l_jieQi l) /\ exists y m d, Lunar_new R y m d (sh s) (smi s) (ss s) = Ok l.
Proof.
  intros [V Hy] E. destruct (lunar_new lib s l V ltac:(lia) E) as [Es H]. split; [exact Es|]. split; [rewrite Es; exact V|]. split; [|eauto].
  apply (lunar_good lib s l V ltac:(lia)); [unfold termed; lia|exact E].
Qed.
(** The lunar year is the solar year or the one before. *)
Lemma year_ok s l : termed_date s -> getLunar R s = Ok l -> l_year l = sy s \/ l_year l = sy s - 1.
Proof.
  intros [V Hy] E. destruct (lunar_new lib s l V ltac:(lia) E) as [Es _]. pose proof (lunar_year lib s l V ltac:(lia) E) as H. rewrite Es in H. exact H.
Qed.
Lemma lichun_ok s l : termed_date s -> getLunar R s = Ok l -> py_dict (l_jieQi l) (utf8 "立春") = Ok (term_at (l_jieQi l) 4) /\ valid_solar (term_at (l_jieQi l) 4) /\ sy (term_at (l_jieQi l) 4) = sy s.
Proof.
  intros T E. destruct (termed_ok s l T E) as (Es & V & G & y & m & d & H). split; [|split; [apply (gt_valid _ _ G); lia|rewrite (gt_lichun _ _ G), Es; reflexivity]].
  exact (dict_at _ 4 (Lunar_new_named _ _ _ _ _ _ _ _ H) ltac:(lia)).
Qed.

(** C45, C46, C52: the tables *)
Theorem C46_code : Calendar R 0 18 /\ Calendar R 19 9999 /\ civil R 20 9999.
Proof. split; [apply C46_libm, lib|]. split; [apply real_Cal, lib|apply real_civil, lib]. Qed.
Theorem C45_code : forall y, 0 <= y <= 9999 -> exists t, R y = Ok t /\
  List.length (lmonths t) = 15%nat /\
  (forall i, 0 <= i < 14 -> mfirst (month t (i + 1)) = mfirst (month t i) + mcount (month t i)) /\
  (forall i, 0 <= i < 15 -> mcount (month t i) = 29 \/ mcount (month t i) = 30 \/
     (my (month t i) = 236 /\ mm (month t i) = 12 /\ mcount (month t i) = 28)) /\
  mfirst (month t 0) <= dayno (y, 1, 1) /\ dayno (y, 12, 31) < mfirst (month t 14) + mcount (month t 14).
Proof.
  intros y Hy. destruct C46_code as (C0 & C1 & _).
  destruct (Z.le_gt_cases y 18).
  - destruct (cal_ok _ _ _ C0 y ltac:(lia)) as (t & _ & Et & _). exists t. split; [exact Et|]. apply (C45_months_tile fsin fcos y t); [lia|exact Et].
  - destruct (cal_ok _ _ _ C1 y ltac:(lia)) as (t & _ & Et & _). exists t. split; [exact Et|].
    destruct (real_months lib y t ltac:(lia) Et) as [K U]. pose proof (ky_wf _ _ K) as W. unfold month.
    split; [exact (wf_length _ _ W)|]. split; [exact (wf_contig _ _ W)|].
    split; [intros i Hi; destruct (U _ (wf_in W i Hi)) as [U' _]; unfold usual_length in U'; lia|].
    pose proof (wf_first _ _ W). pose proof (wf_last _ _ W). unfold jan1, mend in *. split; [lia|].
    assert (V : valid_date (y, 12, 31)) by (unfold valid_date; cbn; lia).
    pose proof (jan1_bounds _ _ _ V). unfold jan1 in *. lia.
Qed.
Theorem C46_neighbours_code : forall y t t' a b, 0 <= y <= 9998 -> y <> 18 ->
  R y = Ok t -> R (y + 1) = Ok t' -> In a (lmonths t) -> In b (lmonths t') ->
  (my a = my b /\ mm a = mm b \/
   (exists n, mfirst a <= n < mfirst a + mcount a /\ mfirst b <= n < mfirst b + mcount b)) ->
  my a = my b /\ mm a = mm b /\ mfirst a = mfirst b /\ mcount a = mcount b.
Proof.
  intros y t t' a b Hy N Et Et' Ia Ib H. destruct (Z.le_gt_cases y 18) as [L|L]; [apply (C46_neighbours fsin fcos y t t'); try assumption; lia|].
  destruct (cal_agree _ _ _ (real_Cal lib) y (y + 1) t t' a b ltac:(lia) ltac:(lia) ltac:(lia) Et Et' Ia Ib) as [O S].
  destruct H as [[H1 H2]|(n & H1 & H2)]; [exact (S H1 H2)|]. apply O. unfold overlap, mend. lia.
Qed.
Theorem C52_code : forall y t t', 0 <= y <= 9998 -> R y = Ok t -> R (y + 1) = Ok t' ->
  (y <> 8 -> y <> 237 -> (map mm (getMonthsInYear t) = plain_year /\ getLeapMonth t = 0) \/
   (exists k, 1 <= k <= 12 /\ map mm (getMonthsInYear t) = leap_year k /\ getLeapMonth t = k)) /\
  (forall a, In a (getMonthsInYear t) <-> In a (lmonths t) /\ my a = y) /\
  exists a b, getMonth t 1 = Some a /\ getMonth t' 1 = Some b /\ mfirst b - mfirst a = total (getMonthsInYear t) /\
    LunarYear_getDayCount t = total (getMonthsInYear t).
Proof.
  intros y t t' Hy Et Et'. pose proof (real_Cal lib) as C. destruct (Z.le_gt_cases y 241) as [L|L].
  { split; [intros N1 N2; exact (early_numbered fsin fcos y t t' ltac:(lia) N1 N2 Et Et')|].
    split; [intros a; unfold getMonthsInYear; rewrite filter_In, (proj1 (real_inv _ _ _ _ Et)), Z.eqb_eq; tauto|].
    destruct (early_first fsin fcos y t t' ltac:(lia) Et Et') as (a & b & Ea & Eb & D & _). exists a, b. split; [exact Ea|]. split; [exact Eb|]. split; [exact D|apply dayCount_total]. }
  pose proof (fun i => real_usage lib y t i ltac:(lia) Et) as U. pose proof (fun i => real_usage lib (y + 1) t' i ltac:(lia) Et') as U'.
  destruct (C52_months_of_year _ y t Et U) as (Nu & Tot & Mem & _). split; [intros _ _; exact Nu|]. split; [exact Mem|].
  destruct (C52_next_new_year _ _ _ y t t' C ltac:(lia) ltac:(lia) Et Et' U U') as (a & b & Ea & Eb & E). exists a, b.
  repeat split; try assumption. lia.
Qed.
(** The two exceptions: AD 8 has no month 12, AD 237 no month 3. *)
Theorem C52_refuted_code : exists t t', R 8 = Ok t /\ map mm (getMonthsInYear t) = [1; -1; 2; 3; 4; 5; 6; 7; 8; 9; 10; 11] /\
  R 237 = Ok t' /\ map mm (getMonthsInYear t') = [1; 2; 4; 5; 6; 7; 8; 9; 10; 11; 12].
Proof.
  destruct C46_code as (C0 & C1 & _). destruct (cal_ok _ _ _ C0 8 ltac:(lia)) as (t & _ & Et & _). destruct (cal_ok _ _ _ C1 237 ltac:(lia)) as (t' & _ & Et' & _). exists t, t'.
  split; [exact Et|]. split; [exact (C52_refuted fsin fcos t Et)|]. split; [exact Et'|].
  destruct (real_inv _ _ _ _ Et') as [Y M]. unfold getMonthsInYear. rewrite Y, M. vm_compute. reflexivity.
Qed.
Theorem C52_new_year : forall y, 20 <= y <= 9999 -> exists t a, R y = Ok t /\ In a (lmonths t) /\ my a = y /\ mm a = 1 /\ dayno (y, 1, 1) <= mfirst a < dayno (y, 1, 1) + 91.
Proof.
  intros y Hy. destruct (cal_ok _ _ _ (real_Cal lib) y ltac:(lia)) as (t & _ & Et & _). exists t. destruct (real_new_year lib y t Hy Et) as (a & H). exists a. split; [exact Et|exact H].
Qed.

(** C47 to C51: dates *)
Theorem C47_code : forall s, valid_solar s -> 20 <= sy s <= 9998 -> exists l t a, getLunar R s = Ok l /\ l_solar l = s /\
  R (sy s) = Ok t /\ In a (lmonths t) /\ mfirst a <= dayno (sdate s) < mfirst a + mcount a /\
  l_year l = my a /\ l_month l = mm a /\ l_day l = dayno (sdate s) - mfirst a + 1 /\ l_hour l = sh s /\ l_minute l = smi s /\ l_second l = ss s.
Proof.
  intros s V Hy. destruct (getLunar_spec (real_Cal lib) s V ltac:(lia)) as (l & t & a & E & Et & Ia & Ha & A1 & A2 & A3 & A4 & A5 & A6 & Es). exists l, t, a. unfold mend in Ha. auto 15.
Qed.
Theorem C48_code : forall y m d h mi s l, 21 <= y <= 9997 -> Lunar_new R y m d h mi s = Ok l -> getLunar R (l_solar l) = Ok l.
Proof. intros y m d h mi s l Hy H. exact (proj2 (proj2 (new_lunar lib y m d h mi s l ltac:(lia) H))). Qed.
Theorem C49_code : forall y m d h mi s, 20 <= y <= 9998 ->
  ((exists l, Lunar_new R y m d h mi s = Ok l) <->
   (exists t a, R y = Ok t /\ In a (lmonths t) /\ my a = y /\ mm a = m /\ 1 <= d <= mcount a) /\ valid_time h mi s) /\
  ((forall l, Lunar_new R y m d h mi s <> Ok l) -> exists e, Lunar_new R y m d h mi s = Raise e).
Proof.
  intros y m d h mi s Hy. split; [apply (C49_accepted_iff _ _ _ y m d h mi s (real_Cal lib)); lia|]. intros H.
  destruct (Lunar_new R y m d h mi s) as [l|e]; [destruct (H l eq_refl)|eauto].
Qed.
Theorem C50_code : forall l n, valid_solar (l_solar l) ->
  exists s', valid_solar s' /\ days_later n (sdate (l_solar l)) (sdate s') /\ same_time s' (l_solar l) /\
    (20 <= sy s' <= 9998 -> exists l', Lunar_next R l n = Ok l' /\ l_solar l' = s' /\ forall k, Lunar_next R l' k = Lunar_next R l (n + k)).
Proof.
  intros l n V. destruct (C50_next _ _ _ l _ n (real_Cal lib) eq_refl V) as (s' & V' & D & T & E & F). exists s'. split; [exact V'|]. split; [exact D|]. split; [exact T|].
  intros Hy. destruct (F ltac:(lia)) as (l' & El & Es). exists l'. split; [exact El|]. split; [exact Es|]. intros k.
  destruct (nextDay_spec (l_solar l) n V) as (s1 & E1 & V1 & T1 & D1).
  assert (Q : s1 = s').
  { apply (days_later_dayno n _ _ (proj1 V) (proj1 V')) in D. assert (Dd : sdate s1 = sdate s') by (apply dayno_inj; [apply V1|apply V'|lia]).
    destruct T as (T2 & T3 & T4), T1 as (T5 & T6 & T7). apply solar_ext; congruence. }
  subst s1. destruct (C50_additive _ _ _ l s' n k (real_Cal lib) V E1 ltac:(lia)) as (l1 & El1 & A). rewrite El in El1. apply Ok_inj in El1. subst l1. exact A.
Qed.
Theorem C51_code : forall m n, listed R 19 9999 m -> 19 <= my m <= 9999 ->
  dayno (19, 1, 1) <= mfirst m + 30 * n - 30 -> mfirst m + 30 * (n + 1) <= dayno (10000, 1, 1) ->
  exists b, LunarMonth_next R m n = Ok (Some b) /\ listed R 19 9999 b /\ P_LunarCal.steps R 19 9999 n m b.
Proof. intros m n Lm Hm H1 H2. exact (C51_next _ _ _ m n (real_Cal lib) Lm Hm H1 H2). Qed.

(** C53 to C56: the pillars *)
Theorem C53_code : forall s l n, valid_solar s -> 20 <= sy s <= 9998 -> getLunar R s = Ok l -> days_later n (2000, 1, 1) (sdate s) ->
  Lunar_getDayInGanZhi l = Ok (pair60 (54 + n)) /\ Lunar_getDayInGanZhiExact2 l = Ok (pair60 (54 + n)) /\
  Lunar_getDayInGanZhiExact l = Ok (pair60 (54 + n + (if sh s =? 23 then 1 else 0))) /\
  Lunar_getTimeInGanZhi l = Ok (pair60 (12 * (54 + n) + (sh s + 1) / 2)).
Proof.
  intros s l n V Hy E D. destruct (lunar_new lib s l V ltac:(lia) E) as [Es H]. rewrite <- Es in *.
  destruct (C53_day_pillar _ _ _ _ _ _ _ l n H V ltac:(unfold jd_year; lia) D) as (P1 & P2 & P3). repeat split; try assumption.
  exact (C54_hour_pillar _ _ _ _ _ _ _ l n H V ltac:(unfold jd_year; lia) D).
Qed.
Theorem C55_code : forall s l, termed_date s -> getLunar R s = Ok l -> let lichun := term_at (l_jieQi l) 4 in
  Lunar_getYearInGanZhi l = Ok (pair60 (l_year l - 4)) /\ (l_year l = sy s \/ l_year l = sy s - 1) /\
  sy lichun = sy s /\ valid_solar lichun /\
  Lunar_getYearInGanZhiByLiChun l = Ok (pair60 ((if dayno (sdate s) <? dayno (sdate lichun) then sy s - 1 else sy s) - 4)) /\
  Lunar_getYearInGanZhiExact l = Ok (pair60 ((if instant s <? instant lichun then sy s - 1 else sy s) - 4)).
Proof.
  intros s l T E lichun. pose proof (year_ok s l T E) as Ly. destruct (termed_ok s l T E) as (Es & V & G & y & m & d & H). destruct (lichun_ok s l T E) as (El & Vl & Yl).
  rewrite <- Es in *. destruct (C55_year_pillar _ _ _ _ _ _ _ l lichun H V ltac:(destruct T; lia) El Vl Yl Ly) as (P1 & P2 & P3 & P4 & P5).
  split; [exact P1|]. split; [exact Ly|]. split; [exact Yl|]. split; [exact Vl|]. split.
  - destruct (Z.ltb_spec (dayno (sdate (l_solar l))) (dayno (sdate lichun))); [now apply P2|now apply P3].
  - destruct (Z.ltb_spec (instant (l_solar l)) (instant lichun)); [now apply P4|now apply P5].
Qed.
Theorem C56_code : forall s l, termed_date s -> getLunar R s = Ok l -> exists i j, 0 <= i < 14 /\ 0 <= j < 14 /\
  instant (term_at (l_jieQi l) (2 * i)) <= instant s < instant (term_at (l_jieQi l) (2 * i + 2)) /\
  Lunar_getMonthInGanZhiExact l = Ok (pair60 (12 * (sy s - 4) + i)) /\
  dayno (sdate (term_at (l_jieQi l) (2 * j))) <= dayno (sdate s) < dayno (sdate (term_at (l_jieQi l) (2 * j + 2))) /\
  Lunar_getMonthInGanZhi l = Ok (pair60 (12 * (sy s - 4) + j)).
Proof.
  intros s l T E. pose proof (year_ok s l T E) as Ly. destruct (termed_ok s l T E) as (Es & V & G & y & m & d & H). rewrite <- Es in *.
  destruct (C56_some_jie (l_solar l) _ G V) as [(i & Hi & Bi) (j & Hj & Bj)]. exists i, j. split; [exact Hi|]. split; [exact Hj|].
  split; [exact Bi|]. split; [exact (proj1 (C56_month_pillar _ _ _ _ _ _ _ l i H V G Ly Hi) Bi)|]. split; [exact Bj|exact (proj2 (C56_month_pillar _ _ _ _ _ _ _ l j H V G Ly Hj) Bj)].
Qed.

(** C57, C58, C60, C61, C71: the terms around a date and what is counted from them *)
Theorem C57_code : forall s l k whole_day, termed_date s -> getLunar R s = Ok l ->
  (exists i, 0 <= i < 31 /\ of_kind k i = true /\
    next_term k l whole_day = Ok (Some (mkJieQi (term_name_at i) (term_at (l_jieQi l) i) (Z.even i) (Z.odd i))) /\
    before whole_day s (term_at (l_jieQi l) i) /\
    forall j, 0 <= j < 31 -> of_kind k j = true -> before whole_day s (term_at (l_jieQi l) j) -> i <= j) /\
  (exists i, 0 <= i < 31 /\ of_kind k i = true /\
    prev_term k l whole_day = Ok (Some (mkJieQi (term_name_at i) (term_at (l_jieQi l) i) (Z.even i) (Z.odd i))) /\
    ~ before whole_day s (term_at (l_jieQi l) i) /\
    forall j, 0 <= j < 31 -> of_kind k j = true -> ~ before whole_day s (term_at (l_jieQi l) j) -> j <= i).
Proof.
  intros s l k w T E. destruct (termed_ok s l T E) as (Es & V & G & y & m & d & H). rewrite <- Es in *.
  split; [exact (C57_next _ _ _ _ _ _ _ l k w H V G)|exact (C57_prev _ _ _ _ _ _ _ l k w H V G)].
Qed.
Theorem C58_code : forall s l k i, termed_date s -> getLunar R s = Ok l -> 0 <= i < 31 -> sdate (term_at (l_jieQi l) i) = sdate s ->
  (of_kind k i = true -> term_today k l = Ok (term_name_at i) /\
    term_now k l = Ok (Some (mkJieQi (term_name_at i) (match k with Any => s | _ => term_at (l_jieQi l) i end) (Z.even i) (Z.odd i)))) /\
  (of_kind k i = false -> term_today k l = Ok [] /\ term_now k l = Ok None).
Proof.
  intros s l k i T E. destruct (termed_ok s l T E) as (Es & V & G & y & m & d & H). rewrite <- Es in *. exact (C58_term_day _ _ _ _ _ _ _ l k i H G).
Qed.
Theorem C60_code : forall s l, termed_date s -> getLunar R s = Ok l ->
  let z := if term_day l 25 <=? dayno (sdate s) then term_day l 25 else term_day l 1 in
  let n := dayno (sdate s) - z in
  0 <= n /\ Lunar_getShuJiu l = Ok (if n <? 81 then Some (ordinal (n / 9) ++ utf8 "九", n mod 9 + 1) else None).
Proof.
  intros s l T E. destruct (termed_ok s l T E) as (Es & V & G & y & m & d & H). rewrite <- Es in *. exact (C60_shu_jiu _ _ _ _ _ _ _ l H V G).
Qed.
(** C59: the terms of a date lie in the months they are named for: 大雪 and 冬至 in December of the year before, 小寒 and 大寒 in January, ...,
    from 524 to 1582, when the Julian calendar is behind the Sun, and from 4040 on also in the month before that one; they are 14 to 17 days apart. *)
Theorem C59_code : forall s l i, termed_date s -> getLunar R s = Ok l -> 0 <= i < 31 ->
  valid_solar (term_at (l_jieQi l) i) /\
  (let p := if i <? 2 then (sy s - 1, 12) else if i <? 26 then (sy s, i / 2) else (sy s + 1, i / 2 - 12) in
   (sy (term_at (l_jieQi l) i), sm (term_at (l_jieQi l) i)) = p \/
   (524 <= sy s <= 1582 \/ 4040 <= sy s) /\ (sy (term_at (l_jieQi l) i), sm (term_at (l_jieQi l) i)) = (let '(a, b) := p in if b =? 1 then (a - 1, 12) else (a, b - 1))) /\
  (i < 30 -> 14 <= dayno (sdate (term_at (l_jieQi l) (i + 1))) - dayno (sdate (term_at (l_jieQi l) i)) <= 17).
Proof.
  intros s l i T E Hi. destruct (termed_ok s l T E) as (Es & V & G & y & m & d & H). destruct (Lunar_new_inv _ _ _ _ _ _ _ _ H) as (t & mo & noon & t2 & Et & _ & _ & _ & ES & _ & E2 & CP).
  apply cp_terms in CP. assert (Yn : sy noon = sy s) by (rewrite <- Es, ES; reflexivity). destruct T as [_ Hy].
  assert (E' : R (sy s) = Ok t2) by (rewrite Yn in E2; destruct (Z.eqb_spec (sy s) y); [subst t2; congruence|exact E2]).
  split; [apply (gt_valid _ _ G); exact Hi|]. destruct (C59_dates fsin fcos (sy s) t2 _ lib ltac:(lia) E' CP) as (_ & Gap). split; [|intros L; apply Gap; lia]. cbv zeta.
  assert ((524 <= sy s <= 1582 \/ 4040 <= sy s <= 9998) \/ (1 <= sy s <= 523 \/ 1583 <= sy s <= 4039)) as [C|C] by lia.
  - destruct (C59_good_drift fsin fcos (sy s) t2 _ lib C E' CP) as (_ & M & _). destruct (M i Hi) as [Q|Q]; [left; exact Q|right; split; [lia|exact Q]].
  - destruct (C59_good fsin fcos (sy s) t2 _ lib C E' CP) as (_ & _ & M & _). left. exact (M i Hi).
Qed.
Lemma term_years s l i : termed_date s -> getLunar R s = Ok l -> 4 <= i < 26 -> sy (term_at (l_jieQi l) i) = sy s.
Proof.
  intros T E Hi. destruct (C59_code s l i T E ltac:(lia)) as (_ & M & _). cbv zeta in M. replace (i <? 2) with false in M by lia. replace (i <? 26) with true in M by lia.
  assert (2 <= i / 2) by (apply Z.div_le_lower_bound; lia). replace (i / 2 =? 1) with false in M by lia. destruct M as [M|[_ M]]; congruence.
Qed.
Lemma term_year1 s l : termed_date s -> getLunar R s = Ok l -> sy (term_at (l_jieQi l) 1) = sy s - 1.
Proof. intros T E. destruct (C59_code s l 1 T E ltac:(lia)) as (_ & M & _). cbn in M. destruct M as [M|[_ M]]; injection M; lia. Qed.
Theorem C61_code : forall s l, termed_date s -> getLunar R s = Ok l ->
  let t := dayno (sdate s) in let x := term_day l 13 in let q := term_day l 16 in
  exists f e, geng f /\ x + 20 <= f < x + 30 /\ e = (if f + 20 <? q then f + 30 else f + 20) /\
    Lunar_getFu R l = Ok (
      if t <? f then None
      else if t <? f + 10 then Some (utf8 "初伏", t - f + 1)
      else if t <? e then Some (utf8 "中伏", t - (f + 10) + 1)
      else if t <? e + 10 then Some (utf8 "末伏", t - e + 1)
      else None).
Proof.
  intros s l T E. pose proof (term_years s l 13 T E ltac:(lia)) as Y13. destruct (termed_ok s l T E) as (Es & V & G & y & m & d & H). rewrite <- Es.
  destruct T as [_ Hy]. apply (C61_fu _ _ _ _ _ _ _ _ _ l (real_Cal lib) H V G). lia.
Qed.
Theorem C71_code : forall s l, termed_date s -> getLunar R s = Ok l ->
  exists i k, 1 <= i < 28 /\ term_day l i <= dayno (sdate s) < term_day l (i + 1) /\ k = Z.min 2 ((dayno (sdate s) - term_day l i) / 5) /\
    Lunar_getHou l = Ok (term_name_at i ++ lit " " ++ hou k) /\
    Lunar_getWuHou l = Ok (nth (Z.to_nat (3 * ((i - 1) mod 24) + k)) LunarUtil_WU_HOU []).
Proof.
  intros s l T E. destruct (termed_ok s l T E) as (Es & V & G & y & m & d & H). rewrite <- Es. exact (C71_hou _ _ _ _ _ _ _ l H V G).
Qed.

(** C62: the nine stars *)
Theorem C62_code : forall s l, termed_date s -> 21 <= sy s -> getLunar R s = Ok l ->
  let lichun := term_at (l_jieQi l) 4 in let t := dayno (sdate s) in
  Lunar_getYearNineStar l 1 = Ok ((1 - l_year l) mod 9) /\
  Lunar_getYearNineStar l 2 = Ok ((1 - (if t <? dayno (sdate lichun) then sy s - 1 else sy s)) mod 9) /\
  Lunar_getYearNineStar l 3 = Ok ((1 - (if instant s <? instant lichun then sy s - 1 else sy s)) mod 9) /\
  (exists i j, 0 <= i < 14 /\ 0 <= j < 14 /\
    term_day l (2 * i) <= t < term_day l (2 * i + 2) /\ Lunar_getMonthNineStar l 2 = (- (12 * (sy s - 4) + i)) mod 9 /\
    instant (term_at (l_jieQi l) (2 * j)) <= instant s < instant (term_at (l_jieQi l) (2 * j + 2)) /\ Lunar_getMonthNineStar l 3 = (- (12 * (sy s - 4) + j)) mod 9) /\
  (exists a b c, near (term_day l 1) a /\ near (term_day l 13) b /\ near (term_day l 25) c /\
    Lunar_getDayNineStar R l = Ok (if (a <=? t) && (t <? b) then (t - a) mod 9
      else if (b <=? t) && (t <? c) then 8 - (t - b) mod 9
      else if c <=? t then (t - c) mod 9 else (8 + (a - t)) mod 9)).
Proof.
  intros s l T Hs E lichun t. pose proof (year_ok s l T E) as Ly. destruct (termed_ok s l T E) as (Es & V & G & y & m & d & H). destruct (lichun_ok s l T E) as (El & Vl & Yl).
  pose proof (term_year1 s l T E) as Y1. pose proof (term_years s l 25 T E ltac:(lia)) as Y25. fold lichun in El, Vl, Yl.
  assert (Hy : 20 <= sy s <= 9998) by (destruct T; lia). subst t. rewrite <- Es in *. pose proof (Lunar_new_inv _ _ _ _ _ _ _ _ H) as (? & ? & ? & ? & _ & _ & _ & _ & _ & _ & _ & CP).
  destruct (cp_ymd _ _ _ _ _ _ _ _ _ CP) as (Ey & _ & _).
  split; [|split; [|split; [|split]]].
  - destruct (C62_year_star _ _ _ _ _ _ _ l 1 H ltac:(lia)) as (Y & _ & EY & _ & P). rewrite Ey, <- (EY eq_refl). exact P.
  - apply (C62_year_star_lichun _ _ _ _ _ _ _ l lichun H V ltac:(lia) El Vl Yl Ly).
  - apply (C62_year_star_lichun _ _ _ _ _ _ _ l lichun H V ltac:(lia) El Vl Yl Ly).
  - destruct (C56_some_jie (l_solar l) _ G V) as [(j & Hj & Bj) (i & Hi & Bi)]. exists i, j. split; [exact Hi|]. split; [exact Hj|].
    split; [exact Bi|]. split; [exact (proj1 (C62_month_star _ _ _ _ _ _ _ l i H V G Ly Hi) Bi)|]. split; [exact Bj|exact (proj2 (C62_month_star _ _ _ _ _ _ _ l j H V G Ly Hj) Bj)].
  - apply (C62_day_star _ _ _ _ _ _ _ _ _ l (real_Cal lib) H V G); lia.
Qed.

(** C64 to C66: luck periods *)
Theorem C64_code : forall s l sect gender ysect, termed_date s -> getLunar R s = Ok l ->
  exists u i, getYun (mkEightChar sect l) gender ysect = Ok u /\ y_lunar u = l /\ y_gender u = gender /\
    y_forward u = goes_forward (Z.even (l_yearGanExact l)) gender /\
    (if y_forward u then first_after l i else last_not_after l i) /\
    let jie := term_at (l_jieQi l) i in
    let start := if y_forward u then s else jie in let end_ := if y_forward u then jie else s in
    0 <= y_year u /\ 0 <= y_month u < 12 /\ 0 <= y_day u < 30 /\ 0 <= y_hour u < 24 /\ Z.even (y_hour u) = true /\
    (ysect = 2 -> 4320 * y_year u + 360 * y_month u + 12 * y_day u + y_hour u / 2 = minute_of end_ - minute_of start) /\
    (ysect <> 2 -> y_hour u = 0 /\ 360 * y_year u + 30 * y_month u + y_day u =
       10 * (12 * (dayno (sdate end_) - dayno (sdate start)) + double_hour end_ - double_hour start)).
Proof.
  intros s l sect gender ysect T E. destruct (termed_ok s l T E) as (Es & V & G & y & m & d & H). rewrite <- Es. exact (C64_start _ _ _ _ _ _ _ l sect gender ysect H V G).
Qed.
Theorem C65_code : forall s l sect gender ysect u, termed_date s -> getLunar R s = Ok l -> getYun (mkEightChar sect l) gender ysect = Ok u ->
  exists st, Yun_getStartSolar u = Ok st /\ sy s <= sy st /\ forall n, 0 <= n -> exists ds, getDaYun u n = Ok ds /\ Z.of_nat (List.length ds) = n /\
    (forall i, 0 <= i < n -> let p := period u ds i in d_yun p = u /\ d_index p = i /\
       d_startAge p = d_startYear p - sy s + 1 /\ d_endAge p = d_endYear p - sy s + 1 /\
       (i = 0 -> d_startYear p = sy s /\ d_endYear p = sy st - 1) /\ (1 <= i -> d_endYear p = d_startYear p + 9)) /\
    (forall i, 0 <= i < n - 1 -> d_startYear (period u ds (i + 1)) = d_endYear (period u ds i) + 1) /\
    (forall Y, 1 <= n -> sy s <= Y < sy st + 10 * (n - 1) -> exists i, 0 <= i < n /\ d_startYear (period u ds i) <= Y <= d_endYear (period u ds i) /\
       forall j, 0 <= j < n -> d_startYear (period u ds j) <= Y <= d_endYear (period u ds j) -> j = i).
Proof.
  intros s l sect gender ysect u T E U. destruct (termed_ok s l T E) as (Es & V & G & y & m & d & H). rewrite <- Es. exact (C65_periods _ _ _ _ _ _ _ l sect gender ysect u H V G U).
Qed.
Theorem C66_code : forall s l sect gender ysect u n ds p k x, termed_date s -> getLunar R s = Ok l ->
  getYun (mkEightChar sect l) gender ysect = Ok u -> getDaYun u n = Ok ds -> In p ds -> In x (getLiuNian p k) ->
  LiuNian_getGanZhi R x = Ok (pair60 (n_year x - 4)) /\
  d_startYear p <= n_year x /\ n_age x = n_year x - sy s + 1 /\ (d_index p < 1 \/ k = 10 -> n_year x <= d_endYear p).
Proof.
  intros s l sect gender ysect u n ds p k x T E U D Ip Ix. pose proof (year_ok s l T E) as Ly. destruct (termed_ok s l T E) as (Es & V & G & y & m & d & H).
  destruct (lichun_ok s l T E) as (El & Vl & Yl). assert (Hy : 20 <= sy s <= 9998) by (destruct T; lia). rewrite <- Es in *.
  apply (C66_years _ _ _ _ _ _ _ _ _ l sect gender ysect u n ds p k x (real_Cal lib) H V G ltac:(lia)); try assumption.
  intros l' E'. pose proof (lunar_year lib _ l' Vl ltac:(lia) E') as Q. destruct (lunar_new lib _ l' Vl ltac:(lia) E') as [Q' _]. rewrite Q' in Q. lia.
Qed.

(** C67, C76: the inverse of the pillars *)
Theorem C67_code : forall a b c t sect base_year end_year, 22 <= base_year -> end_year <= 9994 ->
  exists rs, fromBaZi R (pair60 a) (pair60 b) (pair60 c) (pair60 t) sect base_year end_year = Ok rs /\
    StronglySorted (fun x x' => instant x < instant x') rs /\ forall x, In x rs -> valid_solar x /\ base_year <= sy x <= end_year + 2 /\
    exists l, getLunar R x = Ok l /\ pillars (mkEightChar (sect_of sect) l) a b c t.
Proof.
  intros a b c t sect by_ ey H1 H2. destruct (C67_ordered R 20 9998 a b c t sect by_ ey) as (rs & E & S & P);
    [apply (cal_sub _ 19 9999); [exact (real_Cal lib)|lia|lia]|exact (real_YearSeasons lib)|lia|lia|].
  exists rs. split; [exact E|]. split; [exact S|]. intros x Ix. destruct (P x Ix) as [Vx Yx]. split; [exact Vx|]. split; [exact Yx|].
  destruct (C67_sound _ _ _ _ _ _ _ _ _ x E Ix) as (l & El & P1 & P2 & P3 & P4). exists l. split; [exact El|]. unfold pillars. auto.
Qed.
Theorem C76_code : forall s l sect a b c t jie base_year end_year, valid_solar s -> 21 <= sy s <= 9994 ->
  smi s = 0 -> ss s = 0 -> (Z.even (sh s) = true \/ sh s = 23 /\ sect <> 1) -> getLunar R s = Ok l -> pillars (mkEightChar (sect_of sect) l) a b c t ->
  Lunar_getPrevJie l false = Ok (Some jie) -> 22 <= base_year <= sy (jq_solar jie) -> sy s <= end_year <= 9994 ->
  exists rs, fromBaZi R (pair60 a) (pair60 b) (pair60 c) (pair60 t) sect base_year end_year = Ok rs /\ In s rs.
Proof.
  intros s l sect a b c t jie by_ ey V Hy M S0 Hh E P J B L.
  apply (C76_found _ 20 9998 s l sect a b c t jie by_ ey); try assumption; try lia.
  - apply (cal_sub _ 19 9999); [exact (real_Cal lib)|lia|lia].
  - intros y u x Hu. apply (real_civil lib y u x). lia.
  - exact (real_YearSeasons lib).
Qed.

(** C68, C69, C72: the Buddhist year, New Year's Eve, the double hours *)
Theorem C68_code : forall y m d h mi s l, 566 <= y <= 10541 -> Foto_fromYmdHms R y m d h mi s = Ok l -> Foto_getYear l = y.
Proof. intros y m d h mi s l Hy H. apply (C68_foto_year _ _ _ y m d h mi s l (real_Cal_civil lib) (real_civil lib)); [lia|exact H]. Qed.
Theorem C68_refuted_code : exists l, Foto_fromYmdHms R 560 1 1 0 0 0 = Ok l /\ sdate (l_solar l) = (15, 12, 30) /\ Foto_getYear l = 558.
Proof. apply C68_refuted. apply convert_libm; [exact lib|apply check_calb, check_0_18|lia|lia]. Qed.
Theorem C69_refuted_code : exists l n, Lunar_new R 236 12 28 0 0 0 = Ok l /\ Lunar_getFestivals R l = Ok [] /\
  Lunar_next R l 1 = Ok n /\ l_year n = 237 /\ l_month n = 1 /\ l_day n = 1.
Proof. apply C69_refuted. apply convert_libm; [exact lib|apply check_calb, check_19_616|lia|lia]. Qed.
Theorem C69_code : forall y t a b d h mi s l, 21 <= y <= 9996 -> y <> 236 -> R y = Ok t -> In a (lmonths t) -> my a = y ->
  Lunar_new R y (mm a) d h mi s = Ok l -> listed R 19 9999 b -> mfirst b = mfirst a + mcount a ->
  exists fs, Lunar_getFestivals R l = Ok fs /\ (In chuxi fs <-> d = mcount a /\ my b <> y).
Proof.
  intros y t a b d h mi s l Hy N Et Ia Ya H Lb Fb. pose proof (real_Cal lib) as C. pose proof (cal_wf C y t ltac:(lia) Et) as W.
  assert (Ma : 29 <= mcount a) by (destruct (real_months lib y t ltac:(lia) Et) as [_ U]; destruct (U a Ia) as [Ua _]; unfold usual_length in Ua; lia).
  destruct (Z.le_gt_cases y 241) as [L|L]; [|apply (C69_last_day _ _ _ y t a b d h mi s l C); try assumption; try lia; intros i; apply (real_usage lib y t i); [lia|exact Et]].
  destruct (C69_chuxi _ 19 9999 y t a b d h mi s l C ltac:(lia) Et Ia Ya H Lb Fb) as (fs & E & I). exists fs. split; [exact E|]. rewrite I.
  split; [tauto|]. intros [D Nb]. split; [|tauto].
  destruct (cal_ok _ _ _ C (y + 1) ltac:(lia)) as (t' & _ & Et' & _). destruct (in_nthm _ _ Ia) as (i & Hi & <-).
  destruct (early_closes fsin fcos y t t' i ltac:(lia) ltac:(lia) Et Et' Hi Ya) as [|[Hi1 Yi]]; [assumption|]. exfalso. rewrite (wf_length _ _ W) in Hi, Hi1. change (Z.of_nat 15) with 15 in *.
  pose proof (wf_contig _ _ W i ltac:(lia)) as Ct. pose proof (wf_in W (i + 1) ltac:(lia)) as I1. destruct Lb as (y3 & t4 & Hy3 & Et3 & Ib).
  pose proof (proj1 (wf_month _ _ W _ I1)). pose proof (proj1 (wf_month _ _ (cal_wf C y3 t4 Hy3 Et3) _ Ib)).
  destruct (month_unique C y y3 t t4 (nthm (lmonths t) (i + 1)) b (mfirst b) ltac:(lia) Hy3 Et Et3 I1 Ib) as (X & _); [unfold mend in *; lia|unfold mend; lia|]. lia.
Qed.
Theorem C72_code : forall s l, valid_solar s -> 20 <= sy s <= 9998 -> getLunar R s = Ok l ->
  exists ts, Lunar_getTimes R l = Ok ts /\
    map LunarTime_getMinHm ts = map (fun i => hm (first_minute i)) (zrange 0 13) /\
    map LunarTime_getMaxHm ts = map (fun i => hm (last_minute i)) (zrange 0 13) /\
    map LunarTime_getZhi ts = map (fun i => Ok (branch i)) (zrange 0 13) /\
    map LunarTime_getGanZhi ts = map (fun i => Ok (pair60 (12 * (dayno (sdate s) - 11) + i))) (zrange 0 13) /\
    Forall (fun t => sdate (l_solar (t_lunar t)) = sdate s) ts.
Proof. intros s l V Hy E. apply (C72_times _ _ _ s l (real_Cal lib) V); [lia|exact E]. Qed.

(** C77, C79: the officers and the six labels from day to day *)
Theorem C77_code : forall s l s' l', valid_solar s -> valid_solar s' -> 20 <= sy s -> sy s' <= 9998 -> getLunar R s = Ok l -> getLunar R s' = Ok l' -> sdate s' = tomorrow (sdate s) ->
  exists i name, Lunar_getZhiXing l = Ok (officer i) /\ Lunar_getJie l' = Ok name /\ Lunar_getZhiXing l' = Ok (officer (match name with [] => i + 1 | _ => i end)).
Proof.
  intros s l s' l' V V' Hy Hy' E E' D.
  assert (Y : sy s' = sy s \/ sy s' = sy s + 1).
  { pose proof (tomorrow_dayno _ (proj1 V)) as Q. rewrite <- D in Q. pose proof (days_year s s' 1 V V' ltac:(lia) Q). lia. }
  destruct (termed_ok s l ltac:(split; [exact V|lia]) E) as (Es & W & G & y & m & d & H). destruct (termed_ok s' l' ltac:(split; [exact V'|lia]) E') as (Es' & W' & G' & y' & m' & d' & H').
  rewrite <- Es in *. rewrite <- Es' in *. destruct Y as [Y|Y].
  - exact (C77_daily _ _ _ _ _ _ _ l _ _ _ _ _ _ l' H H' V V' G D Y).
  - exact (C77_new_year _ _ _ _ _ _ _ _ _ l _ _ _ _ _ _ l' (real_Seasons lib) H H' ltac:(lia) ltac:(lia) V V' D Y).
Qed.
Theorem C79_code : forall y t a d h mi s l, 21 <= y <= 9996 -> R y = Ok t -> In a (lmonths t) -> my a = y -> Lunar_new R y (mm a) d h mi s = Ok l ->
  exists l' i, Lunar_next R l 1 = Ok l' /\ Lunar_getLiuYao l = Ok (label i) /\
    (d < mcount a -> Lunar_getLiuYao l' = Ok (label (i + 1))) /\
    (d = mcount a -> Lunar_getLiuYao l' = Ok (label (Z.abs (l_month l') - 1)) /\ l_day l' = 1).
Proof. intros y t a d h mi s l Hy Et Ia Ya H. apply (C79_daily _ _ _ y t a d h mi s l (real_Cal lib)); try assumption. lia. Qed.

(** C80: the omens of the first days of a year *)
Theorem C80_code : forall y t, 21 <= y <= 9997 -> R y = Ok t ->
  (forall r name pre suf, In (r, name, pre, suf) (branch_omens R t) -> exists d, 1 <= d <= 12 /\ r = Ok (pre ++ numeral d ++ suf) /\ first_day R y Lunar_getDayZhi name d) /\
  (forall r name pre suf, In (r, name, pre, suf) (stem_omens R t) -> exists d, 1 <= d <= 10 /\ r = Ok (pre ++ numeral d ++ suf) /\ first_day R y Lunar_getDayGan name d) /\
  (forall r name last, In (r, name, last) (double_omens R t) -> exists d d', 1 <= d <= 12 /\ 1 <= d' <= 10 /\ r = Ok (numeral d ++ utf8 "人" ++ numeral d' ++ last) /\
    first_day R y Lunar_getDayZhi (utf8 "寅") d /\ first_day R y Lunar_getDayGan name d').
Proof.
  intros y t Hy Et. assert (N : getMonth t 1 <> None).
  { destruct (real_new_year lib y t ltac:(lia) Et) as (a & Ia & Ya & Ma & _). destruct (getMonth_same (real_Cal lib) y t a ltac:(lia) Et Ia Ya) as (b & Eb & _). rewrite Ma in Eb. congruence. }
  split; [|split]; intros.
  - apply (C80_branch_days _ _ _ y t r name pre suf (real_Cal lib)); try assumption. lia.
  - apply (C80_stem_days _ _ _ y t r name pre suf (real_Cal lib)); try assumption. lia.
  - apply (C80_two_days _ _ _ y t r name last (real_Cal lib)); try assumption. lia.
Qed.

(** C83, C84: the days of observance *)
Theorem C83_code : forall s l, termed_date s -> getLunar R s = Ok l ->
  exists fs, Lunar_getOtherFestivals R l = Ok fs /\
    (In (utf8 "寒食节") fs <-> dayno (sdate s) = term_day l 8 - 1) /\
    (In (utf8 "春社") fs <-> Lunar_getDayGan l = Ok (utf8 "戊") /\ 40 <= dayno (sdate s) - term_day l 4 < 50) /\
    (In (utf8 "秋社") fs <-> Lunar_getDayGan l = Ok (utf8 "戊") /\ 40 <= dayno (sdate s) - term_day l 16 < 50) /\
    (forall f, f <> utf8 "寒食节" -> f <> utf8 "春社" -> f <> utf8 "秋社" -> (In f fs <-> In f (listed_festivals l))).
Proof.
  intros s l T E. pose proof (term_years s l 16 T E ltac:(lia)) as Y16. destruct (termed_ok s l T E) as (Es & V & G & y & m & d & H).
  destruct T as [_ Hy]. rewrite <- Es in *. apply (C83_festivals _ _ _ _ _ _ _ _ _ l (real_Cal lib) ltac:(lia) H V G); lia.
Qed.
Theorem C84_code : forall y t a, 21 <= y <= 9997 -> R y = Ok t -> In a (lmonths t) -> my a = y -> ~ (y = 236 /\ mm a = 12) ->
  exists ds, List.length ds = 6%nat /\ NoDup ds /\ forall d, (exists l, Lunar_new R y (mm a) d 0 0 0 = Ok l /\ isDayZhaiSix R l = Ok true) <-> In d ds.
Proof.
  intros y t a Hy Et Ia Ya Nm. apply (C84_six_per_month _ _ _ y t a (real_Cal lib)); try assumption; [lia|]. destruct (real_months lib y t ltac:(lia) Et) as [_ U]. destruct (U a Ia) as [Ua _].
  unfold usual_length in Ua. lia.
Qed.
Theorem C43_code : forall s, valid_solar s -> 20 <= sy s <= 9998 -> exists l, getLunar R s = Ok l /\
  forall sect, Forall (fun f => found (f l)) (text_accessors sect) /\ Forall (fun f => listed_all (f l)) (list_accessors sect) /\
  Forall (fun f => found (f (mkEightChar sect l))) eight_texts /\ Forall (fun f => known (f (mkEightChar sect l))) eight_options /\
  Forall (fun f => hidden_all (f (mkEightChar sect l))) eight_hidden /\ Forall (fun f => known_all (f (mkEightChar sect l))) eight_gods.
Proof. intros s V Hy. apply (C43_any_date _ _ _ s (real_Cal lib) V). lia. Qed.
Theorem C35_code : forall n ls s, run R (init n) ls s -> (forall i y, In (Call i y) ls -> 0 <= y <= 9999) ->
  exists ls' s', run R s ls' s' /\ forallb internal ls' = true /\ (forall i y e, ~ In (Ret i y (Raise e)) ls') /\ forall i p, at_pc s' i p -> p = Out.
Proof.
  intros n ls s H Y. apply (C35_completes _ n ls s H). intros i y I. destruct (C45_code y (Y i y I)) as (t & Et & _). exists t. exact Et.
Qed.
End LIB.

(** With the library [rsin], [rcos]: 10 February 2024, noon, is the first day of the lunar year 2024, and the theorems above apply. *)
Definition feb10 : Solar := mkSolar 2024 2 10 12 0 0.
Example code_case : termed_date feb10 /\ exists l, getLunar (real rsin rcos) feb10 = Ok l /\ (l_year l, l_month l, l_day l) = (2024, 1, 1) /\
  Lunar_getDayInGanZhi l = Ok (utf8 "甲辰") /\ Lunar_getYearInGanZhi l = Ok (utf8 "甲辰").
Proof.
  assert (V : valid_solar feb10) by (split; [unfold valid_date; cbn; lia|unfold valid_time; cbn; lia]).
  assert (M : termed_date feb10) by (split; [exact V|cbn; lia]). split; [exact M|].
  destruct (C47_code rsin rcos libm_ref feb10 V ltac:(cbn; lia)) as (l & t & a & E & Es & Et & Ia & Ha & A1 & A2 & A3 & _). exists l. split; [exact E|].
  destruct (real_inv _ _ _ _ Et) as [_ Mt]. change (sy feb10) with 2024 in Mt.
  assert (Q : exists ms, CertSky.cert_months 2024 = ms /\ ms <> [] /\ forallb (fun a => if (mfirst a <=? 2460351) && (2460351 <? mfirst a + mcount a) then (my a =? 2024) && (mm a =? 1) && (mfirst a =? 2460351) else true) ms = true)
    by (eexists; split; [vm_compute; reflexivity|split; [discriminate|vm_compute; reflexivity]]).
  destruct Q as (ms & Q1 & Q2 & Q3). rewrite (cert_months_ok _ _ 2024 libm_ref ltac:(congruence)), Q1 in Mt. rewrite Mt in Ia. rewrite forallb_forall in Q3. specialize (Q3 a Ia).
  change (dayno (sdate feb10)) with 2460351 in *.
  destruct ((mfirst a <=? 2460351) && (2460351 <? mfirst a + mcount a)) eqn:B; [|lia]. assert (X : my a = 2024 /\ mm a = 1 /\ mfirst a = 2460351) by lia. destruct X as (X1 & X2 & X3).
  split; [rewrite A1, A2, A3, X1, X2, X3; reflexivity|].
  assert (D : days_later 8806 (2000, 1, 1) (sdate feb10)) by (apply days_later_dayno; [unfold valid_date; cbn; lia|apply V|reflexivity]).
  destruct (C53_code rsin rcos libm_ref feb10 l 8806 V ltac:(cbn; lia) E D) as (P1 & _). split; [rewrite P1; vm_compute; reflexivity|].
  destruct (C55_code rsin rcos libm_ref feb10 l M E) as (P2 & _). rewrite P2, A1, X1. vm_compute. reflexivity.
Qed.
