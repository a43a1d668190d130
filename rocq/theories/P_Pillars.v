(** The four pillars and the 28 lodges (C42, C53-C56).

    [Lunar_new fromYear y m d h mi s = Ok l] is a successful [Lunar(y, m, d, h, mi, s)] (getLunar and every
    other way to make a Lunar go through it); [fromYear] is any year-table function. *)
From Coq Require Import ZArith Lia Bool ZifyBool List String Floats.
From Verif Require Import Py PyFloat PyStr Solar CalSpec DayNo SolarProofs JulianDay P_JD
  P_Solar UnitsProofs
  LunarUtil T_LunarUtil T_Misc P_Tables LunarYear Lunar LunarProofs TermProofs Demo.
Import ListNotations.
Open Scope Z_scope.

Lemma since2000 n a : valid_date a -> days_later n (2000, 1, 1) a -> dayno a = 2451545 + n.
Proof.
  intros V D. rewrite days_later_dayno in D by (exact valid_2000 || exact V). rewrite dayno_2000 in D. lia.
Qed.

(** ** C53: 2000-01-01 is 戊午, the 55th pair, and each civil day advances by one. *)
Theorem C53_day_pillar : forall fromYear y m d h mi s l n,
  Lunar_new fromYear y m d h mi s = Ok l -> valid_solar (l_solar l) -> jd_year (sy (l_solar l)) ->
  days_later n (2000, 1, 1) (sdate (l_solar l)) ->
  Lunar_getDayInGanZhi l = Ok (pair60 (54 + n)) /\
  Lunar_getDayInGanZhiExact2 l = Ok (pair60 (54 + n)) /\
  Lunar_getDayInGanZhiExact l = Ok (pair60 (54 + n + (if sh (l_solar l) =? 23 then 1 else 0))).
Proof.
  intros fromYear y m d h mi s l n H V J D. apply since2000 in D; [|apply V].
  destruct (Lunar_new_day _ _ _ _ _ _ _ _ H V J) as (_ & Eh & A1 & A2 & A3 & A4 & A5 & A6 & _).
  rewrite D in *. rewrite Eh.
  unfold Lunar_getDayInGanZhi, Lunar_getDayGan, Lunar_getDayZhi, Lunar_getDayInGanZhiExact2, Lunar_getDayGanExact2,
    Lunar_getDayZhiExact2, Lunar_getDayInGanZhiExact, Lunar_getDayGanExact, Lunar_getDayZhiExact.
  repeat split; apply pillar; first [rewrite A1 | rewrite A2 | rewrite A5 | rewrite A6 | rewrite A3 | rewrite A4];
    destruct (h =? 23); lia.
Qed.

(** The day after has the next pair of the sixty. *)
Theorem C53_advances : forall fromYear y m d h mi s l y' m' d' h' mi' s' l',
  Lunar_new fromYear y m d h mi s = Ok l -> Lunar_new fromYear y' m' d' h' mi' s' = Ok l' ->
  valid_solar (l_solar l) -> valid_solar (l_solar l') -> jd_year (sy (l_solar l)) -> jd_year (sy (l_solar l')) ->
  sdate (l_solar l') = tomorrow (sdate (l_solar l)) ->
  exists i, Lunar_getDayInGanZhi l = Ok (pair60 i) /\ Lunar_getDayInGanZhi l' = Ok (pair60 (i + 1)).
Proof.
  intros * H H' V V' J J' T.
  pose (n := dayno (sdate (l_solar l)) - 2451545). exists (54 + n).
  assert (D : days_later n (2000, 1, 1) (sdate (l_solar l))).
  { apply days_later_dayno; [exact valid_2000|apply V|]. rewrite dayno_2000. unfold n. lia. }
  assert (D' : days_later (n + 1) (2000, 1, 1) (sdate (l_solar l'))).
  { apply days_later_dayno; [exact valid_2000|apply V'|]. rewrite dayno_2000, T, tomorrow_dayno by apply V. unfold n. lia. }
  split; [exact (proj1 (C53_day_pillar _ _ _ _ _ _ _ _ _ H V J D))|].
  rewrite (proj1 (C53_day_pillar _ _ _ _ _ _ _ _ _ H' V' J' D')). do 2 f_equal. lia.
Qed.

(** The sixty pairs are distinct, so the pillar determines the day modulo sixty. *)
Theorem C53_cycle_is_sixty : forall i j, pair60 i = pair60 j <-> i mod 60 = j mod 60.
Proof.
  intros i j. split; intros E; [|now rewrite <- (pair60_mod i), <- (pair60_mod j), E].
  rewrite <- (C37_index i), <- (C37_index j). fold (pair60 i) (pair60 j). now rewrite E.
Qed.

(** ** C54: the hour pillar advances by one every double hour, 12 a day; 23:00 begins the next day's first. *)
Theorem C54_hour_pillar : forall fromYear y m d h mi s l n,
  Lunar_new fromYear y m d h mi s = Ok l -> valid_solar (l_solar l) -> jd_year (sy (l_solar l)) ->
  days_later n (2000, 1, 1) (sdate (l_solar l)) ->
  Lunar_getTimeInGanZhi l = Ok (pair60 (12 * (54 + n) + (sh (l_solar l) + 1) / 2)).
Proof.
  intros fromYear y m d h mi s l n H V J D. apply since2000 in D; [|apply V].
  destruct (Lunar_new_day _ _ _ _ _ _ _ _ H V J) as (_ & Eh & _ & _ & _ & _ & _ & _ & A1 & A2 & _).
  rewrite D in *. rewrite Eh. destruct V as [_ (VT & _)]. rewrite Eh in VT.
  unfold Lunar_getTimeInGanZhi, Lunar_getTimeGan, Lunar_getTimeZhi. apply pillar.
  - rewrite A1. assert (C : h = 23 \/ 0 <= (h + 1) / 2 <= 11) by lia. destruct C as [->|C].
    + change (23 =? 23) with true. change ((23 + 1) / 2) with 12. cbv iota. lia.
    + replace (h =? 23) with false by lia. rewrite (Z.mod_small _ 12) by lia. lia.
  - rewrite A2. lia.
Qed.

Lemma rats r : 0 <= r < 5 -> nth (Z.to_nat r) [0; 2; 4; 6; 8] 0 = 2 * r.
Proof. intros H. assert (r = 0 \/ r = 1 \/ r = 2 \/ r = 3 \/ r = 4) as C by lia. destruct C as [->|[->|[->|[->| ->]]]]; reflexivity. Qed.

(** The traditional rule of the five rats: 甲 and 己 days begin with 甲子, 乙 and 庚 days with 丙子, and so on;
    the day is the one that starts at 23:00. *)
Theorem C54_five_rats : forall fromYear y m d h mi s l,
  Lunar_new fromYear y m d h mi s = Ok l -> valid_solar (l_solar l) -> jd_year (sy (l_solar l)) ->
  exists g z, 0 <= g < 10 /\ 0 <= z < 12 /\ z = (sh (l_solar l) + 1) / 2 mod 12 /\
    Lunar_getDayGanExact l = Ok (stem g) /\
    Lunar_getTimeZhi l = Ok (branch z) /\ Lunar_getTimeGan l = Ok (stem (nth (Z.to_nat (g mod 5)) [0; 2; 4; 6; 8] 0 + z)).
Proof.
  intros fromYear y m d h mi s l H V J.
  destruct (Lunar_new_day _ _ _ _ _ _ _ _ H V J) as (_ & Eh & _ & _ & A3 & _ & _ & _ & A1 & A2 & _).
  set (k := dayno (sdate (l_solar l)) - 11 + (if h =? 23 then 1 else 0)) in *. clearbody k.
  exists (k mod 10), ((h + 1) / 2 mod 12). rewrite Eh.
  unfold Lunar_getDayGanExact, Lunar_getTimeZhi, Lunar_getTimeGan. rewrite A1, A2, A3.
  set (z := (h + 1) / 2 mod 12) in *. assert (Hz : 0 <= z < 12) by (unfold z; lia). clearbody z.
  rewrite !GAN_ok, ZHI_ok by lia. repeat split; try lia. f_equal.
  unfold stem. f_equal. f_equal. rewrite Z.mod_mod by lia. rewrite rats by lia. lia.
Qed.

(** ** C42: the 28 lodges *)
Definition lodges : list str := Eval vm_compute in map utf8
  ["角"; "亢"; "氐"; "房"; "心"; "尾"; "箕"; "斗"; "牛"; "女"; "虚"; "危"; "室"; "壁";
   "奎"; "娄"; "胃"; "昴"; "毕"; "觜"; "参"; "井"; "鬼"; "柳"; "星"; "张"; "翼"; "轸"]%string.
Definition lodge (i : Z) : str := nth (Z.to_nat (i mod 28)) lodges [].

Lemma lodge_table : forallb (fun i =>
  ok_is (py_dict LunarUtil_XIU (branch (54 + i) ++ str_of_Z ((6 + i) mod 7))) (lodge (16 + i))) (zrange 0 84) = true.
Proof. vm_compute. reflexivity. Qed.

(** 2000-01-01 has the lodge 胃; each day has the next one. *)
Theorem C42_lodge : forall fromYear y m d h mi s l n,
  Lunar_new fromYear y m d h mi s = Ok l -> valid_solar (l_solar l) -> jd_year (sy (l_solar l)) ->
  days_later n (2000, 1, 1) (sdate (l_solar l)) ->
  Lunar_getXiu l = Ok (lodge (16 + n)).
Proof.
  intros fromYear y m d h mi s l n H V J D. apply since2000 in D; [|apply V].
  destruct (Lunar_new_day _ _ _ _ _ _ _ _ H V J) as (_ & _ & _ & A2 & _ & _ & _ & _ & _ & _ & W).
  rewrite D in *. unfold Lunar_getXiu, Lunar_getDayZhi. rewrite A2, W, ZHI_ok by lia. cbn [bind].
  by_table lodge_table (n mod 84). apply ok_is_eq in X.
  replace (lodge (16 + n)) with (lodge (16 + n mod 84)).
  - rewrite <- X. f_equal. f_equal; [|f_equal; lia].
    unfold branch. f_equal. f_equal. rewrite Z.mod_mod by lia. lia.
  - unfold lodge. f_equal. f_equal. lia.
Qed.

Theorem C42_advances : forall fromYear y m d h mi s l y' m' d' h' mi' s' l',
  Lunar_new fromYear y m d h mi s = Ok l -> Lunar_new fromYear y' m' d' h' mi' s' = Ok l' ->
  valid_solar (l_solar l) -> valid_solar (l_solar l') -> jd_year (sy (l_solar l)) -> jd_year (sy (l_solar l')) ->
  sdate (l_solar l') = tomorrow (sdate (l_solar l)) ->
  exists i, Lunar_getXiu l = Ok (lodge i) /\ Lunar_getXiu l' = Ok (lodge (i + 1)).
Proof.
  intros * H H' V V' J J' T.
  pose (n := dayno (sdate (l_solar l)) - 2451545). exists (16 + n).
  assert (D : days_later n (2000, 1, 1) (sdate (l_solar l))).
  { apply days_later_dayno; [exact valid_2000|apply V|]. rewrite dayno_2000. unfold n. lia. }
  assert (D' : days_later (n + 1) (2000, 1, 1) (sdate (l_solar l'))).
  { apply days_later_dayno; [exact valid_2000|apply V'|]. rewrite dayno_2000, T, tomorrow_dayno by apply V. unfold n. lia. }
  split; [exact (C42_lodge _ _ _ _ _ _ _ _ _ H V J D)|].
  rewrite (C42_lodge _ _ _ _ _ _ _ _ _ H' V' J' D'). do 2 f_equal. lia.
Qed.

(** ** C55: the year pillar *)
Lemma wrap_mod n g d : 0 < n -> -1 <= d -> wrap n (g mod n + d) = (g + d) mod n.
Proof.
  intros Hn Hd. unfold wrap. pose proof (Z.mod_pos_bound g n Hn).
  destruct (g mod n + d <? 0); [replace (g mod n + d + n) with (g mod n + d + 1 * n) by lia; rewrite Z.mod_add by lia|];
  now rewrite Zplus_mod_idemp_l.
Qed.
(** [computeYear] in arithmetic: the indices of the pairs l_year - 4 + correction. *)
Lemma computeYear_spec year s jq lc : py_dict jq (utf8 "立春") = Ok lc -> sy lc = sy s -> fmt_ok s -> fmt_ok lc ->
  let d := if year =? sy s then (if dayno (sdate s) <? dayno (sdate lc) then -1 else 0)
           else if year <? sy s then (if dayno (sdate s) <? dayno (sdate lc) then 0 else 1) else 0 in
  let t := if year =? sy s then (if instant s <? instant lc then -1 else 0)
           else if year <? sy s then (if instant s <? instant lc then 0 else 1) else 0 in
  computeYear year s jq = Ok ((year - 4) mod 10, (year - 4) mod 12, (year - 4 + d) mod 10, (year - 4 + d) mod 12,
    (year - 4 + t) mod 10, (year - 4 + t) mod 12).
Proof.
  intros L E S C d t. unfold computeYear. rewrite L. cbn [bind]. rewrite E, Z.eqb_refl. cbn [negb bind].
  pose proof (fmt_ltb true _ _ S C) as D. pose proof (fmt_ltb false _ _ S C) as T. cbn [fmt_of clock] in D, T.
  rewrite D, T. fold d. fold t.
  assert (-1 <= d) by (unfold d; repeat destruct (_ =? _); repeat destruct (_ <? _); lia).
  assert (-1 <= t) by (unfold t; repeat destruct (_ =? _); repeat destruct (_ <? _); lia).
  rewrite !wrap_mod by lia. reflexivity.
Qed.

Theorem C55_year_pillar : forall fromYear y m d h mi s l lc,
  Lunar_new fromYear y m d h mi s = Ok l -> valid_solar (l_solar l) -> 0 <= sy (l_solar l) <= 9999 ->
  py_dict (l_jieQi l) (utf8 "立春") = Ok lc -> valid_solar lc -> sy lc = sy (l_solar l) ->
  let Y := sy (l_solar l) in
  l_year l = Y \/ l_year l = Y - 1 ->
  Lunar_getYearInGanZhi l = Ok (pair60 (l_year l - 4)) /\
  (dayno (sdate (l_solar l)) < dayno (sdate lc) -> Lunar_getYearInGanZhiByLiChun l = Ok (pair60 (Y - 1 - 4))) /\
  (dayno (sdate lc) <= dayno (sdate (l_solar l)) -> Lunar_getYearInGanZhiByLiChun l = Ok (pair60 (Y - 4))) /\
  (instant (l_solar l) < instant lc -> Lunar_getYearInGanZhiExact l = Ok (pair60 (Y - 1 - 4))) /\
  (instant lc <= instant (l_solar l) -> Lunar_getYearInGanZhiExact l = Ok (pair60 (Y - 4))).
Proof.
  intros fromYear y m d h mi s l lc H V R L VL E Y C.
  destruct (Lunar_new_inv _ _ _ _ _ _ _ _ H) as (t & mo & noon & t2 & _ & _ & _ & _ & _ & _ & _ & CP).
  destruct CP as [(Ey & _ & _) _ _ _ CY _ _ _ _ _]. rewrite <- Ey in CY.
  rewrite (computeYear_spec _ _ _ lc L E (conj V R)) in CY by (split; [assumption|rewrite E; assumption]).
  apply Ok_inj in CY. repeat (apply pair_equal_spec in CY; destruct CY as [CY ?]).
  unfold Lunar_getYearInGanZhi, Lunar_getYearGan, Lunar_getYearZhi, Lunar_getYearInGanZhiByLiChun, Lunar_getYearGanByLiChun,
    Lunar_getYearZhiByLiChun, Lunar_getYearInGanZhiExact, Lunar_getYearGanExact, Lunar_getYearZhiExact.
  fold Y in H0, H1, H2, H3. clear - C CY H0 H1 H2 H3 H4.
  repeat split; [apply pillar; lia|..]; intros X; apply pillar;
  (match goal with |- ?a = _ => match goal with K : _ = a |- _ => rewrite <- K end end);
  (destruct C as [C|C]; [replace (l_year l =? Y) with true by lia|
    replace (l_year l =? Y) with false by lia; replace (l_year l <? Y) with true by lia]);
  first [replace (dayno (sdate (l_solar l)) <? dayno (sdate lc)) with true by lia
        |replace (dayno (sdate (l_solar l)) <? dayno (sdate lc)) with false by lia
        |replace (instant (l_solar l) <? instant lc) with true by lia
        |replace (instant (l_solar l) <? instant lc) with false by lia];
  f_equal; lia.
Qed.

(** In the last days of AD 15 and AD 18 the lunar year is ahead of the solar year; then the exact
    pillars are those of the lunar year, although 立春 of that year has not come. *)
Theorem C55_ahead : forall fromYear y m d h mi s l lc,
  Lunar_new fromYear y m d h mi s = Ok l -> valid_solar (l_solar l) -> 0 <= sy (l_solar l) <= 9999 ->
  py_dict (l_jieQi l) (utf8 "立春") = Ok lc -> valid_solar lc -> sy lc = sy (l_solar l) ->
  sy (l_solar l) < l_year l ->
  Lunar_getYearInGanZhiByLiChun l = Ok (pair60 (l_year l - 4)) /\
  Lunar_getYearInGanZhiExact l = Ok (pair60 (l_year l - 4)).
Proof.
  intros fromYear y m d h mi s l lc H V R L VL E C.
  destruct (Lunar_new_inv _ _ _ _ _ _ _ _ H) as (t & mo & noon & t2 & _ & _ & _ & _ & _ & _ & _ & CP).
  destruct CP as [(Ey & _ & _) _ _ _ CY _ _ _ _ _]. rewrite <- Ey in CY.
  rewrite (computeYear_spec _ _ _ lc L E (conj V R)) in CY by (split; [assumption|rewrite E; assumption]).
  replace (l_year l =? sy (l_solar l)) with false in CY by lia.
  replace (l_year l <? sy (l_solar l)) with false in CY by lia. rewrite Z.add_0_r in CY.
  apply Ok_inj in CY. repeat (apply pair_equal_spec in CY; destruct CY as [CY ?]).
  split; apply pillar; congruence.
Qed.

(** The last day of the solar year 15: 立春 of 16 is five weeks ahead, the year pillar is already the one of 16. *)
Theorem C55_refuted : exists l lc,
  getLunar demo_table (mkSolar 15 12 31 12 0 0) = Ok l /\ l_solar l = mkSolar 15 12 31 12 0 0 /\
  py_dict (l_jieQi l) (lit "LI_CHUN") = Ok lc /\ sy lc = 16 /\ isBefore (l_solar l) lc = true /\
  Lunar_getYearInGanZhiExact l = Ok (pair60 (16 - 4)) /\ pair60 (16 - 4) <> pair60 (15 - 4).
Proof.
  rewrite (getLunar_ext _ demo_wm) by (intros; now rewrite demo_wm_eq).
  assert (K : (let! l := getLunar demo_wm (mkSolar 15 12 31 12 0 0) in
      Ok (l_solar l, py_dict (l_jieQi l) (lit "LI_CHUN"), Lunar_getYearInGanZhiExact l)) =
    Ok (mkSolar 15 12 31 12 0 0, Ok (mkSolar 16 2 6 6 34 54), Ok (pair60 (16 - 4)))) by (vm_compute; reflexivity).
  apply bind_ok in K. destruct K as (l & E & K). apply Ok_inj in K.
  apply pair_equal_spec in K. destruct K as [K K3]. apply pair_equal_spec in K. destruct K as [K1 K2].
  exists l, (mkSolar 16 2 6 6 34 54). rewrite K1, K2, K3. repeat split; [exact E|].
  vm_compute. discriminate.
Qed.

(** ** C56: the month pillar *)
Lemma month_pillar g j Y : 0 <= j < 15 -> g = (Y - 4 - (if j <? 2 then 1 else 0)) mod 10 ->
  cat2 (py_index LunarUtil_GAN (month_gan g (j - 2) + 1)) (py_index LunarUtil_ZHI (month_zhi (j - 2) + 1)) =
  Ok (pair60 (12 * (Y - 4) + j)).
Proof.
  intros Hj ->. apply pillar.
  - unfold month_gan. destruct (Z.ltb_spec j 2).
    + replace (j - 2 <? 0) with true by lia. lia.
    + replace (j - 2 <? 0) with false by lia. lia.
  - unfold month_zhi. change LunarUtil_BASE_MONTH_ZHI_INDEX with 2. destruct (j - 2 <? 0) eqn:E; lia.
Qed.

(** The 节 of the table of the solar year [Y] are numbered from the 大雪 of the year before (term 0 of the table, the
    beginning of the 子 month); from the [j]-th to the next one the month pillar is number 12 (Y - 4) + j. *)
Theorem C56_month_pillar : forall fromYear y m d h mi s l j,
  Lunar_new fromYear y m d h mi s = Ok l -> valid_solar (l_solar l) ->
  good_terms (sy (l_solar l)) (l_jieQi l) ->
  let Y := sy (l_solar l) in
  l_year l = Y \/ l_year l = Y - 1 -> 0 <= j < 14 ->
  (instant (term_at (l_jieQi l) (2 * j)) <= instant (l_solar l) < instant (term_at (l_jieQi l) (2 * j + 2)) ->
   Lunar_getMonthInGanZhiExact l = Ok (pair60 (12 * (Y - 4) + j))) /\
  (dayno (sdate (term_at (l_jieQi l) (2 * j))) <= dayno (sdate (l_solar l)) < dayno (sdate (term_at (l_jieQi l) (2 * j + 2))) ->
   Lunar_getMonthInGanZhi l = Ok (pair60 (12 * (Y - 4) + j))).
Proof.
  intros fromYear y m d h mi s l j H V G Y C Hj.
  pose proof (Lunar_new_named _ _ _ _ _ _ _ _ H) as N.
  assert (S : fmt_ok (l_solar l)).
  { split; [exact V|]. pose proof (gt_years _ _ G 4 ltac:(lia)) as R. now rewrite (gt_lichun _ _ G) in R. }
  assert (L : fmt_ok (term_at (l_jieQi l) 4)) by (apply (good_fmt Y); [exact G|lia]).
  pose proof (dict_at _ 4 N ltac:(lia)) as D. set (lc := term_at (l_jieQi l) 4) in *.
  change (term_key 4) with (utf8 "立春") in D.
  destruct (Lunar_new_inv _ _ _ _ _ _ _ _ H) as (t & mo & noon & t2 & _ & _ & _ & _ & _ & _ & _ & CP).
  destruct CP as [(Ey & _ & _) _ _ _ CY CM _ _ _ _]. rewrite <- Ey in CY.
  rewrite (computeYear_spec _ _ _ lc D (gt_lichun _ _ G) S L) in CY.
  apply Ok_inj in CY. repeat (apply pair_equal_spec in CY; destruct CY as [CY ?]). fold Y in H0, H1, H2, H3.
  assert (X : forall day j, 0 <= j < 15 ->
    clock day (term_at (l_jieQi l) (2 * j)) <= clock day (l_solar l) < clock day (term_at (l_jieQi l) (2 * j + 2)) ->
    (j <? 2) = (clock day (l_solar l) <? clock day lc)).
  { clear - G. intros day j Hj R. destruct (Z.ltb_spec j 2).
    - pose proof (good_clock_le _ _ day (2 * j + 2) 4 G ltac:(lia) ltac:(lia)). unfold lc. lia.
    - pose proof (good_clock_le _ _ day 4 (2 * j) G ltac:(lia) ltac:(lia)). unfold lc. lia. }
  destruct (good_between _ _ true _ G V eq_refl) as (j1 & Hj1 & R1).
  destruct (good_between _ _ false _ G V eq_refl) as (j2 & Hj2 & R2).
  split; intros R.
  - rewrite (computeMonth_spec Y _ _ _ _ j1 j) in CM by (assumption || lia).
    apply Ok_inj in CM. repeat (apply pair_equal_spec in CM; destruct CM as [CM ?]).
    unfold Lunar_getMonthInGanZhiExact, Lunar_getMonthGanExact, Lunar_getMonthZhiExact. rewrite <- H5, <- H6.
    apply month_pillar; [lia|]. rewrite <- H1. rewrite (X false j) by (assumption || lia). cbn [clock].
    clear - C. destruct (_ <? _); destruct C as [C|C]; rewrite C.
    all: (rewrite Z.eqb_refl || (replace (Y - 1 =? Y) with false by lia; replace (Y - 1 <? Y) with true by lia)); f_equal; lia.
  - rewrite (computeMonth_spec Y _ _ _ _ j j2) in CM by (assumption || lia).
    apply Ok_inj in CM. repeat (apply pair_equal_spec in CM; destruct CM as [CM ?]).
    unfold Lunar_getMonthInGanZhi, Lunar_getMonthGan, Lunar_getMonthZhi. rewrite <- CM, <- H7.
    apply month_pillar; [lia|]. rewrite <- H3. rewrite (X true j) by (assumption || lia). cbn [clock].
    clear - C. destruct (_ <? _); destruct C as [C|C]; rewrite C.
    all: (rewrite Z.eqb_refl || (replace (Y - 1 =? Y) with false by lia; replace (Y - 1 <? Y) with true by lia)); f_equal; lia.
Qed.

(** Such a [j] always exists. *)
Theorem C56_some_jie : forall s jq, good_terms (sy s) jq -> valid_solar s ->
  (exists j, 0 <= j < 14 /\ instant (term_at jq (2 * j)) <= instant s < instant (term_at jq (2 * j + 2))) /\
  (exists j, 0 <= j < 14 /\ dayno (sdate (term_at jq (2 * j))) <= dayno (sdate s) < dayno (sdate (term_at jq (2 * j + 2)))).
Proof.
  intros s jq G V. split; [exact (good_between _ _ false _ G V eq_refl)|exact (good_between _ _ true _ G V eq_refl)].
Qed.

(** The rule of the five tigers: the 寅 month of a 甲 or 己 year is 丙寅, of 乙 or 庚 戊寅, and so on; pillar
    12 (Y - 4) + 2 + r is the r-th month of the year Y counted from 寅 (立春). *)
Theorem C56_five_tigers : forall Y r, 0 <= r < 12 ->
  pair60 (12 * (Y - 4) + 2 + r) = stem (nth (Z.to_nat ((Y - 4) mod 5)) [2; 4; 6; 8; 0] 0 + r) ++ branch (2 + r).
Proof.
  intros Y r Hr. unfold pair60, stem, branch. f_equal.
  - f_equal. f_equal. assert (T : forall k, 0 <= k < 5 -> nth (Z.to_nat k) [2; 4; 6; 8; 0] 0 = (2 * k + 2) mod 10).
    { intros k Hk. assert (k = 0 \/ k = 1 \/ k = 2 \/ k = 3 \/ k = 4) as C by lia.
      destruct C as [->|[->|[->|[->| ->]]]]; reflexivity. }
    rewrite T by lia. lia.
  - f_equal. f_equal. lia.
Qed.

(** ** Examples: 4 February 2024, 立春 at 16:26:53 *)
Definition demo_get {A} (s : Solar) (f : Lunar -> A) : res A := let! l := getLunar demo s in Ok (f l).
Example C55_case :
  demo_get (mkSolar 2024 2 4 16 26 52) (fun l => (py_dict (l_jieQi l) (utf8 "立春"), l_year l,
    (Lunar_getYearInGanZhi l, Lunar_getYearInGanZhiByLiChun l, Lunar_getYearInGanZhiExact l, Lunar_getMonthInGanZhiExact l))) =
  Ok (Ok (mkSolar 2024 2 4 16 26 53), 2023, (Ok (utf8 "癸卯"), Ok (utf8 "甲辰"), Ok (utf8 "癸卯"), Ok (utf8 "乙丑"))) /\
  demo_get (mkSolar 2024 2 4 16 26 53) (fun l => (Lunar_getYearInGanZhiExact l, Lunar_getMonthInGanZhiExact l)) =
  Ok (Ok (utf8 "甲辰"), Ok (utf8 "丙寅")).
Proof. vm_compute. split; reflexivity. Qed.
Example C56_case :
  demo_get (mkSolar 2024 2 4 16 26 53) (fun l => (good_termsb 2024 (l_jieQi l), valid_solarb (l_solar l), sy (l_solar l))) = Ok (true, true, 2024).
Proof. vm_compute. reflexivity. Qed.
Example C53_case :
  demo_get (mkSolar 2024 2 29 23 0 0) (fun l => (Lunar_getDayInGanZhi l, Lunar_getDayInGanZhiExact l, Lunar_getTimeInGanZhi l, Lunar_getXiu l)) =
  Ok (Ok (utf8 "癸亥"), Ok (utf8 "甲子"), Ok (utf8 "甲子"), Ok (utf8 "井")) /\
  days_later 8825 (2000, 1, 1) (2024, 2, 29).
Proof. split; [vm_compute; reflexivity|]. apply days_later_dayno; [unfold valid_date; cbn; lia..|]. vm_compute. reflexivity. Qed.
