(** C62: the nine stars.  A NineStar is its index 0..8 (一白 to 九紫). *)
From Coq Require Import ZArith Lia Bool ZifyBool List String Floats.
From Verif Require Import Py PyFloat FloatFacts PyStr CalSpec DayNo Solar SolarUnits SolarProofs JulianDay P_JD UnitsProofs LunarUtil T_LunarUtil T_Misc P_Solar P_Almanac P_Tables
  LunarYear Lunar LunarTime LunarProofs TermProofs P_Pillars YearProofs CalProofs P_Accessors Demo P_NewYear.
Import ListNotations.
Open Scope Z_scope.

(** ** The year star *)
Lemma star_offset N q r : N = 60 * q + r -> (let o := (62 + q mod 3 * 3 - (r + 1)) mod 9 in (if 0 =? o then 9 else o) - 1) = (60 - N) mod 9.
Proof. intros ->. cbv zeta. destruct (Z.eqb_spec 0 ((62 + q mod 3 * 3 - (r + 1)) mod 9)); Z.div_mod_to_equations; lia. Qed.
Lemma index_pair n : getJiaZiIndex (pair60 n) = n mod 60.
Proof. exact (C37_index n). Qed.
Lemma yearNineStar_spec l Y : Lunar_getYearInGanZhi l = Ok (pair60 (l_year l - 4)) -> -1 <= Y - l_year l <= 1 -> -2696 <= Y <= 1000000 ->
  yearNineStar l (pair60 (Y - 4)) = Ok ((1 - Y) mod 9).
Proof.
  intros E B R. unfold yearNineStar. rewrite E. cbn [bind]. rewrite !index_pair.
  set (o := (Y - 4) mod 60 + 1 - ((l_year l - 4) mod 60 + 1)).
  assert (Eo : (if 1 <? o then o - 60 else if o <? -1 then o + 60 else o) = Y - l_year l).
  { unfold o. destruct (Z.ltb_spec 1 ((Y - 4) mod 60 + 1 - ((l_year l - 4) mod 60 + 1))), (Z.ltb_spec ((Y - 4) mod 60 + 1 - ((l_year l - 4) mod 60 + 1)) (-1)); Z.div_mod_to_equations; lia. }
  cbv zeta. rewrite Eo. replace (l_year l + (Y - l_year l) + 2696) with (Y + 2696) by lia.
  rewrite int_truediv_spec by lia. rewrite Z.quot_div_nonneg by lia. cbn [bind]. f_equal.
  rewrite (star_offset (Y + 2696)).
  - Z.div_mod_to_equations; lia.
  - Z.div_mod_to_equations; lia.
Qed.
(** The year that [sect] takes: 1 the lunar year, 3 the year from the instant of 立春, otherwise the year from the day of 立春. *)
Definition year_pillar (l : Lunar) (sect : Z) : res str :=
  if sect =? 1 then Lunar_getYearInGanZhi l else if sect =? 3 then Lunar_getYearInGanZhiExact l else Lunar_getYearInGanZhiByLiChun l.
Lemma new_years fy y m d h mi s l : Lunar_new fy y m d h mi s = Ok l ->
  Lunar_getYearInGanZhi l = Ok (pair60 (l_year l - 4)) /\
  (exists Y, -1 <= Y - l_year l <= 1 /\ Lunar_getYearInGanZhiByLiChun l = Ok (pair60 (Y - 4))) /\
  (exists Y, -1 <= Y - l_year l <= 1 /\ Lunar_getYearInGanZhiExact l = Ok (pair60 (Y - 4))).
Proof.
  intros H. destruct (Lunar_new_inv _ _ _ _ _ _ _ _ H) as (t & mo & noon & t2 & _ & _ & _ & _ & _ & _ & _ & CP).
  destruct CP as [(Ey & _ & _) _ _ _ CY _ _ _ _ _]. rewrite <- Ey in CY. unfold computeYear in CY.
  apply bind_ok in CY. destruct CY as (lc & _ & CY). apply bind_ok in CY. destruct CY as (lc' & _ & CY). cbv zeta in CY.
  match type of CY with context [(l_year l - 4) mod 10 + ?d] => set (a := d) in CY end.
  assert (Ba : -1 <= a <= 1) by (unfold a; repeat match goal with |- context [if ?c then _ else _] => destruct c end; lia). clearbody a.
  match type of CY with context [(l_year l - 4) mod 10 + (if ?c then ?p else ?q)] => set (b := if c then p else q) in CY end.
  assert (Bb : -1 <= b <= 1) by (unfold b; repeat match goal with |- context [if ?c then _ else _] => destruct c end; lia). clearbody b.
  rewrite !wrap_mod in CY by lia.
  apply Ok_inj in CY. apply pair_equal_spec in CY. destruct CY as [CY E6]. apply pair_equal_spec in CY. destruct CY as [CY E5].
  apply pair_equal_spec in CY. destruct CY as [CY E4]. apply pair_equal_spec in CY. destruct CY as [CY E3]. apply pair_equal_spec in CY. destruct CY as [E1 E2].
  split; [apply pillar; symmetry; assumption|]. split.
  - exists (l_year l + a). split; [lia|]. apply pillar; [rewrite <- E3|rewrite <- E4]; f_equal; lia.
  - exists (l_year l + b). split; [lia|]. apply pillar; [rewrite <- E5|rewrite <- E6]; f_equal; lia.
Qed.
(** The star is that of the year whose pillar the same [sect] gives; it is one less (modulo nine) each year. *)
Theorem C62_year_star : forall fromYear y m d h mi s l sect, Lunar_new fromYear y m d h mi s = Ok l -> -2695 <= y < 1000000 ->
  exists Y, -1 <= Y - y <= 1 /\ (sect = 1 -> Y = y) /\ year_pillar l sect = Ok (pair60 (Y - 4)) /\
    Lunar_getYearNineStar l sect = Ok ((1 - Y) mod 9).
Proof.
  intros fy y m d h mi s l sect H B.
  assert (Ey : l_year l = y).
  { destruct (Lunar_new_inv _ _ _ _ _ _ _ _ H) as (t & mo & noon & t2 & _ & _ & _ & _ & _ & _ & _ & CP). apply (cp_ymd _ _ _ _ _ _ _ _ _ CP). }
  destruct (new_years _ _ _ _ _ _ _ _ H) as (P1 & (Y2 & B2 & P2) & (Y3 & B3 & P3)). rewrite Ey in *.
  unfold year_pillar, Lunar_getYearNineStar. rewrite (Z.eqb_sym 1), (Z.eqb_sym 3).
  destruct (Z.eqb_spec sect 1) as [->|N1].
  - exists y. rewrite P1. cbn [bind]. repeat split; try lia. apply yearNineStar_spec; rewrite ?Ey; (exact P1 || lia).
  - destruct (Z.eqb_spec sect 3) as [->|N3].
    + exists Y3. rewrite P3. cbn [bind]. repeat split; try lia. apply yearNineStar_spec; rewrite ?Ey; (exact P1 || lia).
    + exists Y2. rewrite P2. cbn [bind]. repeat split; try lia. apply yearNineStar_spec; rewrite ?Ey; (exact P1 || lia).
Qed.
(** By 立春, in the terms of C55. *)
Theorem C62_year_star_lichun : forall fromYear y m d h mi s l lc,
  Lunar_new fromYear y m d h mi s = Ok l -> valid_solar (l_solar l) -> 0 <= sy (l_solar l) <= 9999 ->
  py_dict (l_jieQi l) (utf8 "立春") = Ok lc -> valid_solar lc -> sy lc = sy (l_solar l) ->
  let Y := sy (l_solar l) in
  l_year l = Y \/ l_year l = Y - 1 ->
  Lunar_getYearNineStar l 2 = Ok ((1 - (if dayno (sdate (l_solar l)) <? dayno (sdate lc) then Y - 1 else Y)) mod 9) /\
  Lunar_getYearNineStar l 3 = Ok ((1 - (if instant (l_solar l) <? instant lc then Y - 1 else Y)) mod 9).
Proof.
  intros fy y m d h mi s l lc H V R L VL E Y C.
  destruct (C55_year_pillar _ _ _ _ _ _ _ _ _ H V R L VL E C) as (P1 & A & B & A' & B'). fold Y in A, B, A', B', R.
  unfold Lunar_getYearNineStar. change (1 =? 2) with false. change (3 =? 2) with false. change (1 =? 3) with false. change (3 =? 3) with true. cbv iota.
  split.
  - destruct (Z.ltb_spec (dayno (sdate (l_solar l))) (dayno (sdate lc))) as [X|X]; [rewrite (A X)|rewrite (B X)]; cbn [bind]; apply yearNineStar_spec; (exact P1 || lia).
  - destruct (Z.ltb_spec (instant (l_solar l)) (instant lc)) as [X|X]; [rewrite (A' X)|rewrite (B' X)]; cbn [bind]; apply yearNineStar_spec; (exact P1 || lia).
Qed.
Theorem C62_lunar_year : forall sky y t, LunarYear_new sky y = Ok t -> -2696 <= y <= 1000000 -> LunarYear_getNineStar t = Ok ((1 - y) mod 9).
Proof.
  intros sky y t H B. destruct (LunarYear_new_inv _ _ _ H) as (jq & terms & hs & leap & _ & _ & _ & _ & _ & Ey & G & Z & _).
  unfold LunarYear_getNineStar. assert (P : LunarYear_getGanZhi t = Ok (pair60 (y - 4))).
  { change (LunarYear_getGanZhi t) with (cat2 (LunarYear_getGan t) (LunarYear_getZhi t)). unfold LunarYear_getGan, LunarYear_getZhi. now apply pillar. }
  rewrite P. cbn [bind]. rewrite index_pair, Ey. rewrite int_truediv_spec by lia. rewrite Z.quot_div_nonneg by lia. cbn [bind]. f_equal.
  cbv zeta. rewrite (star_offset (y + 2696)); Z.div_mod_to_equations; lia.
Qed.
Theorem C62_next_year : forall sky y t t' a b, LunarYear_new sky y = Ok t -> LunarYear_new sky (y + 1) = Ok t' -> -2696 <= y < 1000000 ->
  LunarYear_getNineStar t = Ok a -> LunarYear_getNineStar t' = Ok b -> 0 <= a < 9 /\ b = (a - 1) mod 9.
Proof.
  intros sky y t t' a b H H' B. rewrite (C62_lunar_year _ _ _ H), (C62_lunar_year _ _ _ H') by lia. intros E E'.
  apply Ok_inj in E, E'. subst a b. Z.div_mod_to_equations; lia.
Qed.

Lemma pil_inv g z n : pil g z -> cat2 (py_index LunarUtil_GAN (g + 1)) (py_index LunarUtil_ZHI (z + 1)) = Ok (pair60 n) -> g = n mod 10 /\ z = n mod 12.
Proof.
  intros (k & B & -> & ->) E. rewrite (pillar _ _ k eq_refl eq_refl) in E. apply Ok_inj in E. apply C53_cycle_is_sixty in E. clear B. split; Z.div_mod_to_equations; lia.
Qed.

(** ** The month star: one less each month *)
Lemma monthNineStar_spec yz j Y : 0 <= j < 14 -> yz = (Y - 4 - (if j <? 2 then 1 else 0)) mod 12 \/ 12 <= j /\ yz = (Y - 4) mod 12 ->
  monthNineStar yz (j mod 12) = (- (12 * (Y - 4) + j)) mod 9.
Proof.
  intros Hj E. unfold monthNineStar. change LunarUtil_BASE_MONTH_ZHI_INDEX with 2. cbv zeta.
  assert (C : j < 2 \/ 2 <= j < 12 \/ 12 <= j) by lia. destruct C as [C|[C|C]].
  - replace (j <? 2) with true in E by lia. rewrite (Z.mod_small j) by lia. replace (j <? 2) with true by lia. destruct E as [->|[? _]]; [|lia]. Z.div_mod_to_equations; lia.
  - replace (j <? 2) with false in E by lia. rewrite (Z.mod_small j) by lia. replace (j <? 2) with false by lia. destruct E as [->|[? _]]; [|lia]. Z.div_mod_to_equations; lia.
  - replace (j <? 2) with false in E by lia. replace (j mod 12) with (j - 12) by (Z.div_mod_to_equations; lia). replace (j - 12 <? 2) with true by lia.
    destruct E as [->|[_ ->]]; Z.div_mod_to_equations; lia.
Qed.

(** Counting the months from 节 to 节 as in C56 (number 12 (Y - 4) + j for the j-th of the year Y), the star is minus that
    number modulo nine, by the day (sect 2) and by the instant (sect 3). *)
Theorem C62_month_star : forall fromYear y m d h mi s l j,
  Lunar_new fromYear y m d h mi s = Ok l -> valid_solar (l_solar l) -> good_terms (sy (l_solar l)) (l_jieQi l) ->
  let Y := sy (l_solar l) in
  l_year l = Y \/ l_year l = Y - 1 -> 0 <= j < 14 ->
  (dayno (sdate (term_at (l_jieQi l) (2 * j))) <= dayno (sdate (l_solar l)) < dayno (sdate (term_at (l_jieQi l) (2 * j + 2))) ->
   Lunar_getMonthNineStar l 2 = (- (12 * (Y - 4) + j)) mod 9) /\
  (instant (term_at (l_jieQi l) (2 * j)) <= instant (l_solar l) < instant (term_at (l_jieQi l) (2 * j + 2)) ->
   Lunar_getMonthNineStar l 3 = (- (12 * (Y - 4) + j)) mod 9).
Proof.
  intros fy y m d h mi s l j H V G Y C Hj.
  pose proof (Lunar_new_named _ _ _ _ _ _ _ _ H) as N.
  pose proof (gt_years _ _ G 4 ltac:(lia)) as R. rewrite (gt_lichun _ _ G) in R. fold Y in R.
  destruct (C56_month_pillar _ _ _ _ _ _ _ _ j H V G C Hj) as [P3 P2]. fold Y in P2, P3.
  pose proof (dict_at _ 4 N ltac:(lia)) as D. change (term_key 4) with (utf8 "立春") in D.
  destruct (C55_year_pillar _ _ _ _ _ _ _ _ _ H V R D (gt_valid _ _ G 4 ltac:(lia)) (gt_lichun _ _ G) C) as (_ & A & B & A' & B'). fold Y in A, B, A', B'.
  pose proof (new_indices _ _ _ _ _ _ _ _ H) as I.
  split; intros X.
  - apply P2 in X as Q. apply (pil_inv _ _ _ (ix_month _ I)) in Q. destruct Q as [_ Q]. unfold Lunar_getMonthNineStar. change (1 =? 2) with false. change (3 =? 2) with false. cbv iota.
    replace (l_monthZhi l) with (j mod 12) by (rewrite Q; clear; Z.div_mod_to_equations; lia). apply monthNineStar_spec; [exact Hj|].
    assert (O : (j <? 2) = (dayno (sdate (l_solar l)) <? dayno (sdate (term_at (l_jieQi l) 4)))).
    { destruct (Z.ltb_spec j 2).
      - pose proof (good_clock_le _ _ true (2 * j + 2) 4 G ltac:(lia) ltac:(lia)) as K. cbn [clock] in K. lia.
      - pose proof (good_clock_le _ _ true 4 (2 * j) G ltac:(lia) ltac:(lia)) as K. cbn [clock] in K. lia. }
    left. rewrite O. destruct (Z.ltb_spec (dayno (sdate (l_solar l))) (dayno (sdate (term_at (l_jieQi l) 4)))) as [K|K].
    + apply A in K. apply (pil_inv _ _ _ (ix_yearL _ I)) in K. destruct K as [_ ->]. f_equal. lia.
    + apply B in K. apply (pil_inv _ _ _ (ix_yearL _ I)) in K. destruct K as [_ ->]. f_equal. lia.
  - apply P3 in X as Q. apply (pil_inv _ _ _ (ix_monthE _ I)) in Q. destruct Q as [_ Q]. unfold Lunar_getMonthNineStar. change (1 =? 3) with false. change (3 =? 3) with true. cbv iota.
    replace (l_monthZhiExact l) with (j mod 12) by (rewrite Q; clear; Z.div_mod_to_equations; lia). apply monthNineStar_spec; [exact Hj|].
    assert (O : (j <? 2) = (instant (l_solar l) <? instant (term_at (l_jieQi l) 4))).
    { destruct (Z.ltb_spec j 2).
      - pose proof (good_clock_le _ _ false (2 * j + 2) 4 G ltac:(lia) ltac:(lia)) as K. cbn [clock] in K. lia.
      - pose proof (good_clock_le _ _ false 4 (2 * j) G ltac:(lia) ltac:(lia)) as K. cbn [clock] in K. lia. }
    left. rewrite O. destruct (Z.ltb_spec (instant (l_solar l)) (instant (term_at (l_jieQi l) 4))) as [K|K].
    + apply A' in K. apply (pil_inv _ _ _ (ix_yearE _ I)) in K. destruct K as [_ ->]. f_equal. lia.
    + apply B' in K. apply (pil_inv _ _ _ (ix_yearE _ I)) in K. destruct K as [_ ->]. f_equal. lia.
Qed.
(** The lunar months of a LunarMonth, leap months sharing the number of the month before. *)
Theorem C62_lunar_month : forall sky m t, LunarYear_new sky (my m) = Ok t -> 1 <= Z.abs (mm m) <= 12 ->
  LunarMonth_getNineStar (LunarYear_new sky) m = Ok ((- (12 * (my m - 4) + 1 + Z.abs (mm m))) mod 9).
Proof.
  intros sky m t H B. unfold LunarMonth_getNineStar. rewrite H. cbn [bind].
  destruct (LunarYear_new_inv _ _ _ H) as (jq & terms & hs & leap & _ & _ & _ & _ & _ & _ & _ & -> & _). f_equal. cbv zeta.
  set (k := Z.abs (mm m)) in *. clearbody k. replace ((13 + k) mod 12) with ((k + 1) mod 12) by (Z.div_mod_to_equations; lia).
  rewrite (monthNineStar_spec _ (k + 1) (my m)) by (lia || (left; replace (k + 1 <? 2) with false by lia; f_equal; lia)). f_equal. lia.
Qed.
(** Any month star is one of nine. *)
Theorem C62_month_range : forall l sect, 0 <= Lunar_getMonthNineStar l sect < 9.
Proof. intros l sect. unfold Lunar_getMonthNineStar, monthNineStar. cbv zeta. repeat match goal with |- context [if ?c then _ else _] => destruct c end; apply Z.mod_pos_bound; lia. Qed.

(** ** The day star *)
(** The day number of a 甲子 day (C53), and the one nearest to the day [z]: exactly one lies in these sixty days. *)
Definition jiazi (J : Z) : Prop := pair60 (54 + (J - 2451545)) = pair60 0.
Definition near (z J : Z) : Prop := jiazi J /\ -29 <= J - z <= 30.
Lemma near_unique z J K : near z J -> near z K -> J = K.
Proof. intros [A B] [C D]. unfold jiazi in *. apply C53_cycle_is_sixty in A, C. Z.div_mod_to_equations; lia. Qed.
Lemma getLunar_new fy s l : getLunar fy s = Ok l -> exists y m d, Lunar_new fy y m d (sh s) (smi s) (ss s) = Ok l.
Proof.
  intros H. unfold getLunar in H. apply bind_ok in H. destruct H as (t & _ & H). apply bind_ok in H. destruct H as ([[y m] d] & _ & H).
  exists y, m, d. exact H.
Qed.
Lemma near_jiazi_spec fy lo hi z : Calendar fy lo hi -> valid_solar z -> lo < sy z < hi ->
  exists J, near_jiazi fy z = Ok J /\ valid_solar J /\ near (dayno (sdate z)) (dayno (sdate J)).
Proof.
  intros C V B. destruct (getLunar_spec C z V B) as (l & t & a & El & _ & _ & _ & _ & _ & _ & _ & _ & _ & Es).
  destruct (getLunar_new _ _ _ El) as (y & m & d & H). unfold near_jiazi. rewrite El. cbn [bind].
  pose proof (cal_range _ _ _ C) as R.
  set (n := dayno (sdate z) - 2451545).
  destruct (C53_day_pillar _ _ _ _ _ _ _ _ n H) as [P _]; [rewrite Es; exact V|rewrite Es; unfold jd_year; lia| |].
  { rewrite Es. apply days_later_dayno; [exact valid_2000|apply V|]. rewrite dayno_2000. unfold n. lia. }
  rewrite P. cbn [bind]. rewrite index_pair.
  set (i := (54 + n) mod 60). assert (Bi : 0 <= i < 60) by (apply Z.mod_pos_bound; lia).
  assert (K : forall k, (54 + n + k) mod 60 = 0 -> -29 <= k <= 30 -> exists J, next z k = Ok J /\ valid_solar J /\ near (dayno (sdate z)) (dayno (sdate J))).
  { intros k E Bk. destruct (nextDay_spec z k V) as (J & EJ & VJ & _ & DJ). exists J. split; [exact EJ|]. split; [exact VJ|]. rewrite DJ. split; [|lia].
    unfold jiazi. apply C53_cycle_is_sixty. transitivity ((54 + n + k) mod 60); [f_equal; unfold n; lia|rewrite E; reflexivity]. }
  destruct (Z.ltb_spec 29 i); apply K; (lia || (unfold i; clear; generalize (54 + n); intros k; Z.div_mod_to_equations; lia)).
Qed.
Lemma sy_le a b : valid_solar a -> valid_solar b -> dayno (sdate a) < dayno (sdate b) + 350 -> sy a <= sy b + 1.
Proof.
  intros [Va _] [Vb _] D. destruct (Z.le_gt_cases (sy a) (sy b + 1)) as [L|L]; [exact L|exfalso].
  unfold sdate in *. pose proof (dayno_year _ _ _ Va). pose proof (dayno_year _ _ _ Vb).
  pose proof (ybase_mono (sy b + 1) (sy a) ltac:(lia)). lia.
Qed.
Theorem C62_day_star : forall fy lo hi y m d h mi s l, Calendar fy lo hi -> Lunar_new fy y m d h mi s = Ok l ->
  valid_solar (l_solar l) -> good_terms (sy (l_solar l)) (l_jieQi l) ->
  lo < sy (term_at (l_jieQi l) 1) -> sy (term_at (l_jieQi l) 25) < hi ->
  1 <= sy (term_at (l_jieQi l) 1) -> sy (term_at (l_jieQi l) 25) <= 9998 ->
  let t := dayno (sdate (l_solar l)) in
  exists a b c, near (dayno (sdate (term_at (l_jieQi l) 1))) a /\ near (dayno (sdate (term_at (l_jieQi l) 13))) b /\
    near (dayno (sdate (term_at (l_jieQi l) 25))) c /\
    Lunar_getDayNineStar fy l = Ok (if (a <=? t) && (t <? b) then (t - a) mod 9
      else if (b <=? t) && (t <? c) then 8 - (t - b) mod 9
      else if c <=? t then (t - c) mod 9 else (8 + (a - t)) mod 9).
Proof.
  intros fy lo hi y m d h mi s l C H V G L1 L2 Y1 Y2 t. pose proof (Lunar_new_named _ _ _ _ _ _ _ _ H) as N.
  pose proof (gt_sorted _ _ G 1 13 ltac:(lia) ltac:(lia)) as S1. pose proof (gt_sorted _ _ G 13 25 ltac:(lia) ltac:(lia)) as S2.
  pose proof (gt_valid _ _ G 1 ltac:(lia)) as V1. pose proof (gt_valid _ _ G 13 ltac:(lia)) as V2. pose proof (gt_valid _ _ G 25 ltac:(lia)) as V3.
  pose proof (gt_years _ _ G 4 ltac:(lia)) as R. rewrite (gt_lichun _ _ G) in R.
  assert (M : forall i j, 0 <= i < j -> j < 31 -> sy (term_at (l_jieQi l) i) <= sy (term_at (l_jieQi l) j)).
  { intros i j Hij Hj. destruct (Z.le_gt_cases (sy (term_at (l_jieQi l) i)) (sy (term_at (l_jieQi l) j))) as [Q|Q]; [exact Q|exfalso].
    pose proof (gt_sorted _ _ G i j Hij Hj). pose proof (year_lt_dayno (term_at (l_jieQi l) j) (term_at (l_jieQi l) i) (gt_valid _ _ G j ltac:(lia)) (gt_valid _ _ G i ltac:(lia)) Q). lia. }
  pose proof (M 1 13 ltac:(lia) ltac:(lia)) as M1. pose proof (M 13 25 ltac:(lia) ltac:(lia)) as M2. clear M.
  destruct (near_jiazi_spec fy lo hi _ C V1 ltac:(lia)) as (ja & Ea & Va & Na).
  destruct (near_jiazi_spec fy lo hi _ C V2 ltac:(lia)) as (jb & Eb & Vb & Nb).
  destruct (near_jiazi_spec fy lo hi _ C V3 ltac:(lia)) as (jc & Ec & Vc & Nc).
  exists (dayno (sdate ja)), (dayno (sdate jb)), (dayno (sdate jc)). split; [exact Na|]. split; [exact Nb|]. split; [exact Nc|].
  assert (F : forall z j, valid_solar z -> valid_solar j -> 1 <= sy z <= 9998 -> near (dayno (sdate z)) (dayno (sdate j)) -> fmt_ok j).
  { intros z j Vz Vj Bz [_ Nz]. split; [exact Vj|]. pose proof (sy_le j z Vj Vz ltac:(lia)). pose proof (sy_le z j Vz Vj ltac:(lia)). lia. }
  assert (Fa : fmt_ok ja) by (apply (F _ _ V1 Va ltac:(lia) Na)). assert (Fb : fmt_ok jb) by (apply (F _ _ V2 Vb ltac:(lia) Nb)).
  assert (Fc : fmt_ok jc) by (apply (F _ _ V3 Vc ltac:(lia) Nc)). assert (Fs : fmt_ok (l_solar l)) by (split; [exact V|exact R]).
  unfold Lunar_getDayNineStar.
  pose proof (dict_at _ 1 N ltac:(lia)) as D1. change (term_key 1) with (utf8 "冬至") in D1.
  pose proof (dict_at _ 13 N ltac:(lia)) as D2. change (term_key 13) with (utf8 "夏至") in D2.
  pose proof (dict_at _ 25 N ltac:(lia)) as D3. change (term_key 25) with (utf8 "DONG_ZHI") in D3.
  rewrite D1, D2, D3. cbn [bind]. rewrite Ea, Eb, Ec. cbn [bind].
  pose proof (fmt_leb true _ _ Fa Fs) as X1. pose proof (fmt_ltb true _ _ Fs Fb) as X2. pose proof (fmt_leb true _ _ Fb Fs) as X3.
  pose proof (fmt_ltb true _ _ Fs Fc) as X4. pose proof (fmt_leb true _ _ Fc Fs) as X5. pose proof (fmt_ltb true _ _ Fs Fa) as X6.
  cbn [fmt_of clock] in X1, X2, X3, X4, X5, X6. rewrite X1, X2, X3, X4, X5, X6. rewrite !subtract_spec by assumption. cbn [bind]. fold t.
  destruct ((dayno (sdate ja) <=? t) && (t <? dayno (sdate jb))) eqn:B1; [reflexivity|].
  destruct ((dayno (sdate jb) <=? t) && (t <? dayno (sdate jc))) eqn:B2; [reflexivity|].
  destruct (dayno (sdate jc) <=? t) eqn:B3; [reflexivity|].
  replace (t <? dayno (sdate ja)) with true by lia. reflexivity.
Qed.
Theorem C62_day_range : forall fy l n, Lunar_getDayNineStar fy l = Ok n -> 0 <= n < 9.
Proof.
  intros fy l n H. unfold Lunar_getDayNineStar in H. do 6 (apply bind_ok in H; destruct H as (? & _ & H)).
  repeat match type of H with context [if ?c then _ else _] => destruct c end;
    try (apply bind_ok in H; destruct H as (k & _ & H)); apply Ok_inj in H; subst n; try pose proof (Z.mod_pos_bound k 9 ltac:(lia)); try apply Z.mod_pos_bound; lia.
Qed.

(** ** The hour star *)
Theorem C62_hour_star : forall fromYear y m d h mi s l, Lunar_new fromYear y m d h mi s = Ok l ->
  valid_solar (l_solar l) -> good_terms (sy (l_solar l)) (l_jieQi l) ->
  let t := dayno (sdate (l_solar l)) in
  let rising := (dayno (sdate (term_at (l_jieQi l) 1)) <= t < dayno (sdate (term_at (l_jieQi l) 13))) \/ dayno (sdate (term_at (l_jieQi l) 25)) <= t in
  (rising -> Lunar_getTimeNineStar l = Ok ((3 * l_dayZhi l + l_timeZhi l) mod 9)) /\
  (~ rising -> Lunar_getTimeNineStar l = Ok ((8 - (3 * l_dayZhi l + l_timeZhi l)) mod 9)).
Proof.
  intros fy y m d h mi s l H V G t rising. pose proof (Lunar_new_named _ _ _ _ _ _ _ _ H) as N.
  pose proof (gt_years _ _ G 4 ltac:(lia)) as R. rewrite (gt_lichun _ _ G) in R. assert (Fs : fmt_ok (l_solar l)) by (split; [exact V|exact R]).
  pose proof (new_indices _ _ _ _ _ _ _ _ H) as I. pose proof (pil_zhi _ _ (ix_day _ I)) as Bz. pose proof (pil_zhi _ _ (ix_time _ I)) as Bt.
  pose proof (dict_at _ 1 N ltac:(lia)) as D1. change (term_key 1) with (utf8 "冬至") in D1.
  pose proof (dict_at _ 13 N ltac:(lia)) as D2. change (term_key 13) with (utf8 "夏至") in D2.
  pose proof (dict_at _ 25 N ltac:(lia)) as D3. change (term_key 25) with (utf8 "DONG_ZHI") in D3.
  pose proof (good_fmt _ _ 1 G ltac:(lia)) as F1. pose proof (good_fmt _ _ 13 G ltac:(lia)) as F2. pose proof (good_fmt _ _ 25 G ltac:(lia)) as F3.
  unfold Lunar_getTimeNineStar. rewrite D1, D2, D3. cbn [bind].
  pose proof (fmt_leb true _ _ F1 Fs) as X1. pose proof (fmt_ltb true _ _ Fs F2) as X2. pose proof (fmt_leb true _ _ F3 Fs) as X3.
  cbn [fmt_of clock] in X1, X2, X3. rewrite X1, X2, X3. fold t.
  unfold Lunar_getDayZhi. rewrite (ZHI_ok _ Bz). cbn [bind]. set (z := l_dayZhi l) in *. set (tz := l_timeZhi l) in *.
  assert (T : forallb (fun z => (if py_in (branch z) (utf8 "子午卯酉") then 0 else if py_in (branch z) (utf8 "辰戌丑未") then 1 else 2) =? z mod 3) (zrange 0 12) = true) by (vm_compute; reflexivity).
  pose proof (forallb_zrange _ _ _ T z Bz) as K. cbv beta in K. clear T. apply Z.eqb_eq in K.
  set (u := py_in (branch z) (utf8 "子午卯酉")) in *. set (v := py_in (branch z) (utf8 "辰戌丑未")) in *. clearbody u v.
  split; intros B.
  - replace ((dayno (sdate (term_at (l_jieQi l) 1)) <=? t) && (t <? dayno (sdate (term_at (l_jieQi l) 13))) || (dayno (sdate (term_at (l_jieQi l) 25)) <=? t)) with true by (unfold rising in B; lia).
    f_equal. clearbody z tz. clear - K. destruct u, v; Z.div_mod_to_equations; lia.
  - replace ((dayno (sdate (term_at (l_jieQi l) 1)) <=? t) && (t <? dayno (sdate (term_at (l_jieQi l) 13))) || (dayno (sdate (term_at (l_jieQi l) 25)) <=? t)) with false by (unfold rising in B; lia).
    f_equal. clearbody z tz. clear - K. destruct u, v; Z.div_mod_to_equations; lia.
Qed.
Theorem C62_hour_range : forall l n, Lunar_getTimeNineStar l = Ok n -> 0 <= n < 9.
Proof.
  intros l n H. unfold Lunar_getTimeNineStar in H. do 4 (apply bind_ok in H; destruct H as (? & _ & H)). cbv zeta in H. apply Ok_inj in H. subst n. apply Z.mod_pos_bound. lia.
Qed.
(** LunarTime.getNineStar compares a Solar with a string: it raises TypeError for every time that can be made. *)
Theorem C62_refuted : forall fromYear y m d h mi s t, LunarTime_new fromYear y m d h mi s = Ok t -> LunarTime_getNineStar t = Raise ExcType.
Proof.
  intros fy y m d h mi s t H. unfold LunarTime_new in H. apply bind_ok in H. destruct H as (l & El & H). apply Ok_inj in H. subst t.
  unfold LunarTime_getNineStar. cbn [t_lunar]. pose proof (dict_at _ 1 (Lunar_new_named _ _ _ _ _ _ _ _ El) ltac:(lia)) as D1. change (term_key 1) with (utf8 "冬至") in D1.
  rewrite D1. reflexivity.
Qed.

Example C62_case : (let! l := getLunar demo (mkSolar 2024 2 29 13 0 0) in
  Ok (Lunar_getYearNineStar l 2, Lunar_getMonthNineStar l 2, Lunar_getTimeNineStar l)) = Ok (Ok 2, 4, Ok 4) /\ Calendar mean 2023 2032 /\
  (let! l := getLunar mean (mkSolar 2026 5 29 13 0 0) in let t := term_at (l_jieQi l) in
   Ok (Lunar_getDayNineStar mean l, good_termsb 2026 (l_jieQi l), map (fun i => (sdate (t i), dayno (sdate (t i)))) [1; 13; 25], dayno (2026, 5, 29))) =
  Ok (Ok 6, true, [((2025, 12, 21), 2461031); ((2026, 6, 22), 2461214); ((2026, 12, 22), 2461397)], 2461190) /\ near 2461031 2461031.
Proof. split; [vm_compute; reflexivity|]. split; [exact mean_calendar|]. split; [vm_compute; reflexivity|]. split; [vm_compute; reflexivity|lia]. Qed.
