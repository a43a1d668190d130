(** C88: the terms and the leap months, from 1646 to 9998, for the tables which the code computes with any C library whose sin and
    cos meet [libm]. *)
From Coq Require Import ZArith Lia Bool ZifyBool List String Floats.
From Verif Require Import Py PyFloat PyStr ShouXing FloatExpr Trig SunLon SunTerm CertSky CertTerms CertZhong CertYears CertFast SunDate SunYear CalSpec DayNo Solar SolarProofs JulianDay
  LunarYear Lunar LunarProofs YearProofs CalProofs CalCheck TermProofs P_LunarYears P_YearTable P_SunTerms P_Terms P_BaZi RealYears P_Real.
Import ListNotations.
Open Scope Z_scope.

(** the days of leap months with a 中气 *)
Definition leap_terms : list (Z * Z * Z * str) := [(1651, -2, 1, utf8 "春分"); (1661, -7, 29, utf8 "秋分"); (1727, -3, 1, utf8 "谷雨")].

Section LIB.
Context (fsin fcos : float -> float) (lib : libm fsin fcos).
Notation R := (real fsin fcos).

Lemma unique_month y t a b n : wf_table y t -> In a (lmonths t) -> In b (lmonths t) -> mfirst a <= n < mend a -> mfirst b <= n < mend b -> a = b.
Proof.
  intros W Ia Ib Ha Hb. destruct (in_nthm _ _ Ia) as (i & Hi & <-). destruct (in_nthm _ _ Ib) as (j & Hj & <-). rewrite (wf_length _ _ W) in Hi, Hj.
  destruct (Z.lt_trichotomy i j) as [L|[->|L]]; [pose proof (wf_before W i j ltac:(lia) ltac:(lia)); lia|reflexivity|pose proof (wf_before W j i ltac:(lia) ltac:(lia)); lia].
Qed.
(** The table of the year of a date [s]: its months are checked against the terms of the date. *)
Lemma zhong_table s l : valid_solar s -> 1646 <= sy s <= 9998 -> getLunar R s = Ok l -> exists t a,
  R (sy s) = Ok t /\ wf_table (sy s) t /\ In a (lmonths t) /\ mfirst a <= dayno (sdate s) < mend a /\ l_year l = my a /\ l_month l = mm a /\ l_day l = dayno (sdate s) - mfirst a + 1 /\
  zhong_ok (sy s) (lmonths t) = true /\
  forall j, 0 <= j < 31 -> exists T, SunTerm.is_term (fsin := fsin) (fcos := fcos) (24 * (sy s - 2000) + 17 + j) T /\ valid_solar (term_at (l_jieQi l) j) /\ of_instant (term_at (l_jieQi l) j) T.
Proof.
  intros V Hy E. destruct (getLunar_spec (real_Cal lib) s V ltac:(lia)) as (l' & t & a & E' & Et & Ia & Ha & A1 & A2 & A3 & _). rewrite E in E'. apply Ok_inj in E'. subst l'.
  exists t, a. split; [exact Et|]. split; [exact (cal_wf (real_Cal lib) (sy s) t ltac:(lia) Et)|]. split; [exact Ia|]. split; [exact Ha|]. split; [exact A1|]. split; [exact A2|]. split; [exact A3|]. split.
  - destruct (real_inv _ _ _ _ Et) as [_ ->]. apply (proj2 (months_placed fsin fcos lib)); lia.
  - destruct (lunar_new lib s l V ltac:(lia) E) as [Es H]. destruct (Lunar_new_inv _ _ _ _ _ _ _ _ H) as (t1 & mo & noon & t2 & E1 & _ & _ & _ & ES & _ & E2 & CP).
    apply cp_terms in CP. assert (Yn : sy noon = sy s) by (rewrite <- Es, ES; reflexivity).
    assert (E3 : R (sy s) = Ok t2) by (rewrite Yn in E2; destruct (Z.eqb_spec (sy s) (l_year l)); [subst t2; congruence|exact E2]).
    intros j Hj. pose proof (real_terms fsin fcos (sy s) t2 lib ltac:(lia) E3) as TA. destruct (Z_le_gt_dec (sy s) 4039) as [C|C].
    + destruct (dated_terms lib (sy s) (lterms t2) (l_jieQi l) ltac:(unfold dated; lia) TA CP j Hj) as (T & I & W & _ & B). exists T. auto.
    + destruct (mid_terms lib (sy s) (lterms t2) (l_jieQi l) ltac:(unfold mid; lia) TA CP j Hj) as (T & I & W & B & _). exists T. auto.
Qed.
Lemma found_term s l k : termed_date s -> getLunar R s = Ok l -> term_today k l = Ok [] \/
  exists i, 0 <= i < 31 /\ of_kind k i = true /\ sdate (term_at (l_jieQi l) i) = sdate s /\ term_today k l = Ok (term_name_at i).
Proof.
  intros T E. destruct (termed_ok fsin fcos lib s l T E) as (Es & V & G & y & m & d & H). destruct (today_find k l (Lunar_new_named _ _ _ _ _ _ _ _ H)) as [A _].
  destruct (find (fun i => same_day (term_at (l_jieQi l) i) (l_solar l)) (positions k)) as [i|] eqn:F; [|left; exact A]. right. exists i. apply find_some in F. destruct F as [I S].
  apply in_positions in I. apply same_day_eq in S. rewrite Es in S. tauto.
Qed.

(** No day of a leap month is the day of a 中气, but for the three days listed. *)
Theorem C88_leap_month : forall s l, valid_solar s -> 1646 <= sy s <= 9998 -> getLunar R s = Ok l -> l_month l < 0 ->
  exists q, Lunar_getQi l = Ok q /\ (q = [] \/ l_year l = sy s /\ In (l_year l, l_month l, l_day l, q) leap_terms).
Proof.
  intros s l V Hy E N. destruct (found_term s l Qi ltac:(split; [exact V|lia]) E) as [F|(i & Hi & K & D & F)]; cbn [term_today] in F; [exists []; auto|]. exists (term_name_at i). split; [exact F|].
  destruct (zhong_table s l V Hy E) as (t & a & Et & W & Ia & Ha & A1 & A2 & A3 & Z0 & Q). cbn [of_kind] in K. assert (H30 : i <> 30) by (intros ->; discriminate K). rewrite A2 in N.
  assert (Ha' : mfirst a <= dayno (sdate (term_at (l_jieQi l) i)) < mend a) by (rewrite D; exact Ha).
  destruct (z_leap lib (sy s) (lmonths t) (l_jieQi l) Z0 ltac:(lia) Q a i Ia N ltac:(lia) K Ha') as (d & X).
  destruct (z_exception lib (sy s) (lmonths t) (l_jieQi l) Z0 ltac:(lia) Q a i d Ia N ltac:(lia) K X) as [X1 X2]. rewrite D in X2. right. rewrite A1, A2, A3, X1, X2. split; [reflexivity|]. replace (mfirst a + d - 1 - mfirst a + 1) with d by lia.
  unfold exception in X. destruct (find _ exceptions) as [[[[y' j'] m'] d']|] eqn:FE; [|discriminate]. injection X as ->. apply find_some in FE. destruct FE as [FI FE].
  rewrite !andb_true_iff, !Z.eqb_eq in FE. destruct FE as [[<- <-] <-]. cbn [In exceptions] in FI. unfold leap_terms.
  destruct FI as [FI|[FI|[FI|[]]]]; injection FI as <- <- <- <-; vm_compute; tauto.
Qed.
Theorem C88_since_1728 : forall s l, valid_solar s -> 1728 <= sy s <= 9998 -> getLunar R s = Ok l -> l_month l < 0 -> Lunar_getQi l = Ok [].
Proof.
  intros s l V Hy E N. destruct (C88_leap_month s l V ltac:(lia) E N) as (q & F & [->|[Y I]]); [exact F|]. exfalso. rewrite Y in I.
  cbn [In leap_terms] in I. destruct I as [I|[I|[I|[]]]]; injection I; lia.
Qed.
(** On those three days there is one. *)
Theorem C88_refuted : forall y m d q, In (y, m, d, q) leap_terms -> exists l, Lunar_new R y m d 0 0 0 = Ok l /\ l_month l < 0 /\ Lunar_getQi l = Ok q.
Proof.
  assert (G : forall y j m d, In (y, j, m, d) exceptions -> exists l, Lunar_new R y m d 0 0 0 = Ok l /\ l_month l < 0 /\ Lunar_getQi l = Ok (term_name_at j)).
  { intros y j m d I.
    assert (X : exists a, In a (cert_months y) /\ my a = y /\ mm a = m /\ 1 <= d <= mcount a /\ jan1 y <= mfirst a /\ mfirst a + mcount a <= jan1 (y + 1)).
    { assert (B : forallb (fun '(y, j, m, d) => existsb (fun a => (my a =? y) && (mm a =? m) && (1 <=? d) && (d <=? mcount a) && (jan1 y <=? mfirst a) && (mfirst a + mcount a <=? jan1 (y + 1))) (cert_months y)) exceptions = true) by (vm_compute; reflexivity).
      rewrite forallb_forall in B. specialize (B _ I). cbv beta iota in B. apply existsb_exists in B. destruct B as (a & Ia & B). exists a. split; [exact Ia|]. lia. }
    destruct X as (a & Ia & Ya & Ma & Hd & J1 & J2).
    assert (B : 1646 <= y <= 2996 /\ 0 <= j < 30 /\ Z.odd j = true /\ m < 0 /\ exception y j m = Some d).
    { cbn [In exceptions] in I. destruct I as [I|[I|[I|[]]]]; injection I as <- <- <- <-; repeat split; try lia; reflexivity. }
    destruct B as (Hy & Hj & Oj & Hm & X). destruct (cal_ok _ _ _ (real_Cal lib) y ltac:(lia)) as (t & jq & Et & _). pose proof (cal_wf (real_Cal lib) y t ltac:(lia) Et) as W.
    assert (It : In a (lmonths t)) by (destruct (real_inv _ _ _ _ Et) as [_ ->]; rewrite (cert_months_ok _ _ _ lib) by (apply cert_nonempty; lia); exact Ia).
    destruct (month_range (real_Cal lib) y t a ltac:(lia) Et It) as [M0 M1]. pose proof (wf_bounds W a It) as WB. unfold mend in *. pose proof (jan1_mono 19 (y - 1) ltac:(lia)). pose proof (jan1_mono (y + 2) 10000 ltac:(lia)).
    destruct (new_spec (real_Cal lib) y t a d 0 0 0 ltac:(lia) Et It Ya Hd ltac:(unfold valid_time; lia) ltac:(change (9999 + 1) with 10000; lia)) as (l & El & V & D & L1 & L2 & L3 & _). rewrite Ma in El. exists l. split; [exact El|].
    split; [lia|]. destruct (new_lunar lib y m d 0 0 0 l ltac:(lia) El) as (V' & Hs & G).
    destruct (getLunar_spec (real_Cal lib) (l_solar l) V' Hs) as (l' & t' & b & E' & Et' & Ib & Hb & B1 & B2 & B3 & _). rewrite G in E'. apply Ok_inj in E'. subst l'.
    assert (SY : sy (l_solar l) = y).
    { destruct V' as [V' _]. unfold sdate in *. pose proof (year_ge y _ _ _ V' ltac:(lia)). pose proof (year_le y _ _ _ V' ltac:(lia)). lia. }
    assert (Hs' : 1646 <= sy (l_solar l) <= 9998) by lia. destruct (zhong_table (l_solar l) l V' Hs' G) as (t2 & a2 & E2 & W2 & I2 & Ha2 & A1 & A2 & A3 & Z0 & Q). rewrite SY in *.
    assert (t2 = t) by congruence. subst t2. assert (a2 = a) by (apply (unique_month y t a2 a (dayno (sdate (l_solar l))) W I2 It Ha2); unfold mend; lia). subst a2. rewrite A2 in L2.
    destruct (z_exception lib y (lmonths t) (l_jieQi l) Z0 ltac:(lia) Q a j d It ltac:(lia) Hj Oj ltac:(rewrite Ma; exact X)) as [_ X2].
    assert (D2 : sdate (term_at (l_jieQi l) j) = sdate (l_solar l)) by (apply dayno_inj; [destruct (Q j ltac:(lia)) as (_ & _ & Vt & _); apply Vt|apply V'|lia]).
    destruct (C58_code fsin fcos lib (l_solar l) l Qi j ltac:(split; [exact V'|lia]) G ltac:(lia) D2) as [C _]. exact (proj1 (C Oj)). }
  intros y m d q I. cbn [In leap_terms] in I. 
  destruct I as [I|[I|[I|[]]]]; injection I as <- <- <- <-; [destruct (G 1651 7 (-2) 1) as (l & L)|destruct (G 1661 19 (-7) 29) as (l & L)|destruct (G 1727 9 (-3) 1) as (l & L)]; try (cbn [In exceptions]; tauto); exists l; exact L.
Qed.

(** 冬至 lies in month 11 and, up to 6611, 夏至 in month 5; neither month is then a leap month. *)
Lemma solstice_month s l nm m : valid_solar s -> 1646 <= sy s <= 9998 -> getLunar R s = Ok l ->
  (forall i, 0 <= i < 31 -> term_name_at i = nm -> (i, m) = (1, 11) \/ sy s <= 6612 /\ (i, m) = (13, summer_month (sy s)) \/ (i, m) = (25, 11)) -> nm <> [] -> Lunar_getQi l = Ok nm -> l_month l = m.
Proof.
  intros V Hy E P N L. destruct (found_term s l Qi ltac:(split; [exact V|lia]) E) as [F|(i & Hi & K & D & F)]; cbn [term_today] in F; [congruence|].
  assert (EN : term_name_at i = nm) by congruence. destruct (zhong_table s l V Hy E) as (t & a & Et & W & Ia & Ha & A1 & A2 & A3 & Z0 & Q).
  destruct (z_solstice lib (sy s) (lmonths t) (l_jieQi l) Z0 ltac:(lia) Q i m (P i Hi EN)) as (b & Ib & Mb & Hb). rewrite D in Hb. rewrite A2, <- Mb. f_equal. exact (unique_month _ t a b _ W Ia Ib Ha Hb).
Qed.
Lemma solstice_names i : 0 <= i < 31 -> (term_name_at i = utf8 "冬至" -> i = 1 \/ i = 25) /\ (term_name_at i = utf8 "夏至" -> i = 13).
Proof.
  intros Hi.
  assert (T : forallb (fun i => implb (str_eqb (term_name_at i) (utf8 "冬至")) ((i =? 1) || (i =? 25)) && implb (str_eqb (term_name_at i) (utf8 "夏至")) (i =? 13)) (zrange 0 31) = true) by (vm_compute; reflexivity).
  pose proof (forallb_zrange _ _ _ T i Hi) as B. cbv beta in B. apply andb_true_iff in B. destruct B as [B1 B2].
  split; intros N; apply str_eqb_eq in N; [rewrite N in B1; cbn [implb] in B1|rewrite N in B2; cbn [implb] in B2]; lia.
Qed.
Theorem C88_solstices : forall s l, valid_solar s -> 1646 <= sy s <= 9998 -> getLunar R s = Ok l ->
  (Lunar_getQi l = Ok (utf8 "冬至") -> l_month l = 11) /\ (sy s <= 6611 -> Lunar_getQi l = Ok (utf8 "夏至") -> l_month l = 5).
Proof.
  intros s l V Hy E. split.
  - apply (solstice_month s l (utf8 "冬至") 11 V Hy E); [|discriminate]. intros i Hi N. destruct (proj1 (solstice_names i Hi) N) as [-> | ->]; auto.
  - intros H. apply (solstice_month s l (utf8 "夏至") 5 V Hy E); [|discriminate]. intros i Hi N. rewrite (proj2 (solstice_names i Hi) N). right. left. split; [lia|]. unfold summer_month. now replace (sy s =? 6612) with false by lia.
Qed.
(** Every year has both days. *)
Lemma terms_of_year s l : valid_solar s -> 20 <= sy s <= 9998 -> getLunar R s = Ok l -> exists t, R (sy s) = Ok t /\ computeJieQi (lterms t) = Ok (l_jieQi l).
Proof.
  intros V Hy E. destruct (lunar_new lib s l V ltac:(lia) E) as [Es H]. destruct (Lunar_new_inv _ _ _ _ _ _ _ _ H) as (t1 & mo & noon & t2 & E1 & _ & _ & _ & ES & _ & E2 & CP).
  apply cp_terms in CP. assert (Yn : sy noon = sy s) by (rewrite <- Es, ES; reflexivity). exists t2. split; [|exact CP]. rewrite Yn in E2. destruct (Z.eqb_spec (sy s) (l_year l)); [subst t2; congruence|exact E2].
Qed.
Lemma term_in_year y : 1646 <= y <= 9998 -> forall j m nm, 4 <= j < 26 -> Z.odd j = true -> j / 2 = m -> term_name_at j = nm ->
  exists s l, valid_solar s /\ sy s = y /\ (y <= 4039 -> sm s = m) /\ getLunar R s = Ok l /\ Lunar_getQi l = Ok nm.
Proof.
  intros Hy. set (s0 := mkSolar y 7 1 0 0 0). assert (V0 : valid_solar s0) by (split; [unfold valid_date; cbn; pose proof (last_day_bounds y 7); lia|unfold valid_time; cbn; lia]).
  destruct (C47_code fsin fcos lib s0 V0 ltac:(cbn; lia)) as (l0 & _ & _ & E0 & _).
  intros j m nm Hj Oj Em En. destruct (C59_code fsin fcos lib s0 l0 j ltac:(split; [exact V0|cbn; lia]) E0 ltac:(lia)) as (V & M & _). cbv zeta in M.
    replace (j <? 2) with false in M by lia. replace (j <? 26) with true in M by lia. change (sy s0) with y in M. set (s := term_at (l_jieQi l0) j) in *.
    assert (M' : sy s = y /\ (y <= 4039 -> sm s = j / 2)).
    { destruct M as [M|[M1 M]]; [injection M as M1 M2; auto|]. pose proof (Z.div_le_mono 4 j 2 ltac:(lia) ltac:(lia)) as D. change (4 / 2) with 2 in D. replace (j / 2 =? 1) with false in M by lia. injection M as M2 M3. split; [exact M2|lia]. }
    destruct M' as [M1 M2].
    destruct (C47_code fsin fcos lib s V ltac:(lia)) as (l & _ & _ & E & _). exists s, l. split; [exact V|]. split; [exact M1|]. split; [intros H; rewrite (M2 H); exact Em|]. split; [exact E|].
    destruct (terms_of_year s0 l0 V0 ltac:(cbn; lia) E0) as (t0 & Et0 & P0). destruct (terms_of_year s l V ltac:(lia) E) as (t & Et & P). rewrite M1 in Et. change (sy s0) with y in Et0.
    assert (t0 = t) by congruence. subst t0. assert (EJ : l_jieQi l0 = l_jieQi l) by congruence.
    destruct (C58_code fsin fcos lib s l Qi j ltac:(split; [exact V|lia]) E ltac:(lia)) as [C _]; [unfold s; rewrite EJ; reflexivity|]. rewrite <- En. exact (proj1 (C Oj)).
Qed.
Theorem C88_both_solstices : forall y, 1646 <= y <= 6611 ->
  (exists s l, valid_solar s /\ sy s = y /\ (y <= 4039 -> sm s = 12) /\ getLunar R s = Ok l /\ Lunar_getQi l = Ok (utf8 "冬至") /\ l_month l = 11) /\
  (exists s l, valid_solar s /\ sy s = y /\ (y <= 4039 -> sm s = 6) /\ getLunar R s = Ok l /\ Lunar_getQi l = Ok (utf8 "夏至") /\ l_month l = 5).
Proof.
  intros y Hy. pose proof (term_in_year y ltac:(lia)) as G.
  split.
  - destruct (G 25 12 (utf8 "冬至") ltac:(lia) eq_refl eq_refl ltac:(vm_compute; reflexivity)) as (s & l & V & Y & M & E & Q). exists s, l. repeat (split; [assumption|]). apply (proj1 (C88_solstices s l V ltac:(lia) E) Q).
  - destruct (G 13 6 (utf8 "夏至") ltac:(lia) eq_refl eq_refl ltac:(vm_compute; reflexivity)) as (s & l & V & Y & M & E & Q). exists s, l. repeat (split; [assumption|]). apply (proj2 (C88_solstices s l V ltac:(lia) E) ltac:(lia) Q).
Qed.
(** In 6612 夏至 lies in month 4. *)
Theorem C88_summer_refuted : exists s l, valid_solar s /\ sy s = 6612 /\ getLunar R s = Ok l /\ Lunar_getQi l = Ok (utf8 "夏至") /\ l_month l = 4.
Proof.
  destruct (term_in_year 6612 ltac:(lia) 13 6 (utf8 "夏至") ltac:(lia) eq_refl eq_refl ltac:(vm_compute; reflexivity)) as (s & l & V & Y & _ & E & Q). exists s, l. repeat (split; [assumption|]).
  apply (solstice_month s l (utf8 "夏至") 4 V ltac:(lia) E); [|discriminate|exact Q]. intros i Hi N. rewrite (proj2 (solstice_names i Hi) N). right. left. split; [lia|]. rewrite Y. reflexivity.
Qed.
(** Every year has a 冬至, in month 11. *)
Theorem C88_winter : forall y, 1646 <= y <= 9998 -> exists s l, valid_solar s /\ sy s = y /\ getLunar R s = Ok l /\ Lunar_getQi l = Ok (utf8 "冬至") /\ l_month l = 11.
Proof.
  intros y Hy. destruct (term_in_year y Hy 25 12 (utf8 "冬至") ltac:(lia) eq_refl eq_refl ltac:(vm_compute; reflexivity)) as (s & l & V & Y & _ & E & Q). exists s, l. repeat (split; [assumption|]).
  apply (proj1 (C88_solstices s l V ltac:(lia) E) Q).
Qed.
(** The days of the terms listed for the year [y], wherever they lie. *)
Lemma qi_day y t jq j : 1647 <= y <= 9997 -> R y = Ok t -> computeJieQi (lterms t) = Ok jq -> 0 <= j < 30 -> Z.odd j = true ->
  valid_solar (term_at jq j) /\ exists l q, getLunar R (term_at jq j) = Ok l /\ Lunar_getQi l = Ok q /\ q <> [].
Proof.
  intros Hy Et Ej Hj Oj. pose proof (real_Seasons lib) as Sn. pose proof (sn_good _ _ _ Sn y t jq ltac:(lia) Et Ej) as G. pose proof (gt_valid _ _ G j ltac:(lia)) as V. split; [exact V|].
  assert (M : exists b, (sy (term_at jq j), b) = term_month y j \/ (sy (term_at jq j), b) = (let '(a, b) := term_month y j in if b =? 1 then (a - 1, 12) else (a, b - 1))).
  { exists (sm (term_at jq j)). destruct (Z_le_gt_dec y 4039) as [C|C].
    - destruct (C59_good fsin fcos y t jq lib ltac:(lia) Et Ej) as (_ & _ & M & _). left. exact (M j ltac:(lia)).
    - destruct (C59_good_drift fsin fcos y t jq lib ltac:(lia) Et Ej) as (_ & M & _). exact (M j ltac:(lia)). }
  destruct M as (b & M). assert (J2 : j / 2 * 2 + 1 = j) by (rewrite Zodd_mod in Oj; apply Zeq_bool_eq in Oj; pose proof (Z.div_mod j 2 ltac:(lia)); lia). set (h := j / 2) in *. 
  assert (C : sy (term_at jq j) = y - 1 /\ j <= 3 \/ sy (term_at jq j) = y /\ 2 <= j <= 27 \/ sy (term_at jq j) = y + 1 /\ 26 <= j).
  { unfold term_month in M. fold h in M. destruct (j <? 2) eqn:L2; [|destruct (j <? 26) eqn:L26].
    - left. destruct M as [M|M]; injection M as M _; lia.
    - destruct M as [M|M]; [injection M as M _; right; left; lia|]. destruct (h =? 1) eqn:H1; injection M as M _; [left|right; left]; lia.
    - destruct M as [M|M]; [injection M as M _; right; right; lia|]. destruct (h - 12 =? 1) eqn:H1; injection M as M _; [right; left|right; right]; lia. }
  assert (X : exists i, 0 <= i < 30 /\ Z.odd i = true /\ exists t' jq', R (sy (term_at jq j)) = Ok t' /\ computeJieQi (lterms t') = Ok jq' /\ term_at jq' i = term_at jq j /\ 1646 <= sy (term_at jq j) <= 9998).
  { destruct C as [[M1 M2]|[[M1 M2]|[M1 M2]]].
    - exists (24 + j). split; [lia|]. split; [rewrite Z.odd_add, Oj; reflexivity|].
      destruct (cal_ok _ _ _ (real_Cal lib) (y - 1) ltac:(lia)) as (t' & jq' & Et' & Ej'). exists t', jq'. rewrite M1. split; [exact Et'|]. split; [exact Ej'|]. split; [|lia].
      pose proof (sn_agree _ _ _ Sn (y - 1) t' jq' t jq j ltac:(lia) ltac:(lia) Et' Ej') as A. replace (y - 1 + 1) with y in A by lia. exact (A Et Ej ltac:(lia)).
    - exists j. split; [lia|]. split; [exact Oj|]. exists t, jq. rewrite M1. repeat (split; [assumption || reflexivity|]). lia.
    - exists (j - 24). split; [lia|]. split; [rewrite Z.odd_sub, Oj; reflexivity|].
      destruct (cal_ok _ _ _ (real_Cal lib) (y + 1) ltac:(lia)) as (t' & jq' & Et' & Ej'). exists t', jq'. rewrite M1. split; [exact Et'|]. split; [exact Ej'|]. split; [|lia].
      pose proof (sn_agree _ _ _ Sn y t jq t' jq' (j - 24) ltac:(lia) ltac:(lia) Et Ej Et' Ej' ltac:(lia)) as A. replace (24 + (j - 24)) with j in A by lia. congruence. }
  clear C. destruct X as (i & Hi & Oi & t' & jq' & Et' & Ej' & EQ & Hs). set (s := term_at jq j) in *. destruct (C47_code fsin fcos lib s V ltac:(lia)) as (l & _ & _ & E & _).
  destruct (terms_of_year s l V ltac:(lia) E) as (t2 & Et2 & P2). assert (t2 = t') by congruence. subst t2. assert (l_jieQi l = jq') by congruence. subst jq'.
  destruct (C58_code fsin fcos lib s l Qi i ltac:(split; [exact V|lia]) E ltac:(lia)) as [C _]; [rewrite EQ; reflexivity|]. exists l, (term_name_at i). split; [exact E|]. split; [exact (proj1 (C Oi))|].
  assert (T : forallb (fun i => negb (str_eqb (term_name_at i) [])) (zrange 0 30) = true) by (vm_compute; reflexivity). pose proof (forallb_zrange _ _ _ T i Hi) as B. cbv beta in B.
  intros N. rewrite N in B. discriminate B.
Qed.
(** The leap month is the first month without a 中气: each month before it, from month 11 of the year before on, holds one. *)
Theorem C88_first : forall y t i j, 1647 <= y <= 9997 -> R y = Ok t -> 0 <= i < j -> j < 13 -> mm (month t j) < 0 ->
  (my (month t i), mm (month t i)) <> (1651, 2) -> (my (month t i), mm (month t i)) <> (1727, 3) ->
  exists s l q, valid_solar s /\ mfirst (month t i) <= dayno (sdate s) < mfirst (month t i) + mcount (month t i) /\ getLunar R s = Ok l /\ Lunar_getQi l = Ok q /\ q <> [].
Proof.
  intros y t i j Hy Et Hi Hj M X1 X2. set (s0 := mkSolar y 7 1 0 0 0). assert (V0 : valid_solar s0) by (split; [unfold valid_date; cbn; pose proof (last_day_bounds y 7); lia|unfold valid_time; cbn; lia]).
  destruct (C47_code fsin fcos lib s0 V0 ltac:(cbn; lia)) as (l0 & _ & _ & E0 & _). destruct (zhong_table s0 l0 V0 ltac:(cbn; lia) E0) as (t' & _ & Et' & W & _ & _ & _ & _ & _ & Z0 & Q). change (sy s0) with y in *.
  assert (t' = t) by congruence. subst t'. destruct (terms_of_year s0 l0 V0 ltac:(cbn; lia) E0) as (t' & Et2 & P). change (sy s0) with y in *. assert (t' = t) by congruence. subst t'.
  pose proof (wf_length _ _ W) as L. assert (NE : forall n, 0 <= n < 15 -> nth_error (lmonths t) (Z.to_nat n) = Some (month t n)) by (intros n Hn; unfold month, nthm; apply nth_error_nth'; lia).
  destruct (z_before lib y (lmonths t) (l_jieQi l0) Z0 ltac:(lia) Q _ _ _ _ (NE i ltac:(lia)) (NE j ltac:(lia)) ltac:(lia) M) as [X|(n & Hn & On & D)].
  - exfalso. unfold exempt in X. apply orb_true_iff in X. destruct X as [X|X]; [apply X1|apply X2]; f_equal; lia.
  - destruct (qi_day y t (l_jieQi l0) n Hy Et P Hn On) as (V & l & q & E & F & N). exists (term_at (l_jieQi l0) n), l, q. unfold mend in D. auto.
Qed.
(** 22 December 2033 is the first day of the leap month 11 of 2033, by whatever library. *)
Example C88_case : let s := mkSolar 2033 12 22 0 0 0 in valid_solar s /\ exists l, getLunar R s = Ok l /\ (l_year l, l_month l, l_day l) = (2033, -11, 1) /\ Lunar_getQi l = Ok [].
Proof.
  cbv zeta. set (s := mkSolar 2033 12 22 0 0 0). assert (V : valid_solar s) by (split; [unfold valid_date; cbn; lia|unfold valid_time; cbn; lia]). split; [exact V|].
  destruct (C47_code fsin fcos lib s V ltac:(cbn; lia)) as (l & _ & _ & E & _). exists l. split; [exact E|].
  destruct (zhong_table s l V ltac:(cbn; lia) E) as (t & a & Et & W & Ia & Ha & A1 & A2 & A3 & _). destruct (real_inv _ _ _ _ Et) as [_ Mt]. change (sy s) with 2033 in Mt. change (dayno (sdate s)) with 2463954 in *.
  assert (Q : exists ms, cert_months 2033 = ms /\ forallb (fun a => if (mfirst a <=? 2463954) && (2463954 <? mend a) then (my a =? 2033) && (mm a =? -11) && (mfirst a =? 2463954) else true) ms = true)
    by (eexists; split; [vm_compute; reflexivity|vm_compute; reflexivity]).
  destruct Q as (ms & Q1 & Q2). rewrite (cert_months_ok _ _ 2033 lib (cert_nonempty 2033 ltac:(lia))), Q1 in Mt. rewrite Mt in Ia. rewrite forallb_forall in Q2. specialize (Q2 a Ia). cbv beta in Q2.
  destruct ((mfirst a <=? 2463954) && (2463954 <? mend a)) eqn:B; [|lia]. assert (my a = 2033 /\ mm a = -11 /\ mfirst a = 2463954) as (X1 & X2 & X3) by lia.
  split; [rewrite A1, A2, A3, X1, X2, X3; reflexivity|]. apply (C88_since_1728 s l V); [cbn; lia|exact E|lia].
Qed.
(** In the table of 2023 the leap month is the fifth, after the months 11, 12, 1 and 2. *)
Example C88_first_case : exists t, R 2023 = Ok t /\ mm (month t 4) = -2 /\ map (fun i => mm (month t i)) [0; 1; 2; 3] = [11; 12; 1; 2].
Proof.
  destruct (cal_ok _ _ _ (real_Cal lib) 2023 ltac:(lia)) as (t & jq & Et & _). exists t. split; [exact Et|]. unfold month. destruct (real_inv _ _ _ _ Et) as [_ ->].
  rewrite (cert_months_ok _ _ 2023 lib (cert_nonempty 2023 ltac:(lia))). vm_compute. split; reflexivity.
Qed.
End LIB.
