(** The calendar of the code itself, for the years 19 to 9999 and every C library that meets [libm]: the hypotheses [Calendar],
    [civil], [Seasons], [YearSeasons] and [good_terms] of the other files hold of it. *)
From Coq Require Import ZArith Lia Bool ZifyBool List String Floats.
From Verif Require Import Py PyFloat PyStr ShouXing FloatExpr Trig SunLon SunTerm CertYears CertFast SunDate SunYear CalSpec DayNo Solar SolarProofs LunarYear Lunar LunarProofs YearProofs CalProofs CalCheck
  TermProofs P_YearTable P_LunarCal P_LunarYears EarlyYears P_SunTerms P_Stars P_BaZi.
Import ListNotations.
Open Scope Z_scope.

Section LIB.
Context {fsin fcos : float -> float} (lib : libm fsin fcos).
Notation R := (real fsin fcos).

Lemma real_Cal : Calendar R 19 9999.
Proof.
  pose proof (check_calb _ _ (check_19_9999 fsin fcos lib)) as H. apply real_cal; [exact H|lia|lia|]. apply convert_libm; [exact lib|exact H|lia|lia].
Qed.
Lemma real_months y t : 19 <= y <= 9999 -> R y = Ok t -> keyed y t /\ forall a, In a (lmonths t) -> usual_length a = true /\ not_ahead a = true.
Proof. intros Hy Et. exact (check_table fsin fcos 19 9999 y t (check_19_9999 fsin fcos lib) Hy Et). Qed.
Lemma real_civil : civil R 20 9999.
Proof.
  intros y t a Hy Et Ia. destruct (Z.le_gt_cases y 241) as [L|L].
  - destruct (cal_ok _ _ _ real_Cal (y + 1) ltac:(lia)) as (t' & _ & Et' & _). exact (early_ahead fsin fcos y t t' a ltac:(lia) Et Et' Ia).
  - destruct (real_months y t ltac:(lia) Et) as [_ U]. destruct (U a Ia) as [_ N]. unfold not_ahead in N.
    pose proof (proj2 (proj2 (wf_month _ _ (cal_wf real_Cal y t ltac:(lia) Et) a Ia))). lia.
Qed.
Lemma real_Cal_civil : Calendar R 20 9999.
Proof. apply (cal_sub _ 19 9999); [exact real_Cal|lia|lia]. Qed.
Lemma real_usage y t i : 241 <= y <= 9999 -> R y = Ok t -> 0 <= i < 15 -> usage_of (mfirst (month t i)) = Civil.
Proof. intros Hy Et Hi. apply (C52_civil _ _ _ y t i real_Cal); try assumption; lia. Qed.

(** Month 1 of a year begins in its first 91 days. *)
Lemma real_new_year y t : 20 <= y <= 9999 -> R y = Ok t -> exists a, In a (lmonths t) /\ my a = y /\ mm a = 1 /\ jan1 y <= mfirst a < jan1 y + 91.
Proof.
  intros Hy Et. destruct (Z.le_gt_cases y 241) as [L|L].
  { destruct (cal_ok _ _ _ real_Cal (y + 1) ltac:(lia)) as (t' & _ & Et' & _). destruct (early_first fsin fcos y t t' ltac:(lia) Et Et') as (a & _ & Ea & _ & _ & J).
    destruct (getMonth_inv _ _ _ Ea) as (Ia & Ya & Ma). rewrite (proj1 (real_inv _ _ _ _ Et)) in Ya. exists a. specialize (J ltac:(lia)). auto. }
  destruct (civil_months _ y t Et (fun i => real_usage y t i ltac:(lia) Et)) as (leap & R1 & R2 & F). pose proof (cal_wf real_Cal y t ltac:(lia) Et) as W.
  set (k := if leap <=? 2 then 3 else 2). assert (Hk : 2 <= k <= 3) by (unfold k; destruct (leap <=? 2); lia).
  assert (N : mm (month t k) = 1 /\ my (month t k) = y).
  { destruct (F k ltac:(lia)) as [F1 F2]. rewrite F1, F2.
    assert (T : forallb (fun leap => let k := if leap <=? 2 then 3 else 2 in (leap =? 15) ||
       ((year_at leap k =? 1) && ((if k =? leap then - number leap k else number leap k) =? 1))) (zrange 1 17) = true) by (vm_compute; reflexivity).
    pose proof (forallb_zrange _ _ _ T leap ltac:(lia)) as T1. cbv beta zeta in T1. fold k in T1.
    destruct (leap =? 15) eqn:E15; [lia|]. cbn [orb] in T1. rewrite !andb_true_iff in T1. destruct T1 as [T1 T3]. apply Z.eqb_eq in T1, T3. rewrite T1, T3. lia. }
  unfold month in N. pose proof (wf_in W k ltac:(lia)) as Ik. exists (nthm (lmonths t) k). split; [exact Ik|]. split; [apply N|]. split; [apply N|].
  split; [pose proof (real_civil y t _ Hy Et Ik) as J; rewrite (proj2 N) in J; exact J|].
  pose proof (wf_first _ _ W) as F0. unfold mend in *.
  pose proof (wf_contig _ _ W 0 ltac:(lia)) as C0. pose proof (wf_contig _ _ W 1 ltac:(lia)) as C1. pose proof (wf_contig _ _ W 2 ltac:(lia)) as C2.
  pose proof (proj1 (wf_month _ _ W _ (wf_in W 0 ltac:(lia)))). pose proof (proj1 (wf_month _ _ W _ (wf_in W 1 ltac:(lia)))). pose proof (proj1 (wf_month _ _ W _ (wf_in W 2 ltac:(lia)))).
  change (0 + 1) with 1 in *. change (1 + 1) with 2 in *. change (2 + 1) with 3 in *. unfold mend in *.
  assert (Ek : k = 2 \/ k = 3) by lia. destruct Ek as [Ek|Ek]; rewrite Ek; lia.
Qed.
Lemma real_jieqi y t jq : 0 <= y <= 9999 -> R y = Ok t -> computeJieQi (lterms t) = Ok jq -> forall j, 0 <= j < 31 ->
  exists a, py_index (lterms t) j = Ok a /\ fromJulianDay a = Ok (term_at jq j).
Proof.
  intros Hy Et Ej j Hj. destruct (jieqi_ok lib y (lterms t) Hy (real_terms fsin fcos y t lib Hy Et)) as (jq' & Ej' & P). rewrite Ej in Ej'. apply Ok_inj in Ej'. subst jq'.
  destruct (P j Hj) as (T & E1 & _ & E2 & _). eauto.
Qed.
Lemma real_Seasons : Seasons R 1 9998.
Proof.
  split.
  - intros y t jq Hy Et Ej. apply (C59_dates fsin fcos y t jq lib ltac:(lia) Et Ej).
  - intros y t jq Hy Et Ej. assert ((524 <= y <= 1582 \/ 4040 <= y <= 9998) \/ (1 <= y <= 523 \/ 1583 <= y <= 4039)) as [C|C] by lia.
    + destruct (C59_good_drift fsin fcos y t jq lib C Et Ej) as (_ & M & _). specialize (M 26 ltac:(lia)). cbn in M. destruct M as [M|M]; injection M; lia.
    + destruct (C59_good fsin fcos y t jq lib C Et Ej) as (_ & L & _). lia.
  - intros y t jq i Hy Et Ej Hi. destruct (C59_dates fsin fcos y t jq lib ltac:(lia) Et Ej) as (_ & G). pose proof (G i ltac:(lia)). pose proof (G (i + 1) ltac:(lia)).
    replace (i + 1 + 1) with (i + 2) in * by lia. lia.
  - intros y t jq t' jq' i Hy Hy' Et Ej Et' Ej' Hi. destruct (C59_shared fsin fcos y t t' i lib ltac:(lia) Et Et' Hi) as (a & E1 & E2).
    destruct (real_jieqi y t jq ltac:(lia) Et Ej (24 + i) ltac:(lia)) as (b & E3 & E4). destruct (real_jieqi (y + 1) t' jq' ltac:(lia) Et' Ej' i ltac:(lia)) as (c & E5 & E6). congruence.
Qed.
Lemma real_YearSeasons : YearSeasons R 20 9998.
Proof.
  pose proof real_Seasons as Sn. split.
  - destruct Sn as [S1 S2 S3 S4]. split.
    + intros y t jq Hy. apply S1. lia.
    + intros y t jq Hy. apply S2. lia.
    + intros y t jq i Hy. apply S3. lia.
    + intros y t jq t' jq' i Hy Hy'. apply S4; lia.
  - intros y Hy. destruct (cal_ok _ _ _ real_Cal y ltac:(lia)) as (t & jq & Et & _). destruct (real_new_year y t ltac:(lia) Et) as (a & Ia & Ya & Ma & J).
    pose proof (cal_wf real_Cal y t ltac:(lia) Et) as W. pose proof (proj1 (wf_month _ _ W a Ia)).
    pose proof (jan1_mono 19 y ltac:(lia)). pose proof (jan1_mono y (y + 1) ltac:(lia)). assert (jan1 y + 355 <= jan1 (y + 1)) by (unfold jan1; rewrite !dayno_jan1, ybase_succ; pose proof (ylen_bounds y); lia). assert (jan1 (y + 1) < jan1 10000) by (apply jan1_mono; lia).
    destruct (new_spec real_Cal y t a 1 0 0 0) as (l & El & V & D & _); [lia|exact Et|exact Ia|exact Ya|lia|unfold valid_time; lia|change (9999 + 1) with 10000; lia|].
    rewrite Ma in El. exists l. split; [exact El|]. destruct V as [V _]. unfold sdate in *.
    pose proof (year_ge y _ _ _ V). pose proof (year_le y _ _ _ V). lia.
Qed.
End LIB.

(** ** The Lunar of a date *)
(** The years whose table of terms is known to hold dates that exist, in order: [C59_dates]. *)
Definition termed (y : Z) : Prop := 1 <= y <= 9998.
Section DATE.
Context {fsin fcos : float -> float} (lib : libm fsin fcos).
Notation R := (real fsin fcos).
Lemma new_terms y m d h mi s l : Lunar_new R y m d h mi s = Ok l -> termed (sy (l_solar l)) -> good_terms (sy (l_solar l)) (l_jieQi l).
Proof.
  intros H Hy. destruct (Lunar_new_inv _ _ _ _ _ _ _ _ H) as (t & mo & noon & t2 & Et & _ & _ & _ & ES & _ & E2 & CP). apply cp_terms in CP. rewrite ES in *. cbn [sy] in *.
  assert (E : R (sy noon) = Ok t2) by (destruct (Z.eqb_spec (sy noon) y); [subst t2; congruence|exact E2]).
  unfold termed in Hy. apply (C59_dates fsin fcos (sy noon) t2 _ lib ltac:(lia) E CP).
Qed.
Lemma lunar_new s l : valid_solar s -> 19 < sy s < 9999 -> getLunar R s = Ok l -> l_solar l = s /\ Lunar_new R (l_year l) (l_month l) (l_day l) (sh s) (smi s) (ss s) = Ok l.
Proof.
  intros V Hy E. destruct (getLunar_spec (real_Cal lib) s V Hy) as (l' & t & a & E' & _ & _ & _ & _ & _ & _ & _ & _ & _ & Es). rewrite E in E'. apply Ok_inj in E'. subst l'.
  split; [exact Es|]. destruct (getLunar_new _ _ _ E) as (y & m & d & H). destruct (Lunar_new_inv _ _ _ _ _ _ _ _ H) as (? & ? & ? & ? & _ & _ & _ & _ & _ & _ & _ & CP).
  destruct (cp_ymd _ _ _ _ _ _ _ _ _ CP) as (-> & -> & ->). exact H.
Qed.
Lemma lunar_good s l : valid_solar s -> 19 < sy s < 9999 -> termed (sy s) -> getLunar R s = Ok l -> good_terms (sy (l_solar l)) (l_jieQi l).
Proof. intros V Hy T E. destruct (lunar_new s l V Hy E) as [Es H]. apply (new_terms _ _ _ _ _ _ _ H). rewrite Es. exact T. Qed.
Lemma lunar_year s l : valid_solar s -> 19 < sy s < 9999 -> getLunar R s = Ok l -> l_year l = sy (l_solar l) \/ l_year l = sy (l_solar l) - 1.
Proof.
  intros V Hy E. destruct (lunar_new s l V Hy E) as [Es _]. rewrite Es.
  destruct (getLunar_spec (real_Cal lib) s V Hy) as (l' & t & a & E' & Et & Ia & Ha & Ey & _). rewrite E in E'. apply Ok_inj in E'. subst l'.
  pose proof (real_civil lib (sy s) t a ltac:(lia) Et Ia) as J. pose proof (proj2 (proj2 (wf_month _ _ (cal_wf (real_Cal lib) (sy s) t ltac:(lia) Et) a Ia))) as W.
  assert (my a <= sy s); [|lia]. destruct V as [V _]. unfold sdate in *. apply (year_ge _ _ _ _ V). lia.
Qed.
(** A Lunar made from a lunar date is the Lunar of its day. *)
Lemma new_lunar y m d h mi s l : 20 < y < 9998 -> Lunar_new R y m d h mi s = Ok l -> valid_solar (l_solar l) /\ 19 < sy (l_solar l) < 9999 /\ getLunar R (l_solar l) = Ok l.
Proof.
  intros Hy H. destruct (C48_round_trip _ _ _ y m d h mi s l (real_Cal lib) ltac:(lia) H) as (l' & E & E1 & E2 & E3 & E4 & E5 & E6 & E7).
  assert (Vs : valid_solar (l_solar l) /\ 19 < sy (l_solar l) < 9999).
  { destruct (Lunar_new_inv _ _ _ _ _ _ _ _ H) as (t & mo & noon & t2 & Et & Em & Hd & En & ES & VT & _ & CP).
    destruct (getMonth_inv _ _ _ Em) as (Ia & Ya & Ma). pose proof (cal_wf (real_Cal lib) y t ltac:(lia) Et) as W.
    destruct (month_range (real_Cal lib) y t mo ltac:(lia) Et Ia) as [M0 M1]. unfold mend in M1.
    destruct (whole_day (mfirst mo + d - 1) ltac:(lia)) as (noon' & En' & Vn & Dn). rewrite En in En'. apply Ok_inj in En'. subst noon'.
    assert (Vs : valid_solar (l_solar l)) by (rewrite ES; split; [apply Vn|exact VT]).
    assert (Ds : dayno (sdate (l_solar l)) = mfirst mo + d - 1) by (rewrite ES; exact Dn).
    pose proof (wf_bounds W mo Ia) as B. unfold mend in B. split; [exact Vs|].
    destruct Vs as [Vs _]. destruct (l_solar l) as [Y M D h0 m0 s0]. unfold sdate in *. cbn [sy sm sd] in *.
    assert (y - 1 <= Y) by (apply (year_ge _ _ _ _ Vs); lia).
    assert (Y <= y + 1) by (apply (year_le _ _ _ _ Vs); replace (y + 1 + 1) with (y + 2) by lia; lia). lia. }
  destruct Vs as [Vs Hs]. split; [exact Vs|]. split; [exact Hs|].
  destruct (lunar_new _ _ Vs Hs E) as [_ H']. rewrite E1, E2, E3 in H'.
  assert (T : sh (l_solar l) = h /\ smi (l_solar l) = mi /\ ss (l_solar l) = s) by (destruct (Lunar_new_inv _ _ _ _ _ _ _ _ H) as (? & ? & ? & ? & _ & _ & _ & _ & -> & _); cbn; auto).
  destruct T as (-> & -> & ->) in H'. rewrite H in H'. apply Ok_inj in H'. subst l'. exact E.
Qed.
End DATE.
