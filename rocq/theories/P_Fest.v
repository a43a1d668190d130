(** C83: 寒食节 and the two 社 days. *)
From Coq Require Import ZArith Lia Bool ZifyBool List String Floats.
From Verif Require Import Py PyFloat FloatFacts PyStr CalSpec DayNo Solar SolarProofs JulianDay P_JD SolarUnits UnitsProofs LunarUtil T_LunarUtil T_Misc P_Almanac P_Tables
  LunarYear Lunar LunarTime LunarProofs TermProofs P_Terms CalProofs P_Pillars P_Accessors P_Stars P_NewYear P_Seasons P_Day P_Year Demo.
Import ListNotations.
Open Scope Z_scope.

(** The festivals of the month and day in the table. *)
Definition listed_festivals (l : Lunar) : list str := match assoc (md_key l) LunarUtil_OTHER_FESTIVAL with Some fs => fs | None => [] end.
Lemma assoc_in {A} k (d : list (str * A)) v : assoc k d = Some v -> In (k, v) d.
Proof.
  induction d as [|[k' v'] d IH]; cbn [assoc]; [discriminate|]. destruct (assoc k d) as [w|]; [intros H; right; apply IH; exact H|].
  destruct (str_eqb k k') eqn:E; [|discriminate]. intros H. left. apply str_eqb_eq in E. congruence.
Qed.
Lemma festival_names l f : In f (listed_festivals l) -> f <> utf8 "寒食节" /\ f <> utf8 "春社" /\ f <> utf8 "秋社".
Proof.
  unfold listed_festivals. intros H. destruct (assoc _ _) as [fs|] eqn:E; [|destruct H]. apply assoc_in in E.
  assert (T : forallb (fun p => forallb (fun f => negb (str_eqb f (utf8 "寒食节")) && negb (str_eqb f (utf8 "春社")) && negb (str_eqb f (utf8 "秋社"))) (snd p)) LunarUtil_OTHER_FESTIVAL = true)
    by (vm_compute; reflexivity).
  rewrite forallb_forall in T. specialize (T _ E). cbn [snd] in T. rewrite forallb_forall in T. specialize (T _ H). cbv beta in T. clear - T.
  rewrite !andb_true_iff, !negb_true_iff in T. destruct T as [[A B] C].
  split; [|split]; intros ->; rewrite str_eqb_refl in *; discriminate.
Qed.
Lemma next_same s n : valid_solar s -> jan1 0 <= dayno (sdate s) + n < jan1 10000 -> forall x, valid_solar x -> 0 <= sy x <= 9999 ->
  exists s', next s n = Ok s' /\ str_eqb (toYmd x) (toYmd s') = (dayno (sdate x) =? dayno (sdate s) + n).
Proof.
  intros V B x Vx Yx. destruct (nextDay_spec s n V) as (s' & E & V' & _ & D). exists s'. split; [exact E|].
  destruct (toYmd_ltb x s') as [_ ->]; [apply Vx|apply V'|exact Yx| |rewrite D; reflexivity].
  destruct V' as [V' _]. destruct s' as [Y M d0 h0 m0 s0]. unfold sdate in *. cbn [sy sm sd] in *. rewrite <- D in B.
  split; [apply (year_ge 0 _ _ _ V'); lia|]. apply (year_le _ _ _ _ V'). change (9999 + 1) with 10000. lia.
Qed.
(** The day number [n] has the stem 戊 (C53). *)
Definition wu (n : Z) : Prop := stem (54 + (n - 2451545)) = utf8 "戊".
Lemma wu_mod n : wu n <-> (n - 11) mod 10 = 4.
Proof.
  unfold wu. change (utf8 "戊") with (stem 4). split.
  - intros E. apply stem_inj in E. clear - E. change (4 mod 10) with 4 in E. Z.div_mod_to_equations. lia.
  - intros E. unfold stem. do 2 f_equal. change (4 mod 10) with 4. clear - E. Z.div_mod_to_equations. lia.
Qed.
Lemma she_spec fy lo hi s x : Calendar fy lo hi -> valid_solar s -> lo < sy s < hi -> 0 <= sy s < 9999 -> valid_solar x -> 0 <= sy x <= 9999 ->
  exists s', she_day fy s = Ok s' /\ (str_eqb (toYmd x) (toYmd s') = true <-> wu (dayno (sdate x)) /\ 40 <= dayno (sdate x) - dayno (sdate s) < 50).
Proof.
  intros C V B Y Vx Yx. destruct (getLunar_spec C _ V B) as (l & t & a & El & _ & _ & _ & _ & _ & _ & _ & _ & _ & Es). pose proof (cal_range _ _ _ C) as R.
  destruct (getLunar_new _ _ _ El) as (y' & m' & d' & H'). destruct (Lunar_new_day _ _ _ _ _ _ _ _ H') as (_ & _ & G & _); [rewrite Es; exact V|rewrite Es; unfold jd_year; lia|].
  rewrite Es in G. unfold she_day. rewrite El. cbn [bind]. cbv zeta. set (n := dayno (sdate s)) in *.
  set (o := if 4 - l_dayGan l <? 0 then 4 - l_dayGan l + 10 else 4 - l_dayGan l).
  assert (O : 0 <= o < 10 /\ (n + o - 11) mod 10 = 4).
  { unfold o. rewrite G. clearbody n. clear. destruct (Z.ltb_spec (4 - (n - 11) mod 10) 0); Z.div_mod_to_equations; lia. }
  clearbody o. destruct (next_same s (o + 40) V) with (x := x) as (s' & E & Q); [|exact Vx|exact Yx|].
  - pose proof (jan1_bounds _ _ _ (proj1 V)) as J. fold (sdate s) in J. fold n in J. fold n.
    assert (J0 : jan1 0 <= jan1 (sy s)) by (destruct (Z.eq_dec (sy s) 0) as [->|]; [lia|pose proof (jan1_mono 0 (sy s)); lia]).
    assert (J1 : jan1 (sy s + 1) <= jan1 9999) by (destruct (Z.eq_dec (sy s + 1) 9999) as [->|]; [lia|pose proof (jan1_mono (sy s + 1) 9999); lia]).
    assert (J2 : jan1 10000 = jan1 9999 + 365) by (vm_compute; reflexivity). lia.
  - exists s'. split; [exact E|]. rewrite Q. fold n. rewrite wu_mod. set (k := dayno (sdate x)) in *. clearbody k n. clear - O. rewrite Z.eqb_eq.
    destruct O as [O1 O2]. split; [intros ->; split; [clear - O2; Z.div_mod_to_equations; lia|lia]|]. intros [W L]. Z.div_mod_to_equations. lia.
Qed.
(** 寒食节 is the day before 清明 (term 8), 春社 and 秋社 the fifth 戊 day on or after 立春 (4) and 立秋 (16); the others are those of the table. *)
Theorem C83_festivals : forall fy lo hi y m d h mi s l, Calendar fy lo hi -> hi <= 9999 -> Lunar_new fy y m d h mi s = Ok l ->
  valid_solar (l_solar l) -> good_terms (sy (l_solar l)) (l_jieQi l) -> lo < sy (l_solar l) -> sy (term_at (l_jieQi l) 16) < hi ->
  exists fs, Lunar_getOtherFestivals fy l = Ok fs /\
    (In (utf8 "寒食节") fs <-> day_of l = term_day l 8 - 1) /\
    (In (utf8 "春社") fs <-> Lunar_getDayGan l = Ok (utf8 "戊") /\ 40 <= day_of l - term_day l 4 < 50) /\
    (In (utf8 "秋社") fs <-> Lunar_getDayGan l = Ok (utf8 "戊") /\ 40 <= day_of l - term_day l 16 < 50) /\
    (forall f, f <> utf8 "寒食节" -> f <> utf8 "春社" -> f <> utf8 "秋社" -> (In f fs <-> In f (listed_festivals l))).
Proof.
  intros fy lo hi y m d h mi s l C Hhi H V G Hlo H16. pose proof (Lunar_new_named _ _ _ _ _ _ _ _ H) as N.
  pose proof (cal_range _ _ _ C) as R. set (Y := sy (l_solar l)) in *.
  pose proof (gt_valid _ _ G 4 ltac:(lia)) as V4. pose proof (gt_valid _ _ G 8 ltac:(lia)) as V8. pose proof (gt_valid _ _ G 16 ltac:(lia)) as V16.
  pose proof (gt_years _ _ G 4 ltac:(lia)) as Y4. pose proof (gt_lichun _ _ G) as L4. rewrite L4 in Y4.
  pose proof (gt_sorted _ _ G 4 8 ltac:(lia) ltac:(lia)) as S1. pose proof (gt_sorted _ _ G 8 16 ltac:(lia) ltac:(lia)) as S2.
  assert (Y16 : Y <= sy (term_at (l_jieQi l) 16)).
  { pose proof (jan1_bounds _ _ _ (proj1 V4)) as J. fold (sdate (term_at (l_jieQi l) 4)) in J. rewrite L4 in J.
    destruct V16 as [V16 _]. destruct (term_at (l_jieQi l) 16) as [Y' M D h0 m0 s0]. unfold sdate in *. cbn [sy sm sd] in *. apply (year_ge _ _ _ _ V16). lia. }
  pose proof (dict_at _ 8 N ltac:(lia)) as K8. change (term_key 8) with (utf8 "清明") in K8.
  pose proof (dict_at _ 4 N ltac:(lia)) as K4. change (term_key 4) with (utf8 "立春") in K4.
  pose proof (dict_at _ 16 N ltac:(lia)) as K16. change (term_key 16) with (utf8 "立秋") in K16.
  destruct (next_same (term_at (l_jieQi l) 8) (-1) V8) with (x := l_solar l) as (s8 & E8 & Q8); [|exact V|exact Y4|].
  { pose proof (jan1_bounds _ _ _ (proj1 V4)) as J. fold (sdate (term_at (l_jieQi l) 4)) in J. rewrite L4 in J.
    pose proof (jan1_bounds _ _ _ (proj1 V16)) as J'. fold (sdate (term_at (l_jieQi l) 16)) in J'.
    assert (J0 : jan1 0 <= jan1 Y) by (destruct (Z.eq_dec Y 0) as [->|]; [lia|pose proof (jan1_mono 0 Y); lia]).
    assert (J1 : jan1 (sy (term_at (l_jieQi l) 16) + 1) < jan1 10000) by (apply jan1_mono; lia). lia. }
  destruct (she_spec _ _ _ _ (l_solar l) C V4 ltac:(lia) ltac:(lia) V Y4) as (s4 & E4 & Q4).
  destruct (she_spec _ _ _ _ (l_solar l) C V16 ltac:(lia) ltac:(lia) V Y4) as (s16 & E16 & Q16).
  fold (day_of l) (term_day l 8) in Q8. fold (day_of l) (term_day l 4) in Q4. fold (day_of l) (term_day l 16) in Q16.
  assert (Wu : Lunar_getDayGan l = Ok (utf8 "戊") <-> wu (day_of l)).
  { destruct (Lunar_new_day _ _ _ _ _ _ _ _ H V) as (_ & _ & A1 & _); [unfold jd_year; lia|]. fold (day_of l) in A1. unfold Lunar_getDayGan. rewrite A1, GAN_ok by (apply Z.mod_pos_bound; lia).
    rewrite wu_mod. change (utf8 "戊") with (stem 4). split; [intros E; apply Ok_inj, stem_inj in E; rewrite Z.mod_mod in E by lia; exact E|intros ->; reflexivity]. }
  unfold Lunar_getOtherFestivals. fold (listed_festivals l). cbv zeta. rewrite K8. cbn [bind]. rewrite E8. cbn [bind]. rewrite K4. cbn [bind]. rewrite E4. cbn [bind].
  rewrite K16. cbn [bind]. rewrite E16. cbn [bind].
  assert (Z8 : str_eqb (toYmd (l_solar l)) (toYmd s8) = true <-> day_of l = term_day l 8 - 1) by (rewrite Q8, Z.eqb_eq; lia).
  pose proof (festival_names l) as FN. eexists. split; [reflexivity|]. rewrite !Wu.
  assert (I : forall (b : bool) (n f : str), In f (if b then [n] else []) <-> b = true /\ f = n).
  { intros [|] n f; cbn; split; try tauto; intuition congruence. }
  assert (D1 : utf8 "寒食节" <> utf8 "春社") by discriminate. assert (D2 : utf8 "寒食节" <> utf8 "秋社") by discriminate. assert (D3 : utf8 "春社" <> utf8 "秋社") by discriminate.
  split; [|split; [|split]]; [| | |intros f F1 F2 F3]; rewrite !in_app_iff, !I.
  - rewrite Z8. split; [intros [[[A|A]|A]|A]|tauto]; [destruct (FN _ A); tauto|tauto|tauto|tauto].
  - rewrite Q4. split; [intros [[[A|A]|A]|A]|tauto]; [destruct (FN _ A); tauto|destruct A; congruence|tauto|tauto].
  - rewrite Q16. split; [intros [[[A|A]|A]|A]|tauto]; [destruct (FN _ A); tauto|destruct A; congruence|destruct A; congruence|tauto].
  - tauto.
Qed.
(** 2024: 寒食节 on 3 April, 春社 on 15 March, the fifth 戊 day from 立春 on (itself 戊戌), 秋社 on 21 September. *)
Definition has (f : str) (r : res (list str)) : bool := match r with Ok fs => existsb (str_eqb f) fs | Raise _ => false end.
Example C83_case : Calendar demo 2023 2025 /\ 2025 <= 9999 /\ exists l y m d, Lunar_new demo y m d 12 0 0 = Ok l /\ l_solar l = mkSolar 2024 3 15 12 0 0 /\ good_terms 2024 (l_jieQi l) /\
  sy (term_at (l_jieQi l) 16) = 2024 /\ has (utf8 "春社") (Lunar_getOtherFestivals demo l) = true /\
  (let! l := getLunar demo (mkSolar 2024 4 3 12 0 0) in Ok (has (utf8 "寒食节") (Lunar_getOtherFestivals demo l))) = Ok true.
Proof.
  split; [exact demo_calendar|]. split; [lia|].
  assert (E : (let! l := getLunar demo (mkSolar 2024 3 15 12 0 0) in Ok (l_solar l, good_termsb 2024 (l_jieQi l), sy (term_at (l_jieQi l) 16), has (utf8 "春社") (Lunar_getOtherFestivals demo l))) =
    Ok (mkSolar 2024 3 15 12 0 0, true, 2024, true)) by (vm_compute; reflexivity).
  apply bind_ok in E. destruct E as (l & El & E). apply Ok_inj in E. apply pair_equal_spec in E. destruct E as [E E4]. apply pair_equal_spec in E. destruct E as [E E3].
  apply pair_equal_spec in E. destruct E as [E1 E2].
  destruct (getLunar_new _ _ _ El) as (y & m & d & H). exists l, y, m, d. split; [exact H|]. split; [exact E1|]. split; [apply good_termsb_ok; exact E2|].
  split; [exact E3|]. split; [exact E4|vm_compute; reflexivity].
Qed.
