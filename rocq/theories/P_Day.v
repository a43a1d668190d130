(** C77: the twelve day officers (建除).  C78: the twelve spirits (天神).  C79: the six labels (六曜). *)
From Coq Require Import ZArith Lia Bool ZifyBool List String Floats.
From Verif Require Import Py PyFloat PyStr CalSpec DayNo Solar SolarProofs JulianDay P_JD UnitsProofs LunarUtil T_LunarUtil T_Misc P_Almanac P_Tables
  LunarYear Lunar LunarTime LunarProofs TermProofs P_Terms CalProofs P_LunarCal P_Pillars P_Accessors P_Stars P_Luck P_Seasons P_Times P_BaZi P_NewYear Demo.
Import ListNotations.
Open Scope Z_scope.

Lemma branch_inj a b : branch a = branch b -> a mod 12 = b mod 12.
Proof.
  intros E. assert (T : forallb (fun x => forallb (fun y => negb (str_eqb (branch x) (branch y)) || (x =? y)) (zrange 0 12)) (zrange 0 12) = true) by (vm_compute; reflexivity).
  pose proof (forallb_zrange _ _ _ T (a mod 12) (Z.mod_pos_bound a 12 ltac:(lia))) as X. cbv beta in X.
  pose proof (forallb_zrange _ _ _ X (b mod 12) (Z.mod_pos_bound b 12 ltac:(lia))) as Y. cbv beta in Y. clear T X.
  unfold branch in *. rewrite !Z.mod_mod in Y by lia. rewrite E in Y. apply orb_prop in Y. destruct Y as [Y|Y]; [|lia].
  rewrite (proj2 (str_eqb_eq _ _) eq_refl) in Y. discriminate.
Qed.
(** The branches of a Lunar, by index or by name. *)
Lemma day_branch l z : indices l -> Lunar_getDayZhi l = Ok (branch z) -> l_dayZhi l = z mod 12.
Proof.
  intros I E. pose proof (pil_zhi _ _ (ix_day _ I)) as B. unfold Lunar_getDayZhi in E. rewrite <- (Z.mod_small _ _ B) in E. rewrite ZHI_ok in E by (apply Z.mod_pos_bound; lia).
  apply Ok_inj in E. apply branch_inj in E. rewrite Z.mod_mod in E by lia. rewrite <- E. symmetry. apply Z.mod_small. exact B.
Qed.

(** ** C77 *)
(** The twelve officers in their order. *)
Definition officers : list str := Eval vm_compute in map utf8 ["建"; "除"; "满"; "平"; "定"; "执"; "破"; "危"; "成"; "收"; "开"; "闭"]%string.
Definition officer (i : Z) : str := nth (Z.to_nat (i mod 12)) officers [].
Lemma officer_table : forallb (fun i => ok_is (py_index LunarUtil_ZHI_XING (i + 1)) (officer i)) (zrange 0 12) = true.
Proof. vm_compute. reflexivity. Qed.
Lemma zhiXing_spec l : 0 <= l_dayZhi l < 12 -> 0 <= l_monthZhi l < 12 -> Lunar_getZhiXing l = Ok (officer (l_dayZhi l - l_monthZhi l)).
Proof.
  intros D M. unfold Lunar_getZhiXing. cbv zeta.
  assert (E : (if l_dayZhi l - l_monthZhi l <? 0 then l_dayZhi l - l_monthZhi l + 12 else l_dayZhi l - l_monthZhi l) = (l_dayZhi l - l_monthZhi l) mod 12).
  { destruct (Z.ltb_spec (l_dayZhi l - l_monthZhi l) 0); Z.div_mod_to_equations; lia. }
  rewrite E. pose proof (Z.mod_pos_bound (l_dayZhi l - l_monthZhi l) 12 ltac:(lia)) as B.
  by_table officer_table ((l_dayZhi l - l_monthZhi l) mod 12). apply ok_is_eq in X. rewrite X. unfold officer. now rewrite Z.mod_mod by lia.
Qed.
(** 建 is the day whose branch is that of the month; the others follow in the order of the branches. *)
Theorem C77_rule : forall fy y m d h mi s l z b, Lunar_new fy y m d h mi s = Ok l ->
  Lunar_getDayZhi l = Ok (branch z) -> Lunar_getMonthZhi l = Ok (branch b) -> Lunar_getZhiXing l = Ok (officer (z - b)).
Proof.
  intros fy y m d h mi s l z b H D M. pose proof (new_indices _ _ _ _ _ _ _ _ H) as I. pose proof (pil_zhi _ _ (ix_day _ I)) as B. pose proof (pil_zhi _ _ (ix_month _ I)) as B'.
  rewrite zhiXing_spec by assumption. rewrite (day_branch _ _ I D).
  assert (E : l_monthZhi l = b mod 12).
  { unfold Lunar_getMonthZhi in M. rewrite ZHI_ok in M by exact B'. apply Ok_inj in M. apply branch_inj in M. rewrite <- M. symmetry. apply Z.mod_small. exact B'. }
  rewrite E. unfold officer. do 3 f_equal. rewrite <- Zminus_mod. reflexivity.
Qed.

Lemma month_branch fy y m d h mi s l j : Lunar_new fy y m d h mi s = Ok l -> valid_solar (l_solar l) -> good_terms (sy (l_solar l)) (l_jieQi l) ->
  0 <= j < 15 -> term_day l (2 * j) <= day_of l < term_day l (2 * j + 2) -> l_monthZhi l = j mod 12.
Proof.
  intros H V G Hj R. destruct (good_between _ _ false (l_solar l) G V eq_refl) as (k & Hk & Rk). pose proof (Lunar_new_named _ _ _ _ _ _ _ _ H) as N.
  destruct (Lunar_new_inv _ _ _ _ _ _ _ _ H) as (t & mo & noon & t2 & _ & _ & _ & _ & _ & _ & _ & CP). pose proof (cp_month _ _ _ _ _ _ _ _ _ CP) as CM.
  assert (S : fmt_ok (l_solar l)). { split; [exact V|]. pose proof (gt_years _ _ G 4 ltac:(lia)) as Q. now rewrite (gt_lichun _ _ G) in Q. }
  rewrite (computeMonth_spec (sy (l_solar l)) _ _ _ _ j k N G S Hj R ltac:(lia) Rk) in CM. apply Ok_inj in CM.
  apply pair_equal_spec in CM. destruct CM as [CM _]. apply pair_equal_spec in CM. destruct CM as [CM _]. apply pair_equal_spec in CM. destruct CM as [_ CM].
  rewrite <- CM. unfold month_zhi. change LunarUtil_BASE_MONTH_ZHI_INDEX with 2. destruct (Z.ltb_spec (j - 2) 0); Z.div_mod_to_equations; lia.
Qed.
(** In the interval of the [j]-th 节 the day is that of the 节 or no 节 falls on it. *)
Lemma jie_day fy y m d h mi s l j : Lunar_new fy y m d h mi s = Ok l -> valid_solar (l_solar l) -> good_terms (sy (l_solar l)) (l_jieQi l) ->
  0 <= j < 15 -> term_day l (2 * j) <= day_of l < term_day l (2 * j + 2) ->
  (term_day l (2 * j) = day_of l /\ exists c n, Lunar_getJie l = Ok (c :: n)) \/ (term_day l (2 * j) < day_of l /\ Lunar_getJie l = Ok []).
Proof.
  intros H V G Hj R. destruct (Z.eq_dec (term_day l (2 * j)) (day_of l)) as [E|E].
  - left. split; [exact E|]. assert (D : sdate (term_at (l_jieQi l) (2 * j)) = sdate (l_solar l)) by (apply dayno_inj; [apply (gt_valid _ _ G); lia|apply V|exact E]).
    destruct (C58_term_day _ _ _ _ _ _ _ _ Jie (2 * j) H G ltac:(lia) D) as [X _]. cbn [term_today] in X. destruct X as [X _]; [unfold of_kind; rewrite Z.even_mul; reflexivity|].
    rewrite X. assert (T : forallb (fun i => negb (str_eqb (term_name_at (2 * i)) [])) (zrange 0 15) = true) by (vm_compute; reflexivity).
    by_table T j. destruct (term_name_at (2 * j)) as [|c n]; [discriminate|]. exists c, n. reflexivity.
  - right. split; [lia|]. destruct (C58_other_day _ _ _ _ _ _ _ _ Jie H) as [X _]; [|exact X].
    intros i Hi K D. cbn [of_kind] in K. unfold term_day, day_of in *. rewrite <- D in R, E.
    assert (Q : i < 2 * j \/ i = 2 * j \/ i = 2 * j + 1 \/ i = 2 * j + 2 \/ 2 * j + 2 < i) by lia. destruct Q as [Q|[->|[->|[->|Q]]]].
    + pose proof (gt_sorted _ _ G i (2 * j) ltac:(lia) ltac:(lia)). lia.
    + lia.
    + replace (2 * j + 1) with (1 + 2 * j) in K by lia. rewrite Z.even_add_mul_2 in K. discriminate.
    + lia.
    + pose proof (gt_sorted _ _ G (2 * j + 2) i ltac:(lia) ltac:(lia)). lia.
Qed.

Lemma daily_core fy y m d h mi s l y' m' d' h' mi' s' l' j j' : Lunar_new fy y m d h mi s = Ok l -> Lunar_new fy y' m' d' h' mi' s' = Ok l' ->
  valid_solar (l_solar l) -> valid_solar (l_solar l') -> good_terms (sy (l_solar l)) (l_jieQi l) -> good_terms (sy (l_solar l')) (l_jieQi l') ->
  day_of l' = day_of l + 1 -> 0 <= j < 15 -> term_day l (2 * j) <= day_of l < term_day l (2 * j + 2) ->
  0 <= j' < 15 -> term_day l' (2 * j') <= day_of l' < term_day l' (2 * j' + 2) ->
  j' mod 12 = (j + (if term_day l' (2 * j') =? day_of l' then 1 else 0)) mod 12 ->
  exists i name, Lunar_getZhiXing l = Ok (officer i) /\ Lunar_getJie l' = Ok name /\ Lunar_getZhiXing l' = Ok (officer (match name with [] => i + 1 | _ => i end)).
Proof.
  intros H H' V V' G G' D Hj R Hj' R' E. exists (l_dayZhi l - l_monthZhi l).
  assert (Jd : forall x, good_terms (sy x) (l_jieQi l) \/ good_terms (sy x) (l_jieQi l') -> jd_year (sy x)).
  { intros x [K|K]; pose proof (gt_years _ _ K 4 ltac:(lia)) as Q; rewrite (gt_lichun _ _ K) in Q; unfold jd_year; lia. }
  destruct (Lunar_new_day _ _ _ _ _ _ _ _ H V (Jd _ (or_introl G))) as (_ & _ & _ & Z1 & _).
  destruct (Lunar_new_day _ _ _ _ _ _ _ _ H' V' (Jd _ (or_intror G'))) as (_ & _ & _ & Z2 & _). clear Jd.
  fold (day_of l) in Z1. fold (day_of l') in Z2. rewrite D in Z2.
  pose proof (month_branch _ _ _ _ _ _ _ _ _ H V G Hj R) as M1. pose proof (month_branch _ _ _ _ _ _ _ _ _ H' V' G' Hj' R') as M2.
  assert (X : forall k, (l_dayZhi l' - l_monthZhi l') mod 12 = k mod 12 -> Lunar_getZhiXing l' = Ok (officer k)).
  { intros k K. rewrite zhiXing_spec; [unfold officer; now rewrite K|rewrite Z2|rewrite M2]; apply Z.mod_pos_bound; lia. }
  assert (Y : Lunar_getZhiXing l = Ok (officer (l_dayZhi l - l_monthZhi l))) by (apply zhiXing_spec; [rewrite Z1|rewrite M1]; apply Z.mod_pos_bound; lia).
  destruct (jie_day _ _ _ _ _ _ _ _ _ H' V' G' Hj' R') as [[K (c & n & J)]|[K J]].
  - exists (c :: n). split; [exact Y|]. split; [exact J|]. apply X. rewrite Z1, Z2, M1, M2. destruct (Z.eqb_spec (term_day l' (2 * j')) (day_of l')); [|lia].
    clear - E. Z.div_mod_to_equations. lia.
  - exists []. split; [exact Y|]. split; [exact J|]. apply X. rewrite Z1, Z2, M1, M2. destruct (Z.eqb_spec (term_day l' (2 * j')) (day_of l')); [lia|].
    clear - E. Z.div_mod_to_equations. lia.
Qed.

(** From one day to the next the officer advances by one, but on the day of a 节 it is repeated: within a solar year ... *)
Theorem C77_daily : forall fy y m d h mi s l y' m' d' h' mi' s' l', Lunar_new fy y m d h mi s = Ok l -> Lunar_new fy y' m' d' h' mi' s' = Ok l' ->
  valid_solar (l_solar l) -> valid_solar (l_solar l') -> good_terms (sy (l_solar l)) (l_jieQi l) ->
  sdate (l_solar l') = tomorrow (sdate (l_solar l)) -> sy (l_solar l') = sy (l_solar l) ->
  exists i name, Lunar_getZhiXing l = Ok (officer i) /\ Lunar_getJie l' = Ok name /\ Lunar_getZhiXing l' = Ok (officer (match name with [] => i + 1 | _ => i end)).
Proof.
  intros * H H' V V' G T Y. pose proof (same_terms _ _ _ _ _ _ _ _ _ _ _ _ _ _ _ H H' (eq_sym Y)) as ST.
  assert (G' : good_terms (sy (l_solar l')) (l_jieQi l')) by (rewrite Y, <- ST; exact G).
  assert (D : day_of l' = day_of l + 1) by (unfold day_of; rewrite T, tomorrow_dayno by apply V; lia).
  destruct (good_between _ _ true (l_solar l) G V eq_refl) as (j & Hj & R). cbn [clock] in R. fold (term_day l (2 * j)) (day_of l) (term_day l (2 * j + 2)) in R.
  assert (Et : forall i, term_day l' i = term_day l i) by (intros i; unfold term_day; now rewrite ST).
  pose proof (gt_sorted _ _ G (2 * j) (2 * j + 2) ltac:(lia) ltac:(lia)) as S1. fold (term_day l (2 * j)) (term_day l (2 * j + 2)) in S1.
  destruct (Z.eq_dec (term_day l (2 * j + 2)) (day_of l')) as [E|E].
  - pose proof (gt_sorted _ _ G (2 * j + 2) (2 * j + 4) ltac:(lia)) as S2. fold (term_day l (2 * j + 2)) (term_day l (2 * j + 4)) in S2.
    assert (L : j + 1 < 14 \/ j + 1 = 14) by lia.
    assert (B : term_day l' (2 * (j + 1)) <= day_of l' < term_day l' (2 * (j + 1) + 2)).
    { rewrite !Et. replace (2 * (j + 1)) with (2 * j + 2) by lia. replace (2 * j + 2 + 2) with (2 * j + 4) by lia. specialize (S2 ltac:(lia)). lia. }
    apply (daily_core _ _ _ _ _ _ _ _ _ _ _ _ _ _ _ j (j + 1) H H' V V' G G' D ltac:(lia) R ltac:(lia) B).
    rewrite Et. replace (2 * (j + 1)) with (2 * j + 2) by lia. rewrite E, Z.eqb_refl. reflexivity.
  - assert (B : term_day l' (2 * j) <= day_of l' < term_day l' (2 * j + 2)) by (rewrite !Et; lia).
    apply (daily_core _ _ _ _ _ _ _ _ _ _ _ _ _ _ _ j j H H' V V' G G' D ltac:(lia) R ltac:(lia) B).
    rewrite Et. destruct (Z.eqb_spec (term_day l (2 * j)) (day_of l')); [lia|]. f_equal. lia.
Qed.
(** ... and over its end, where the tables of the two years agree. *)
Theorem C77_new_year : forall fy lo hi y m d h mi s l y' m' d' h' mi' s' l', Seasons fy lo hi -> Lunar_new fy y m d h mi s = Ok l -> Lunar_new fy y' m' d' h' mi' s' = Ok l' ->
  lo <= sy (l_solar l) -> sy (l_solar l') <= hi -> valid_solar (l_solar l) -> valid_solar (l_solar l') ->
  sdate (l_solar l') = tomorrow (sdate (l_solar l)) -> sy (l_solar l') = sy (l_solar l) + 1 ->
  exists i name, Lunar_getZhiXing l = Ok (officer i) /\ Lunar_getJie l' = Ok name /\ Lunar_getZhiXing l' = Ok (officer (match name with [] => i + 1 | _ => i end)).
Proof.
  intros * Sn H H' Hlo Hhi V V' T Y. destruct (new_terms _ _ _ _ _ _ _ _ H) as (t & Et & Ej). destruct (new_terms _ _ _ _ _ _ _ _ H') as (t' & Et' & Ej').
  pose proof (sn_good _ _ _ Sn (sy (l_solar l)) t _ ltac:(lia) Et Ej) as G. pose proof (sn_good _ _ _ Sn (sy (l_solar l')) t' _ ltac:(lia) Et' Ej') as G'.
  assert (D : day_of l' = day_of l + 1) by (unfold day_of; rewrite T, tomorrow_dayno by apply V; lia).
  assert (A : forall i, 0 <= i < 7 -> term_day l (24 + i) = term_day l' i).
  { intros i Hi. unfold term_day. f_equal. f_equal. rewrite Y in Et'. apply (sn_agree _ _ _ Sn (sy (l_solar l)) t _ t' _ i Hlo ltac:(lia) Et Ej Et' Ej' Hi). }
  pose proof (year_lt_dayno _ _ V (gt_valid _ _ G 28 ltac:(lia)) ltac:(pose proof (gt_next _ _ G); lia)) as B1. fold (day_of l) (term_day l 28) in B1.
  pose proof (year_lt_dayno _ _ (gt_valid _ _ G' 1 ltac:(lia)) V' ltac:(pose proof (gt_first _ _ G'); lia)) as B2. fold (day_of l') (term_day l' 1) in B2.
  pose proof (gt_sorted _ _ G' 0 1 ltac:(lia) ltac:(lia)) as B3. fold (term_day l' 0) (term_day l' 1) in B3.
  pose proof (A 0 ltac:(lia)) as A0. pose proof (A 2 ltac:(lia)) as A2. pose proof (A 4 ltac:(lia)) as A4. change (24 + 0) with 24 in A0. change (24 + 2) with 26 in A2. change (24 + 4) with 28 in A4.
  pose proof (gt_sorted _ _ G' 2 4 ltac:(lia) ltac:(lia)) as B4. fold (term_day l' 2) (term_day l' 4) in B4. pose proof (gt_sorted _ _ G' 4 6 ltac:(lia) ltac:(lia)) as B6. fold (term_day l' 4) (term_day l' 6) in B6.
  destruct (Z.lt_ge_cases (day_of l) (term_day l 26)) as [L26|L26].
  - destruct (Z.eq_dec (term_day l' 2) (day_of l')) as [E|E].
    + apply (daily_core _ _ _ _ _ _ _ _ _ _ _ _ _ _ _ 12 1 H H' V V' G G' D ltac:(lia)); [change (2 * 12) with 24; change (24 + 2) with 26; lia|lia|change (2 * 1) with 2; change (2 + 2) with 4; lia|].
      change (2 * 1) with 2. rewrite E, Z.eqb_refl. reflexivity.
    + apply (daily_core _ _ _ _ _ _ _ _ _ _ _ _ _ _ _ 12 0 H H' V V' G G' D ltac:(lia)); [change (2 * 12) with 24; change (24 + 2) with 26; lia|lia|change (2 * 0) with 0; change (0 + 2) with 2; lia|].
      change (2 * 0) with 0. destruct (Z.eqb_spec (term_day l' 0) (day_of l')); [lia|]. reflexivity.
  - destruct (Z.eq_dec (term_day l' 4) (day_of l')) as [E|E].
    + apply (daily_core _ _ _ _ _ _ _ _ _ _ _ _ _ _ _ 13 2 H H' V V' G G' D ltac:(lia)); [change (2 * 13) with 26; change (26 + 2) with 28; lia|lia|change (2 * 2) with 4; change (4 + 2) with 6; lia|].
      change (2 * 2) with 4. rewrite E, Z.eqb_refl. reflexivity.
    + apply (daily_core _ _ _ _ _ _ _ _ _ _ _ _ _ _ _ 13 1 H H' V V' G G' D ltac:(lia)); [change (2 * 13) with 26; change (26 + 2) with 28; lia|lia|change (2 * 1) with 2; change (2 + 2) with 4; lia|].
      change (2 * 1) with 2. destruct (Z.eqb_spec (term_day l' 2) (day_of l')); [lia|]. reflexivity.
Qed.

(** On the eve of 立春 2024 and on its day the officer is 成; and the last day of 2024 and the first of 2025 under a sky of equal seasons. *)
Example C77_case : exists l l' y m d y' m' d', Lunar_new demo y m d 12 0 0 = Ok l /\ Lunar_new demo y' m' d' 12 0 0 = Ok l' /\
  l_solar l = mkSolar 2024 2 3 12 0 0 /\ l_solar l' = mkSolar 2024 2 4 12 0 0 /\ good_terms 2024 (l_jieQi l) /\
  Lunar_getZhiXing l = Ok (utf8 "成") /\ Lunar_getJie l' = Ok (utf8 "立春") /\ Lunar_getZhiXing l' = Ok (utf8 "成").
Proof.
  assert (E : (let! l := getLunar demo (mkSolar 2024 2 3 12 0 0) in let! l' := getLunar demo (mkSolar 2024 2 4 12 0 0) in
    Ok (l_solar l, l_solar l', good_termsb 2024 (l_jieQi l), Lunar_getZhiXing l, Lunar_getJie l', Lunar_getZhiXing l')) =
    Ok (mkSolar 2024 2 3 12 0 0, mkSolar 2024 2 4 12 0 0, true, Ok (utf8 "成"), Ok (utf8 "立春"), Ok (utf8 "成"))) by (vm_compute; reflexivity).
  apply bind_ok in E. destruct E as (l & El & E). apply bind_ok in E. destruct E as (l' & El' & E). apply Ok_inj in E.
  apply pair_equal_spec in E. destruct E as [E E6]. apply pair_equal_spec in E. destruct E as [E E5]. apply pair_equal_spec in E. destruct E as [E E4].
  apply pair_equal_spec in E. destruct E as [E E3]. apply pair_equal_spec in E. destruct E as [E1 E2].
  destruct (getLunar_new _ _ _ El) as (y & m & d & H). destruct (getLunar_new _ _ _ El') as (y' & m' & d' & H'). exists l, l', y, m, d, y', m', d'.
  split; [exact H|]. split; [exact H'|]. split; [exact E1|]. split; [exact E2|]. split; [apply good_termsb_ok; exact E3|]. split; [exact E4|]. split; [exact E5|exact E6].
Qed.
Example C77_case_new_year : Seasons mean 2023 2032 /\ exists l l' y m d y' m' d', Lunar_new mean y m d 12 0 0 = Ok l /\ Lunar_new mean y' m' d' 12 0 0 = Ok l' /\
  l_solar l = mkSolar 2024 12 31 12 0 0 /\ l_solar l' = mkSolar 2025 1 1 12 0 0 /\
  Lunar_getZhiXing l = Ok (utf8 "执") /\ Lunar_getZhiXing l' = Ok (utf8 "破").
Proof.
  split; [exact mean_seasons|].
  assert (E : (let! l := getLunar mean (mkSolar 2024 12 31 12 0 0) in let! l' := getLunar mean (mkSolar 2025 1 1 12 0 0) in
    Ok (l_solar l, l_solar l', Lunar_getZhiXing l, Lunar_getZhiXing l')) =
    Ok (mkSolar 2024 12 31 12 0 0, mkSolar 2025 1 1 12 0 0, Ok (utf8 "执"), Ok (utf8 "破"))) by (vm_compute; reflexivity).
  apply bind_ok in E. destruct E as (l & El & E). apply bind_ok in E. destruct E as (l' & El' & E). apply Ok_inj in E.
  apply pair_equal_spec in E. destruct E as [E E4]. apply pair_equal_spec in E. destruct E as [E E3]. apply pair_equal_spec in E. destruct E as [E1 E2].
  destruct (getLunar_new _ _ _ El) as (y & m & d & H). destruct (getLunar_new _ _ _ El') as (y' & m' & d' & H'). exists l, l', y, m, d, y', m', d'.
  split; [exact H|]. split; [exact H'|]. split; [exact E1|]. split; [exact E2|]. split; [exact E3|exact E4].
Qed.

(** ** C78 *)
(** The twelve spirits in their order, and which are on the yellow road. *)
Definition spirits : list (str * bool) := Eval vm_compute in map (fun p => (utf8 (fst p), snd p))
  [("青龙", true); ("明堂", true); ("天刑", false); ("朱雀", false); ("金匮", true); ("天德", true);
   ("白虎", false); ("玉堂", true); ("天牢", false); ("玄武", false); ("司命", true); ("勾陈", false)]%string.
Definition spirit (i : Z) : str := fst (nth (Z.to_nat (i mod 12)) spirits ([], false)).
Definition yellow (i : Z) : bool := snd (nth (Z.to_nat (i mod 12)) spirits ([], false)).
(** The branch at which 青龙 stands: 子 in a month (or on a day) 寅 or 申, 寅 in 卯 or 酉, 辰 in 辰 or 戌, and so on. *)
Definition dragon (b : Z) : Z := 2 * (b - 2).
Definition road (i : Z) : str := if yellow i then utf8 "黄道" else utf8 "黑道".
Definition fortune (i : Z) : str := if yellow i then utf8 "吉" else utf8 "凶".
Lemma spirit_table : forallb (fun b => forallb (fun z => let t := tianshen z (Ok (branch b)) in
  ok_is t (spirit (z - dragon b)) && ok_is (tianshen_type t) (road (z - dragon b)) && ok_is (tianshen_luck (tianshen_type t)) (fortune (z - dragon b))) (zrange 0 12)) (zrange 0 12) = true.
Proof. vm_compute. reflexivity. Qed.
Lemma tianshen_spec z zi b r : zi = z mod 12 -> r = Ok (branch b) -> tianshen zi r = Ok (spirit (z - dragon b)) /\
  tianshen_type (tianshen zi r) = Ok (road (z - dragon b)) /\ tianshen_luck (tianshen_type (tianshen zi r)) = Ok (fortune (z - dragon b)).
Proof.
  intros -> ->. pose proof (Z.mod_pos_bound z 12 ltac:(lia)) as Bz. pose proof (Z.mod_pos_bound b 12 ltac:(lia)) as Bb.
  pose proof spirit_table as T. by_table T (b mod 12). pose proof (forallb_zrange _ _ _ X (z mod 12) Bz) as Y. cbv beta zeta in Y. clear X.
  rewrite !andb_true_iff in Y. destruct Y as [[Y1 Y2] Y3]. apply ok_is_eq in Y1, Y2, Y3. replace (branch (b mod 12)) with (branch b) in Y1, Y2, Y3 by (unfold branch; now rewrite Z.mod_mod by lia).
  assert (E : (z mod 12 - dragon (b mod 12)) mod 12 = (z - dragon b) mod 12) by (unfold dragon; clear; Z.div_mod_to_equations; lia).
  unfold spirit, road, fortune, yellow in *. rewrite E in Y1, Y2, Y3. split; [exact Y1|]. split; [exact Y2|exact Y3].
Qed.
(** The spirit of the day, from the branches of the day and of the month. *)
Theorem C78_day : forall fy y m d h mi s l z b, Lunar_new fy y m d h mi s = Ok l -> Lunar_getDayZhi l = Ok (branch z) -> Lunar_getMonthZhi l = Ok (branch b) ->
  Lunar_getDayTianShen l = Ok (spirit (z - dragon b)) /\ Lunar_getDayTianShenType l = Ok (road (z - dragon b)) /\ Lunar_getDayTianShenLuck l = Ok (fortune (z - dragon b)).
Proof.
  intros fy y m d h mi s l z b H D M. pose proof (new_indices _ _ _ _ _ _ _ _ H) as I.
  unfold Lunar_getDayTianShenLuck, Lunar_getDayTianShenType, Lunar_getDayTianShen. rewrite M, (day_branch _ _ I D). apply tianshen_spec; reflexivity.
Qed.
(** The spirit of the double hour, from its branch and that of its day (which begins at 23:00). *)
Theorem C78_time : forall fy y m d h mi s l z b, Lunar_new fy y m d h mi s = Ok l -> Lunar_getTimeZhi l = Ok (branch z) -> Lunar_getDayZhiExact l = Ok (branch b) ->
  Lunar_getTimeTianShen l = Ok (spirit (z - dragon b)) /\ Lunar_getTimeTianShenType l = Ok (road (z - dragon b)) /\ Lunar_getTimeTianShenLuck l = Ok (fortune (z - dragon b)).
Proof.
  intros fy y m d h mi s l z b H D M. pose proof (new_indices _ _ _ _ _ _ _ _ H) as I.
  unfold Lunar_getTimeTianShenLuck, Lunar_getTimeTianShenType, Lunar_getTimeTianShen. rewrite M. apply tianshen_spec; [|reflexivity].
  pose proof (pil_zhi _ _ (ix_time _ I)) as B. unfold Lunar_getTimeZhi in D. rewrite ZHI_ok in D by exact B. apply Ok_inj in D. apply branch_inj in D. rewrite <- D. symmetry. apply Z.mod_small. exact B.
Qed.
Theorem C78_double_hour : forall fy y m d h mi s t z b, LunarTime_new fy y m d h mi s = Ok t -> LunarTime_getZhi t = Ok (branch z) -> Lunar_getDayZhiExact (t_lunar t) = Ok (branch b) ->
  LunarTime_getTianShen t = Ok (spirit (z - dragon b)) /\ LunarTime_getTianShenType t = Ok (road (z - dragon b)) /\ LunarTime_getTianShenLuck t = Ok (fortune (z - dragon b)).
Proof.
  intros fy y m d h mi s t z b H D M. unfold LunarTime_getTianShenLuck, LunarTime_getTianShenType, LunarTime_getTianShen. rewrite M. apply tianshen_spec; [|reflexivity].
  destruct (period _ _ _ _ _ _ _ _ H) as (_ & _ & _ & _ & E). assert (B : 0 <= t_zhi t < 12) by (rewrite E; apply Z.mod_pos_bound; lia).
  unfold LunarTime_getZhi in D. rewrite ZHI_ok in D by exact B. apply Ok_inj in D. apply branch_inj in D. rewrite <- D. symmetry. apply Z.mod_small. exact B.
Qed.
Example C78_case : exists l y m d, Lunar_new demo y m d 9 0 0 = Ok l /\ l_solar l = mkSolar 2024 6 15 9 0 0 /\
  Lunar_getMonthZhi l = Ok (branch 6) /\ Lunar_getDayZhi l = Ok (branch 10) /\ Lunar_getTimeZhi l = Ok (branch 5) /\
  Lunar_getDayTianShen l = Ok (utf8 "天刑") /\ Lunar_getTimeTianShen l = Ok (utf8 "明堂") /\ Lunar_getTimeTianShenLuck l = Ok (utf8 "吉").
Proof.
  assert (E : (let! l := getLunar demo (mkSolar 2024 6 15 9 0 0) in
    Ok (l_solar l, Lunar_getMonthZhi l, Lunar_getDayZhi l, Lunar_getTimeZhi l, Lunar_getDayTianShen l, Lunar_getTimeTianShen l, Lunar_getTimeTianShenLuck l)) =
    Ok (mkSolar 2024 6 15 9 0 0, Ok (branch 6), Ok (branch 10), Ok (branch 5), Ok (utf8 "天刑"), Ok (utf8 "明堂"), Ok (utf8 "吉"))) by (vm_compute; reflexivity).
  apply bind_ok in E. destruct E as (l & El & E). apply Ok_inj in E.
  apply pair_equal_spec in E. destruct E as [E E7]. apply pair_equal_spec in E. destruct E as [E E6]. apply pair_equal_spec in E. destruct E as [E E5].
  apply pair_equal_spec in E. destruct E as [E E4]. apply pair_equal_spec in E. destruct E as [E E3]. apply pair_equal_spec in E. destruct E as [E1 E2].
  destruct (getLunar_new _ _ _ El) as (y & m & d & H). exists l, y, m, d.
  split; [exact H|]. split; [exact E1|]. split; [exact E2|]. split; [exact E3|]. split; [exact E4|]. split; [exact E5|]. split; [exact E6|exact E7].
Qed.

(** ** C79 *)
Definition labels : list str := Eval vm_compute in map utf8 ["先胜"; "友引"; "先负"; "佛灭"; "大安"; "赤口"]%string.
Definition label (i : Z) : str := nth (Z.to_nat (i mod 6)) labels [].
Lemma liuYao_spec l : Lunar_getLiuYao l = Ok (label (Z.abs (l_month l) - 1 + (l_day l - 1))).
Proof.
  unfold Lunar_getLiuYao. replace (Z.abs (l_month l) - 1 + (l_day l - 1)) with (Z.abs (l_month l) + l_day l - 2) by lia. set (n := Z.abs (l_month l) + l_day l - 2).
  assert (T : forallb (fun i => ok_is (py_index LunarUtil_LIU_YAO i) (label i)) (zrange 0 6) = true) by (vm_compute; reflexivity).
  pose proof (forallb_zrange _ _ _ T (n mod 6) (Z.mod_pos_bound n 6 ltac:(lia))) as X. cbv beta in X. apply ok_is_eq in X. rewrite X. unfold label. now rewrite Z.mod_mod by lia.
Qed.
Lemma new_ymd fy y m d h mi s l : Lunar_new fy y m d h mi s = Ok l -> l_year l = y /\ l_month l = m /\ l_day l = d.
Proof. intros H. destruct (Lunar_new_inv _ _ _ _ _ _ _ _ H) as (t & mo & noon & t2 & _ & _ & _ & _ & _ & _ & _ & CP). exact (cp_ymd _ _ _ _ _ _ _ _ _ CP). Qed.
(** The month and its leap month begin with the label of the number of the month. *)
Theorem C79_first_day : forall fy y m h mi s l, Lunar_new fy y m 1 h mi s = Ok l -> Lunar_getLiuYao l = Ok (label (Z.abs m - 1)).
Proof.
  intros fy y m h mi s l H. rewrite liuYao_spec. destruct (new_ymd _ _ _ _ _ _ _ _ H) as (_ & -> & ->). do 2 f_equal. lia.
Qed.
(** Then it advances day by day, and the next month begins with its own. *)
Theorem C79_daily : forall fy lo hi y t a d h mi s l, Calendar fy lo hi -> lo + 1 < y < hi - 2 ->
  fy y = Ok t -> In a (lmonths t) -> my a = y -> Lunar_new fy y (mm a) d h mi s = Ok l ->
  exists l' i, Lunar_next fy l 1 = Ok l' /\ Lunar_getLiuYao l = Ok (label i) /\
    (d < mcount a -> Lunar_getLiuYao l' = Ok (label (i + 1))) /\
    (d = mcount a -> Lunar_getLiuYao l' = Ok (label (Z.abs (l_month l') - 1)) /\ l_day l' = 1).
Proof.
  intros fy lo hi y t a d h mi s l C Hy Et Ia Ya H. destruct (C50_day_by_day _ _ _ _ _ _ _ _ _ _ _ C Hy Et Ia Ya H) as (l' & N & A & B).
  destruct (new_ymd _ _ _ _ _ _ _ _ H) as (_ & M & D). exists l', (Z.abs (l_month l) - 1 + (l_day l - 1)). split; [exact N|]. split; [apply liuYao_spec|]. split.
  - intros L. destruct (A L) as (_ & M' & D'). rewrite liuYao_spec. do 2 f_equal. lia.
  - intros L. destruct (B L) as (D' & _). split; [|exact D']. rewrite liuYao_spec. do 2 f_equal. lia.
Qed.
(** The ninth leap month of 2025 under a sky of equal months begins with 先负 like the ninth month; its last day is followed by the first of the tenth month, 佛灭. *)
Example C79_case : 2023 + 1 < 2025 < 2032 - 2 /\ Calendar mean 2023 2032 /\ mean 2025 = Ok mean_2025 /\ In nine (lmonths mean_2025) /\ my nine = 2025 /\ mm nine = -9 /\
  (let! l := Lunar_new mean 2025 (-9) (mcount nine) 8 0 0 in let! n := Lunar_next mean l 1 in let! f := Lunar_new mean 2025 (-9) 1 8 0 0 in
   Ok (Lunar_getLiuYao f, Lunar_getLiuYao l, Lunar_getLiuYao n)) = Ok (Ok (utf8 "先负"), Ok (utf8 "先胜"), Ok (utf8 "佛灭")).
Proof.
  split; [lia|]. split; [exact mean_calendar|]. split; [exact mean_2025_eq|]. split; [exact nine_in|]. split; [reflexivity|]. split; [reflexivity|]. vm_compute. reflexivity.
Qed.
