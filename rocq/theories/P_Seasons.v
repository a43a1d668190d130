(** C60: the nine nines of winter.  C61: the dog days.  C71: the pentads. *)
From Coq Require Import ZArith Lia Bool ZifyBool List String Floats.
From Verif Require Import Py PyFloat FloatFacts PyStr CalSpec DayNo Solar SolarProofs JulianDay P_JD UnitsProofs LunarUtil T_LunarUtil T_Misc P_Almanac P_Tables
  LunarYear Lunar LunarTime LunarProofs TermProofs P_Terms CalProofs P_Pillars P_Accessors P_Stars P_NewYear Demo.
Import ListNotations.
Open Scope Z_scope.

(** Day numbers of the date and of the [i]-th term of its table (1 冬至, 13 夏至, 16 立秋, 25 the next 冬至). *)
Definition day_of (l : Lunar) : Z := dayno (sdate (l_solar l)).
Definition term_day (l : Lunar) (i : Z) : Z := dayno (sdate (term_at (l_jieQi l) i)).

Definition midnight (s : Solar) : Solar := mkSolar (sy s) (sm s) (sd s) 0 0 0.
Lemma midnight_ok s : valid_solar s -> fromYmd (sy s) (sm s) (sd s) = Ok (midnight s) /\ valid_solar (midnight s) /\ dayno (sdate (midnight s)) = dayno (sdate s).
Proof.
  intros [V _]. assert (T : valid_time 0 0 0) by (unfold valid_time; lia). split; [|split; [split; assumption|reflexivity]]. apply fromYmdHms_ok; [exact V|exact T].
Qed.
Definition at_midnight (s : Solar) : Prop := valid_solar s /\ same_time s (mkSolar 0 1 1 0 0 0).
Lemma midnight_at s : valid_solar s -> at_midnight (midnight s).
Proof. intros V. split; [apply (midnight_ok s V)|repeat split]. Qed.
Lemma before_day a b : at_midnight a -> at_midnight b -> isBefore a b = (dayno (sdate a) <? dayno (sdate b)).
Proof.
  intros [Va Ta] [Vb Tb]. rewrite isBefore_instant by assumption. unfold instant, sod. unfold same_time in *. cbn [sh smi ss] in *.
  destruct Ta as (-> & -> & ->). destruct Tb as (-> & -> & ->). lia.
Qed.
Lemma next_midnight s n : at_midnight s -> exists s', next s n = Ok s' /\ at_midnight s' /\ dayno (sdate s') = dayno (sdate s) + n.
Proof.
  intros [V T]. destruct (nextDay_spec s n V) as (s' & E & V' & T' & D). exists s'. split; [exact E|]. split; [|exact D]. split; [exact V'|].
  unfold same_time in *. destruct T' as (A & B & C). rewrite A, B, C. exact T.
Qed.

(** ** C60 *)
Definition ordinal (k : Z) : str := nth (Z.to_nat k) [utf8 "一"; utf8 "二"; utf8 "三"; utf8 "四"; utf8 "五"; utf8 "六"; utf8 "七"; utf8 "八"; utf8 "九"] [].
Theorem C60_shu_jiu : forall fromYear y m d h mi s l, Lunar_new fromYear y m d h mi s = Ok l ->
  valid_solar (l_solar l) -> good_terms (sy (l_solar l)) (l_jieQi l) ->
  let z := if term_day l 25 <=? day_of l then term_day l 25 else term_day l 1 in
  let n := day_of l - z in
  0 <= n /\ Lunar_getShuJiu l = Ok (if n <? 81 then Some (ordinal (n / 9) ++ utf8 "九", n mod 9 + 1) else None).
Proof.
  intros fy y m d h mi s l H V G z n. pose proof (Lunar_new_named _ _ _ _ _ _ _ _ H) as N.
  pose proof (good_around _ _ true (l_solar l) G V eq_refl) as [A _]. cbn [clock] in A. fold (day_of l) (term_day l 1) in A.
  assert (Hn : 0 <= n) by (unfold n, z; destruct (Z.leb_spec (term_day l 25) (day_of l)); lia). split; [exact Hn|].
  pose proof (gt_valid _ _ G 1 ltac:(lia)) as V1. pose proof (gt_valid _ _ G 25 ltac:(lia)) as V25.
  destruct (midnight_ok _ V) as (E0 & W0 & D0). destruct (midnight_ok _ V1) as (E1 & W1 & D1). destruct (midnight_ok _ V25) as (E2 & W2 & D2).
  pose proof (midnight_at _ V) as M0. pose proof (midnight_at _ V1) as M1. pose proof (midnight_at _ V25) as M2.
  pose proof (dict_at _ 1 N ltac:(lia)) as K1. change (term_key 1) with (utf8 "冬至") in K1.
  pose proof (dict_at _ 25 N ltac:(lia)) as K2. change (term_key 25) with (utf8 "DONG_ZHI") in K2.
  unfold Lunar_getShuJiu. rewrite E0. cbn [bind]. rewrite K2. cbn [bind]. rewrite E2. cbn [bind]. rewrite K1. cbn [bind]. rewrite E1.
  rewrite (before_day _ _ M0 M2), D0, D2. fold (day_of l) (term_day l 25).
  assert (Q : exists S, (if day_of l <? term_day l 25 then Ok (midnight (term_at (l_jieQi l) 1)) else Ok (midnight (term_at (l_jieQi l) 25))) = Ok S /\
    valid_solar S /\ at_midnight S /\ dayno (sdate S) = z /\ fromYmd (sy S) (sm S) (sd S) = Ok S).
  { unfold z. destruct (Z.ltb_spec (day_of l) (term_day l 25)), (Z.leb_spec (term_day l 25) (day_of l)); try lia; eexists; (split; [reflexivity|]).
    - split; [exact W1|]. split; [exact M1|]. split; [exact D1|exact E1].
    - split; [exact W2|]. split; [exact M2|]. split; [exact D2|exact E2]. }
  destruct Q as (S & -> & WS & MS & DS & ES). cbn [bind]. rewrite ES. cbn [bind].
  destruct (next_midnight S 81 MS) as (e & -> & Me & De). cbn [bind].
  rewrite (before_day _ _ M0 MS), (before_day _ _ M0 Me), D0, De, DS. fold (day_of l).
  replace (day_of l <? z) with false by (unfold n in Hn; lia). cbn [orb].
  replace (negb (day_of l <? z + 81)) with (negb (n <? 81)) by (unfold n; lia). destruct (Z.ltb_spec n 81); cbn [negb]; [|reflexivity].
  rewrite subtract_spec by assumption. rewrite D0, DS. fold (day_of l) n. cbn [bind].
  rewrite int_truediv_spec by lia. cbn [bind]. rewrite Z.quot_div_nonneg by lia.
  assert (T : forallb (fun k => match py_index LunarUtil_NUMBER (k + 1) with Ok x => str_eqb x (ordinal k) | _ => false end) (zrange 0 9) = true) by (vm_compute; reflexivity).
  assert (B : 0 <= n / 9 < 9) by (clearbody n; Z.div_mod_to_equations; lia).
  pose proof (forallb_zrange _ _ _ T _ B) as X. cbv beta in X. destruct (py_index LunarUtil_NUMBER (n / 9 + 1)) as [x|]; [|discriminate].
  apply str_eqb_eq in X. subst x. reflexivity.
Qed.

(** ** C61 *)
(** The pillar of day number [n] is pair 54 + (n - 2451545) (C53); its stem is 庚. *)
Definition geng (n : Z) : Prop := stem (54 + (n - 2451545)) = utf8 "庚".
Lemma geng_mod n : geng n <-> (n - 11) mod 10 = 6.
Proof.
  unfold geng, stem. replace ((54 + (n - 2451545)) mod 10) with ((n - 11) mod 10) by (Z.div_mod_to_equations; lia).
  pose proof (Z.mod_pos_bound (n - 11) 10 ltac:(lia)) as B. generalize dependent ((n - 11) mod 10). intros k B. split; [|intros ->; reflexivity].
  assert (T : forallb (fun k => if str_eqb (nth (Z.to_nat k) stems []) (utf8 "庚") then k =? 6 else true) (zrange 0 10) = true) by (vm_compute; reflexivity).
  intros E. pose proof (forallb_zrange _ _ _ T k B) as X. cbv beta in X. rewrite E, str_eqb_refl in X. lia.
Qed.
(** [s] is the third 庚 day on or after the summer solstice; 末伏 starts at [e], ten or twenty days after 中伏 did. *)
Theorem C61_fu : forall fy lo hi y m d h mi s l, Calendar fy lo hi -> Lunar_new fy y m d h mi s = Ok l ->
  valid_solar (l_solar l) -> good_terms (sy (l_solar l)) (l_jieQi l) -> lo < sy (term_at (l_jieQi l) 13) < hi ->
  let t := day_of l in let x := term_day l 13 in let q := term_day l 16 in
  exists s e, geng s /\ x + 20 <= s < x + 30 /\ e = (if s + 20 <? q then s + 30 else s + 20) /\
    Lunar_getFu fy l = Ok (
      if t <? s then None
      else if t <? s + 10 then Some (utf8 "初伏", t - s + 1)
      else if t <? e then Some (utf8 "中伏", t - (s + 10) + 1)
      else if t <? e + 10 then Some (utf8 "末伏", t - e + 1)
      else None).
Proof.
  intros fy lo hi y m d h mi s0 l C H V G B t x q. pose proof (Lunar_new_named _ _ _ _ _ _ _ _ H) as N.
  pose proof (cal_range _ _ _ C) as R.
  pose proof (gt_valid _ _ G 13 ltac:(lia)) as Vx. pose proof (gt_valid _ _ G 16 ltac:(lia)) as Vq.
  destruct (midnight_ok _ V) as (E0 & W0 & D0). destruct (midnight_ok _ Vx) as (Ex & Wx & Dx). destruct (midnight_ok _ Vq) as (Eq & Wq & Dq).
  pose proof (midnight_at _ V) as M0. pose proof (midnight_at _ Vx) as Mx. pose proof (midnight_at _ Vq) as Mq.
  pose proof (dict_at _ 13 N ltac:(lia)) as Kx. change (term_key 13) with (utf8 "夏至") in Kx.
  pose proof (dict_at _ 16 N ltac:(lia)) as Kq. change (term_key 16) with (utf8 "立秋") in Kq.
  destruct (getLunar_spec C _ Vx B) as (lx & tx & a & El & _ & _ & _ & _ & _ & _ & _ & _ & _ & Es).
  destruct (getLunar_new _ _ _ El) as (y' & m' & d' & H').
  destruct (Lunar_new_day _ _ _ _ _ _ _ _ H') as (_ & _ & Dg & _); [rewrite Es; exact Vx|rewrite Es; unfold jd_year; lia|].
  rewrite Es in Dg. fold (term_day l 13) in Dg. fold x in Dg.
  set (add := if 6 - l_dayGan lx <? 0 then 6 - l_dayGan lx + 10 else 6 - l_dayGan lx).
  assert (Ha : 0 <= add < 10 /\ (x + add - 11) mod 10 = 6).
  { unfold add. rewrite Dg. clearbody x. clear. destruct (Z.ltb_spec (6 - (x - 11) mod 10) 0); Z.div_mod_to_equations; lia. }
  destruct (next_midnight _ (add + 20) Mx) as (s1 & F1 & Ms1 & Ds1). rewrite Dx in Ds1. fold (term_day l 13) in Ds1. fold x in Ds1.
  destruct (next_midnight _ 10 Ms1) as (s2 & F2 & Ms2 & Ds2). destruct (next_midnight _ 10 Ms2) as (s3 & F3 & Ms3 & Ds3). destruct (next_midnight _ 10 Ms3) as (s4 & F4 & Ms4 & Ds4).
  set (S := x + (add + 20)) in *. exists S, (if S + 20 <? q then S + 30 else S + 20).
  split; [apply geng_mod; unfold S; destruct Ha as [_ Ha]; clear - Ha; Z.div_mod_to_equations; lia|].
  split; [unfold S; lia|]. split; [reflexivity|].
  unfold Lunar_getFu. rewrite E0. cbn [bind]. rewrite Kx. cbn [bind]. rewrite Kq. cbn [bind]. rewrite Ex. cbn [bind]. rewrite El. cbn [bind]. cbv zeta. fold add. rewrite F1. cbn [bind].
  rewrite (before_day _ _ M0 Ms1), D0, Ds1. fold (day_of l). fold t. destruct (Z.ltb_spec t S); [reflexivity|].
  rewrite subtract_spec by (exact W0 || apply Ms1). cbn [bind]. rewrite D0, Ds1. fold (day_of l). fold t.
  replace (t - S <? 10) with (t <? S + 10) by lia. destruct (Z.ltb_spec t (S + 10)); [reflexivity|].
  rewrite F2. cbn [bind]. rewrite subtract_spec by (exact W0 || apply Ms2). cbn [bind]. rewrite D0, Ds2, Ds1. fold (day_of l). fold t.
  replace (t - (S + 10) <? 10) with (t <? S + 20) by lia.
  destruct (Z.ltb_spec t (S + 20)).
  { replace (t <? (if S + 20 <? q then S + 30 else S + 20)) with true by (destruct (S + 20 <? q); lia). reflexivity. }
  rewrite F3. cbn [bind]. rewrite subtract_spec by (exact W0 || apply Ms3). cbn [bind]. rewrite D0, Ds3, Ds2, Ds1. fold (day_of l). fold t.
  rewrite Eq. cbn [bind]. rewrite isAfter_isBefore, (before_day _ _ Ms3 Mq), Dq, Ds3, Ds2, Ds1. fold (term_day l 16). fold q.
  replace (S + 10 + 10) with (S + 20) by lia. destruct (Z.ltb_spec (S + 20) q).
  - replace (t - (S + 20) <? 10) with (t <? S + 30) by lia. destruct (Z.ltb_spec t (S + 30)).
    + do 3 f_equal. lia.
    + rewrite F4. cbn [bind]. rewrite subtract_spec by (exact W0 || apply Ms4). cbn [bind]. rewrite D0, Ds4, Ds3, Ds2, Ds1. fold (day_of l). fold t.
      replace (S + 10 + 10 + 10) with (S + 30) by lia. replace (t - (S + 30) <? 10) with (t <? S + 30 + 10) by lia. destruct (t <? S + 30 + 10); reflexivity.
  - replace (t <? S + 20) with false by lia. replace (t - (S + 20) <? 10) with (t <? S + 20 + 10) by lia. destruct (t <? S + 20 + 10); reflexivity.
Qed.
(** With 立秋 40 to 50 days after 夏至, as it always is, 末伏 starts on the first 庚 day on or after 立秋. *)
Theorem C61_last_starts_after_liqiu : forall x q s e, geng s -> x + 20 <= s < x + 30 -> e = (if s + 20 <? q then s + 30 else s + 20) ->
  40 <= q - x <= 50 -> geng e /\ q <= e < q + 10.
Proof.
  intros x q s e Gs Hs -> Hq. split.
  - apply geng_mod. apply geng_mod in Gs. destruct (s + 20 <? q); Z.div_mod_to_equations; lia.
  - destruct (Z.ltb_spec (s + 20) q); lia.
Qed.

(** ** C71 *)
Definition hou (k : Z) : str := nth (Z.to_nat k) [utf8 "初候"; utf8 "二候"; utf8 "三候"] [].
(** The term in effect on the day is the last one of the table that does not begin after it; the pentad is the number of
    whole five-day spans since, at most the third; the phenomena are listed from 冬至, three for each term. *)
Theorem C71_hou : forall fromYear y m d h mi s l, Lunar_new fromYear y m d h mi s = Ok l ->
  valid_solar (l_solar l) -> good_terms (sy (l_solar l)) (l_jieQi l) ->
  exists i k, 1 <= i < 28 /\ term_day l i <= day_of l < term_day l (i + 1) /\ k = Z.min 2 ((day_of l - term_day l i) / 5) /\
    Lunar_getHou l = Ok (term_name_at i ++ lit " " ++ hou k) /\
    Lunar_getWuHou l = Ok (nth (Z.to_nat (3 * ((i - 1) mod 24) + k)) LunarUtil_WU_HOU []).
Proof.
  intros fy y m d h mi s l H V G.
  destruct (C57_prev _ _ _ _ _ _ _ _ Any true H V G) as (i & Hi & _ & E & B1 & B2). cbn [prev_term] in E.
  pose proof (good_around _ _ true (l_solar l) G V eq_refl) as [A1 A2].
  unfold before in B1, B2. cbn [clock] in A1, A2. fold (day_of l) in A1, A2, B1. fold (term_day l 1) in A1. fold (term_day l 28) in A2. fold (term_day l i) in B1.
  assert (B3 : forall j, 0 <= j < 31 -> term_day l j <= day_of l -> j <= i).
  { intros j Hj L. apply (B2 j Hj eq_refl). fold (day_of l) (term_day l j). lia. }
  assert (Ri : 1 <= i < 28).
  { split; [apply B3; lia|]. destruct (Z.lt_ge_cases i 28) as [L|L]; [exact L|exfalso].
    assert (term_day l 28 <= term_day l i) by (destruct (Z.eq_dec i 28) as [->|]; [lia|unfold term_day; pose proof (gt_sorted _ _ G 28 i ltac:(lia) ltac:(lia)); lia]). lia. }
  assert (Rd : term_day l i <= day_of l < term_day l (i + 1)).
  { split; [lia|]. destruct (Z.lt_ge_cases (day_of l) (term_day l (i + 1))) as [L|L]; [exact L|exfalso]. specialize (B3 (i + 1) ltac:(lia) L). lia. }
  set (n := day_of l - term_day l i) in *. set (k := Z.min 2 (n / 5)). exists i, k.
  split; [exact Ri|]. split; [exact Rd|]. split; [reflexivity|]. clear A1 A2 B1 B2 B3.
  assert (Rn : 0 <= n < 1000000000).
  { unfold n. split; [lia|]. pose proof (gt_years _ _ G i ltac:(lia)) as Yi. pose proof (gt_years _ _ G 4 ltac:(lia)) as Y4. rewrite (gt_lichun _ _ G) in Y4.
    pose proof (gt_valid _ _ G i ltac:(lia)) as Vi. destruct V as [V _]. destruct Vi as [Vi _]. pose proof (dayno_year _ _ _ V) as X1. pose proof (dayno_year _ _ _ Vi) as X2.
    change (dayno (sy (l_solar l), sm (l_solar l), sd (l_solar l))) with (day_of l) in X1. change (dayno (sy (term_at (l_jieQi l) i), sm (term_at (l_jieQi l) i), sd (term_at (l_jieQi l) i))) with (term_day l i) in X2.
    pose proof (ybase_mono 0 (sy (term_at (l_jieQi l) i)) ltac:(lia)). pose proof (ybase_mono (sy (l_solar l) + 1) 10000 ltac:(lia)).
    assert (ybase 0 = 1721057 /\ ybase 10000 < 10000000) by (split; [vm_compute; reflexivity|vm_compute; reflexivity]). lia. }
  pose proof (gt_valid _ _ G i ltac:(lia)) as Vi.
  unfold Lunar_getHou, Lunar_getWuHou. rewrite E. cbn [bind jq_name jq_solar]. cbv zeta. rewrite subtract_spec by assumption. fold (day_of l) (term_day l i). fold n. cbn [bind].
  rewrite int_truediv_spec by lia. cbn [bind]. rewrite Z.quot_div_nonneg by lia.
  change (Z.of_nat (List.length LunarUtil_HOU) - 1) with 2. change (Z.of_nat (List.length LunarUtil_WU_HOU)) with 72.
  replace (if 2 <? n / 5 then 2 else n / 5) with k by (unfold k; destruct (Z.ltb_spec 2 (n / 5)); lia).
  assert (Rk : 0 <= k < 3) by (unfold k; clear - Rn; Z.div_mod_to_equations; lia). clearbody k.
  assert (T1 : forallb (fun k => match py_index LunarUtil_HOU k with Ok x => str_eqb x (hou k) | _ => false end) (zrange 0 3) = true) by (vm_compute; reflexivity).
  pose proof (forallb_zrange _ _ _ T1 k Rk) as X. cbv beta in X. destruct (py_index LunarUtil_HOU k) as [x|]; [|discriminate]. apply str_eqb_eq in X. subst x. cbn [bind].
  split; [reflexivity|].
  assert (T2 : forallb (fun i => Z.max 0 (index_of 0 (term_name_at i) Lunar_JIE_QI) =? (i - 1) mod 24) (zrange 1 28) = true) by (vm_compute; reflexivity).
  pose proof (forallb_zrange _ _ _ T2 i Ri) as X. cbv beta in X. apply Z.eqb_eq in X. rewrite X.
  pose proof (Z.mod_pos_bound (i - 1) 24 ltac:(lia)) as Bo. set (o := (i - 1) mod 24) in *. clearbody o.
  replace ((o * 3 + k) mod 72) with (3 * o + k) by (rewrite Z.mod_small; lia). rewrite index_ok by (change (Z.of_nat (List.length LunarUtil_WU_HOU)) with 72; lia). reflexivity.
Qed.
(** The 72 phenomena are all different. *)
Theorem C71_phenomena : List.length LunarUtil_WU_HOU = 72%nat /\ NoDup LunarUtil_WU_HOU.
Proof. split; [reflexivity|]. apply nodupb_ok. vm_compute. reflexivity. Qed.

Example C71_case : exists l y m d, Lunar_new demo y m d 12 0 0 = Ok l /\ l_solar l = mkSolar 2024 2 29 12 0 0 /\ good_terms 2024 (l_jieQi l) /\
  Lunar_getHou l = Ok (utf8 "雨水 三候") /\ Lunar_getWuHou l = Ok (utf8 "草木萌动") /\ Lunar_getShuJiu l = Ok (Some (utf8 "八九", 7)).
Proof.
  assert (E : (let! l := getLunar demo (mkSolar 2024 2 29 12 0 0) in Ok (l_solar l, good_termsb 2024 (l_jieQi l), (Lunar_getHou l, Lunar_getWuHou l, Lunar_getShuJiu l))) =
    Ok (mkSolar 2024 2 29 12 0 0, true, (Ok (utf8 "雨水 三候"), Ok (utf8 "草木萌动"), Ok (Some (utf8 "八九", 7))))) by (vm_compute; reflexivity).
  apply bind_ok in E. destruct E as (l & El & E). apply Ok_inj in E. apply pair_equal_spec in E. destruct E as [E Ef]. apply pair_equal_spec in E. destruct E as [Es Eg].
  apply pair_equal_spec in Ef. destruct Ef as [Ef E3]. apply pair_equal_spec in Ef. destruct Ef as [E1 E2].
  destruct (getLunar_new _ _ _ El) as (y & m & d & H). exists l, y, m, d. split; [exact H|]. split; [exact Es|]. split; [apply good_termsb_ok; exact Eg|].
  split; [exact E1|]. split; [exact E2|exact E3].
Qed.
Example C61_case : Calendar demo 2023 2025 /\ exists l y m d, Lunar_new demo y m d 12 0 0 = Ok l /\ l_solar l = mkSolar 2024 8 10 12 0 0 /\ good_terms 2024 (l_jieQi l) /\
  sy (term_at (l_jieQi l) 13) = 2024 /\ term_day l 16 - term_day l 13 = 47 /\ Lunar_getFu demo l = Ok (Some (utf8 "中伏", 17)).
Proof.
  split; [exact demo_calendar|].
  assert (E : (let! l := getLunar demo (mkSolar 2024 8 10 12 0 0) in Ok (l_solar l, good_termsb 2024 (l_jieQi l), (sy (term_at (l_jieQi l) 13), term_day l 16 - term_day l 13, Lunar_getFu demo l))) =
    Ok (mkSolar 2024 8 10 12 0 0, true, (2024, 47, Ok (Some (utf8 "中伏", 17))))) by (vm_compute; reflexivity).
  apply bind_ok in E. destruct E as (l & El & E). apply Ok_inj in E. apply pair_equal_spec in E. destruct E as [E Ef]. apply pair_equal_spec in E. destruct E as [Es Eg].
  apply pair_equal_spec in Ef. destruct Ef as [Ef E3]. apply pair_equal_spec in Ef. destruct Ef as [E1 E2].
  destruct (getLunar_new _ _ _ El) as (y & m & d & H). exists l, y, m, d. split; [exact H|]. split; [exact Es|]. split; [apply good_termsb_ok; exact Eg|].
  split; [exact E1|]. split; [exact E2|exact E3].
Qed.
