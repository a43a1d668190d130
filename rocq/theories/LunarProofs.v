(** Lemmas on the construction of Lunar objects, used by the P_Lunar files. *)
From Flocq Require Import Core.
From Coq Require Import ZArith Lia Bool ZifyBool List String Floats.
From Verif Require Import Py PyFloat PyStr Solar SolarUnits CalSpec DayNo SolarProofs FloatFacts JulianDay P_JD P_Solar UnitsProofs
  LunarUtil T_LunarUtil T_Misc P_Almanac P_Tables LunarYear Lunar.
Import ListNotations.
Open Scope Z_scope.

Lemma bind_ok {A B} (x : res A) (f : A -> res B) b : bind x f = Ok b -> exists a, x = Ok a /\ f a = Ok b.
Proof. destruct x; cbn; [eauto|discriminate]. Qed.

(** What __init__ stores, attribute by attribute. *)
Record computed (year month day hour minute second : Z) (solar : Solar) (t : LYear) (l : Lunar) : Prop := mkComputed {
  cp_ymd : l_year l = year /\ l_month l = month /\ l_day l = day;
  cp_hms : l_hour l = hour /\ l_minute l = minute /\ l_second l = second;
  cp_solar : l_solar l = solar;
  cp_terms : computeJieQi (lterms t) = Ok (l_jieQi l);
  cp_year : computeYear year solar (l_jieQi l) =
    Ok (l_yearGan l, l_yearZhi l, l_yearGanByLiChun l, l_yearZhiByLiChun l, l_yearGanExact l, l_yearZhiExact l);
  cp_month : computeMonth solar (l_jieQi l) (l_yearGanByLiChun l) (l_yearGanExact l) =
    Ok (l_monthGan l, l_monthZhi l, l_monthGanExact l, l_monthZhiExact l);
  cp_day : computeDay solar hour minute = Ok (l_dayGan l, l_dayZhi l, l_dayGanExact l, l_dayZhiExact l);
  cp_day2 : l_dayGanExact2 l = l_dayGan l /\ l_dayZhiExact2 l = l_dayZhi l;
  cp_time : computeTime hour minute (l_dayGanExact l) = (l_timeGan l, l_timeZhi l);
  cp_week : getWeek solar = Ok (l_week l)
}.

Lemma Lunar_compute_inv year month day hour minute second solar t l :
  Lunar_compute year month day hour minute second solar t = Ok l ->
  computed year month day hour minute second solar t l.
Proof.
  unfold Lunar_compute. intros H.
  apply bind_ok in H. destruct H as (jq & Ej & H).
  apply bind_ok in H. destruct H as ([[[[[yg yz] ygl] yzl] yge] yze] & Ey & H).
  apply bind_ok in H. destruct H as ([[[mg mz] mge] mze] & Em & H).
  apply bind_ok in H. destruct H as ([[[dg dz] dge] dze] & Ed & H).
  destruct (computeTime hour minute dge) as [tg tz] eqn:Et.
  apply bind_ok in H. destruct H as (w & Ew & H).
  apply Ok_inj in H. subst l. constructor; cbn; auto.
Qed.

(** The day and its double hour. *)
Lemma pad10_fmt n : 0 <= n < 100 -> pad10 n = fmt0 2 n.
Proof.
  intros H. assert (forallb (fun n => str_eqb (pad10 n) (fmt0 2 n)) (zrange 0 100) = true) as T by (vm_compute; reflexivity).
  by_table T n. now apply str_eqb_eq.
Qed.
Lemma hm_str_hhmm h m : 0 <= h < 100 -> 0 <= m < 100 -> hm_str h m = hhmm h m.
Proof. intros. unfold hm_str, hhmm. now rewrite !pad10_fmt. Qed.

Lemma late_hour h m : 0 <= h < 24 -> 0 <= m < 60 ->
  str_leb (lit "23:00") (hhmm h m) && str_leb (hhmm h m) (lit "23:59") = (h =? 23).
Proof.
  intros Hh Hm.
  assert (forallb (fun h => forallb (fun m =>
    Bool.eqb (str_leb (lit "23:00") (hhmm h m) && str_leb (hhmm h m) (lit "23:59")) (h =? 23)) (zrange 0 60)) (zrange 0 24) = true) as T
    by (vm_compute; reflexivity).
  by_table T h. by_table X m. now apply eqb_prop.
Qed.

Lemma dayno_jdn a n : valid_date a -> n = dayno a -> days_later (n - 2451545) (2000, 1, 1) a.
Proof. intros V ->. rewrite jdn_dayno by exact V. reflexivity. Qed.

Lemma computeDay_spec s h m : valid_solar s -> jd_year (sy s) -> 0 <= h < 24 -> 0 <= m < 60 ->
  let n := dayno (sdate s) - 11 in
  let k := n + (if h =? 23 then 1 else 0) in
  computeDay s h m = Ok (n mod 10, n mod 12, k mod 10, k mod 12).
Proof.
  intros V J Hh Hm n k. unfold computeDay.
  rewrite fromYmdHms_ok by (exact (proj1 V) || (unfold valid_time; lia)). cbn [bind].
  rewrite (C07_noon_is_day_number (sy s) (sm s) (sd s) (dayno (sdate s)))
    by (apply V || exact J || (apply dayno_jdn; [apply V|reflexivity])).
  cbn [bind]. pose proof (dayno_range _ _ _ (proj1 V) J) as R. fold (sdate s) in R.
  destruct (float_of_Z_spec (dayno (sdate s)) ltac:(lia)) as [F E].
  rewrite py_int_spec by exact F. rewrite E, Ztrunc_IZR. cbn [bind].
  rewrite hm_str_hhmm, late_hour by lia. fold n. unfold k.
  destruct (h =? 23); cbn [bind].
  - assert (0 <= n mod 10 < 10) by lia. assert (0 <= n mod 12 < 12) by lia.
    replace (if 10 <=? n mod 10 + 1 then n mod 10 + 1 - 10 else n mod 10 + 1) with ((n + 1) mod 10)
      by (destruct (Z.leb_spec 10 (n mod 10 + 1)); lia).
    replace (if 12 <=? n mod 12 + 1 then n mod 12 + 1 - 12 else n mod 12 + 1) with ((n + 1) mod 12)
      by (destruct (Z.leb_spec 12 (n mod 12 + 1)); lia).
    reflexivity.
  - now rewrite Z.add_0_r.
Qed.

Lemma computeTime_spec h m g : 0 <= h < 24 -> 0 <= m < 60 ->
  computeTime h m g = ((2 * g + (h + 1) / 2 mod 12) mod 10, (h + 1) / 2 mod 12).
Proof.
  intros Hh Hm. unfold computeTime. rewrite hm_str_hhmm by lia.
  pose proof (C39_time_zhi h m [] Hh Hm) as E. rewrite app_nil_r in E. rewrite E.
  f_equal. set (z := (h + 1) / 2 mod 12). clearbody z. clear E. lia.
Qed.

Lemma GAN_ok i : 0 <= i < 10 -> py_index LunarUtil_GAN (i + 1) = Ok (stem i).
Proof.
  intros H. assert (forallb (fun i => ok_is (py_index LunarUtil_GAN (i + 1)) (stem i)) (zrange 0 10) = true) as T by (vm_compute; reflexivity).
  by_table T i. now apply ok_is_eq.
Qed.
Lemma ZHI_ok i : 0 <= i < 12 -> py_index LunarUtil_ZHI (i + 1) = Ok (branch i).
Proof.
  intros H. assert (forallb (fun i => ok_is (py_index LunarUtil_ZHI (i + 1)) (branch i)) (zrange 0 12) = true) as T by (vm_compute; reflexivity).
  by_table T i. now apply ok_is_eq.
Qed.

Lemma stem_of g n : g = n mod 10 -> stem g = stem n.
Proof. intros ->. unfold stem. now rewrite Z.mod_mod by lia. Qed.
Lemma branch_of g n : g = n mod 12 -> branch g = branch n.
Proof. intros ->. unfold branch. now rewrite Z.mod_mod by lia. Qed.

Lemma pillar g z n : g = n mod 10 -> z = n mod 12 ->
  cat2 (py_index LunarUtil_GAN (g + 1)) (py_index LunarUtil_ZHI (z + 1)) = Ok (pair60 n).
Proof.
  intros -> ->. rewrite GAN_ok, ZHI_ok by lia. cbn [cat2 bind]. unfold pair60.
  now rewrite (stem_of (n mod 10) n), (branch_of (n mod 12) n) by reflexivity.
Qed.

(** Everything a successful constructor call tells. *)
Lemma Lunar_new_inv fromYear y m d h mi s l : Lunar_new fromYear y m d h mi s = Ok l ->
  exists t mo noon t2,
    fromYear y = Ok t /\ getMonth t m = Some mo /\ 1 <= d <= mcount mo /\
    fromJulianDay (float_of_Z (mfirst mo + d - 1)) = Ok noon /\
    l_solar l = mkSolar (sy noon) (sm noon) (sd noon) h mi s /\ valid_time h mi s /\
    (if sy noon =? y then t2 = t else fromYear (sy noon) = Ok t2) /\
    computed y m d h mi s (l_solar l) t2 l.
Proof.
  unfold Lunar_new. intros H. apply bind_ok in H. destruct H as (t & Et & H).
  destruct (getMonth t m) as [mo|] eqn:Em; [|discriminate].
  destruct (Z.ltb_spec d 1); [discriminate|]. destruct (Z.ltb_spec (mcount mo) d); [discriminate|].
  apply bind_ok in H. destruct H as (noon & En & H).
  apply bind_ok in H. destruct H as (solar & Es & H).
  apply bind_ok in H. destruct H as (t2 & E2 & H).
  apply Lunar_compute_inv in H. pose proof (cp_solar _ _ _ _ _ _ _ _ _ H) as ES.
  apply C13_accepted_iff in Es. destruct Es as (-> & _ & _ & _ & VT).
  exists t, mo, noon, t2. rewrite ES. repeat split; auto; try lia; try apply VT; try apply H.
  destruct (sy noon =? y); cbn [negb] in E2; [now apply Ok_inj in E2|exact E2].
Qed.

(** The parts that only depend on the resulting moment. *)
Lemma Lunar_new_day fromYear y m d h mi s l : Lunar_new fromYear y m d h mi s = Ok l ->
  valid_solar (l_solar l) -> jd_year (sy (l_solar l)) ->
  let n := dayno (sdate (l_solar l)) - 11 in
  let k := n + (if h =? 23 then 1 else 0) in
  l_hour l = h /\ sh (l_solar l) = h /\
  l_dayGan l = n mod 10 /\ l_dayZhi l = n mod 12 /\ l_dayGanExact l = k mod 10 /\ l_dayZhiExact l = k mod 12 /\
  l_dayGanExact2 l = n mod 10 /\ l_dayZhiExact2 l = n mod 12 /\
  l_timeGan l = (2 * k + (h + 1) / 2 mod 12) mod 10 /\ l_timeZhi l = (h + 1) / 2 mod 12 /\
  l_week l = (n + 12) mod 7.
Proof.
  intros H V J n k. destruct (Lunar_new_inv _ _ _ _ _ _ _ _ H) as (t & mo & noon & t2 & _ & _ & _ & _ & ES & VT & _ & C).
  unfold valid_time in VT. destruct C as [_ (Hh & _) _ _ _ _ Cd C2 Ct Cw].
  rewrite computeDay_spec in Cd by (assumption || lia). apply Ok_inj in Cd. fold n in Cd. fold k in Cd.
  injection Cd as Dg Dz Dge Dze. rewrite computeTime_spec in Ct by lia. apply pair_equal_spec in Ct. destruct Ct as [Tg Tz].
  rewrite getWeek_spec in Cw by assumption. apply Ok_inj in Cw.
  split; [exact Hh|]. split; [now rewrite ES|]. destruct C2 as [C2 C3].
  repeat split; try congruence; try lia.
Qed.
