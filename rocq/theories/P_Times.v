(** C70: the direction of the day's Tai Sui.  C72: the double hours of a day. *)
From Coq Require Import ZArith Lia Bool ZifyBool List String Floats.
From Verif Require Import Py PyFloat FloatFacts PyStr CalSpec DayNo Solar SolarProofs JulianDay LunarUtil T_LunarUtil T_Misc P_Almanac P_Tables
  LunarYear Lunar LunarTime LunarProofs TermProofs CalProofs P_Pillars P_Accessors P_Stars P_NewYear Demo.
Import ListNotations.
Open Scope Z_scope.

(** ** C70 *)
(** The five groups of six days, from 甲子, 丙子, 戊子, 庚子 and 壬子, and their directions. *)
Definition directions : list str := [utf8 "震"; utf8 "离"; utf8 "中"; utf8 "兑"; utf8 "坎"].
Definition in_group (i : Z) : bool := i mod 12 <? 6.
Definition ji_day (i : Z) : bool := i mod 10 =? 5.
Lemma taisui_table : forallb (fun i =>
  match dayPositionTaiSui (pair60 i) (-100) with
  | Ok s => in_group i && negb (ji_day i) && str_eqb s (nth (Z.to_nat (i / 12)) directions [])
  | Raise _ => negb (in_group i) || ji_day i end) (zrange 0 60) = true.
Proof. vm_compute. reflexivity. Qed.
Lemma taisui_else p z : dayPositionTaiSui p z = match dayPositionTaiSui p (-100) with Ok s => Ok s | Raise _ => py_index LunarUtil_POSITION_TAI_SUI_YEAR z end.
Proof. unfold dayPositionTaiSui. repeat match goal with |- context [if ?b then _ else _] => destruct b end; reflexivity. Qed.
Definition day_and_year (l : Lunar) (sect : Z) : res str * Z :=
  if sect =? 1 then (Lunar_getDayInGanZhi l, l_yearZhi l)
  else if sect =? 3 then (Lunar_getDayInGanZhi l, l_yearZhiExact l)
  else (Lunar_getDayInGanZhiExact2 l, l_yearZhiByLiChun l).
Lemma taisui_spec l sect i z : day_and_year l sect = (Ok (pair60 i), z) -> Lunar_getDayPositionTaiSui l sect = dayPositionTaiSui (pair60 i) z.
Proof.
  intros H. unfold Lunar_getDayPositionTaiSui. unfold day_and_year in H. rewrite (Z.eqb_sym 1), (Z.eqb_sym 3).
  destruct (sect =? 1); [|destruct (sect =? 3)]; apply pair_equal_spec in H; destruct H as [-> ->]; reflexivity.
Qed.
(** In the groups, but for the 己 days, the direction is that of the group; outside them it is that of the year's Tai Sui. *)
Theorem C70_day_tai_sui : forall l sect i z, 0 <= i < 60 -> day_and_year l sect = (Ok (pair60 i), z) ->
  (i mod 12 < 6 -> i mod 10 <> 5 -> Lunar_getDayPositionTaiSui l sect = Ok (nth (Z.to_nat (i / 12)) directions [])) /\
  (6 <= i mod 12 -> Lunar_getDayPositionTaiSui l sect = py_index LunarUtil_POSITION_TAI_SUI_YEAR z) /\
  (i mod 10 = 5 -> Lunar_getDayPositionTaiSui l sect = py_index LunarUtil_POSITION_TAI_SUI_YEAR z).
Proof.
  intros l sect i z Hi H. rewrite (taisui_spec _ _ _ _ H), taisui_else.
  pose proof (forallb_zrange _ _ _ taisui_table i Hi) as T. cbv beta in T. unfold in_group, ji_day in T.
  destruct (dayPositionTaiSui (pair60 i) (-100)) as [s|]; split; [|split| |split]; intros; try lia; try reflexivity.
  apply andb_prop in T. destruct T as [_ T]. apply str_eqb_eq in T. now subst s.
Qed.
(** So 己卯, of the 离 group, gets the direction of the year instead. *)
Theorem C70_refuted : exists l, (exists s, getLunar demo s = Ok l) /\ Lunar_getDayInGanZhi l = Ok (utf8 "己卯") /\ Lunar_getDayPositionTaiSui l 1 = Ok (utf8 "巽").
Proof.
  assert (E : (let! l := getLunar demo (mkSolar 2024 3 16 12 0 0) in Ok (Lunar_getDayInGanZhi l, Lunar_getDayPositionTaiSui l 1)) = Ok (Ok (utf8 "己卯"), Ok (utf8 "巽"))) by (vm_compute; reflexivity).
  apply bind_ok in E. destruct E as (l & El & E). apply Ok_inj in E. apply pair_equal_spec in E. destruct E as [E1 E2].
  exists l. split; [exists (mkSolar 2024 3 16 12 0 0); exact El|]. split; assumption.
Qed.
Example C70_case : exists l, (exists s, getLunar demo s = Ok l) /\ day_and_year l 2 = (Ok (pair60 14), 4) /\ Lunar_getDayPositionTaiSui l 2 = Ok (utf8 "离").
Proof.
  assert (E : (let! l := getLunar demo (mkSolar 2024 3 15 12 0 0) in Ok (day_and_year l 2, Lunar_getDayPositionTaiSui l 2)) = Ok ((Ok (pair60 14), 4), Ok (utf8 "离"))) by (vm_compute; reflexivity).
  apply bind_ok in E. destruct E as (l & El & E). apply Ok_inj in E. apply pair_equal_spec in E. destruct E as [E1 E2].
  exists l. split; [exists (mkSolar 2024 3 15 12 0 0); exact El|]. split; assumption.
Qed.

(** ** C72 *)
(** Minutes of the day as [hh:mm]; the first and last minute of the thirteen periods of a civil day. *)
Definition hm (x : Z) : str := hhmm (x / 60) (x mod 60).
Definition first_minute (i : Z) : Z := if i =? 0 then 0 else 120 * i - 60.
Definition last_minute (i : Z) : Z := if i =? 12 then 1439 else 120 * i + 59.
Lemma periods_tile : first_minute 0 = 0 /\ last_minute 12 = 1439 /\ forall i, 0 <= i < 12 -> first_minute (i + 1) = last_minute i + 1 /\ first_minute i <= last_minute i.
Proof. split; [reflexivity|]. split; [reflexivity|]. intros i H. unfold first_minute, last_minute. replace (i + 1 =? 0) with false by lia. replace (i =? 12) with false by lia. destruct (Z.eqb_spec i 0); lia. Qed.
Definition same_day (a b : Solar) : Prop := sdate a = sdate b.

Lemma time_inv fy y m d h mi s t : LunarTime_new fy y m d h mi s = Ok t -> Lunar_new fy y m d h mi s = Ok (t_lunar t) /\
  t_zhi t = getTimeZhiIndex (hhmm h mi) /\ t_gan t = (l_dayGanExact (t_lunar t) mod 5 * 2 + t_zhi t) mod 10.
Proof.
  intros H. unfold LunarTime_new in H. apply bind_ok in H. destruct H as (l & El & H). cbv zeta in H. apply Ok_inj in H. subst t. cbn [t_lunar t_zhi t_gan].
  split; [exact El|]. split; reflexivity.
Qed.
Lemma zhi_at h mi : 0 <= h < 24 -> 0 <= mi < 60 -> getTimeZhiIndex (hhmm h mi) = (h + 1) / 2 mod 12.
Proof. intros A B. pose proof (C39_time_zhi h mi [] A B) as E. now rewrite app_nil_r in E. Qed.
Lemma new_hms fy y m d h mi s l : Lunar_new fy y m d h mi s = Ok l -> l_hour l = h /\ valid_time h mi s.
Proof.
  intros H. destruct (Lunar_new_inv _ _ _ _ _ _ _ _ H) as (t & mo & noon & t2 & _ & _ & _ & _ & _ & V & _ & Cc).
  split; [apply (cp_hms _ _ _ _ _ _ _ _ _ Cc)|exact V].
Qed.
Lemma hm_table : forallb (fun h => let i := (h + 1) / 2 in
  str_eqb (if h <? 1 then lit "00:00" else if 22 <? h then lit "23:00" else fmt0 2 (if h mod 2 =? 0 then h - 1 else h) ++ lit ":00") (hm (first_minute i)) &&
  str_eqb (if h <? 1 then lit "00:59" else if 22 <? h then lit "23:59" else fmt0 2 (if h mod 2 =? 0 then h else h + 1) ++ lit ":59") (hm (last_minute i))) (zrange 0 24) = true.
Proof. vm_compute. reflexivity. Qed.
Lemma period h mi s t fy y m d : LunarTime_new fy y m d h mi s = Ok t -> let i := (h + 1) / 2 in
  0 <= h < 24 /\ LunarTime_getMinHm t = hm (first_minute i) /\ LunarTime_getMaxHm t = hm (last_minute i) /\ LunarTime_getZhi t = Ok (branch i) /\ t_zhi t = i mod 12.
Proof.
  intros H i. destruct (time_inv _ _ _ _ _ _ _ _ H) as (El & Ez & _). destruct (new_hms _ _ _ _ _ _ _ _ El) as (Eh & V). unfold valid_time in V.
  split; [lia|]. pose proof (forallb_zrange _ _ _ hm_table h ltac:(lia)) as T. cbv beta zeta in T. fold i in T. apply andb_prop in T. destruct T as [T1 T2].
  apply str_eqb_eq in T1. apply str_eqb_eq in T2. unfold LunarTime_getMinHm, LunarTime_getMaxHm, LunarTime_getZhi. rewrite Eh. cbv zeta.
  split; [exact T1|]. split; [exact T2|]. rewrite Ez, zhi_at by lia. fold i. split; [|reflexivity].
  rewrite ZHI_ok by (apply Z.mod_pos_bound; lia). unfold branch. now rewrite Zmod_mod.
Qed.
(** The bounds of a time bracket it, are one or two hours apart, and every minute between them has its branch. *)
Theorem C72_bounds : forall fromYear y m d h mi s t, LunarTime_new fromYear y m d h mi s = Ok t -> exists a b,
  LunarTime_getMinHm t = hm a /\ LunarTime_getMaxHm t = hm b /\ 0 <= a <= 60 * h + mi /\ 60 * h + mi <= b < 1440 /\
  (b - a = 119 \/ (b - a = 59 /\ (h = 0 \/ h = 23))) /\
  forall x, a <= x <= b -> convertTime (hm x) = LunarTime_getZhi t.
Proof.
  intros fy y m d h mi s t H. destruct (period _ _ _ _ _ _ _ _ H) as (Hh & E1 & E2 & Ez & _).
  destruct (time_inv _ _ _ _ _ _ _ _ H) as (El & _). destruct (new_hms _ _ _ _ _ _ _ _ El) as (_ & V). unfold valid_time in V.
  set (i := (h + 1) / 2) in *. exists (first_minute i), (last_minute i). split; [exact E1|]. split; [exact E2|].
  assert (Hi : 2 * i <= h + 1 < 2 * i + 2) by (unfold i; clear; Z.div_mod_to_equations; lia).
  unfold first_minute, last_minute. destruct (Z.eqb_spec i 0), (Z.eqb_spec i 12); (split; [lia|]); (split; [lia|]); (split; [lia|]); intros x Hx.
  all: assert (Hx' : 0 <= x < 1440) by lia; rewrite Ez; unfold convertTime, hm; rewrite zhi_at by (clear - Hx'; Z.div_mod_to_equations; lia).
  all: rewrite ZHI_ok by (apply Z.mod_pos_bound; lia); unfold branch; rewrite Zmod_mod.
  all: replace ((x / 60 + 1) / 2) with i; [reflexivity|]; assert (Hi' : 120 * i - 60 <= x <= 120 * i + 59) by lia; clear - Hi'; Z.div_mod_to_equations; lia.
Qed.
(** A time has the pillar that its Lunar shows. *)
Theorem C72_pillar : forall fromYear y m d h mi s l t, Lunar_new fromYear y m d h mi s = Ok l -> Lunar_getTime fromYear l = Ok t ->
  LunarTime_getGanZhi t = Lunar_getTimeInGanZhi l.
Proof.
  intros fy y m d h mi s l t El H. destruct (Lunar_new_inv _ _ _ _ _ _ _ _ El) as (t0 & mo & noon & t2 & _ & _ & _ & _ & _ & V & _ & Cc).
  destruct Cc as [(Y & M & D) (Hh & Hm & Hs) _ _ _ _ _ _ Ct _]. unfold Lunar_getTime in H. rewrite Y, M, D, Hh, Hm, Hs in H.
  destruct (time_inv _ _ _ _ _ _ _ _ H) as (El' & Ez & Eg). rewrite El in El'. apply Ok_inj in El'. rewrite <- El' in Eg.
  unfold valid_time in V. unfold computeTime in Ct. rewrite hm_str_hhmm in Ct by lia. cbv zeta in Ct. apply pair_equal_spec in Ct. destruct Ct as [C1 C2].
  rewrite <- Ez in C1, C2. unfold LunarTime_getGanZhi, LunarTime_getGan, LunarTime_getZhi, Lunar_getTimeInGanZhi, Lunar_getTimeGan, Lunar_getTimeZhi.
  now rewrite Eg, C1, C2.
Qed.

(** On another hour of the same day the conversion finds the same lunar date. *)
Lemma find_same s s' ms : sdate s = sdate s' -> find_month s ms = find_month s' ms.
Proof.
  intros E. unfold sdate in E. injection E as E1 E2 E3. induction ms as [|m ms IH]; [reflexivity|]. cbn [find_month]. unfold subtract. rewrite E1, E2, E3, IH. reflexivity.
Qed.
Lemma other_hour fy lo hi s l h mi sec : Calendar fy lo hi -> valid_solar s -> lo < sy s < hi -> getLunar fy s = Ok l -> valid_time h mi sec ->
  exists l', Lunar_new fy (l_year l) (l_month l) (l_day l) h mi sec = Ok l' /\ l_solar l' = mkSolar (sy s) (sm s) (sd s) h mi sec.
Proof.
  intros C V B El T. set (s' := mkSolar (sy s) (sm s) (sd s) h mi sec).
  assert (V' : valid_solar s') by (split; [apply V|exact T]).
  destruct (getLunar_spec C s' V' B) as (l' & t & a & El' & _ & _ & _ & _ & _ & _ & _ & _ & _ & Es'). exists l'. split; [|exact Es'].
  unfold getLunar in El, El'. change (sy s') with (sy s) in El'. apply bind_ok in El. destruct El as (t0 & Et & El). rewrite Et in El'. cbn [bind] in El'.
  rewrite (find_same s' s) in El' by reflexivity. destruct (find_month s (lmonths t0)) as [[[y m] d]|]; [|discriminate]. cbn [bind] in *.
  destruct (Lunar_new_inv _ _ _ _ _ _ _ _ El) as (x1 & x2 & x3 & x4 & _ & _ & _ & _ & _ & _ & _ & Cc). destruct (cp_ymd _ _ _ _ _ _ _ _ _ Cc) as (-> & -> & ->).
  exact El'.
Qed.
(** getTimes: thirteen periods of the day, tiling it, with the branches in order and consecutive pillars. *)
Theorem C72_times : forall fy lo hi s l, Calendar fy lo hi -> valid_solar s -> lo < sy s < hi -> getLunar fy s = Ok l ->
  exists ts, Lunar_getTimes fy l = Ok ts /\
    map LunarTime_getMinHm ts = map (fun i => hm (first_minute i)) (zrange 0 13) /\
    map LunarTime_getMaxHm ts = map (fun i => hm (last_minute i)) (zrange 0 13) /\
    map LunarTime_getZhi ts = map (fun i => Ok (branch i)) (zrange 0 13) /\
    map LunarTime_getGanZhi ts = map (fun i => Ok (pair60 (12 * (dayno (sdate s) - 11) + i))) (zrange 0 13) /\
    Forall (fun t => sdate (l_solar (t_lunar t)) = sdate s) ts.
Proof.
  intros fy lo hi s l C V B El.
  set (hour := fun i => if i =? 0 then 0 else 2 * i - 1).
  assert (G : forall i, 0 <= i < 13 -> exists t, LunarTime_new fy (l_year l) (l_month l) (l_day l) (hour i) 0 0 = Ok t /\
    LunarTime_getMinHm t = hm (first_minute i) /\ LunarTime_getMaxHm t = hm (last_minute i) /\ LunarTime_getZhi t = Ok (branch i) /\
    LunarTime_getGanZhi t = Ok (pair60 (12 * (dayno (sdate s) - 11) + i)) /\ sdate (l_solar (t_lunar t)) = sdate s).
  { intros i Hi. assert (Vh : valid_time (hour i) 0 0) by (unfold valid_time, hour; destruct (Z.eqb_spec i 0); lia).
    destruct (other_hour fy lo hi s l (hour i) 0 0 C V B El Vh) as (l' & El' & Es').
    assert (E : exists t, LunarTime_new fy (l_year l) (l_month l) (l_day l) (hour i) 0 0 = Ok t) by (unfold LunarTime_new; rewrite El'; cbn [bind]; eexists; reflexivity).
    destruct E as (t & E). exists t. split; [exact E|]. destruct (period _ _ _ _ _ _ _ _ E) as (Hh & P1 & P2 & P3 & P4).
    assert (Ei : (hour i + 1) / 2 = i) by (unfold hour; destruct (Z.eqb_spec i 0); Z.div_mod_to_equations; lia). rewrite Ei in *.
    split; [exact P1|]. split; [exact P2|]. split; [exact P3|].
    destruct (time_inv _ _ _ _ _ _ _ _ E) as (El'' & Ez & Eg). rewrite El' in El''. apply Ok_inj in El''. subst l'.
    assert (Es : sdate (l_solar (t_lunar t)) = sdate s) by (rewrite Es'; reflexivity). split; [|exact Es].
    pose proof (cal_range _ _ _ C) as R.
    destruct (Lunar_new_day _ _ _ _ _ _ _ _ El') as (_ & _ & _ & _ & Dg & _); [rewrite Es'; split; [apply V|exact Vh]|rewrite Es'; unfold jd_year; cbn [sy]; lia|].
    rewrite Es in Dg. set (n := dayno (sdate s) - 11) in *. clearbody n.
    unfold LunarTime_getGanZhi, LunarTime_getGan, LunarTime_getZhi. apply pillar; [rewrite Eg, Dg|rewrite P4]; rewrite P4 || idtac.
    - assert (Hk : (if hour i =? 23 then 1 else 0) = if i =? 12 then 1 else 0) by (unfold hour; destruct (Z.eqb_spec i 0) as [->|]; [reflexivity|]; destruct (Z.eqb_spec i 12) as [->|]; [reflexivity|]; now replace (2 * i - 1 =? 23) with false by lia).
      rewrite Hk. destruct (Z.eqb_spec i 12) as [->|]; clear - Hi n0 || clear - n; Z.div_mod_to_equations; lia.
    - clear; Z.div_mod_to_equations; lia. }
  assert (G2 : forall is_, Forall (fun i => 0 <= i < 13) is_ -> exists ts, mapM (fun i => LunarTime_new fy (l_year l) (l_month l) (l_day l) (hour i) 0 0) is_ = Ok ts /\
    map LunarTime_getMinHm ts = map (fun i => hm (first_minute i)) is_ /\ map LunarTime_getMaxHm ts = map (fun i => hm (last_minute i)) is_ /\
    map LunarTime_getZhi ts = map (fun i => Ok (branch i)) is_ /\ map LunarTime_getGanZhi ts = map (fun i => Ok (pair60 (12 * (dayno (sdate s) - 11) + i))) is_ /\
    Forall (fun t => sdate (l_solar (t_lunar t)) = sdate s) ts).
  { induction 1 as [|i is_ Hi _ (ts & E & I1 & I2 & I3 & I4 & I5)].
    - exists []. repeat split; try reflexivity. apply Forall_nil.
    - destruct (G i Hi) as (t & Et & J1 & J2 & J3 & J4 & J5). exists (t :: ts). cbn [mapM map]. rewrite Et. cbn [bind]. rewrite E. cbn [bind].
      rewrite I1, I2, I3, I4, J1, J2, J3, J4. repeat (split; [reflexivity|]). apply Forall_cons; assumption. }
  destruct (G2 (zrange 0 13)) as (ts & E & I); [apply Forall_forall; intros i I; apply in_zrange in I; lia|].
  exists ts. split; [|exact I]. rewrite <- E. unfold Lunar_getTimes.
  change (zrange 0 13) with (0 :: map (fun i => i + 1) (zrange 0 12)). cbn [mapM]. change (hour 0) with 0.
  destruct (LunarTime_new fy (l_year l) (l_month l) (l_day l) 0 0 0); [|reflexivity]. cbn [bind].
  reflexivity.
Qed.

Example C72_case : Calendar demo 2023 2025 /\ exists l, getLunar demo (mkSolar 2024 2 29 13 5 0) = Ok l /\
  (let! t := Lunar_getTime demo l in Ok (LunarTime_getMinHm t, LunarTime_getMaxHm t, LunarTime_getGanZhi t)) = Ok (lit "13:00", lit "14:59", Ok (utf8 "己未")).
Proof.
  split; [exact demo_calendar|].
  assert (E : (let! l := getLunar demo (mkSolar 2024 2 29 13 5 0) in let! t := Lunar_getTime demo l in Ok (LunarTime_getMinHm t, LunarTime_getMaxHm t, LunarTime_getGanZhi t)) = Ok (lit "13:00", lit "14:59", Ok (utf8 "己未"))) by (vm_compute; reflexivity).
  apply bind_ok in E. destruct E as (l & El & E). exists l. split; assumption.
Qed.
