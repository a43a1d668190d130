(** C64: the start of luck.  C65: the decades.  C66: yearly, minor and monthly luck. *)
From Coq Require Import ZArith Lia Bool ZifyBool List String Floats.
From Verif Require Import Py PyFloat FloatFacts PyStr CalSpec DayNo Solar SolarProofs SolarProofs2 JulianDay P_JD P_Solar UnitsProofs SolarUnits LunarUtil T_LunarUtil T_Misc AlmanacProofs P_Almanac P_Tables
  LunarYear Lunar LunarTime LunarProofs TermProofs P_Terms CalProofs P_LunarYears P_Pillars P_Accessors P_Stars P_NewYear EightChar P_EightChar P_Seasons Demo.
Import ListNotations.
Open Scope Z_scope.

(** ** C64 *)
(** Minutes since day 0, and the double hour of a moment (23:00 still counted in the last one of its day). *)
Definition minute_of (s : Solar) : Z := 1440 * dayno (sdate s) + 60 * sh s + smi s.
Definition double_hour (s : Solar) : Z := if sh s =? 23 then 11 else (sh s + 1) / 2.
(** Yang years for men and yin years for women go forwards: to the first 节 after birth; otherwise backwards, to the last one not after it. *)
Definition goes_forward (yang : bool) (gender : Z) : bool := if gender =? 1 then yang else negb yang.
Definition first_after (l : Lunar) (i : Z) : Prop := 0 <= i < 31 /\ Z.even i = true /\ instant (l_solar l) < instant (term_at (l_jieQi l) i) /\
  forall j, 0 <= j < 31 -> Z.even j = true -> instant (l_solar l) < instant (term_at (l_jieQi l) j) -> i <= j.
Definition last_not_after (l : Lunar) (i : Z) : Prop := 0 <= i < 31 /\ Z.even i = true /\ instant (term_at (l_jieQi l) i) <= instant (l_solar l) /\
  forall j, 0 <= j < 31 -> Z.even j = true -> instant (term_at (l_jieQi l) j) <= instant (l_solar l) -> j <= i.

Lemma dayno_range s : fmt_ok s -> 1721057 < dayno (sdate s) < 10000000.
Proof.
  intros [[V _] Y]. pose proof (dayno_year _ _ _ V) as X1. fold (sdate s) in X1.
  pose proof (ybase_mono 0 (sy s) ltac:(lia)). pose proof (ybase_mono (sy s + 1) 10000 ltac:(lia)).
  assert (ybase 0 = 1721057 /\ ybase 10000 < 10000000) by (split; [vm_compute; reflexivity|vm_compute; reflexivity]). lia.
Qed.
Lemma yun_zhi_spec s : fmt_ok s -> yun_zhi s = double_hour s.
Proof.
  intros [V Y]. unfold yun_zhi, double_hour. destruct (Z.eqb_spec (sh s) 23) as [|N]; [reflexivity|].
  assert (T := proj2 V). unfold valid_time in T.
  assert (E : slice (toYmdHms s) 11 16 = hhmm (sh s) (smi s)).
  { assert (R : toYmdHms s = (toYmd s ++ lit " ") ++ hhmm (sh s) (smi s) ++ (lit ":" ++ fmt0 2 (ss s))) by (unfold toYmdHms, hhmm; rewrite <- !app_assoc; reflexivity).
    rewrite R. clear R.
    assert (L : List.length (hhmm (sh s) (smi s)) = 5%nat).
    { unfold hhmm. change 2 with (Z.of_nat 2). rewrite !fmt0_fixed by (cbn; lia). rewrite !app_length, !fixed_length. reflexivity. }
    apply (slice_mid (toYmd s ++ lit " ") (hhmm (sh s) (smi s)) (lit ":" ++ fmt0 2 (ss s))); rewrite ?app_length, ?L, (toYmd_length s (proj1 V) Y); reflexivity. }
  rewrite E, <- (app_nil_r (hhmm _ _)), C39_time_zhi by lia. Z.div_mod_to_equations; lia.
Qed.
Lemma yun_minutes_spec M : 0 <= M <= 2 ^ 50 -> exists y m d h, yun_minutes M = Ok (y, m, d, h) /\ 4320 * y + 360 * m + 12 * d + h / 2 = M /\
  0 <= y /\ 0 <= m < 12 /\ 0 <= d < 30 /\ 0 <= h < 24 /\ Z.even h = true.
Proof.
  intros B. unfold yun_minutes. rewrite int_truediv_spec by lia. cbn [bind]. rewrite Z.quot_div_nonneg by lia. cbv zeta.
  set (y := M / 4320). assert (Y : 0 <= y /\ 0 <= M - y * 4320 < 4320) by (unfold y; clear - B; Z.div_mod_to_equations; lia). set (M1 := M - y * 4320) in *.
  rewrite int_truediv_spec by lia. cbn [bind]. rewrite Z.quot_div_nonneg by lia.
  set (m := M1 / 360). assert (Hm : 0 <= m < 12 /\ 0 <= M1 - m * 360 < 360) by (unfold m; clear - Y; Z.div_mod_to_equations; lia). set (M2 := M1 - m * 360) in *.
  rewrite int_truediv_spec by lia. cbn [bind]. rewrite Z.quot_div_nonneg by lia.
  set (d := M2 / 12). assert (Hd : 0 <= d < 30 /\ 0 <= M2 - d * 12 < 12) by (unfold d; clear - Hm; Z.div_mod_to_equations; lia). set (M3 := M2 - d * 12) in *.
  exists y, m, d, (M3 * 2). split; [reflexivity|]. rewrite Z.div_mul by lia. split; [unfold M3, M2, M1; lia|].
  repeat (split; [lia|]). rewrite Z.even_mul. apply orb_true_r.
Qed.
Lemma yun_hours_spec a b : fmt_ok a -> fmt_ok b -> instant a <= instant b -> exists y m d, yun_hours a b = Ok (y, m, d, 0) /\
  360 * y + 30 * m + d = 10 * (12 * (dayno (sdate b) - dayno (sdate a)) + double_hour b - double_hour a) /\
  0 <= y /\ 0 <= m < 12 /\ 0 <= d < 30.
Proof.
  intros Fa Fb L. pose proof (dayno_range a Fa) as Ra. pose proof (dayno_range b Fb) as Rb. unfold yun_hours. rewrite !yun_zhi_spec by assumption.
  rewrite subtract_spec by (apply Fa || apply Fb). cbn [bind]. cbv zeta.
  assert (Z : 0 <= double_hour a < 12 /\ 0 <= double_hour b < 12 /\ 0 <= 12 * (dayno (sdate b) - dayno (sdate a)) + double_hour b - double_hour a).
  { destruct Fa as [[_ Ta] _]. destruct Fb as [[_ Tb] _]. unfold valid_time in *. unfold instant, sod in L. unfold double_hour.
    destruct (Z.eqb_spec (sh a) 23), (Z.eqb_spec (sh b) 23); Z.div_mod_to_equations; lia. }
  set (D := dayno (sdate b) - dayno (sdate a)) in *. set (za := double_hour a) in *. set (zb := double_hour b) in *.
  assert (Q : exists H D', (if zb - za <? 0 then (zb - za + 12, D - 1) else (zb - za, D)) = (H, D') /\ 0 <= H < 12 /\ 0 <= D' < 10000000 /\ 12 * D' + H = 12 * D + zb - za).
  { destruct (Z.ltb_spec (zb - za) 0); eexists; eexists; (split; [reflexivity|]); unfold D in *; lia. }
  destruct Q as (H & D' & -> & RH & RD & E). rewrite int_truediv_spec by lia. cbn [bind]. rewrite Z.quot_div_nonneg by lia.
  set (k := H * 10 / 30). assert (Hk : 0 <= k < 4 /\ 0 <= H * 10 - k * 30 < 30) by (unfold k; clear - RH; Z.div_mod_to_equations; lia).
  rewrite int_truediv_spec by lia. cbn [bind]. rewrite Z.quot_div_nonneg by lia. set (M := D' * 4 + k) in *.
  set (y := M / 12). assert (Hy : 0 <= y /\ 0 <= M - y * 12 < 12) by (unfold y, M; clear - RD Hk; Z.div_mod_to_equations; lia).
  exists y, (M - y * 12), (H * 10 - k * 30). split; [reflexivity|]. split; [unfold M; lia|]. lia.
Qed.

Theorem C64_start : forall fromYear y m d h mi s l sect gender ysect, Lunar_new fromYear y m d h mi s = Ok l ->
  valid_solar (l_solar l) -> good_terms (sy (l_solar l)) (l_jieQi l) ->
  exists u i, getYun (mkEightChar sect l) gender ysect = Ok u /\ y_lunar u = l /\ y_gender u = gender /\
    y_forward u = goes_forward (Z.even (l_yearGanExact l)) gender /\
    (if y_forward u then first_after l i else last_not_after l i) /\
    let born := l_solar l in let jie := term_at (l_jieQi l) i in
    let start := if y_forward u then born else jie in let end_ := if y_forward u then jie else born in
    0 <= y_year u /\ 0 <= y_month u < 12 /\ 0 <= y_day u < 30 /\ 0 <= y_hour u < 24 /\ Z.even (y_hour u) = true /\
    (ysect = 2 -> 4320 * y_year u + 360 * y_month u + 12 * y_day u + y_hour u / 2 = minute_of end_ - minute_of start) /\
    (ysect <> 2 -> y_hour u = 0 /\ 360 * y_year u + 30 * y_month u + y_day u =
       10 * (12 * (dayno (sdate end_) - dayno (sdate start)) + double_hour end_ - double_hour start)).
Proof.
  intros fy y m d h mi s l sect g ys H V G. destruct (new_good _ _ _ _ _ _ _ _ H V G) as (N & S & F).
  destruct (C57_next _ _ _ _ _ _ _ _ Jie false H V G) as (i1 & B1 & K1 & E1 & X1 & Y1).
  destruct (C57_prev _ _ _ _ _ _ _ _ Jie false H V G) as (i2 & B2 & K2 & E2 & X2 & Y2).
  cbn [next_term prev_term of_kind] in *. unfold before in *. cbv iota in *.
  assert (A1 : first_after l i1) by (split; [exact B1|]; split; [exact K1|]; split; [exact X1|exact Y1]).
  assert (A2 : last_not_after l i2) by (split; [exact B2|]; split; [exact K2|]; split; [lia|]; intros j Bj Kj Lj; apply Y2; [exact Bj|exact Kj|lia]).
  clear Y1 Y2. unfold getYun. cbn [e_lunar]. rewrite E1, E2. cbn [bind jq_solar]. cbv zeta.
  assert (Ef : (0 =? l_yearGanExact l mod 2) && (1 =? g) || negb (0 =? l_yearGanExact l mod 2) && negb (1 =? g) = goes_forward (Z.even (l_yearGanExact l)) g).
  { unfold goes_forward. rewrite (Z.eqb_sym g 1). rewrite Zeven_mod. unfold Zeq_bool. rewrite (Z.eqb_sym 0).
    destruct (1 =? g); [|]; destruct (l_yearGanExact l mod 2 =? 0) eqn:Q; cbn [andb orb negb]; unfold Z.eqb in Q; destruct (l_yearGanExact l mod 2); cbn; congruence || lia || reflexivity. }
  rewrite Ef. set (f := goes_forward _ _). clearbody f. clear Ef.
  set (i := if f then i1 else i2).
  assert (Q : exists a b, (if f then Ok (l_solar l) else Ok (term_at (l_jieQi l) i2)) = Ok a /\ (if f then Ok (term_at (l_jieQi l) i1) else Ok (l_solar l)) = Ok b /\
    a = (if f then l_solar l else term_at (l_jieQi l) i) /\ b = (if f then term_at (l_jieQi l) i else l_solar l) /\ fmt_ok a /\ fmt_ok b /\ instant a <= instant b).
  { unfold i. destruct f; eexists; eexists; (split; [reflexivity|]); (split; [reflexivity|]); (split; [reflexivity|]); (split; [reflexivity|]).
    - split; [exact S|]. split; [apply F; exact B1|lia].
    - split; [apply F; exact B2|]. split; [exact S|lia]. }
  destruct Q as (a & b & -> & -> & Ea & Eb & Fa & Fb & L). cbn [bind].
  pose proof (dayno_range a Fa) as Ra. pose proof (dayno_range b Fb) as Rb.
  assert (M : 0 <= minute_of b - minute_of a <= 2 ^ 50).
  { unfold minute_of. destruct Fa as [[_ Ta] _]. destruct Fb as [[_ Tb] _]. unfold valid_time in *. unfold instant, sod in L. lia. }
  assert (A : if f then first_after l i else last_not_after l i) by (unfold i; destruct f; assumption).
  destruct (Z.eqb_spec 2 ys) as [<-|Ny].
  - rewrite subtractMinute_spec by (apply Fa || apply Fb). cbn [bind].
    replace (1440 * (dayno (sdate b) - dayno (sdate a)) + (60 * sh b + smi b) - (60 * sh a + smi a)) with (minute_of b - minute_of a) by (unfold minute_of; lia).
    destruct (yun_minutes_spec _ M) as (yy & mm & dd & hh & -> & EE & R1 & R2 & R3 & R4 & R5). cbn [bind].
    eexists. exists i. split; [reflexivity|]. cbn [y_lunar y_gender y_forward y_year y_month y_day y_hour]. rewrite <- Ea, <- Eb.
    repeat (split; [(reflexivity || assumption)|]). split; [intros _; exact EE|intros X; now exfalso].
  - destruct (yun_hours_spec a b Fa Fb L) as (yy & mm & dd & -> & EE & R1 & R2 & R3). cbn [bind].
    eexists. exists i. split; [reflexivity|]. cbn [y_lunar y_gender y_forward y_year y_month y_day y_hour]. rewrite <- Ea, <- Eb.
    repeat (split; [(reflexivity || assumption || lia)|]). exact EE.
Qed.

(** ** C65 *)
Lemma start_solar u : valid_solar (l_solar (y_lunar u)) -> 0 <= y_year u -> 0 <= y_month u < 12 -> 0 <= y_day u < 30 -> 0 <= y_hour u < 24 ->
  exists s, Yun_getStartSolar u = Ok s /\ valid_solar s /\ sy (l_solar (y_lunar u)) + y_year u <= sy s.
Proof.
  intros V Hy Hm Hd Hh. unfold Yun_getStartSolar.
  destruct (nextYear_spec _ (y_year u) V) as (s1 & -> & V1 & _ & Y1 & M1 & _). cbn [bind].
  destruct (nextMonth_spec s1 (y_month u) V1 ltac:(lia)) as (s2 & -> & V2 & _ & Y2 & _). cbn [bind].
  unfold next. destruct (nextDay_spec s2 (y_day u) V2) as (s3 & -> & V3 & _ & D3). cbn [bind].
  destruct (nextHour_spec s3 (y_hour u) V3 ltac:(lia)) as (s4 & -> & V4 & _ & _ & D4).
  exists s4. split; [reflexivity|]. split; [exact V4|].
  assert (T3 := proj2 V3). assert (T4 := proj2 V4). unfold valid_time in T3, T4.
  destruct (Z.le_gt_cases (sy s2) (sy s4)) as [L|L].
  - assert (1 <= sm s2 <= 12) by (apply (proj1 V2)). assert (1 <= sm s1 <= 12) by (apply (proj1 V1)). lia.
  - pose proof (year_lt_dayno s4 s2 V4 V2 ltac:(lia)). lia.
Qed.

(** the [i]-th period of a list *)
Definition period (u : Yun) (ds : list DaYun) (i : Z) : DaYun := nth (Z.to_nat i) ds (mkDaYun u 0 0 0 0 0).

Theorem C65_periods : forall fromYear y m d h mi s l sect gender ysect u, Lunar_new fromYear y m d h mi s = Ok l ->
  valid_solar (l_solar l) -> good_terms (sy (l_solar l)) (l_jieQi l) -> getYun (mkEightChar sect l) gender ysect = Ok u ->
  let birth := sy (l_solar l) in
  exists st, Yun_getStartSolar u = Ok st /\ birth <= sy st /\ forall n, 0 <= n -> exists ds, getDaYun u n = Ok ds /\ Z.of_nat (List.length ds) = n /\
    (forall i, 0 <= i < n -> let p := period u ds i in d_yun p = u /\ d_index p = i /\
       d_startAge p = d_startYear p - birth + 1 /\ d_endAge p = d_endYear p - birth + 1 /\
       (i = 0 -> d_startYear p = birth /\ d_endYear p = sy st - 1) /\ (1 <= i -> d_endYear p = d_startYear p + 9)) /\
    (forall i, 0 <= i < n - 1 -> d_startYear (period u ds (i + 1)) = d_endYear (period u ds i) + 1) /\
    (forall Y, 1 <= n -> birth <= Y < sy st + 10 * (n - 1) -> exists i, 0 <= i < n /\ d_startYear (period u ds i) <= Y <= d_endYear (period u ds i) /\
       forall j, 0 <= j < n -> d_startYear (period u ds j) <= Y <= d_endYear (period u ds j) -> j = i).
Proof.
  intros fy y m d h mi s l sect g ys u H V G E birth.
  destruct (C64_start _ _ _ _ _ _ _ _ sect g ys H V G) as (u' & i0 & E' & El & _ & _ & _ & R1 & R2 & R3 & R4 & _). cbv zeta in *.
  rewrite E in E'. apply Ok_inj in E'. subst u'.
  destruct (start_solar u ltac:(rewrite El; exact V) R1 R2 R3 R4) as (st & Es & Vs & Ls). rewrite El in Ls. fold birth in Ls.
  exists st. split; [exact Es|]. split; [lia|]. intros n Hn.
  set (f := fun index => if index <? 1 then mkDaYun u index birth 1 (sy st - 1) (sy st - birth)
      else mkDaYun u index (sy st + (index - 1) * 10) (sy st + (index - 1) * 10 - birth + 1) (sy st + (index - 1) * 10 + 9) (sy st + (index - 1) * 10 - birth + 1 + 9)).
  assert (Ed : getDaYun u n = Ok (map f (zrange 0 n))).
  { unfold getDaYun. apply mapM_ok. intros i _. unfold DaYun_new. rewrite El, Es. cbn [bind]. unfold f. reflexivity. }
  assert (Ep : forall i, 0 <= i < n -> period u (map f (zrange 0 n)) i = f i).
  { intros i Hi. unfold period. rewrite (nth_indep _ _ (f 0)) by (rewrite map_length, zrange_length; lia). rewrite map_nth. f_equal.
    rewrite zrange_nth by lia. lia. }
  exists (map f (zrange 0 n)). split; [exact Ed|]. split; [rewrite map_length, zrange_length; lia|].
  split; [|split].
  - intros i Hi. cbv zeta. rewrite Ep by exact Hi. unfold f. destruct (Z.ltb_spec i 1); cbn [d_yun d_index d_startYear d_startAge d_endYear d_endAge]; repeat split; lia.
  - intros i Hi. rewrite !Ep by lia. unfold f. destruct (Z.ltb_spec i 1), (Z.ltb_spec (i + 1) 1); cbn [d_startYear d_endYear]; lia.
  - intros Y Hn1 HY. exists (if Y <? sy st then 0 else (Y - sy st) / 10 + 1).
    assert (B : 0 <= (if Y <? sy st then 0 else (Y - sy st) / 10 + 1) < n) by (destruct (Z.ltb_spec Y (sy st)); Z.div_mod_to_equations; lia).
    split; [exact B|]. split.
    + rewrite Ep by exact B. unfold f. destruct (Z.ltb_spec Y (sy st)); [cbn; lia|].
      destruct (Z.ltb_spec ((Y - sy st) / 10 + 1) 1); cbn [d_startYear d_endYear]; Z.div_mod_to_equations; lia.
    + intros j Hj. rewrite Ep by exact Hj. unfold f. destruct (Z.ltb_spec j 1), (Z.ltb_spec Y (sy st)); cbn [d_startYear d_endYear]; Z.div_mod_to_equations; lia.
Qed.

Lemma jiazi_at k : 0 <= k < 60 -> py_index LunarUtil_JIA_ZI k = Ok (pair60 k).
Proof.
  intros B. assert (T : forallb (fun k => match py_index LunarUtil_JIA_ZI k with Ok s => str_eqb s (pair60 k) | Raise _ => false end) (zrange 0 60) = true) by (vm_compute; reflexivity).
  pose proof (forallb_zrange _ _ _ T k B) as X. cbv beta in X. destruct (py_index LunarUtil_JIA_ZI k); [|discriminate]. apply str_eqb_eq in X. now rewrite X.
Qed.
Lemma jiazi_neg k : -60 <= k < 0 -> py_index LunarUtil_JIA_ZI k = Ok (pair60 k).
Proof.
  intros B. assert (T : forallb (fun k => match py_index LunarUtil_JIA_ZI k with Ok s => str_eqb s (pair60 k) | Raise _ => false end) (zrange (-60) 0) = true) by (vm_compute; reflexivity).
  pose proof (forallb_zrange _ _ _ T k B) as X. cbv beta in X. destruct (py_index LunarUtil_JIA_ZI k); [|discriminate]. apply str_eqb_eq in X. now rewrite X.
Qed.
Lemma pair60_eq a b : a mod 60 = b mod 60 -> pair60 a = pair60 b.
Proof. intros E. apply C53_cycle_is_sixty. exact E. Qed.
Lemma jiazi_mod k : py_index LunarUtil_JIA_ZI (k mod Z.of_nat (List.length LunarUtil_JIA_ZI)) = Ok (pair60 k).
Proof.
  change (Z.of_nat (List.length LunarUtil_JIA_ZI)) with 60. pose proof (Z.mod_pos_bound k 60 ltac:(lia)). rewrite jiazi_at by lia. f_equal. apply pair60_eq. apply Zmod_mod.
Qed.

(** The pillars of the decades: one step each from the month pillar, forwards or backwards, as long as the code corrects the
    index once.  The first, incomplete period has none. *)
Theorem C65_pillars : forall u b p, Lunar_getMonthInGanZhiExact (y_lunar u) = Ok (pair60 b) -> d_yun p = u ->
  (d_index p < 1 -> DaYun_getGanZhi p = Ok []) /\
  (1 <= d_index p -> y_forward u = true -> d_index p < 120 - b mod 60 -> DaYun_getGanZhi p = Ok (pair60 (b + d_index p))) /\
  (1 <= d_index p -> y_forward u = false -> d_index p <= 120 + b mod 60 -> DaYun_getGanZhi p = Ok (pair60 (b - d_index p))).
Proof.
  intros u b p E <-. unfold DaYun_getGanZhi. rewrite E. cbn [bind]. rewrite index_pair. cbv zeta.
  change (Z.of_nat (List.length LunarUtil_JIA_ZI)) with 60. pose proof (Z.mod_pos_bound b 60 ltac:(lia)) as B.
  split; [|split].
  - intros L. destruct (Z.ltb_spec (d_index p) 1); [reflexivity|lia].
  - intros L -> U. destruct (Z.ltb_spec (d_index p) 1) as [|_]; [lia|]. set (k := d_index p) in *. clearbody k.
    destruct (Z.leb_spec 60 (b mod 60 + k)).
    + destruct (Z.ltb_spec (b mod 60 + k - 60) 0); [lia|]. rewrite jiazi_at by lia. f_equal. apply pair60_eq. clear E. Z.div_mod_to_equations; lia.
    + destruct (Z.ltb_spec (b mod 60 + k) 0); [lia|]. rewrite jiazi_at by lia. f_equal. apply pair60_eq. clear E. Z.div_mod_to_equations; lia.
  - intros L -> U. destruct (Z.ltb_spec (d_index p) 1) as [|_]; [lia|]. set (k := d_index p) in *. clearbody k.
    destruct (Z.leb_spec 60 (b mod 60 + - k)); [lia|].
    destruct (Z.ltb_spec (b mod 60 + - k) 0).
    + destruct (Z.lt_ge_cases (b mod 60 + - k + 60) 0); [rewrite jiazi_neg by lia|rewrite jiazi_at by lia]; f_equal; apply pair60_eq; clear E; Z.div_mod_to_equations; lia.
    + rewrite jiazi_at by lia. f_equal. apply pair60_eq. clear E. Z.div_mod_to_equations; lia.
Qed.
(** Every Lunar has such a month pillar. *)
Theorem C65_month_pillar : forall fromYear y m d h mi s l, Lunar_new fromYear y m d h mi s = Ok l ->
  exists b, 0 <= b < 60 /\ Lunar_getMonthInGanZhiExact l = Ok (pair60 b).
Proof.
  intros fy y m d h mi s l H. destruct (pillars_exist (mkEightChar 1 l)) as (a & b & c & t & _ & Bb & _ & _ & (_ & P & _)).
  - exists fy, y, m, d, h, mi, s. exact H.
  - exists b. split; [exact Bb|exact P].
Qed.
(** Beyond that the code raises IndexError, since it subtracts 60 only once: getDaYun(n) makes the periods, but their pillars cannot be read. *)
Theorem C65_refuted : forall u b p, Lunar_getMonthInGanZhiExact (y_lunar u) = Ok (pair60 b) -> d_yun p = u ->
  (y_forward u = true -> 120 - b mod 60 <= d_index p -> DaYun_getGanZhi p = Raise ExcIndex) /\
  (y_forward u = false -> 120 + b mod 60 < d_index p -> DaYun_getGanZhi p = Raise ExcIndex).
Proof.
  intros u b p E <-. unfold DaYun_getGanZhi. rewrite E. cbn [bind]. rewrite index_pair. cbv zeta.
  change (Z.of_nat (List.length LunarUtil_JIA_ZI)) with 60. pose proof (Z.mod_pos_bound b 60 ltac:(lia)) as B.
  assert (X : forall k, k < -60 \/ 60 <= k -> py_index LunarUtil_JIA_ZI k = Raise ExcIndex).
  { intros k Hk. unfold py_index. cbv zeta. change (Z.of_nat (List.length LunarUtil_JIA_ZI)) with 60.
    destruct (Z.ltb_spec k 0).
    - destruct (Z.ltb_spec (k + 60) 0); [reflexivity|lia].
    - destruct (Z.ltb_spec k 0); [lia|]. destruct (Z.leb_spec 60 k); [reflexivity|lia]. }
  split.
  - intros -> U. destruct (Z.ltb_spec (d_index p) 1) as [|_]; [lia|]. destruct (Z.leb_spec 60 (b mod 60 + d_index p)); [|lia].
    destruct (Z.ltb_spec (b mod 60 + d_index p - 60) 0); [lia|]. apply X. lia.
  - intros -> U. destruct (Z.ltb_spec (d_index p) 1) as [|_]; [lia|]. destruct (Z.leb_spec 60 (b mod 60 + - d_index p)); [lia|].
    destruct (Z.ltb_spec (b mod 60 + - d_index p) 0); [|lia]. apply X. lia.
Qed.

(** ** C66 *)
(** Two Lunar objects with the same solar year have the same table of solar terms. *)
Lemma new_terms fy y m d h mi s l : Lunar_new fy y m d h mi s = Ok l -> exists t, fy (sy (l_solar l)) = Ok t /\ computeJieQi (lterms t) = Ok (l_jieQi l).
Proof.
  intros H. destruct (Lunar_new_inv _ _ _ _ _ _ _ _ H) as (t & mo & noon & t2 & Et & _ & _ & _ & Es & _ & Et2 & CP).
  exists t2. split; [|exact (cp_terms _ _ _ _ _ _ _ _ _ CP)]. rewrite Es. cbn [sy]. destruct (Z.eqb_spec (sy noon) y) as [->|]; [now subst t2|exact Et2].
Qed.
Lemma same_terms fy y m d h mi s l y' m' d' h' mi' s' l' : Lunar_new fy y m d h mi s = Ok l -> Lunar_new fy y' m' d' h' mi' s' = Ok l' ->
  sy (l_solar l) = sy (l_solar l') -> l_jieQi l = l_jieQi l'.
Proof.
  intros H H' E. destruct (new_terms _ _ _ _ _ _ _ _ H) as (t & Et & Ej). destruct (new_terms _ _ _ _ _ _ _ _ H') as (t' & Et' & Ej').
  rewrite E, Et' in Et. apply Ok_inj in Et. subst t'. rewrite Ej in Ej'. apply Ok_inj in Ej'. exact Ej'.
Qed.
(** The pillar of a birth year, as read at its 立春. *)
Lemma lichun_pillar fy lo hi y m d h mi s l : Calendar fy lo hi -> Lunar_new fy y m d h mi s = Ok l ->
  valid_solar (l_solar l) -> good_terms (sy (l_solar l)) (l_jieQi l) -> lo < sy (l_solar l) < hi ->
  (forall l', getLunar fy (term_at (l_jieQi l) 4) = Ok l' -> l_year l' <= sy (l_solar l)) ->
  exists l', getLunar fy (term_at (l_jieQi l) 4) = Ok l' /\ Lunar_getYearInGanZhiExact l' = Ok (pair60 (sy (l_solar l) - 4)).
Proof.
  intros C H V G B A. set (lc := term_at (l_jieQi l) 4) in *.
  pose proof (gt_valid _ _ G 4 ltac:(lia)) as VL. pose proof (gt_years _ _ G 4 ltac:(lia)) as RL. pose proof (gt_lichun _ _ G) as YL. fold lc in VL, RL, YL.
  destruct (getLunar_spec C lc VL ltac:(lia)) as (l' & t & a & E & Et & Ia & _ & Ey & _ & _ & _ & _ & _ & Es).
  exists l'. split; [exact E|]. specialize (A l' E).
  pose proof (proj2 (proj2 (wf_month _ _ (cal_wf C (sy lc) t ltac:(lia) Et) a Ia))) as W.
  destruct (getLunar_new _ _ _ E) as (y' & m' & d' & H').
  pose proof (same_terms _ _ _ _ _ _ _ _ _ _ _ _ _ _ _ H H' ltac:(rewrite Es; lia)) as ST.
  pose proof (dict_at _ 4 (Lunar_new_named _ _ _ _ _ _ _ _ H') ltac:(lia)) as D. change (term_key 4) with (utf8 "立春") in D. rewrite <- ST in D. fold lc in D. rewrite ST in D.
  destruct (C55_year_pillar _ _ _ _ _ _ _ _ _ H' ltac:(rewrite Es; exact VL) ltac:(rewrite Es; lia) D VL ltac:(now rewrite Es) ltac:(rewrite Es, Ey; lia)) as (_ & _ & _ & _ & P).
  rewrite P by (rewrite Es; lia). rewrite Es, YL. reflexivity.
Qed.
Theorem C66_years : forall fy lo hi y m d h mi s l sect gender ysect u n ds p k x, Calendar fy lo hi -> Lunar_new fy y m d h mi s = Ok l ->
  valid_solar (l_solar l) -> good_terms (sy (l_solar l)) (l_jieQi l) -> lo < sy (l_solar l) < hi ->
  (forall l', getLunar fy (term_at (l_jieQi l) 4) = Ok l' -> l_year l' <= sy (l_solar l)) ->
  getYun (mkEightChar sect l) gender ysect = Ok u -> getDaYun u n = Ok ds -> In p ds -> In x (getLiuNian p k) ->
  LiuNian_getGanZhi fy x = Ok (pair60 (n_year x - 4)) /\
  d_startYear p <= n_year x /\ n_age x = n_year x - sy (l_solar l) + 1 /\ (d_index p < 1 \/ k = 10 -> n_year x <= d_endYear p).
Proof.
  intros fy lo hi y m d h mi s l sect g ys u n ds p k x C H V G B A Eu Ed Ip Ix.
  destruct (C65_periods _ _ _ _ _ _ _ _ sect g ys u H V G Eu) as (st & Es & Ls & X).
  destruct (lichun_pillar _ _ _ _ _ _ _ _ _ _ C H V G B A) as (l' & El' & Pl').
  destruct (C64_start _ _ _ _ _ _ _ _ sect g ys H V G) as (u' & i0 & E' & El & _). rewrite Eu in E'. apply Ok_inj in E'. subst u'.
  destruct (Z.lt_ge_cases n 0) as [Ln|Ln].
  { unfold getDaYun in Ed. rewrite zrange_nil in Ed by lia. cbn in Ed. apply Ok_inj in Ed. subst ds. destruct Ip. }
  destruct (X n Ln) as (ds' & Ed' & Len & Prop_ & _). rewrite Ed in Ed'. apply Ok_inj in Ed'. subst ds'.
  destruct (In_nth _ _ (mkDaYun u 0 0 0 0 0) Ip) as (j & Hj & Ej). specialize (Prop_ (Z.of_nat j) ltac:(lia)). cbv zeta in Prop_. unfold period in Prop_. rewrite Nat2Z.id, Ej in Prop_.
  destruct Prop_ as (Pu & Pi & Ps & Pe & P0 & P1). unfold getLiuNian in Ix. apply in_map_iff in Ix. destruct Ix as (i & <- & Hi). apply in_zrange in Hi.
  cbn [LiuNian_new n_year n_age n_index n_daYun]. split.
  - unfold LiuNian_getGanZhi. cbn [LiuNian_new n_year n_age n_index n_daYun]. rewrite Pu, El.
    pose proof (dict_at _ 4 (Lunar_new_named _ _ _ _ _ _ _ _ H) ltac:(lia)) as D. change (term_key 4) with (utf8 "立春") in D. rewrite D. cbn [bind]. rewrite El'. cbn [bind]. rewrite Pl'. cbn [bind].
    rewrite jiazi_mod. rewrite index_pair. f_equal. apply pair60_eq.
    assert (Q : (if 0 <? d_index p then (sy (l_solar l) - 4) mod 60 + i + (d_startAge p - 1) else (sy (l_solar l) - 4) mod 60 + i) = (sy (l_solar l) - 4) mod 60 + (d_startYear p + i - sy (l_solar l))).
    { destruct (Z.ltb_spec 0 (d_index p)); [lia|]. rewrite (proj1 (P0 ltac:(lia))). lia. }
    rewrite Q. clear. rewrite Zplus_mod_idemp_l. f_equal. lia.
  - split; [lia|]. split; [lia|]. intros [I| ->].
    + unfold daYun_years in Hi. destruct (Z.ltb_spec (d_index p) 1); [|lia]. lia.
    + unfold daYun_years in Hi. destruct (Z.ltb_spec (d_index p) 1); [lia|]. rewrite P1 by lia. lia.
Qed.
Theorem C66_minor : forall fy y m d h mi s l sect gender ysect u n ds p k x b, Lunar_new fy y m d h mi s = Ok l ->
  valid_solar (l_solar l) -> good_terms (sy (l_solar l)) (l_jieQi l) -> Lunar_getTimeInGanZhi l = Ok (pair60 b) ->
  getYun (mkEightChar sect l) gender ysect = Ok u -> getDaYun u n = Ok ds -> In p ds -> In x (getXiaoYun p k) ->
  XiaoYun_getGanZhi x = Ok (pair60 (if y_forward u then b + n_age x else b - n_age x)).
Proof.
  intros fy y m d h mi s l sect g ys u n ds p k x b H V G E Eu Ed Ip Ix.
  destruct (C65_periods _ _ _ _ _ _ _ _ sect g ys u H V G Eu) as (st & Es & Ls & X).
  destruct (C64_start _ _ _ _ _ _ _ _ sect g ys H V G) as (u' & i0 & E' & El & _). rewrite Eu in E'. apply Ok_inj in E'. subst u'.
  destruct (Z.lt_ge_cases n 0) as [Ln|Ln].
  { unfold getDaYun in Ed. rewrite zrange_nil in Ed by lia. cbn in Ed. apply Ok_inj in Ed. subst ds. destruct Ip. }
  destruct (X n Ln) as (ds' & Ed' & Len & Prop_ & _). rewrite Ed in Ed'. apply Ok_inj in Ed'. subst ds'.
  destruct (In_nth _ _ (mkDaYun u 0 0 0 0 0) Ip) as (j & Hj & Ej). specialize (Prop_ (Z.of_nat j) ltac:(lia)). cbv zeta in Prop_. unfold period in Prop_. rewrite Nat2Z.id, Ej in Prop_.
  destruct Prop_ as (Pu & Pi & Ps & Pe & P0 & P1). unfold getXiaoYun in Ix. apply in_map_iff in Ix. destruct Ix as (i & <- & Hi). apply in_zrange in Hi.
  unfold XiaoYun_getGanZhi. cbn [LiuNian_new n_year n_age n_index n_daYun]. rewrite Pu, El, E. cbn [bind]. rewrite jiazi_mod, index_pair. f_equal. apply pair60_eq.
  replace (if 0 <? d_index p then i + 1 + (d_startAge p - 1) else i + 1) with (d_startAge p + i).
  2:{ destruct (Z.ltb_spec 0 (d_index p)); [lia|]. rewrite Ps, (proj1 (P0 ltac:(lia))). lia. }
  rewrite Zplus_mod_idemp_l. destruct (y_forward u); f_equal; lia.
Qed.
(** The months: the first one of a year of stem [s] has stem 2 s + 2 (the five tigers) and branch 寅, and each next one is one step on. *)
Theorem C66_months : forall a i, 0 <= i < 12 -> liuYue_ganZhi (pair60 a) i = Ok (pair60 (12 * a + 2 + i)).
Proof.
  intros a i Hi. assert (T : forallb (fun a => forallb (fun i => match liuYue_ganZhi (pair60 a) i with Ok s => str_eqb s (pair60 (12 * a + 2 + i)) | Raise _ => false end) (zrange 0 12)) (zrange 0 60) = true) by (vm_compute; reflexivity).
  pose proof (Z.mod_pos_bound a 60 ltac:(lia)) as B. pose proof (forallb_zrange _ _ _ T (a mod 60) B) as X. cbv beta in X. pose proof (forallb_zrange _ _ _ X i Hi) as Y. cbv beta in Y. clear T X.
  rewrite pair60_mod in Y. destruct (liuYue_ganZhi (pair60 a) i); [|discriminate]. apply str_eqb_eq in Y. rewrite Y. f_equal. apply pair60_eq. clear. Z.div_mod_to_equations; lia.
Qed.
Theorem C66_months_of_year : forall fy x i, LiuNian_getGanZhi fy x = Ok (pair60 (n_year x - 4)) -> 0 <= i < 12 ->
  LiuYue_getGanZhi fy x i = Ok (pair60 (12 * (n_year x - 4) + 2 + i)).
Proof. intros fy x i E Hi. unfold LiuYue_getGanZhi. rewrite E. cbn [bind]. apply C66_months. exact Hi. Qed.

(** A birth on 29 February 2024 at 13:00, for a man and for a woman; the terms are those of 2024 as computed by the code. *)
Definition luck_facts (ysect gender : Z) := (let! l := getLunar demo (mkSolar 2024 2 29 13 0 0) in
  let! u := getYun (mkEightChar 2 l) gender ysect in let! ds := getDaYun u 4 in
  let! p := py_index ds 1 in let! x := py_index (getLiuNian p 10) 3 in
  Ok (good_termsb 2024 (l_jieQi l), (y_forward u, y_year u, y_month u, y_day u, y_hour u),
      map (fun d => (d_startYear d, d_endYear d, d_startAge d, d_endAge d)) ds, (Lunar_getMonthInGanZhiExact l, DaYun_getGanZhi p), (n_year x, LiuNian_getGanZhi demo x, LiuYue_getGanZhi demo x 2),
      (Lunar_getTimeInGanZhi l, n_age x, XiaoYun_getGanZhi x))).
Example C64_case : luck_facts 1 1 = Ok (true, (true, 1, 7, 10, 0), [(2024, 2024, 1, 1); (2025, 2034, 2, 11); (2035, 2044, 12, 21); (2045, 2054, 22, 31)],
    (Ok (pair60 2), Ok (pair60 3)), (2028, Ok (pair60 44), Ok (pair60 52)), (Ok (pair60 55), 5, Ok (pair60 60))) /\
  luck_facts 2 0 = Ok (true, (false, 8, 3, 12, 20), [(2024, 2031, 1, 8); (2032, 2041, 9, 18); (2042, 2051, 19, 28); (2052, 2061, 29, 38)],
    (Ok (pair60 2), Ok (pair60 1)), (2035, Ok (pair60 51), Ok (pair60 16)), (Ok (pair60 55), 12, Ok (pair60 43))).
Proof. split; vm_compute; reflexivity. Qed.
Example C66_case : Calendar demo 2023 2025 /\ (let! l := getLunar demo (mkSolar 2024 2 29 13 0 0) in let! l' := getLunar demo (term_at (l_jieQi l) 4) in
  Ok (sy (l_solar l), l_year l')) = Ok (2024, 2023).
Proof. split; [exact demo_calendar|vm_compute; reflexivity]. Qed.
