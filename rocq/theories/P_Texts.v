(** C93: the texts of periods, of the days of ShuJiu and Fu, and of holidays identify what they describe; the long texts begin with the short ones. *)
From Coq Require Import ZArith Lia Bool ZifyBool List String Floats.
From Verif Require Import Py PyFloat PyStr LunarYear LunarCache P_Cache ShouXing FloatExpr Trig SunLon SunTerm CertYears SunDate SunYear CalSpec DayNo Solar SolarProofs JulianDay UnitsProofs SolarUnits
  LunarUtil T_LunarUtil T_Misc AlmanacProofs P_JD P_Solar LunarYear Lunar LunarTime LunarProofs YearProofs CalProofs TermProofs P_Tables P_Units FotoTao T_Holiday Holiday HolidayProofs HolidayRecs P_Holiday P_BaZi
  P_LunarYears P_LunarCal P_Terms P_Seasons P_NewYear P_Accessors P_Day P_PartWeek P_Text P_Real Texts Demo.
Import ListNotations.
Open Scope Z_scope.

(** ** Numbers inside texts *)
Definition numeral (c : Z) : bool := (c =? 45) || ((48 <=? c) && (c <=? 57)).
Lemma str_chars n : Forall (fun c => numeral c = true) (str_of_Z n).
Proof.
  unfold str_of_Z. destruct (Z.ltb_spec n 0); [constructor; [reflexivity|]|]; (eapply Forall_impl; [|apply digs_nonneg_chars; lia]); cbv beta; unfold numeral; lia.
Qed.
Lemma str_no x n : numeral x = false -> Forall (fun c => c <> x) (str_of_Z n).
Proof. intros H. eapply Forall_impl; [|apply str_chars]. cbv beta. intros c E ->. congruence. Qed.
Lemma num_then x a b u v : numeral x = false -> str_of_Z a ++ x :: u = str_of_Z b ++ x :: v -> a = b /\ u = v.
Proof.
  intros H E. destruct (split_at x _ _ u v (str_no x a H) (str_no x b H) E) as [A B]. split; [exact (str_of_Z_inj _ _ A)|exact B].
Qed.
(** a separator that may occur in the number before it, but not in the one after it *)
Lemma then_num x s t a b : 0 <= a -> 0 <= b -> (x = 45) -> s ++ x :: str_of_Z a = t ++ x :: str_of_Z b -> s = t /\ a = b.
Proof.
  intros Ha Hb -> E. apply (f_equal (@rev Z)) in E. rewrite !rev_app_distr in E. cbn [rev] in E. rewrite <- !app_assoc in E. cbn [app] in E.
  assert (D : forall n, 0 <= n -> Forall (fun c => c <> 45) (rev (str_of_Z n))).
  { intros n Hn. apply Forall_rev. unfold str_of_Z. replace (n <? 0) with false by lia. eapply Forall_impl; [|apply digs_nonneg_chars; lia]. cbv beta. lia. }
  destruct (split_at 45 _ _ _ _ (D a Ha) (D b Hb) E) as [A B]. apply (f_equal (@rev Z)) in A, B. rewrite !rev_involutive in A, B.
  split; [exact B|exact (str_of_Z_inj _ _ A)].
Qed.

(** ** Months, quarters, half years, years *)
Theorem C93_month : forall a b, 1 <= smm a <= 12 -> 1 <= smm b <= 12 ->
  (SolarMonth_toString a = SolarMonth_toString b <-> a = b) /\ (SolarMonth_toFullString a = SolarMonth_toFullString b <-> a = b).
Proof.
  intros [y m] [y' m'] Ha Hb. cbn [smm] in *. unfold SolarMonth_toString, SolarMonth_toFullString. cbn [smy smm].
  split; (split; [intros E|intros E; injection E as -> ->; reflexivity]).
  - change (lit "-") with [45] in E. cbn [app] in E. apply then_num in E; [|lia|lia|reflexivity]. destruct E as [E ->]. apply str_of_Z_inj in E. congruence.
  - apply num_then in E; [|reflexivity]. destruct E as [-> E]. apply num_then in E; [|reflexivity]. destruct E as [-> _]. reflexivity.
Qed.
Definition quarter (m : Z) : Z := (m - 1) / 3.
Definition half (m : Z) : Z := (m - 1) / 6.
Theorem C93_season : forall a b, 1 <= qm a <= 12 -> 1 <= qm b <= 12 -> exists s s' t t',
  SolarSeason_toString a = Ok s /\ SolarSeason_toString b = Ok s' /\ SolarSeason_toFullString a = Ok t /\ SolarSeason_toFullString b = Ok t' /\
  (s = s' <-> qy a = qy b /\ quarter (qm a) = quarter (qm b)) /\ (t = t' <-> qy a = qy b /\ quarter (qm a) = quarter (qm b)).
Proof.
  intros [y m] [y' m'] Ha Hb. cbn [qm qy] in *. unfold SolarSeason_toString, SolarSeason_toFullString, SolarSeason_getIndex. cbn [qm qy].
  rewrite !ceil_div_ok by lia. cbn [bind]. do 4 eexists. do 4 (split; [reflexivity|]).
  assert (Q : - ((- m) / 3) = - ((- m') / 3) <-> quarter m = quarter m') by (unfold quarter; clear - Ha Hb; Z.div_mod_to_equations; lia).
  rewrite <- Q. split; (split; [intros E|intros [-> ->]; reflexivity]); apply num_then in E; try reflexivity; destruct E as [-> E]; (split; [reflexivity|]).
  - exact (str_of_Z_inj _ _ E).
  - apply num_then in E; [apply E|reflexivity].
Qed.
Theorem C93_half_year : forall a b, 1 <= hm a <= 12 -> 1 <= hm b <= 12 -> exists s s' t t',
  SolarHalfYear_toString a = Ok s /\ SolarHalfYear_toString b = Ok s' /\ SolarHalfYear_toFullString a = Ok t /\ SolarHalfYear_toFullString b = Ok t' /\
  (s = s' <-> hy a = hy b /\ half (hm a) = half (hm b)) /\ (t = t' <-> hy a = hy b /\ half (hm a) = half (hm b)).
Proof.
  intros [y m] [y' m'] Ha Hb. cbn [hm hy] in *. unfold SolarHalfYear_toString, SolarHalfYear_toFullString, SolarHalfYear_getIndex. cbn [hm hy].
  rewrite !ceil_div_ok by lia. cbn [bind]. do 4 eexists. do 4 (split; [reflexivity|]).
  assert (Q : - ((- m) / 6) = - ((- m') / 6) <-> half m = half m') by (unfold half; clear - Ha Hb; Z.div_mod_to_equations; lia).
  assert (I : forall k, 1 <= k <= 12 -> - ((- k) / 6) = 1 \/ - ((- k) / 6) = 2) by (clear; intros; Z.div_mod_to_equations; lia).
  rewrite <- Q. split; (split; [intros E|intros [-> ->]; reflexivity]); apply num_then in E; try reflexivity; destruct E as [-> E]; (split; [reflexivity|]).
  - exact (str_of_Z_inj _ _ E).
  - destruct (I m Ha) as [J|J], (I m' Hb) as [K|K]; rewrite J, K in *; try reflexivity; cbn in E; discriminate.
Qed.
Theorem C93_year : forall a b, (Year_toString a = Year_toString b <-> a = b) /\ (Year_toFullString a = Year_toFullString b <-> a = b).
Proof.
  intros a b. unfold Year_toString, Year_toFullString. split; (split; [intros E|intros ->; reflexivity]); [exact (str_of_Z_inj _ _ E)|].
  apply num_then in E; [apply E|reflexivity].
Qed.

(** ** Lunar months *)
Definition yue : Z := 26376. (* 月 *)
Definition month_name (m : Z) : res str := let! n := py_index LunarUtil_MONTH (Z.abs m) in Ok ((if m <? 0 then utf8 "闰"%string else []) ++ n).
Lemma month_name_table : forallb (fun m => (m =? 0) || forallb (fun m' => (m' =? 0) || match month_name m, month_name m' with
  | Ok a, Ok b => implb (str_eqb a b) (m =? m') && forallb (fun c => negb (c =? yue)) a | _, _ => false end) (zrange (-12) 13)) (zrange (-12) 13) = true.
Proof. vm_compute. reflexivity. Qed.
(** The text of a lunar month tells its year, its number, whether it is a leap month, and its length. *)
Theorem C93_lunar_month : forall a b, 1 <= Z.abs (mm a) <= 12 -> 1 <= Z.abs (mm b) <= 12 -> exists s t, LunarMonth_toString a = Ok s /\ LunarMonth_toString b = Ok t /\
  (s = t <-> my a = my b /\ mm a = mm b /\ mcount a = mcount b).
Proof.
  intros a b Ha Hb.
  assert (T : forall m m', 1 <= Z.abs m <= 12 -> 1 <= Z.abs m' <= 12 -> exists x y, month_name m = Ok x /\ month_name m' = Ok y /\ (x = y -> m = m') /\ Forall (fun c => c <> yue) x).
  { intros m m' Hm Hm'. pose proof (forallb_zrange _ _ _ month_name_table m ltac:(lia)) as X. cbv beta in X. replace (m =? 0) with false in X by lia. cbn [orb] in X.
    pose proof (forallb_zrange _ _ _ X m' ltac:(lia)) as Y. cbv beta in Y. replace (m' =? 0) with false in Y by lia. cbn [orb] in Y.
    destruct (month_name m) as [x|]; [|discriminate]. destruct (month_name m') as [y|]; [|discriminate]. apply andb_prop in Y. destruct Y as [Y1 Y2]. exists x, y. split; [reflexivity|]. split; [reflexivity|]. split.
    - intros ->. rewrite str_eqb_refl in Y1. cbn [implb] in Y1. lia.
    - apply Forall_forall. rewrite forallb_forall in Y2. intros c I ->. specialize (Y2 _ I). discriminate Y2. }
  destruct (T _ _ Ha Hb) as (x & y & Ex & Ey & J & Fx). destruct (T _ _ Hb Ha) as (y' & _ & Ey' & _ & _ & Fy). rewrite Ey in Ey'. apply Ok_inj in Ey'. subst y'.
  assert (F : forall (m : LMonth) (x : str), month_name (mm m) = Ok x ->
    LunarMonth_toString m = Ok (str_of_Z (my m) ++ 24180 :: x ++ yue :: 40 :: str_of_Z (mcount m) ++ [22825; 41])).
  { intros m z E. unfold month_name in E. apply bind_ok in E. destruct E as (n & En & E). apply Ok_inj in E. subst z. unfold LunarMonth_toString, isLeap. rewrite En. cbn [bind].
    f_equal. f_equal. change (utf8 "年"%string) with [24180]. change (utf8 "月("%string) with [yue; 40]. change (utf8 "天)"%string) with [22825; 41]. cbn [app]. now rewrite <- app_assoc. }
  rewrite (F a x Ex), (F b y Ey). do 2 eexists. do 2 (split; [reflexivity|]). split.
  - intros E. apply num_then in E; [|reflexivity]. destruct E as [E1 E]. destruct (split_at yue _ _ _ _ Fx Fy E) as [E2 E3]. injection E3 as E3. apply num_then in E3; [|reflexivity].
    split; [exact E1|]. split; [exact (J E2)|apply E3].
  - intros (E1 & E2 & E3). rewrite E2, Ey in Ex. apply Ok_inj in Ex. congruence.
Qed.

(** ** Weeks *)
(** Two dates have the same text exactly if they lie in the same month and in the same week, that is, in weeks with the same first day. *)
Theorem C93_week : forall a b, valid_date (wdate a) -> valid_date (wdate b) -> jd_year (wy a) -> jd_year (wy b) -> 0 <= wstart a <= 6 -> wstart b = wstart a ->
  ~ (wy a = 1582 /\ wm a = 10 /\ 15 <= wd a) -> ~ (wy b = 1582 /\ wm b = 10 /\ 15 <= wd b) -> exists s s' t t',
  SolarWeek_toString a = Ok s /\ SolarWeek_toString b = Ok s' /\ SolarWeek_toFullString a = Ok t /\ SolarWeek_toFullString b = Ok t' /\
  (s = s' <-> wy a = wy b /\ wm a = wm b /\ SolarWeek_getFirstDay a = SolarWeek_getFirstDay b) /\
  (t = t' <-> wy a = wy b /\ wm a = wm b /\ SolarWeek_getFirstDay a = SolarWeek_getFirstDay b).
Proof.
  intros a b Va Vb Ja Jb Sa Sb Ga Gb. assert (Sb' : 0 <= wstart b <= 6) by lia.
  destruct (getFirstDay_day a Va Ja Sa) as (fa & Fa & (VFa & Ta & Da)). destruct (getFirstDay_day b Vb Jb Sb') as (fb & Fb & (VFb & Tb & Db)).
  destruct (fromYmd_day _ _ _ Va) as [_ Ia]. destruct (fromYmd_day _ _ _ Vb) as [_ Ib].
  destruct (index_first (wstart a) _ _ Ia Ja Sa) as (i & Ei & _ & Xi). destruct (index_first (wstart b) _ _ Ib Jb Sb') as (j & Ej & _ & Xj).
  cbn [sy sm sd] in *. specialize (Xi Ga). specialize (Xj Gb). destruct a as [y m d st], b as [y' m' d' st']. cbn [wy wm wd wstart wdate] in *. subst st'.
  unfold SolarWeek_toString, SolarWeek_toFullString. rewrite Ei, Ej. cbn [bind wy wm]. do 4 eexists. do 4 (split; [reflexivity|]).
  assert (K : y = y' -> m = m' -> i = j <-> SolarWeek_getFirstDay (mkSolarWeek y m d st) = SolarWeek_getFirstDay (mkSolarWeek y' m' d' st)).
  { intros <- <-. rewrite Fa, Fb. unfold sdate in Xi, Xj. cbn [sy sm sd] in Xi, Xj. change (ms (y, m, d')) with (ms (y, m, d)) in Xj. unfold woff in *. split.
    - intros E. f_equal. apply (is_day_inj (dayno (sdate fa))); [split; [exact VFa|split; [exact Ta|reflexivity]]|].
      split; [exact VFb|]. split; [exact Tb|]. rewrite Da, Db. unfold wdate; cbn [wy wm wd]; clear - Xi Xj E Sa; set (A := dayno (y, m, d)) in *; set (B := dayno (y, m, d')) in *; set (M := ms (y, m, d)) in *; clearbody A B M. Z.div_mod_to_equations; lia.
    - intros E. apply Ok_inj in E. subst fb. rewrite Da in Db. unfold wdate in Db; cbn [wy wm wd] in Db; clear - Xi Xj Db Sa; set (A := dayno (y, m, d)) in *; set (B := dayno (y, m, d')) in *; set (M := ms (y, m, d)) in *; clearbody A B M. Z.div_mod_to_equations; lia. }
  split; (split; [intros E; apply num_then in E; [|reflexivity]; destruct E as [E1 E]; apply num_then in E; [|reflexivity]; destruct E as [E2 E]; split; [exact E1|]; split; [exact E2|]; apply K; [exact E1|exact E2|] |
    intros (E1 & E2 & E3); apply K in E3; [|exact E1|exact E2]; congruence]).
  - exact (str_of_Z_inj _ _ E).
  - assert (E' : str_of_Z i ++ utf8 "周"%string = str_of_Z j ++ utf8 "周"%string) by exact (f_equal (@tl Z) E). apply num_then in E'; [apply E'|reflexivity].
Qed.
(** In October 1582 the index counts the days that were left out: Saturday the 16th and Sunday the 17th share a text though a week from Sunday begins
    between them, and Wednesday the 20th and Thursday the 21st do not, though both lie in one week. *)
Theorem C93_week_refuted :
  (SolarWeek_toString (mkSolarWeek 1582 10 16 0) = SolarWeek_toString (mkSolarWeek 1582 10 17 0) /\
   SolarWeek_getFirstDay (mkSolarWeek 1582 10 16 0) <> SolarWeek_getFirstDay (mkSolarWeek 1582 10 17 0)) /\
  (SolarWeek_toString (mkSolarWeek 1582 10 20 0) <> SolarWeek_toString (mkSolarWeek 1582 10 21 0) /\
   SolarWeek_getFirstDay (mkSolarWeek 1582 10 20 0) = SolarWeek_getFirstDay (mkSolarWeek 1582 10 21 0)).
Proof. vm_compute. repeat split; discriminate. Qed.

(** ** ShuJiu and Fu *)
Definition di : Z := 31532. (* 第 *)
Lemma counted_inj f g : Forall (fun c => c <> di) (fst f) -> Forall (fun c => c <> di) (fst g) -> ShuJiu_toFullString f = ShuJiu_toFullString g -> f = g.
Proof.
  destruct f as [n i], g as [n' i']. cbn [fst]. unfold ShuJiu_toFullString. cbn [fst snd]. change (utf8 "第"%string) with [di]. cbn [app]. intros F G E.
  destruct (split_at di _ _ _ _ F G E) as [-> E']. apply num_then in E'; [|reflexivity]. destruct E' as [-> _]. reflexivity.
Qed.
Lemma py_index_in {A} (l : list A) i a : py_index l i = Ok a -> In a l.
Proof.
  unfold py_index. intros H. destruct (_ || _) in H; [discriminate|]. destruct (nth_error l _) eqn:E; [|discriminate]. apply Ok_inj in H. subst. exact (nth_error_In _ _ E).
Qed.
Lemma shujiu_names l f : Lunar_getShuJiu l = Ok (Some f) -> Forall (fun c => c <> di) (fst f).
Proof.
  unfold Lunar_getShuJiu. intros H. repeat (apply bind_ok in H; destruct H as (? & _ & H)).
  destruct (_ || _) in H; [discriminate|]. apply bind_ok in H; destruct H as (? & _ & H). apply bind_ok in H; destruct H as (? & _ & H). apply bind_ok in H. destruct H as (n & En & H). apply Ok_inj in H. injection H as <-. cbn [fst].
  apply Forall_app. split; [|repeat constructor; discriminate].
  assert (T : Forall (Forall (fun c => c <> di)) LunarUtil_NUMBER) by (repeat constructor; discriminate).
  rewrite Forall_forall in T. apply T. exact (py_index_in _ _ _ En).
Qed.
Lemma fu_names fy l f : Lunar_getFu fy l = Ok (Some f) -> Forall (fun c => c <> di) (fst f).
Proof.
  unfold Lunar_getFu. intros H.
  repeat first [ apply bind_ok in H; destruct H as (? & _ & H) | match type of H with (if ?b then _ else _) = _ => destruct b end | progress cbv zeta in H
    | discriminate H | apply Ok_inj in H; injection H as <-; cbn [fst]; repeat constructor; discriminate ].
Qed.
(** The long text of a day of ShuJiu or Fu determines its name and its index. *)
Theorem C93_counted : forall fy l l' f g, Lunar_getShuJiu l = Ok (Some f) \/ Lunar_getFu fy l = Ok (Some f) ->
  Lunar_getShuJiu l' = Ok (Some g) \/ Lunar_getFu fy l' = Ok (Some g) ->
  (ShuJiu_toFullString f = ShuJiu_toFullString g <-> f = g).
Proof.
  intros fy l l' f g F G. split; [|intros ->; reflexivity]. apply counted_inj.
  - destruct F as [F|F]; [exact (shujiu_names _ _ F)|exact (fu_names _ _ _ F)].
  - destruct G as [F'|F']; [exact (shujiu_names _ _ F')|exact (fu_names _ _ _ F')].
Qed.

(** ** Holidays *)
Definition plain_name (s : str) : Prop := Forall (fun c => c <> 32) s /\ forall t, s <> t ++ utf8 "调休"%string.
Definition one_word (s : str) : Prop := Forall (fun c => c <> 32) s.
Theorem C93_holiday : forall a b, one_word (hday a) -> one_word (hday b) -> plain_name (hname a) -> plain_name (hname b) ->
  (Holiday_toString a = Holiday_toString b <-> a = b).
Proof.
  intros [d n w t] [d' n' w' t'] Da Db [Na Na'] [Nb Nb']. cbn [hday hname] in *. split; [|intros ->; reflexivity]. unfold Holiday_toString. cbn [hday hname hwork htarget].
  change (lit " ") with [32]. cbn [app]. intros E. destruct (split_at 32 _ _ _ _ Da Db E) as [-> E1]. clear E. rewrite !app_assoc in E1.
  set (mark := utf8 "调休"%string) in *.
  assert (M : forall (x : bool), Forall (fun c => c <> 32) (if x then mark else [])) by (intros [|]; repeat constructor; discriminate).
  destruct (split_at 32 (n ++ (if w then mark else [])) (n' ++ (if w' then mark else [])) t t') as [E ->];
    [apply Forall_app; auto|apply Forall_app; auto|rewrite <- !app_assoc in *; exact E1|].
  destruct w, w'.
  - apply app_inv_tail in E. subst. reflexivity.
  - rewrite app_nil_r in E. destruct (Nb' n). congruence.
  - rewrite app_nil_r in E. destruct (Na' n'). congruence.
  - rewrite !app_nil_r in E. subst. reflexivity.
Qed.
(** The records that ship with the package meet those conditions. *)
Theorem C93_holiday_shipped : forall y m d y' m' d' a b, 1000 <= y <= 9999 -> 1 <= m <= 99 -> 1 <= d <= 99 -> 1000 <= y' <= 9999 -> 1 <= m' <= 99 -> 1 <= d' <= 99 ->
  getHoliday HDB_shipped (str_of_Z y) m d = Ok (Some a) -> getHoliday HDB_shipped (str_of_Z y') m' d' = Ok (Some b) ->
  (Holiday_toString a = Holiday_toString b <-> a = b).
Proof.
  intros y m d y' m' d' a b Y M D Y' M' D' A B. rewrite (C28_getHoliday _ _ _ _ _ C28_shipped Y M D) in A. rewrite (C28_getHoliday _ _ _ _ _ C28_shipped Y' M' D') in B.
  assert (N : Forall plain_name HolidayUtil_NAMES).
  { repeat (constructor; [split; [repeat constructor; discriminate|]; intros t E; apply (f_equal (@rev Z)) in E; rewrite rev_app_distr in E; vm_compute in E; discriminate|]). constructor. }
  assert (W : forall e, one_word (dash e)).
  { intros [[p q] r]. unfold one_word, dash. assert (F : forall w n, Forall (fun c => c <> 32) (fixed w n)) by (intros; eapply Forall_impl; [|apply fixed_digits]; cbv beta; lia).
    repeat match goal with |- Forall _ (_ ++ _) => apply Forall_app; split end; try apply F; repeat constructor; discriminate. }
  assert (K : forall k, plain_name (nth k HolidayUtil_NAMES [])).
  { intros k. rewrite Forall_forall in N. destruct (nth_in_or_default k HolidayUtil_NAMES []) as [I|E]; [exact (N _ I)|]. rewrite E. split; [constructor|]. intros [|c t]; discriminate. }
  destruct (find _ shipped) as [r|] in A; [|discriminate]. destruct (find _ shipped) as [r'|] in B; [|discriminate].
  apply Ok_inj in A, B. injection A as <-. injection B as <-. apply C93_holiday; unfold rec_holiday; cbn [hday hname]; auto; apply K.
Qed.

(** ** The long texts *)
(** The text [long] begins with the text [short]; neither raises. *)
Definition begins (long short : res str) : Prop := exists s t, short = Ok s /\ long = Ok (s ++ t).
Theorem C93_solar_full : forall s, valid_solar s -> jd_year (sy s) -> begins (toFullString s) (Ok (toYmdHms s)).
Proof.
  intros s V J. unfold begins, toFullString. destruct (festivals_at s V J) as (fs & Ef & _). destruct (C25_always_a_sign s (proj1 V)) as (x & f & l & _ & Ex).
  assert (W : exists w, getWeekInChinese s = Ok w).
  { unfold getWeekInChinese. rewrite getWeek_spec by assumption. cbn [bind].
    assert (T : forallb (fun i => foundb (py_index T_SolarUtil.SolarUtil_WEEK i)) (zrange 0 7) = true) by (vm_compute; reflexivity).
    pose proof (forallb_zrange _ _ _ T ((dayno (sdate s) + 1) mod 7) (Z.mod_pos_bound _ 7 ltac:(lia))) as B. cbv beta in B. apply foundb_ok in B. destruct B as (w & E & _). eauto. }
  destruct W as (w & Ew). rewrite Ew, Ef, Ex. cbn [bind]. eauto.
Qed.
Lemma term_on_total jq s keys : incl keys (map fst jq) -> exists o, term_on jq s keys = Ok o.
Proof.
  induction keys as [|k t IH]; intros I; cbn [term_on]; [eauto|].
  assert (E : exists v, py_dict jq k = Ok v).
  { assert (I' : In k (map fst jq)) by (apply I; left; reflexivity). unfold py_dict. clear - I'. destruct (assoc k jq) eqn:E; [eauto|exfalso]. revert E.
    induction jq as [|[k' v] jq IH]; [destruct I'|]. cbn [map In fst] in I'. cbn [assoc]. destruct (assoc k jq); [discriminate|]. destruct I' as [->|I']; [rewrite str_eqb_refl; discriminate|]. intros _. exact (IH I' eq_refl). }
  destruct E as (v & ->). cbn [bind]. destruct (same_day v s); [eauto|]. apply IH. intros x X. apply I. right. exact X.
Qed.
Lemma jieqi_total l : exists j, Lunar_getJieQi l = Ok j.
Proof.
  unfold Lunar_getJieQi. destruct (term_on_total (l_jieQi l) (l_solar l) (map fst (l_jieQi l)) (incl_refl _)) as (o & ->). destruct o as [[k v]|]; cbn; eauto.
Qed.
Section LIB.
Context (fsin fcos : float -> float) (lib : libm fsin fcos).
Notation R := (real fsin fcos).
Ltac mem := match goal with |- In ?f (?f :: _) => left; reflexivity | |- In _ (_ :: _) => right; mem end.
Ltac have K f := let x := fresh "x" in let E := fresh "E" in destruct (K f ltac:(mem)) as (x & E); cbv beta in E.
Theorem C93_lunar_full : forall s, valid_solar s -> 20 <= sy s <= 9997 -> exists l, getLunar R s = Ok l /\
  begins (Lunar_toFullString R l) (Lunar_toString l) /\ begins (Foto_toFullString l) (Foto_toString l) /\ found (Tao_toFullString l) /\ found (Tao_toString l).
Proof.
  intros s V Hy. destruct (C43_code _ _ lib s V ltac:(lia)) as (l & El & A). exists l. split; [exact El|]. destruct (A 2) as [F _]. clear A.
  assert (T : termed_date s) by (split; [exact V|lia]). destruct (C83_code _ _ lib s l T El) as (gs & Eg & _).
  destruct (termed_ok _ _ lib s l T El) as (Es & Vl & _). destruct (jieqi_total l) as (jq & Ej).
  assert (Ef : exists fs, Lunar_getFestivals R l = Ok fs).
  { unfold Lunar_getFestivals. destruct (_ && _); [|eauto]. destruct (C50_code _ _ lib l 1 Vl) as (s' & V' & D & _ & N).
    assert (Y : 20 <= sy s' <= 9998).
    { apply (days_later_dayno 1 _ _ (proj1 Vl) (proj1 V')) in D. rewrite Es in D. pose proof (days_year s s' 1 V V' ltac:(lia) D). lia. }
    destruct (N Y) as (l' & -> & _). cbn [bind]. eauto. }
  destruct Ef as (fs & Ef).
  assert (K : forall f, In f (text_accessors 2) -> exists x, f l = Ok x).
  { intros f I. rewrite Forall_forall in F. destruct (F f I) as (x & E & _). eauto. }
  clear F. cbv [text_accessors year_accessors yearL_accessors yearE_accessors month_accessors monthE_accessors day_accessors dayE_accessors dayE2_accessors time_accessors
    daymonth_accessors lodge_accessors daytime_accessors taisui_accessors date_accessors desc app] in K.
  assert (Y : forall n, exists t, digits_chinese n = Ok t) by (intros n; destruct (C87_digits n) as (t & E & _); eauto).
  destruct (K Lunar_getMonthInChinese ltac:(mem)) as (mc & Emc). destruct (K Lunar_getDayInChinese ltac:(mem)) as (dc & Edc).
  destruct (Y (l_year l)) as (yc & Eyc). destruct (Y (Foto_getYear l)) as (yf & Eyf). destruct (Y (Tao_getYear l)) as (yt & Eyt).
  assert (TS : Lunar_toString l = Ok (yc ++ utf8 "年"%string ++ mc ++ utf8 "月"%string ++ dc)).
  { unfold Lunar_toString. change (Lunar_getYearInChinese l) with (digits_chinese (l_year l)). rewrite Eyc, Emc, Edc. reflexivity. }
  have K Lunar_getYearInGanZhi.
  have K Lunar_getYearShengXiao.
  have K Lunar_getMonthInGanZhi.
  have K Lunar_getMonthShengXiao.
  have K Lunar_getDayInGanZhi.
  have K Lunar_getDayShengXiao.
  have K Lunar_getTimeZhi.
  have K Lunar_getTimeShengXiao.
  have K Lunar_getYearNaYin.
  have K Lunar_getMonthNaYin.
  have K Lunar_getDayNaYin.
  have K Lunar_getTimeNaYin.
  have K Lunar_getWeekInChinese.
  have K Lunar_getGong.
  have K Lunar_getShou.
  have K Lunar_getXiu.
  have K Lunar_getZheng.
  have K Lunar_getAnimal.
  have K Lunar_getXiuLuck.
  have K Lunar_getPengZuGan.
  have K Lunar_getPengZuZhi.
  have K Lunar_getDayPositionXi. have K (fun l => position_desc (Lunar_getDayPositionXi l)).
  have K Lunar_getDayPositionYangGui. have K (fun l => position_desc (Lunar_getDayPositionYangGui l)).
  have K Lunar_getDayPositionYinGui. have K (fun l => position_desc (Lunar_getDayPositionYinGui l)).
  have K Lunar_getDayPositionCai. have K (fun l => position_desc (Lunar_getDayPositionCai l)).
  have K (fun l => Lunar_getDayPositionFu l 2). have K (fun l => position_desc (Lunar_getDayPositionFu l 2)).
  have K Lunar_getDayChongDesc. have K Lunar_getDaySha.
  split; [|split; [|split]].
  - eexists. eexists. split; [exact TS|]. unfold Lunar_toFullString. rewrite TS. cbn [bind].
    repeat match goal with E : position_desc _ = Ok _ |- _ => rewrite E; clear E end.
    repeat match goal with E : ?x = Ok _ |- bind ?x _ = _ => rewrite E; cbn [bind] end. cbv zeta. reflexivity.
  - unfold begins, Foto_toFullString. unfold Foto_toString, ymd_chinese. change (Foto_getYearInChinese l) with (digits_chinese (Foto_getYear l)). rewrite Eyf, Emc, Edc. cbn [bind]. eauto.
  - unfold Tao_toFullString. change (Tao_getYearInChinese l) with (digits_chinese (Tao_getYear l)). rewrite Eyt. cbn [bind].
    repeat match goal with E : ?x = Ok _ |- found (bind ?x _) => rewrite E; cbn [bind] end. eexists. split; [reflexivity|]. discriminate.
  - unfold Tao_toString, ymd_chinese. change (Tao_getYearInChinese l) with (digits_chinese (Tao_getYear l)). rewrite Eyt, Emc, Edc. cbn [bind]. eexists. split; [reflexivity|].
    intros Q. apply app_eq_nil in Q. destruct Q as [_ Q]. discriminate Q.
Qed.
End LIB.
Example C93_case : SolarMonth_toString (mkSolarMonth 2024 2) = lit "2024-2" /\ SolarSeason_toFullString (mkSolarSeason 2024 5) = Ok (utf8 "2024年2季度") /\
  SolarHalfYear_toFullString (mkSolarHalfYear 2024 7) = Ok (utf8 "2024年下半年") /\ SolarWeek_toFullString (mkSolarWeek 2022 5 22 0) = Ok (utf8 "2022年5月第4周") /\
  (exists h, getHoliday HDB_shipped (str_of_Z 2020) 5 2 = Ok (Some h) /\ Holiday_toString h = utf8 "2020-05-02 劳动节 2020-05-01") /\
  toFullString (mkSolar 2024 2 29 12 0 0) = Ok (utf8 "2024-02-29 12:00:00 闰年 星期四 双鱼座") /\
  (let! l := getLunar demo (mkSolar 2024 2 29 12 0 0) in let! f := Lunar_getShuJiu l in Ok (option_map ShuJiu_toFullString f)) = Ok (Some (utf8 "八九第7天")).
Proof.
  split; [reflexivity|]. split; [vm_compute; reflexivity|]. split; [vm_compute; reflexivity|]. split; [vm_compute; reflexivity|].
  split; [eexists; split; [vm_compute; reflexivity|vm_compute; reflexivity]|]. split; [vm_compute; reflexivity|vm_compute; reflexivity].
Qed.
Example C93_lunar_month_case : LunarMonth_toString (mkLMonth 2023 (-2) 29 2460026 3) = Ok (utf8 "2023年闰二月(29天)").
Proof. vm_compute. reflexivity. Qed.

(** ** C94 *)
(** The branch at which a stem has its salary (禄). *)
Definition salary (g : Z) : Z := nth (Z.to_nat (g mod 10)) [2; 3; 5; 6; 5; 6; 8; 9; 11; 0] 0.
Fixpoint listing (l : list str) : str := match l with [] => [] | [x] => x | x :: t => x ++ lit "," ++ listing t end.
(** The text names the branch of the salary of the day's stem, and then the stems that have theirs at the day's branch. *)
Definition lu_text (n : Z) : str :=
  branch (salary n) ++ utf8 "命互禄"%string ++
  match filter (fun g => salary g =? n mod 12) (zrange 0 10) with [] => [] | gs => lit " " ++ listing (map stem gs) ++ utf8 "命进禄"%string end.
Theorem C94_day_lu : forall fromYear y m d h mi s l, Lunar_new fromYear y m d h mi s = Ok l ->
  exists n, 0 <= n < 60 /\ Lunar_getDayInGanZhi l = Ok (pair60 n) /\ Lunar_getDayLu l = Ok (lu_text n).
Proof.
  intros fy y m d h mi s l H. pose proof (new_indices _ _ _ _ _ _ _ _ H) as I. destruct (ix_day _ I) as (n & B & G & Z). exists n. split; [exact B|].
  unfold Lunar_getDayLu, Lunar_getDayInGanZhi, Lunar_getDayGan, Lunar_getDayZhi. rewrite G, Z, GAN_ok, ZHI_ok by (apply Z.mod_pos_bound; lia). cbn [bind].
  assert (T : forallb (fun n => ok_is (let! gan := py_dict LunarUtil_LU (stem (n mod 10)) in
     let lu := gan ++ utf8 "命互禄"%string in
     Ok (match assoc (branch (n mod 12)) LunarUtil_LU with Some zhi => lu ++ lit " " ++ zhi ++ utf8 "命进禄"%string | None => lu end)) (lu_text n)) (zrange 0 60) = true) by (vm_compute; reflexivity).
  pose proof (forallb_zrange _ _ _ T n B) as X. cbv beta in X. apply ok_is_eq in X. split.
  - unfold pair60, stem, branch. now rewrite !Z.mod_mod by lia.
  - exact X.
Qed.
(** Four branches are nobody's salary; each stem has exactly one. *)
Theorem C94_no_one : forall z, 0 <= z < 12 -> (filter (fun g => salary g =? z) (zrange 0 10) = [] <-> In z [1; 4; 7; 10]).
Proof.
  intros z Hz. assert (T : forallb (fun z => Bool.eqb (match filter (fun g => salary g =? z) (zrange 0 10) with [] => true | _ => false end) (existsb (Z.eqb z) [1; 4; 7; 10])) (zrange 0 12) = true) by (vm_compute; reflexivity).
  pose proof (forallb_zrange _ _ _ T z Hz) as X. cbv beta in X. apply eqb_prop in X. destruct (filter _ _).
  - split; [|reflexivity]. intros _. symmetry in X. apply existsb_exists in X. destruct X as (w & I & E). apply Z.eqb_eq in E. subst. exact I.
  - split; [discriminate|]. intros I. exfalso. assert (Y : existsb (Z.eqb z) [1; 4; 7; 10] = true) by (apply existsb_exists; exists z; split; [exact I|apply Z.eqb_refl]). congruence.
Qed.
Example C94_case : lu_text 5 = utf8 "午命互禄 丙,戊命进禄" /\ lu_text 1 = utf8 "卯命互禄" /\
  (let! l := getLunar demo (mkSolar 2024 2 29 12 0 0) in let! p := Lunar_getDayInGanZhi l in let! t := Lunar_getDayLu l in Ok (p, t)) = Ok (pair60 59, utf8 "子命互禄 壬命进禄").
Proof. split; [vm_compute; reflexivity|]. split; [vm_compute; reflexivity|]. vm_compute. reflexivity. Qed.
