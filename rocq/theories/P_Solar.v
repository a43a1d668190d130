(** Property theorems for Solar.py / SolarUtil.py / SolarMonth.py (C01-C06, C13-C16, C18). *)
From Coq Require Import ZArith Lia Bool ZifyBool.
From Verif Require Import Py PyFloat Solar CalSpec DayNo SolarProofs SolarProofs2.
Open Scope Z_scope.

(** ** C01 *)
Theorem C01_next_moves_n_civil_days : forall s n, valid_solar s ->
  exists s', next s n = Ok s' /\ valid_solar s' /\ same_time s' s /\
             days_later n (sdate s) (sdate s').
Proof.
  intros s n V. destruct (nextDay_spec s n V) as (s' & E & V' & T & D).
  exists s'. repeat split; try assumption; try apply V'; try apply T.
  apply days_later_dayno; [apply V|apply V'|exact D].
Qed.

Example C01_case : next (mkSolar 1582 10 4 23 59 1) 1 = Ok (mkSolar 1582 10 15 23 59 1)
  /\ next (mkSolar 2020 2 28 0 0 0) (-36526) = Ok (mkSolar 1920 2 27 0 0 0)
  /\ valid_solar (mkSolar 1582 10 4 23 59 1).
Proof. split; [|split]; [vm_compute; reflexivity..|]. unfold valid_solar, valid_date, valid_time; cbn; lia. Qed.

(** ** C02 *)
Theorem C02_next_additive : forall s a b, valid_solar s ->
  (let! s1 := next s a in next s1 b) = next s (a + b).
Proof.
  intros s a b V. unfold next.
  destruct (nextDay_spec s a V) as (s1 & E1 & V1 & T1 & D1). rewrite E1. cbn [bind].
  destruct (nextDay_spec s1 b V1) as (s2 & E2 & V2 & T2 & D2).
  destruct (nextDay_spec s (a + b) V) as (s3 & E3 & V3 & T3 & D3).
  rewrite E2, E3. f_equal. apply instant_inj; auto. unfold instant, sod.
  destruct T1 as (? & ? & ?), T2 as (? & ? & ?), T3 as (? & ? & ?). lia.
Qed.

Theorem C02_next_zero : forall s, valid_solar s -> next s 0 = Ok s.
Proof.
  intros s V. unfold next. destruct (nextDay_spec s 0 V) as (s' & E & V' & T & D). rewrite E. f_equal.
  apply instant_inj; auto. unfold instant, sod. destruct T as (? & ? & ?). lia.
Qed.

Theorem C02_next_inverse : forall s n, valid_solar s ->
  (let! s1 := next s n in next s1 (- n)) = Ok s.
Proof. intros s n V. rewrite C02_next_additive by assumption. rewrite Z.add_opp_diag_r. now apply C02_next_zero. Qed.

Example C02_case : (let! s1 := next (mkSolar 1600 3 1 1 2 3) (-6600) in next s1 6600) = Ok (mkSolar 1600 3 1 1 2 3).
Proof. vm_compute. reflexivity. Qed.

(** ** C03 *)
Theorem C03_subtract_is_day_distance : forall a b n, valid_solar a -> valid_solar b ->
  (subtract a b = Ok n <-> days_later n (sdate b) (sdate a)).
Proof.
  intros a b n Va Vb. rewrite subtract_spec by assumption.
  rewrite days_later_dayno by (apply Va || apply Vb).
  split; [intros E; apply Ok_inj in E; lia|intros; f_equal; lia].
Qed.

Theorem C03_subtract_defined : forall a b, valid_solar a -> valid_solar b -> exists n, subtract a b = Ok n.
Proof. intros. eexists. now apply subtract_spec. Qed.

Theorem C03_subtract_antisym : forall a b n, valid_solar a -> valid_solar b ->
  subtract a b = Ok n -> subtract b a = Ok (- n).
Proof. intros a b n Va Vb. rewrite !subtract_spec by assumption. intros E; apply Ok_inj in E; f_equal; lia. Qed.

Theorem C03_subtract_additive : forall a b c n k, valid_solar a -> valid_solar b -> valid_solar c ->
  subtract a b = Ok n -> subtract b c = Ok k -> subtract a c = Ok (n + k).
Proof.
  intros a b c n k Va Vb Vc. rewrite !subtract_spec by assumption.
  intros E1 E2; apply Ok_inj in E1; apply Ok_inj in E2; f_equal; lia.
Qed.

(** [next] and [subtract] are inverse to each other. *)
Theorem C03_next_subtract : forall a b n, valid_solar a -> valid_solar b -> subtract a b = Ok n ->
  exists c, next b n = Ok c /\ sdate c = sdate a.
Proof.
  intros a b n Va Vb. rewrite subtract_spec by assumption. intros E; apply Ok_inj in E; subst n.
  destruct (nextDay_spec b (dayno (sdate a) - dayno (sdate b)) Vb) as (c & Ec & Vc & _ & Dc).
  exists c; split; [exact Ec|]. apply dayno_inj; [apply Vc|apply Va|lia].
Qed.

Example C03_case : subtract (mkSolar 2024 2 29 0 0 0) (mkSolar 1500 2 29 5 0 0) = Ok 191378.
Proof. vm_compute. reflexivity. Qed.

(** ** C04 *)
Theorem C04_isBefore_is_time_order : forall a b, valid_solar a -> valid_solar b ->
  (isBefore a b = true <-> earlier (sdate a) (sdate b) \/ (sdate a = sdate b /\ sod a < sod b)).
Proof.
  intros a b Va Vb. rewrite isBefore_instant by assumption.
  pose proof (sod_bounds a Va). pose proof (sod_bounds b Vb). unfold instant. rewrite Z.ltb_lt. split.
  - intros L. destruct (Z.lt_trichotomy (dayno (sdate a)) (dayno (sdate b))) as [L2|[E|L2]]; [left|right|exfalso; lia].
    + exists (dayno (sdate b) - dayno (sdate a)). split; [lia|].
      apply days_later_dayno; [apply Va|apply Vb|lia].
    + split; [apply dayno_inj; auto; [apply Va|apply Vb]|lia].
  - intros [(n & Hn & D)|[E L]].
    + apply days_later_dayno in D; [lia|apply Va|apply Vb].
    + rewrite E. lia.
Qed.

Theorem C04_trichotomy : forall a b, valid_solar a -> valid_solar b ->
  (isBefore a b = true /\ isAfter a b = false /\ a <> b) \/
  (isBefore a b = false /\ isAfter a b = true /\ a <> b) \/
  (isBefore a b = false /\ isAfter a b = false /\ a = b).
Proof.
  intros a b Va Vb. rewrite isAfter_isBefore, !isBefore_instant by assumption.
  destruct (Z.lt_trichotomy (instant a) (instant b)) as [L|[E|L]].
  - left. repeat split; try lia. intros ->; lia.
  - right; right. repeat split; try lia. now apply instant_inj.
  - right; left. repeat split; try lia. intros ->; lia.
Qed.

Theorem C04_converse : forall a b, isAfter a b = isBefore b a.
Proof. exact isAfter_isBefore. Qed.

Theorem C04_transitive : forall a b c, valid_solar a -> valid_solar b -> valid_solar c ->
  isBefore a b = true -> isBefore b c = true -> isBefore a c = true.
Proof. intros a b c Va Vb Vc. rewrite !isBefore_instant by assumption. lia. Qed.

Example C04_case : isBefore (mkSolar 1582 10 4 23 59 59) (mkSolar 1582 10 15 0 0 0) = true.
Proof. reflexivity. Qed.

(** ** C05 *)
Theorem C05_subtractMinute : forall a b n, valid_solar a -> valid_solar b ->
  days_later n (sdate b) (sdate a) ->
  subtractMinute a b = Ok (1440 * n + (60 * sh a + smi a) - (60 * sh b + smi b)).
Proof.
  intros a b n Va Vb D. rewrite subtractMinute_spec by assumption.
  apply days_later_dayno in D; [|apply Vb|apply Va]. f_equal. lia.
Qed.

Example C05_case : subtractMinute (mkSolar 2020 1 1 0 0 0) (mkSolar 2020 1 2 23 59 0) = Ok (-2879).
Proof. vm_compute. reflexivity. Qed.

(** ** C06 *)
Definition days_counted (y m : Z) : Z := Z.of_nat (length (filter (valid_dateb y m) (zrange 1 32))).

Lemma days_counted_mlen y m : 1 <= m <= 12 -> days_counted y m = mlen y m.
Proof.
  intros H. unfold days_counted, mlen. destruct (Z.eqb_spec y 1582) as [->|N].
  - dmonth m H; vm_compute; reflexivity.
  - cbn [andb]. replace (filter (valid_dateb y m) (zrange 1 32))
      with (filter (fun d => d <=? last_day y m) (zrange 1 32)).
    + assert (K : forall L, 28 <= L <= 31 -> Z.of_nat (length (filter (fun d => d <=? L) (zrange 1 32))) = L).
      { intros L HL. assert (L = 28 \/ L = 29 \/ L = 30 \/ L = 31) as [->|[->|[->| ->]]] by lia;
          vm_compute; reflexivity. }
      apply K. apply last_day_bounds.
    + apply filter_ext_in. intros d Hd. apply in_zrange in Hd. unfold valid_dateb. lia.
Qed.

Theorem C06_getDaysOfMonth : forall y m, 1 <= m <= 12 ->
  getDaysOfMonth y m = Ok (days_counted y m).
Proof. intros y m H. rewrite getDaysOfMonth_mlen, days_counted_mlen by assumption. reflexivity. Qed.

Theorem C06_getDaysOfYear : forall y,
  getDaysOfYear y = fold_right Z.add 0 (map (days_counted y) (zrange 1 13)).
Proof.
  intros y. rewrite getDaysOfYear_ylen.
  replace (map (days_counted y) (zrange 1 13)) with (map (mlen y) (zrange 1 13)).
  - change (zrange 1 13) with [1; 2; 3; 4; 5; 6; 7; 8; 9; 10; 11; 12].
    unfold ylen, mlen. destruct (y =? 1582) eqn:E.
    + apply Z.eqb_eq in E. subst. reflexivity.
    + cbn. destruct (leap y); reflexivity.
  - apply map_ext_in. intros m Hm. apply in_zrange in Hm. symmetry. apply days_counted_mlen. lia.
Qed.

Theorem C06_getDaysInYear : forall y m d, valid_date (y, m, d) ->
  exists n, getDaysInYear y m d = Ok (n + 1) /\ days_later n (y, 1, 1) (y, m, d).
Proof.
  intros y m d V. exists (cum y m + dord y m d - 1). rewrite getDaysInYear_ok by assumption.
  split; [f_equal; lia|]. apply days_later_dayno; [apply valid_jan1|assumption|].
  rewrite dayno_jan1. unfold dayno. lia.
Qed.

Theorem C06_getDaysInYear_raises : forall y m d, 1 <= m <= 12 ->
  (is_ok (getDaysInYear y m d) = false <-> y = 1582 /\ m = 10 /\ 5 <= d <= 14).
Proof.
  intros y m d Hm. unfold getDaysInYear, zrange. rewrite sum_months by lia. cbn [bind].
  rewrite (Z.eqb_sym 1582 y), (Z.eqb_sym 10 m).
  destruct (Z.eqb_spec y 1582), (Z.eqb_spec m 10); cbn [andb is_ok]; try (split; [discriminate|lia]).
  destruct (Z.leb_spec 15 d), (Z.ltb_spec 4 d); cbn [is_ok]; split; try discriminate; try reflexivity; lia.
Qed.

Example C06_case : getDaysOfMonth 1582 10 = Ok 21 /\ getDaysOfYear 1582 = 355 /\ getDaysInYear 1582 10 15 = Ok 278
  /\ getDaysOfMonth 1500 2 = Ok 29 /\ getDaysOfMonth 1900 2 = Ok 28.
Proof. repeat split. Qed.

(** ** C13: the constructor. *)
Theorem C13_valid_accepted : forall y m d h mi s, valid_date (y, m, d) -> valid_time h mi s ->
  fromYmdHms y m d h mi s = Ok (mkSolar y m d h mi s).
Proof. exact fromYmdHms_ok. Qed.

(** What is really accepted: the upper bound of the day is missing. *)
Theorem C13_accepted_iff : forall y m d h mi s r,
  fromYmdHms y m d h mi s = Ok r <->
  r = mkSolar y m d h mi s /\ 1 <= m <= 12 /\ 1 <= d /\ ~ (y = 1582 /\ m = 10 /\ 5 <= d <= 14) /\ valid_time h mi s.
Proof.
  intros. unfold fromYmdHms, valid_time. split.
  - repeat match goal with |- context [if ?b then _ else _] => destruct b eqn:?; [discriminate|] end.
    intros E; injection E as <-. repeat split; lia.
  - intros (-> & H1 & H2 & H3 & H4 & H5 & H6).
    repeat match goal with |- context [if ?b then _ else _] => destruct b eqn:?; [exfalso; lia|] end.
    reflexivity.
Qed.

(** The property "only existing dates are accepted" is false. *)
Theorem C13_constructor_rejects_nonexistent_refuted :
  ~ (forall y m d h mi s r, fromYmdHms y m d h mi s = Ok r -> valid_date (y, m, d)).
Proof.
  intros H. specialize (H 2023 2 30 0 0 0 (mkSolar 2023 2 30 0 0 0) eq_refl).
  destruct H as (_ & H & _). cbn in H. lia.
Qed.

(** ** C14 *)
Theorem C14_nextMonth : forall s n, valid_solar s -> Z.abs n <= 2 ^ 52 ->
  exists s', nextMonth s n = Ok s' /\ valid_solar s' /\ same_time s' s /\
    12 * sy s' + sm s' = 12 * sy s + sm s + n /\
    sd s' = (if (sy s' =? 1582) && (sm s' =? 10) then (if (4 <? sd s) && (sd s <? 15) then sd s + 10 else sd s)
             else Z.min (sd s) (last_day (sy s') (sm s'))).
Proof. exact nextMonth_spec. Qed.

Example C14_case : nextMonth (mkSolar 2023 8 31 1 1 1) (-6) = Ok (mkSolar 2023 2 28 1 1 1)
  /\ nextMonth (mkSolar 1582 9 10 1 1 1) 1 = Ok (mkSolar 1582 10 20 1 1 1).
Proof. split; vm_compute; reflexivity. Qed.

(** ** C15 *)
Theorem C15_nextYear : forall s n, valid_solar s ->
  exists s', nextYear s n = Ok s' /\ valid_solar s' /\ same_time s' s /\
    sy s' = sy s + n /\ sm s' = sm s /\
    sd s' = (if (sy s' =? 1582) && (sm s' =? 10) then (if (4 <? sd s) && (sd s <? 15) then sd s + 10 else sd s)
             else Z.min (sd s) (last_day (sy s') (sm s'))).
Proof. exact nextYear_spec. Qed.

Example C15_case : nextYear (mkSolar 2024 2 29 1 1 1) (-124) = Ok (mkSolar 1900 2 28 1 1 1)
  /\ nextYear (mkSolar 1581 10 5 1 1 1) 1 = Ok (mkSolar 1582 10 15 1 1 1).
Proof. split; vm_compute; reflexivity. Qed.

(** ** C16 *)
Theorem C16_nextHour : forall s n, valid_solar s -> Z.abs n <= 2 ^ 51 ->
  exists s' k, nextHour s n = Ok s' /\ valid_solar s' /\ smi s' = smi s /\ ss s' = ss s /\
    days_later k (sdate s) (sdate s') /\ 24 * k + sh s' = sh s + n.
Proof.
  intros s n V H. destruct (nextHour_spec s n V H) as (s' & E & V' & A & B & C).
  exists s', (dayno (sdate s') - dayno (sdate s)). repeat split; try assumption; try apply V'; try lia.
  apply days_later_dayno; [apply V|apply V'|lia].
Qed.

Example C16_case : nextHour (mkSolar 2020 1 1 1 30 0) (-50) = Ok (mkSolar 2019 12 29 23 30 0).
Proof. vm_compute. reflexivity. Qed.

(** ** C18 *)
Theorem C18_SolarMonth_next : forall y m n, 1 <= m <= 12 -> Z.abs n <= 2 ^ 52 ->
  exists y' m', SolarMonth_next (mkSolarMonth y m) n = Ok (mkSolarMonth y' m') /\
    1 <= m' <= 12 /\ 12 * y' + m' = 12 * y + m + n.
Proof. exact SolarMonth_next_spec. Qed.

Theorem C18_SolarMonth_next_additive : forall y m a b, 1 <= m <= 12 ->
  Z.abs a <= 2 ^ 51 -> Z.abs b <= 2 ^ 51 ->
  (let! x := SolarMonth_next (mkSolarMonth y m) a in SolarMonth_next x b)
  = SolarMonth_next (mkSolarMonth y m) (a + b).
Proof.
  intros y m a b Hm Ha Hb.
  destruct (SolarMonth_next_spec y m a Hm ltac:(lia)) as (y1 & m1 & E1 & M1 & R1). rewrite E1. cbn [bind].
  destruct (SolarMonth_next_spec y1 m1 b M1 ltac:(lia)) as (y2 & m2 & E2 & M2 & R2).
  destruct (SolarMonth_next_spec y m (a + b) Hm ltac:(lia)) as (y3 & m3 & E3 & M3 & R3).
  rewrite E2, E3. f_equal. f_equal; lia.
Qed.

Example C18_case : SolarMonth_next (mkSolarMonth 2020 1) (-25) = Ok (mkSolarMonth 2017 12).
Proof. vm_compute. reflexivity. Qed.

Print Assumptions C01_next_moves_n_civil_days.
Print Assumptions C03_subtract_is_day_distance.
Print Assumptions C14_nextMonth.
