(** C69: 除夕; and what C47-C52 say about concrete tables. *)
From Coq Require Import ZArith Lia Bool ZifyBool List String Floats.
From Verif Require Import Py PyFloat PyStr CalSpec DayNo Solar SolarProofs JulianDay P_Solar P_JD LunarUtil T_LunarUtil T_Misc ShouXing LunarYear Lunar LunarTime
  LunarProofs TermProofs YearProofs CalProofs CalCheck P_YearTable P_LunarCal P_LunarYears Demo.
Import ListNotations.
Open Scope Z_scope.

Definition chuxi : str := Eval vm_compute in utf8 "除夕".
Lemma festival_not_chuxi k v : assoc k LunarUtil_FESTIVAL = Some v -> v <> chuxi.
Proof.
  assert (T : forallb (fun p => negb (str_eqb (snd p) chuxi)) LunarUtil_FESTIVAL = true) by (vm_compute; reflexivity).
  rewrite forallb_forall in T. intros H. assert (I : In v (map snd LunarUtil_FESTIVAL)).
  { clear T. induction LunarUtil_FESTIVAL as [|[k' v'] l IH]; [discriminate|]. cbn [assoc] in H.
    destruct (assoc k l) as [w|]; [right; apply IH; exact H|]. destruct (str_eqb k k'); [left; cbn; congruence|discriminate]. }
  apply in_map_iff in I. destruct I as ([k' v'] & <- & I). specialize (T _ I). cbn [snd] in *. intros ->.
  rewrite str_eqb_refl in T. discriminate.
Qed.

(** What the code tests. *)
Lemma festivals_chuxi fy l fs : Lunar_getFestivals fy l = Ok fs ->
  (In chuxi fs <-> Z.abs (l_month l) = 12 /\ 29 <= l_day l /\ exists n, Lunar_next fy l 1 = Ok n /\ l_year n <> l_year l).
Proof.
  unfold Lunar_getFestivals. intros H.
  assert (A : ~ In chuxi (opt_list (assoc (md_key l) LunarUtil_FESTIVAL))).
  { destruct (assoc _ _) as [v|] eqn:E; [|intros []]. intros [I|[]]. exact (festival_not_chuxi _ _ E I). }
  destruct ((Z.abs (l_month l) =? 12) && (29 <=? l_day l)) eqn:C.
  - apply bind_ok in H. destruct H as (n & En & H). apply Ok_inj in H. subst fs. split.
    + intros I. split; [lia|]. split; [lia|]. exists n. split; [exact En|]. destruct (Z.eqb_spec (l_year l) (l_year n)) as [E|E]; cbn [negb] in I; [contradiction|congruence].
    + intros (_ & _ & n' & En' & N). rewrite En in En'. apply Ok_inj in En'. subst n'.
      destruct (Z.eqb_spec (l_year l) (l_year n)) as [E|E]; [congruence|]. cbn [negb]. apply in_or_app. right. left. reflexivity.
  - apply Ok_inj in H. subst fs. split; [intros I; contradiction|lia].
Qed.

(** 除夕 is listed exactly on the last day of a month 12 of at least 29 days that is followed by another year. *)
Theorem C69_chuxi : forall fy lo hi y t a b d h mi s l, Calendar fy lo hi -> lo + 1 < y < hi - 2 ->
  fy y = Ok t -> In a (lmonths t) -> my a = y -> Lunar_new fy y (mm a) d h mi s = Ok l ->
  listed fy lo hi b -> mfirst b = mfirst a + mcount a ->
  exists fs, Lunar_getFestivals fy l = Ok fs /\
    (In chuxi fs <-> Z.abs (mm a) = 12 /\ 29 <= mcount a /\ d = mcount a /\ my b <> y).
Proof.
  intros fy lo hi y t a b d h mi s l C Hy Et Ia Ya H Lb Fb.
  destruct (C50_day_by_day fy lo hi y t a d h mi s l C Hy Et Ia Ya H) as (n & En & N1 & N2).
  destruct (Lunar_new_inv _ _ _ _ _ _ _ _ H) as (t' & mo & noon & t2 & Et' & Em & Hd & _ & _ & _ & _ & CP).
  destruct CP as [(L1 & L2 & L3) _ _ _ _ _ _ _ _ _].
  assert (Hd' : 1 <= d <= mcount a).
  { rewrite Et in Et'. apply Ok_inj in Et'. subst t'.
    destruct (getMonth_same C y t a ltac:(lia) Et Ia Ya) as (x & Ex & _ & (_ & _ & _ & Sx)). rewrite Em in Ex. injection Ex as <-. lia. }
  assert (E : exists fs, Lunar_getFestivals fy l = Ok fs).
  { unfold Lunar_getFestivals. rewrite En. cbn [bind]. destruct (_ && _); eexists; reflexivity. }
  destruct E as (fs & E). exists fs. split; [exact E|]. rewrite (festivals_chuxi _ _ _ E), L1, L2, L3.
  split.
  - intros (A & B & n' & En' & D). rewrite En in En'. apply Ok_inj in En'. subst n'.
    assert (d = mcount a) by (destruct (Z.eq_dec d (mcount a)); [assumption|destruct (N1 ltac:(lia)); lia]).
    destruct (N2 H0) as (_ & y2 & t3 & b' & Hy2 & Et2 & Ib' & Fb' & Yb' & _).
    split; [exact A|]. split; [lia|]. split; [assumption|].
    destruct Lb as (y3 & t4 & Hy3 & Et3 & Ib).
    pose proof (proj1 (wf_month _ _ (cal_wf C y2 t3 Hy2 Et2) _ Ib')). pose proof (proj1 (wf_month _ _ (cal_wf C y3 t4 Hy3 Et3) _ Ib)).
    destruct (month_unique C y2 y3 t3 t4 b' b (mfirst b) Hy2 Hy3 Et2 Et3 Ib' Ib) as (X & _); unfold mend; lia.
  - intros (A & B & -> & D). split; [exact A|]. split; [exact B|]. exists n. split; [exact En|].
    destruct (N2 eq_refl) as (_ & y2 & t3 & b' & Hy2 & Et2 & Ib' & Fb' & Yb' & _).
    destruct Lb as (y3 & t4 & Hy3 & Et3 & Ib).
    pose proof (proj1 (wf_month _ _ (cal_wf C y2 t3 Hy2 Et2) _ Ib')). pose proof (proj1 (wf_month _ _ (cal_wf C y3 t4 Hy3 Et3) _ Ib)).
    destruct (month_unique C y2 y3 t3 t4 b' b (mfirst b) Hy2 Hy3 Et2 Et3 Ib' Ib) as (X & _); unfold mend; lia.
Qed.
(** Outside the reform years, and if month 12 has its 29 or 30 days, that is the last day of the lunar year. *)
Theorem C69_last_day : forall sky lo hi y t a b d h mi s l, Calendar (LunarYear_new sky) lo hi -> lo + 1 < y < hi - 2 ->
  LunarYear_new sky y = Ok t -> (forall i, 0 <= i < 15 -> usage_of (mfirst (month t i)) = Civil) -> In a (lmonths t) -> my a = y -> 29 <= mcount a ->
  Lunar_new (LunarYear_new sky) y (mm a) d h mi s = Ok l -> listed (LunarYear_new sky) lo hi b -> mfirst b = mfirst a + mcount a ->
  exists fs, Lunar_getFestivals (LunarYear_new sky) l = Ok fs /\ (In chuxi fs <-> d = mcount a /\ my b <> y).
Proof.
  intros sky lo hi y t a b d h mi s l C Hy Et U Ia Ya Hc H Lb Fb.
  destruct (C69_chuxi _ lo hi y t a b d h mi s l C Hy Et Ia Ya H Lb Fb) as (fs & E & I). exists fs. split; [exact E|]. rewrite I.
  split; [tauto|]. intros [D N]. split; [|tauto].
  pose proof (cal_wf C y t ltac:(lia) Et) as W. destruct (in_nthm _ _ Ia) as (i & Hi & <-). rewrite (wf_length _ _ W) in Hi. change (Z.of_nat 15) with 15 in Hi.
  destruct (Z.eq_dec i 14) as [->|Ni].
  - destruct (civil_months sky y t Et U) as (leap & R1 & R2 & F). destruct (F 14 ltac:(lia)) as [F1 F2]. unfold month in *. rewrite Ya in F2.
    rewrite F1. unfold year_at in F2. cbn [Z.eqb Pos.eqb andb] in F2.
    assert (leap <= 14) by (destruct (Z.ltb_spec 14 leap); [destruct (leap <=? 2); cbn in F2; lia|lia]).
    unfold number. replace (leap <=? 14) with true by lia. change ((14 - 1 + 10) mod 12 + 1) with 12. destruct (14 =? leap); reflexivity.
  - pose proof (C44_numbering sky y t i Et ltac:(lia)) as Nb. cbv zeta in Nb. unfold month in *.
    destruct (Nb ltac:(rewrite !U by lia; reflexivity) ltac:(rewrite U by lia; discriminate)) as [R Cs].
    pose proof (wf_contig _ _ W i ltac:(lia)) as Ct. pose proof (wf_in W (i + 1) ltac:(lia)) as I1.
    destruct Lb as (y3 & t4 & Hy3 & Et3 & Ib).
    pose proof (proj1 (wf_month _ _ W _ I1)). pose proof (proj1 (wf_month _ _ (cal_wf C y3 t4 Hy3 Et3) _ Ib)).
    destruct (month_unique C y y3 t t4 (nthm (lmonths t) (i + 1)) b (mfirst b) ltac:(lia) Hy3 Et Et3 I1 Ib) as (X & _); [unfold mend in *; lia|unfold mend; lia|].
    destruct Cs as [(_ & _ & _ & S)|[S1 S2]]; [congruence|].
    destruct (Z.eqb_spec (mm (nthm (lmonths t) (i + 1))) 1) as [E1|E1]; [|lia].
    set (na := Z.abs (mm (nthm (lmonths t) i))) in *. clearbody na. Z.div_mod_to_equations. lia.
Qed.
(** It is missing in AD 236, whose last month has 28 days. *)
Theorem C69_refuted : forall fsin fcos, terms_convert fsin fcos 19 616 -> exists l n,
  Lunar_new (real fsin fcos) 236 12 28 0 0 0 = Ok l /\ Lunar_getFestivals (real fsin fcos) l = Ok [] /\
  Lunar_next (real fsin fcos) l 1 = Ok n /\ l_year n = 237 /\ l_month n = 1 /\ l_day n = 1.
Proof.
  intros fsin fcos T. pose proof (proj2 (C46_real_calendar fsin fcos) T) as C.
  destruct (cal_ok _ _ _ C 236 ltac:(lia)) as (t & _ & Et & _). destruct (real_inv _ _ _ _ Et) as [Y M].
  destruct (cal_ok _ _ _ C 237 ltac:(lia)) as (t' & _ & Et' & _). destruct (real_inv _ _ _ _ Et') as [Y' M'].
  pose proof (cal_wf C 236 t ltac:(lia) Et) as W. pose proof (cal_wf C 237 t' ltac:(lia) Et') as W'.
  assert (E1 : nthm (months_of fsin fcos 236) 14 = mkLMonth 236 12 28 1807637 13) by (vm_compute; reflexivity).
  assert (E2 : nthm (months_of fsin fcos 237) 2 = mkLMonth 237 1 30 1807665 1) by (vm_compute; reflexivity).
  rewrite <- M in E1. rewrite <- M' in E2.
  pose proof (wf_in W 14 ltac:(lia)) as I1. pose proof (wf_in W' 2 ltac:(lia)) as I2. rewrite E1 in I1. rewrite E2 in I2.
  destruct (new_spec C 236 t _ 28 0 0 0 ltac:(lia) Et I1 eq_refl ltac:(cbn; lia) ltac:(unfold valid_time; lia)) as (l & El & Vl & Dl & L1 & L2 & L3 & _).
  { apply (year_of_month _ _ _ 236 t _ _ C ltac:(lia) Et I1). cbn. lia. }
  cbn [mm] in El, L2. exists l.
  destruct (C50_day_by_day _ _ _ 236 t _ 28 0 0 0 l C ltac:(lia) Et I1 eq_refl El) as (n & En & _ & N2). exists n.
  split; [exact El|]. split.
  - unfold Lunar_getFestivals, md_key. rewrite L2, L3. vm_compute. reflexivity.
  - split; [exact En|]. destruct (N2 eq_refl) as (D1 & y2 & t3 & b & Hy2 & Et2 & Ib & Fb & Yb & Mb).
    pose proof (proj1 (wf_month _ _ (cal_wf C y2 t3 Hy2 Et2) _ Ib)).
    destruct (month_unique C y2 237 t3 t' b (mkLMonth 237 1 30 1807665 1) 1807665 Hy2 ltac:(lia) Et2 Et' Ib I2) as (X1 & X2 & _);
      [unfold mend; cbn in Fb; lia|unfold mend; cbn; lia|]. cbn [my mm] in *. lia.
Qed.

(** ** The hypotheses can be met *)
(** A sky in which sun and moon move uniformly: cheap to compute and good enough to have leap months. *)
Definition mean_sky : Sky := mkSky
  (fun x => let! n := py_floor ((x + 10) / 15.2184 + 0.5)%float in py_floor (float_of_Z n * 15.2184 - 9.9)%float)
  (fun x => let! n := py_floor ((x - 6) / 29.530588 + 0.5)%float in py_floor (float_of_Z n * 29.530588 + 6.2)%float)
  (fun x => let! n := py_floor ((x + 10) / 15.2184 + 0.5)%float in Ok (float_of_Z n * 15.2184 - 9.9)%float).
Definition mean_years : list (Z * res LYear) := Eval vm_compute in map (fun y => (y, LunarYear_new mean_sky y)) (zrange 2023 2033).
Lemma mean_years_eq : map (fun y => (y, LunarYear_new mean_sky y)) (zrange 2023 2033) = mean_years.
Proof. vm_compute. reflexivity. Qed.
Definition mean (y : Z) : res LYear := LunarYear_new mean_sky y.
Definition months_in (r : res LYear) : list LMonth := match r with Ok t => lmonths t | Raise _ => [] end.
Lemma mean_in y : 2023 <= y <= 2032 -> In (y, mean y) mean_years.
Proof. intros H. rewrite <- mean_years_eq. apply (in_map (fun y => (y, LunarYear_new mean_sky y))). apply in_zrange. lia. Qed.
Lemma mean_calendar : Calendar mean 2023 2032.
Proof.
  apply (calb_ok mean 2023 (map (fun p => months_in (snd p)) mean_years)); [vm_compute; reflexivity|lia|vm_compute; discriminate| |].
  - assert (T : forallb (fun p => match snd p with Ok t => match computeJieQi (lterms t) with Ok _ => true | _ => false end | _ => false end) mean_years = true)
      by (vm_compute; reflexivity).
    intros y Hy. change (2023 + Z.of_nat (List.length (map (fun p => months_in (snd p)) mean_years)) - 1) with 2032 in Hy.
    rewrite forallb_forall in T. specialize (T _ (mean_in y Hy)). cbv beta in T. cbn [snd] in T. destruct (mean y) as [t|]; [|discriminate].
    destruct (computeJieQi (lterms t)) as [jq|] eqn:E; [|discriminate]. exists t, jq. auto.
  - intros y t Hy Et. change (2023 + Z.of_nat (List.length (map (fun p => months_in (snd p)) mean_years)) - 1) with 2032 in Hy.
    assert (T : forallb (fun p => match snd p with Ok t => lyear t =? fst p | _ => true end) mean_years = true) by (vm_compute; reflexivity).
    rewrite forallb_forall in T. specialize (T _ (mean_in y Hy)). cbv beta in T. cbn [fst snd] in T. rewrite Et in T. split; [lia|].
    rewrite <- mean_years_eq, map_map. cbn [snd]. rewrite (nth_indep _ [] (months_in (LunarYear_new mean_sky 0)))
      by (rewrite map_length, zrange_length; lia).
    rewrite (map_nth (fun y => months_in (LunarYear_new mean_sky y))), zrange_nth by lia. replace (2023 + _) with y by lia.
    fold (mean y). rewrite Et. reflexivity.
Qed.
(** ** The code's tables of 2023 to 2025 *)
Definition demo_list : list (list LMonth) :=
  map (fun y => match demo y with Ok t => lmonths t | Raise _ => [] end) (zrange 2023 2026).
Lemma demo_calendar : Calendar demo 2023 2025.
Proof.
  apply (calb_ok demo 2023 demo_list); [vm_compute; reflexivity|lia|vm_compute; discriminate| |].
  - assert (T : forallb (fun y => match demo y with Ok t => match computeJieQi (lterms t) with Ok _ => true | _ => false end | _ => false end) (zrange 2023 2026) = true)
      by (vm_compute; reflexivity).
    intros y Hy. change (2023 + Z.of_nat (List.length demo_list) - 1) with 2025 in Hy.
    pose proof (forallb_zrange _ _ _ T y ltac:(lia)) as X. cbv beta in X. destruct (demo y) as [t|]; [|discriminate].
    destruct (computeJieQi (lterms t)) as [jq|] eqn:E; [|discriminate]. exists t, jq. auto.
  - intros y t Hy Et. change (2023 + Z.of_nat (List.length demo_list) - 1) with 2025 in Hy.
    assert (Cs : y = 2023 \/ y = 2024 \/ y = 2025) by lia.
    destruct Cs as [-> | [-> | ->]]; cbv [demo Z.eqb Pos.eqb demo2023 demo2024 demo2025] in Et; apply Ok_inj in Et; subst t; split; reflexivity.
Qed.
(** 2024-02-10 is the first day of the lunar year 2024. *)
Example C47_case : let s := mkSolar 2024 2 10 12 30 0 in valid_solar s /\ 2023 < sy s < 2025 /\
  (let! l := getLunar demo s in Ok (l_year l, l_month l, l_day l, l_solar l)) = Ok (2024, 1, 1, s).
Proof. cbv zeta. split; [apply valid_solarb_ok; vm_compute; reflexivity|]. split; [cbn; lia|]. vm_compute. reflexivity. Qed.
(** The year 2025 of [mean] has a leap month 9 of 29 days. *)
Definition mean_2025 : LYear := Eval vm_compute in match mean 2025 with Ok t => t | Raise _ => mkLYear 0 0 0 [] [] end.
Lemma mean_2025_eq : mean 2025 = Ok mean_2025.
Proof. vm_compute. reflexivity. Qed.
Definition nine : LMonth := mkLMonth 2025 (-9) 29 2460971 10.
Definition twelve : LMonth := mkLMonth 2025 12 29 2461060 13.
Definition first2026 : LMonth := mkLMonth 2026 1 30 2461089 1.
Lemma nine_in : In nine (lmonths mean_2025).
Proof. do 11 right. left. reflexivity. Qed.
Lemma twelve_in : In twelve (lmonths mean_2025).
Proof. do 14 right. left. reflexivity. Qed.
Example C48_case : 2023 + 1 < 2025 < 2032 - 1 /\
  (let! l := Lunar_new mean 2025 (-9) 29 12 30 0 in let! l' := getLunar mean (l_solar l) in
  Ok (l_year l', l_month l', l_day l', sdate (l_solar l))) = Ok (2025, -9, 29, (2025, 11, 19)).
Proof. split; [lia|]. vm_compute. reflexivity. Qed.
Example C49_case : (exists l, Lunar_new mean 2025 (-9) 29 0 0 0 = Ok l) /\
  Lunar_new mean 2025 (-9) 30 0 0 0 = Raise ExcValue /\ Lunar_new mean 2026 (-9) 1 0 0 0 = Raise ExcValue.
Proof.
  split; [|split; vm_compute; reflexivity].
  apply (C49_accepted_iff mean 2023 2032 2025 (-9) 29 0 0 0 mean_calendar ltac:(lia)). split; [|unfold valid_time; lia].
  exists mean_2025, nine. split; [exact mean_2025_eq|]. split; [exact nine_in|]. cbn. lia.
Qed.
Example C50_case : 2023 + 1 < 2025 < 2032 - 2 /\
  (let! l := Lunar_new mean 2025 (-9) 29 8 0 0 in let! n := Lunar_next mean l 1 in let! b := Lunar_next mean n (-1) in
  Ok (l_year n, l_month n, l_day n, l_year b, l_month b, l_day b)) = Ok (2025, 10, 1, 2025, -9, 29).
Proof. split; [lia|]. vm_compute. reflexivity. Qed.
Example C51_case : listed mean 2023 2032 nine /\
  jan1 2023 <= mfirst nine + 30 * 4 - 30 /\ mfirst nine + 30 * (4 + 1) <= jan1 2033 /\
  exists b, LunarMonth_next mean nine 4 = Ok (Some b) /\ my b = 2026 /\ mm b = 1.
Proof.
  split. { exists 2025, mean_2025. split; [lia|]. split; [exact mean_2025_eq|exact nine_in]. }
  split; [vm_compute; discriminate|]. split; [vm_compute; discriminate|].
  exists first2026. split; [vm_compute; reflexivity|]. split; reflexivity.
Qed.
Example C69_case : exists l fs, Lunar_new mean 2025 12 29 8 0 0 = Ok l /\ Lunar_getFestivals mean l = Ok fs /\ In chuxi fs.
Proof.
  destruct (proj2 (C49_accepted_iff mean 2023 2032 2025 12 29 8 0 0 mean_calendar ltac:(lia))) as (l & E).
  { split; [|unfold valid_time; lia]. exists mean_2025, twelve. split; [exact mean_2025_eq|]. split; [exact twelve_in|]. cbn. lia. }
  assert (U : forall i, 0 <= i < 15 -> usage_of (mfirst (month mean_2025 i)) = Civil).
  { intros i Hi. assert (T : forallb (fun i => match usage_of (mfirst (month mean_2025 i)) with Civil => true | _ => false end) (zrange 0 15) = true) by (vm_compute; reflexivity).
    pose proof (forallb_zrange _ _ _ T i ltac:(lia)) as X. cbv beta in X. destruct (usage_of _); [reflexivity|discriminate|discriminate]. }
  destruct (C69_last_day mean_sky 2023 2032 2025 mean_2025 twelve first2026 29 8 0 0 l mean_calendar ltac:(lia) mean_2025_eq U twelve_in eq_refl
    ltac:(cbn; lia) E) as (fs & F & I).
  { exists 2026. destruct (cal_ok _ _ _ mean_calendar 2026 ltac:(lia)) as (t & _ & Et & _). exists t. split; [lia|]. split; [exact Et|].
    assert (X : existsb (fun m => (my m =? 2026) && (mm m =? 1) && (mcount m =? 30) && (mfirst m =? 2461089) && (mindex m =? 1)) (months_in (mean 2026)) = true) by (vm_compute; reflexivity).
    rewrite Et in X. cbn [months_in] in X. apply existsb_exists in X. destruct X as ([a b c d e] & I & X). cbn [my mm mcount mfirst mindex] in X.
    unfold first2026. replace 2026 with a by lia. replace 1 with b at 1 by lia. replace 30 with c by lia. replace 2461089 with d by lia. replace 1 with e by lia. exact I. }
  { reflexivity. }
  exists l, fs. split; [exact E|]. split; [exact F|]. apply I. split; [reflexivity|discriminate].
Qed.
(** The same on the tables of the code. *)
Example C69_case' :
  (let! l := Lunar_new demo 2023 12 30 8 0 0 in Lunar_getFestivals demo l) = Ok [chuxi] /\
  (let! l := Lunar_new demo 2023 12 29 8 0 0 in Lunar_getFestivals demo l) = Ok [] /\
  (let! l := Lunar_new demo 2024 12 29 8 0 0 in Lunar_getFestivals demo l) = Ok [chuxi].
Proof. split; [|split]; vm_compute; reflexivity. Qed.
