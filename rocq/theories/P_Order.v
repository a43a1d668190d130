(** C101: lunar dates follow one another in the order of their year, month and day, a leap month after the month whose number it repeats. *)
From Coq Require Import ZArith Lia Bool ZifyBool List String Floats.
From Verif Require Import Py PyFloat PyStr ShouXing FloatExpr Trig SunLon SunTerm CertSky CertYears CalSpec DayNo Solar SolarProofs JulianDay LunarYear Lunar LunarProofs YearProofs CalProofs
  P_YearTable P_LunarCal P_LunarYears EarlyYears P_Solar P_Real RealYears.
Import ListNotations.
Open Scope Z_scope.

(** 1 < 闰1 < 2 < 闰2 < ... *)
Definition rank (m : Z) : Z := 2 * Z.abs m + (if m <? 0 then 1 else 0).
Definition lunar_before (l l' : Lunar) : Prop :=
  l_year l < l_year l' \/ l_year l = l_year l' /\ (rank (l_month l) < rank (l_month l') \/ l_month l = l_month l' /\ l_day l < l_day l').
Definition same_lunar_date (l l' : Lunar) : Prop := l_year l = l_year l' /\ l_month l = l_month l' /\ l_day l = l_day l'.

Definition mkey (a : LMonth) : Z := 100 * my a + rank (mm a).
Fixpoint rising (ms : list LMonth) : bool := match ms with a :: ((b :: _) as r) => (mkey a <? mkey b) && rising r | _ => true end.
Lemma rising_nth ms : rising ms = true -> forall i, 0 <= i < Z.of_nat (List.length ms) - 1 -> mkey (nthm ms i) < mkey (nthm ms (i + 1)).
Proof.
  induction ms as [|a [|b r] IH]; intros H i Hi; [cbn in Hi; lia|cbn in Hi; lia|]. cbn [rising] in H. apply andb_true_iff in H. destruct H as [H1 H2].
  destruct (Z.eq_dec i 0) as [->|N]; [change (nthm (a :: b :: r) 0) with a; change (nthm (a :: b :: r) (0 + 1)) with b; lia|].
  assert (Sh : forall j, 0 < j -> nthm (a :: b :: r) j = nthm (b :: r) (j - 1)). { intros j Hj. unfold nthm. replace (Z.to_nat j) with (Datatypes.S (Z.to_nat (j - 1))) by lia. reflexivity. }
  rewrite !Sh by lia. specialize (IH H2 (i - 1) ltac:(cbn [List.length] in *; lia)). replace (i - 1 + 1) with (i + 1 - 1) in IH by lia. exact IH.
Qed.
Lemma early_rising fsin fcos : forallb rising (tables fsin fcos 20 242) = true.
Proof. vm_compute. reflexivity. Qed.

Section LIB.
Context (fsin fcos : float -> float) (lib : libm fsin fcos).
Notation R := (real fsin fcos).
Lemma table_rising y t i : 20 <= y <= 9999 -> R y = Ok t -> 0 <= i < 14 -> mkey (nthm (lmonths t) i) < mkey (nthm (lmonths t) (i + 1)).
Proof.
  intros Hy Et Hi. pose proof (cal_wf (real_Cal lib) y t ltac:(lia) Et) as W. destruct (Z.le_gt_cases y 241) as [L|L].
  - destruct (real_inv _ _ _ _ Et) as [_ M]. apply rising_nth; [|rewrite (wf_length _ _ W); lia]. rewrite M. pose proof (early_rising fsin fcos) as H. rewrite forallb_forall in H. apply H.
    unfold tables. apply in_map_iff. exists y. split; [reflexivity|apply in_zrange; lia].
  - destruct (civil_months _ y t Et (fun i => real_usage lib y t i ltac:(lia) Et)) as (leap & R1 & R2 & F). unfold month in F. destruct (F i ltac:(lia)) as [M Y]. destruct (F (i + 1) ltac:(lia)) as [M' Y']. unfold mkey. rewrite M, Y, M', Y'.
    assert (T : forallb (fun leap => forallb (fun i => (100 * year_at leap i + rank (if i =? leap then - number leap i else number leap i) <? 100 * year_at leap (i + 1) + rank (if i + 1 =? leap then - number leap (i + 1) else number leap (i + 1))) || (leap =? 15)) (zrange 0 14)) (zrange 1 17) = true)
      by (vm_compute; reflexivity).
    pose proof (forallb_zrange _ _ _ T leap ltac:(lia)) as T1. cbv beta in T1. pose proof (forallb_zrange _ _ _ T1 i ltac:(lia)) as T2. cbv beta in T2.
    revert T2. generalize (rank (if i =? leap then - number leap i else number leap i)) (rank (if i + 1 =? leap then - number leap (i + 1) else number leap (i + 1))). intros p q T2. lia.
Qed.
Definition dkey (l : Lunar) : Z := 100 * (100 * l_year l + rank (l_month l)) + l_day l.
Lemma date_bounds s l : termed_date s -> getLunar R s = Ok l -> 1 <= l_day l <= 30 /\ 1 <= Z.abs (l_month l) <= 12.
Proof.
  intros [V Y] E. destruct (getLunar_spec (real_Cal lib) s V ltac:(lia)) as (l0 & t & a & E0 & Et & Ia & Ha & A1 & A2 & A3 & _). rewrite E in E0. apply Ok_inj in E0. subst l0.
  destruct (wf_month _ _ (cal_wf (real_Cal lib) (sy s) t ltac:(lia) Et) a Ia) as (C & M & _). unfold mend in Ha. rewrite A2, A3. lia.
Qed.
Lemma next_day s l s' l' : termed_date s -> termed_date s' -> getLunar R s = Ok l -> getLunar R s' = Ok l' -> dayno (sdate s') = dayno (sdate s) + 1 -> dkey l < dkey l'.
Proof.
  intros [V Y] [V' Y'] E E' D. pose proof (date_bounds s l (conj V Y) E) as B. pose proof (date_bounds s' l' (conj V' Y') E') as B'.
  destruct (getLunar_spec (real_Cal lib) s V ltac:(lia)) as (l0 & t & a & E0 & Et & Ia & Ha & A1 & A2 & A3 & _). rewrite E in E0. apply Ok_inj in E0. subst l0.
  destruct (getLunar_spec (real_Cal lib) s' V' ltac:(lia)) as (l0 & t' & a' & E0 & Et' & Ia' & Ha' & A1' & A2' & A3' & _). rewrite E' in E0. apply Ok_inj in E0. subst l0.
  pose proof (cal_wf (real_Cal lib) (sy s) t ltac:(lia) Et) as W. pose proof (wf_first _ _ W) as Wf. pose proof (wf_last _ _ W) as Wl. pose proof (jan1_bounds _ _ _ (proj1 V)) as J. change (dayno (sy s, sm s, sd s)) with (dayno (sdate s)) in J.
  destruct (in_nthm _ _ Ia) as (i & Hi & Ea). rewrite (wf_length _ _ W) in Hi. change (Z.of_nat 15) with 15 in Hi. subst a.
  destruct (wf_cover W (dayno (sdate s) + 1) ltac:(lia)) as (j & Hj & Cj).
  destruct (month_unique (real_Cal lib) (sy s) (sy s') t t' (nthm (lmonths t) j) a' (dayno (sdate s) + 1) ltac:(lia) ltac:(lia) Et Et' (wf_in W j Hj) Ia' Cj ltac:(lia)) as (S1 & S2 & S3 & S4).
  unfold dkey. rewrite A1, A2, A1', A2', <- S1, <- S2. destruct (Z.lt_trichotomy i j) as [L|[<-|L]].
  - assert (j = i + 1). { destruct (Z.eq_dec j (i + 1)) as [|N]; [assumption|]. pose proof (wf_before W i (i + 1) ltac:(lia) ltac:(lia)). pose proof (wf_before W (i + 1) j ltac:(lia) ltac:(lia)). pose proof (wf_month _ _ W _ (wf_in W (i + 1) ltac:(lia))) as (C & _). unfold mend in *. lia. }
    subst j. pose proof (table_rising (sy s) t i ltac:(lia) Et ltac:(lia)) as K. unfold mkey in K. lia.
  - lia.
  - pose proof (wf_before W j i ltac:(lia) ltac:(lia)). lia.
Qed.
Lemma later_day n : forall s l s' l', termed_date s -> termed_date s' -> getLunar R s = Ok l -> getLunar R s' = Ok l' -> dayno (sdate s') = dayno (sdate s) + 1 + Z.of_nat n -> dkey l < dkey l'.
Proof.
  induction n as [|n IH]; intros s l s' l' T T' E E' D; [apply (next_day s l s' l' T T' E E'); lia|].
  destruct (dayno_surj (dayno (sdate s) + 1)) as ([[y m] d] & V & Ed). set (u := mkSolar y m d 0 0 0). assert (Vu : valid_solar u) by (split; [exact V|unfold valid_time; cbn; lia]).
  assert (Yu : 20 <= sy u <= 9998).
  { destruct T as [[Vs _] Ys], T' as [[Vs' _] Ys']. pose proof (jan1_bounds _ _ _ Vs) as J. pose proof (jan1_bounds _ _ _ Vs') as J'. change (dayno (sy s, sm s, sd s)) with (dayno (sdate s)) in J. change (dayno (sy s', sm s', sd s')) with (dayno (sdate s')) in J'.
    cbn [sy u]. split; [apply (year_ge _ _ _ _ V)|apply (year_le _ _ _ _ V)].
    - pose proof (Z.le_gt_cases (sy s) 20) as Q. destruct (Z.eq_dec (sy s) 20) as [X|X]; [rewrite X in J; lia|pose proof (jan1_mono 20 (sy s) ltac:(lia)); lia].
    - destruct (Z.eq_dec (sy s') 9998) as [X|X]; [rewrite X in J'; lia|pose proof (jan1_mono (sy s' + 1) (9998 + 1) ltac:(lia)); lia]. }
  destruct (getLunar_spec (real_Cal lib) u Vu ltac:(lia)) as (lu & _ & _ & Eu & _).
  pose proof (next_day s l u lu T (conj Vu Yu) E Eu Ed). pose proof (IH u lu s' l' (conj Vu Yu) T' Eu E' ltac:(change (dayno (sdate u)) with (dayno (y, m, d)); lia)). lia.
Qed.
Lemma key_before s l s' l' : termed_date s -> termed_date s' -> getLunar R s = Ok l -> getLunar R s' = Ok l' -> (dkey l < dkey l' <-> lunar_before l l') /\ (dkey l = dkey l' <-> same_lunar_date l l').
Proof.
  intros T T' E E'. pose proof (date_bounds s l T E). pose proof (date_bounds s' l' T' E'). unfold dkey, lunar_before, same_lunar_date, rank.
  destruct (l_month l <? 0) eqn:C, (l_month l' <? 0) eqn:C'; split; lia.
Qed.
(** Days are in the order of their lunar dates; days with the same lunar date are the same. *)
Theorem C101_days : forall s l s' l', termed_date s -> termed_date s' -> getLunar R s = Ok l -> getLunar R s' = Ok l' ->
  (dayno (sdate s) < dayno (sdate s') <-> lunar_before l l') /\ (sdate s = sdate s' <-> same_lunar_date l l').
Proof.
  intros s l s' l' T T' E E'. destruct (key_before s l s' l' T T' E E') as [K1 K2].
  assert (Up : forall s l s' l', termed_date s -> termed_date s' -> getLunar R s = Ok l -> getLunar R s' = Ok l' -> dayno (sdate s) < dayno (sdate s') -> dkey l < dkey l').
  { intros a la b lb Ta Tb Ea Eb L. apply (later_day (Z.to_nat (dayno (sdate b) - dayno (sdate a) - 1)) a la b lb Ta Tb Ea Eb). lia. }
  assert (Eq : dayno (sdate s) = dayno (sdate s') -> dkey l = dkey l').
  { intros D. destruct T as [V Y], T' as [V' Y']. destruct (getLunar_spec (real_Cal lib) s V ltac:(lia)) as (l0 & t & a & E0 & Et & Ia & Ha & A1 & A2 & A3 & _). rewrite E in E0. apply Ok_inj in E0. subst l0.
    destruct (getLunar_spec (real_Cal lib) s' V' ltac:(lia)) as (l0 & t' & a' & E0 & Et' & Ia' & Ha' & A1' & A2' & A3' & _). rewrite E' in E0. apply Ok_inj in E0. subst l0.
    destruct (month_unique (real_Cal lib) (sy s) (sy s') t t' a a' (dayno (sdate s)) ltac:(lia) ltac:(lia) Et Et' Ia Ia' Ha ltac:(lia)) as (S1 & S2 & S3 & S4). unfold dkey. rewrite A1, A2, A3, A1', A2', A3', S1, S2, S3, D. reflexivity. }
  pose proof (Up s l s' l' T T' E E'). pose proof (Up s' l' s l T' T E' E). rewrite <- K1, <- K2. split; [lia|]. split; [intros X; apply Eq; now rewrite X|].
  intros X. apply dayno_inj; [apply T|apply T'|lia].
Qed.
(** [Solar.isBefore] in terms of the lunar dates and the clock. *)
Theorem C101_isBefore : forall s l s' l', termed_date s -> termed_date s' -> getLunar R s = Ok l -> getLunar R s' = Ok l' ->
  (isBefore (l_solar l) (l_solar l') = true <->
   lunar_before l l' \/ same_lunar_date l l' /\ 3600 * l_hour l + 60 * l_minute l + l_second l < 3600 * l_hour l' + 60 * l_minute l' + l_second l').
Proof.
  intros s l s' l' T T' E E'. destruct (C101_days s l s' l' T T' E E') as [K1 K2]. destruct T as [V Y], T' as [V' Y'].
  destruct (getLunar_spec (real_Cal lib) s V ltac:(lia)) as (l0 & _ & _ & E0 & _ & _ & _ & _ & _ & _ & H1 & H2 & H3 & Es). rewrite E in E0. apply Ok_inj in E0. subst l0.
  destruct (getLunar_spec (real_Cal lib) s' V' ltac:(lia)) as (l0 & _ & _ & E0 & _ & _ & _ & _ & _ & _ & H1' & H2' & H3' & Es'). rewrite E' in E0. apply Ok_inj in E0. subst l0.
  rewrite Es, Es', <- K1, <- K2, H1, H2, H3, H1', H2', H3', isBefore_instant, Z.ltb_lt by assumption. pose proof (sod_bounds s V). pose proof (sod_bounds s' V'). unfold instant.
  unfold sod in *. split.
  - intros L. destruct (Z.lt_trichotomy (dayno (sdate s)) (dayno (sdate s'))) as [X|[X|X]]; [left; exact X|right|lia]. split; [apply dayno_inj; [apply V|apply V'|exact X]|lia].
  - intros [X|[X Z0]]; [lia|]. rewrite X. lia.
Qed.
(** The same of Lunars made from a lunar date. *)
Theorem C101_new : forall y m d h mi s y' m' d' h' mi' s' l l', 20 < y < 9998 -> 20 < y' < 9998 -> Lunar_new R y m d h mi s = Ok l -> Lunar_new R y' m' d' h' mi' s' = Ok l' ->
  (isBefore (l_solar l) (l_solar l') = true <->
   y < y' \/ y = y' /\ (rank m < rank m' \/ m = m' /\ (d < d' \/ d = d' /\ 3600 * h + 60 * mi + s < 3600 * h' + 60 * mi' + s'))).
Proof.
  intros y m d h mi s y' m' d' h' mi' s' l l' Hy Hy' N N'. destruct (new_lunar lib y m d h mi s l Hy N) as (V & Ys & E). destruct (new_lunar lib y' m' d' h' mi' s' l' Hy' N') as (V' & Ys' & E').
  assert (T : termed_date (l_solar l)) by (split; [exact V|lia]). assert (T' : termed_date (l_solar l')) by (split; [exact V'|lia]). rewrite (C101_isBefore _ _ _ _ T T' E E'). destruct (getLunar_spec (real_Cal lib) (l_solar l) V ltac:(lia)) as (l0 & _ & _ & E0 & _ & _ & _ & _ & _ & _ & H1 & H2 & H3 & _). rewrite E in E0. apply Ok_inj in E0. subst l0.
  destruct (getLunar_spec (real_Cal lib) (l_solar l') V' ltac:(lia)) as (l0 & _ & _ & E0 & _ & _ & _ & _ & _ & _ & H1' & H2' & H3' & _). rewrite E' in E0. apply Ok_inj in E0. subst l0.
  destruct (Lunar_new_inv _ _ _ _ _ _ _ _ N) as (? & ? & ? & ? & _ & _ & _ & _ & ES & _ & _ & CP). destruct (Lunar_new_inv _ _ _ _ _ _ _ _ N') as (? & ? & ? & ? & _ & _ & _ & _ & ES' & _ & _ & CP').
  destruct (cp_ymd _ _ _ _ _ _ _ _ _ CP) as (F1 & F2 & F3). destruct (cp_ymd _ _ _ _ _ _ _ _ _ CP') as (F1' & F2' & F3'). rewrite H1, H2, H3, H1', H2', H3', ES, ES'. cbn [sh smi ss].
  unfold lunar_before, same_lunar_date. rewrite F1, F2, F3, F1', F2', F3'. tauto.
Qed.
(** The last day of month 2, the first of the leap month 2 and the first of month 3 of 2023, by whatever library. *)
Example C101_case : exists l1 l2 l3, Lunar_new R 2023 2 30 0 0 0 = Ok l1 /\ Lunar_new R 2023 (-2) 1 0 0 0 = Ok l2 /\ Lunar_new R 2023 3 1 0 0 0 = Ok l3 /\ isBefore (l_solar l1) (l_solar l2) = true /\ isBefore (l_solar l2) (l_solar l3) = true.
Proof.
  assert (X : forall m d, In (m, d) [(2, 30); (-2, 1); (3, 1)] -> exists l, Lunar_new R 2023 m d 0 0 0 = Ok l).
  { intros m d I. destruct (C49_code _ _ lib 2023 m d 0 0 0 ltac:(lia)) as [[_ X] _]. apply X. split; [|unfold valid_time; lia].
    destruct (cal_ok _ _ _ (real_Cal lib) 2023 ltac:(lia)) as (t & _ & Et & _). destruct (real_inv _ _ _ _ Et) as [_ Mt]. rewrite (cert_months_ok _ _ 2023 lib (cert_nonempty 2023 ltac:(lia))) in Mt.
    assert (Q : forallb (fun '(m, d) => existsb (fun a => (my a =? 2023) && (mm a =? m) && (1 <=? d) && (d <=? mcount a)) (cert_months 2023)) [(2, 30); (-2, 1); (3, 1)] = true) by (vm_compute; reflexivity).
    rewrite forallb_forall in Q. specialize (Q _ I). cbv beta iota in Q. apply existsb_exists in Q. destruct Q as (a & Ia & Q). exists t, a. split; [exact Et|]. split; [rewrite Mt; exact Ia|]. lia. }
  destruct (X 2 30 ltac:(cbn; tauto)) as (l1 & E1). destruct (X (-2) 1 ltac:(cbn; tauto)) as (l2 & E2). destruct (X 3 1 ltac:(cbn; tauto)) as (l3 & E3). exists l1, l2, l3. do 3 (split; [assumption|]).
  split; [apply (fun H => C101_new _ _ _ _ _ _ _ _ _ _ _ _ _ _ H H E1 E2)|apply (fun H => C101_new _ _ _ _ _ _ _ _ _ _ _ _ _ _ H H E2 E3)]; unfold rank; cbn; lia.
Qed.
End LIB.
