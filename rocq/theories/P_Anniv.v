(** C100: festivals and anniversaries with a fixed date are observed on one day of every year. *)
From Coq Require Import ZArith Lia Bool ZifyBool List String Floats.
From Verif Require Import Py PyFloat PyStr LunarYear LunarCache P_Cache ShouXing FloatExpr Trig SunLon SunTerm CertSky CertYears SunDate SunYear CalSpec DayNo Solar SolarProofs JulianDay UnitsProofs SolarUnits T_SolarUtil
  LunarUtil T_LunarUtil T_Misc AlmanacProofs LunarYear Lunar LunarTime LunarProofs YearProofs CalProofs TermProofs P_Tables FotoTao
  P_YearTable P_LunarCal P_LunarYears P_Terms P_Stars P_Seasons P_NewYear P_Fest P_Real P_Texts RealYears Demo.
Import ListNotations.
Open Scope Z_scope.

(** The key of a month and a day in the tables. *)
Definition md (m d : Z) : str := str_of_Z m ++ lit "-" ++ str_of_Z d.
Lemma md_inj m d m' d' : 0 <= d -> 0 <= d' -> md m d = md m' d' -> m = m' /\ d = d'.
Proof. intros H H' E. unfold md in E. change (lit "-") with [45] in E. cbn [app] in E. apply then_num in E; [|lia|lia|reflexivity]. destruct E as [E ->]. split; [exact (str_of_Z_inj _ _ E)|reflexivity]. Qed.

(** Every key is a day, no key is given twice, no name is given twice. *)
Definition days_of_year : list (Z * Z) := flat_map (fun m => map (pair m) (zrange 1 32)) (zrange 1 13).
Definition keyed_by (ok : Z -> Z -> bool) (T : list (str * list str)) : bool :=
  forallb (fun p => existsb (fun '(m, d) => ok m d && str_eqb (fst p) (md m d)) days_of_year) T &&
  forallb (fun p => forallb (fun q => str_eqb (fst p) (fst q) || forallb (fun f => negb (existsb (str_eqb f) (snd q))) (snd p)) T) T &&
  forallb (fun p => match assoc (fst p) T with Some fs => forallb (fun f => existsb (str_eqb f) fs) (snd p) | None => false end) T.
Lemma keyed_day ok T k names : keyed_by ok T = true -> In (k, names) T -> exists m d, k = md m d /\ 1 <= m <= 12 /\ 1 <= d <= 31 /\ ok m d = true.
Proof.
  unfold keyed_by. rewrite !andb_true_iff. intros [[H _] _] I. rewrite forallb_forall in H. specialize (H _ I). apply existsb_exists in H. destruct H as ([m d] & Im & E).
  apply andb_true_iff in E. destruct E as [O E]. apply str_eqb_eq in E. cbn [fst] in E. unfold days_of_year in Im. apply in_flat_map in Im. destruct Im as (m' & Hm & Hd). apply in_map_iff in Hd. destruct Hd as (d' & E' & Hd).
  injection E' as -> ->. apply in_zrange in Hm, Hd. exists m, d. repeat split; try assumption; lia.
Qed.
(** A name stands at its key only. *)
Lemma keyed_one ok T k names k' f : keyed_by ok T = true -> In (k, names) T -> In f names ->
  (In f (match assoc k' T with Some fs => fs | None => [] end) <-> k' = k).
Proof.
  unfold keyed_by. rewrite !andb_true_iff. intros [[_ U] A] I If. split.
  - destruct (assoc k' T) as [fs|] eqn:E; [|intros []]. intros I'. apply assoc_in in E. rewrite forallb_forall in U. specialize (U _ I). rewrite forallb_forall in U. specialize (U _ E). cbn [fst snd] in U.
    apply orb_true_iff in U. destruct U as [U|U]; [apply str_eqb_eq in U; congruence|]. exfalso. rewrite forallb_forall in U. specialize (U _ If). apply negb_true_iff in U.
    assert (X : existsb (str_eqb f) fs = true) by (apply existsb_exists; exists f; split; [exact I'|apply str_eqb_refl]). congruence.
  - intros ->. rewrite forallb_forall in A. specialize (A _ I). cbn [fst snd] in A. destruct (assoc k T) as [fs|]; [|discriminate]. rewrite forallb_forall in A. specialize (A _ If).
    apply existsb_exists in A. destruct A as (g & Ig & E). apply str_eqb_eq in E. congruence.
Qed.

(** ** The solar calendar *)
(** Every anniversary of the table is observed on one day of every year, but for four days left out of October 1582. *)
Lemma solar_table : keyed_by (fun m d => d <=? match m with 2 => 28 | 4 | 6 | 9 | 11 => 30 | _ => 31 end) SolarUtil_OTHER_FESTIVAL = true.
Proof. vm_compute. reflexivity. Qed.
Theorem C100_solar : forall k names f, In (k, names) SolarUtil_OTHER_FESTIVAL -> In f names ->
  exists m d, k = md m d /\ (forall y, valid_date (y, m, d) <-> ~ (y = 1582 /\ m = 10 /\ 5 <= d <= 14)) /\
    forall s, valid_solar s -> (In f (getOtherFestivals s) <-> sm s = m /\ sd s = d).
Proof.
  intros k names f I If. destruct (keyed_day _ _ _ _ solar_table I) as (m & d & -> & Hm & Hd & O). exists m, d. split; [reflexivity|]. split.
  - intros y. unfold valid_date. assert (d <= last_day y m); [|lia]. apply Z.leb_le in O. unfold last_day. clear - Hm O. dmonth m Hm; try lia. destruct (leap y); lia.
  - intros s [V _]. unfold getOtherFestivals. rewrite (keyed_one _ _ _ _ _ _ solar_table I If). change ([45] ++ str_of_Z (sd s)) with (lit "-" ++ str_of_Z (sd s)). fold (md (sm s) (sd s)).
    unfold valid_date, sdate in V. split; [intros E; apply md_inj in E; [exact E|lia|lia]|intros [-> ->]; reflexivity].
Qed.
(** Those that were not observed in 1582. *)
Theorem C100_october_1582 : forall s, valid_solar s -> sy s = 1582 -> ~ In (utf8 "辛亥革命纪念日") (getOtherFestivals s).
Proof.
  intros s V Y I. assert (K : In (md 10 10, [utf8 "辛亥革命纪念日"]) SolarUtil_OTHER_FESTIVAL) by (apply (nth_error_In _ 104); vm_compute; reflexivity).
  destruct (C100_solar _ _ _ K (or_introl eq_refl)) as (m & d & E & _ & H). apply (H s V) in I. destruct V as [V _]. unfold valid_date, sdate in V. apply md_inj in E; lia.
Qed.

(** ** The lunar calendar *)
Section LIB.
Context (fsin fcos : float -> float) (lib : libm fsin fcos).
Notation R := (real fsin fcos).
(** The date [s], at midnight, belongs to the lunar year [y] and has the festival. *)
Definition observed (has : Lunar -> Prop) (y : Z) (s : Solar) : Prop :=
  valid_solar s /\ 20 <= sy s <= 9998 /\ sh s = 0 /\ smi s = 0 /\ ss s = 0 /\ exists l, getLunar R s = Ok l /\ l_year l = y /\ has l.
(** Once in the year [y], on day [d] of month [m], if the month has as many days, and else not at all; not in a leap month. *)
Definition once (has : Lunar -> Prop) (y m d : Z) : Prop :=
  exists t a, R y = Ok t /\ In a (lmonths t) /\ my a = y /\ mm a = m /\
    (d <= mcount a -> exists s, observed has y s /\ dayno (sdate s) = mfirst a + d - 1 /\ forall s', observed has y s' -> s' = s) /\
    (mcount a < d -> forall s, ~ observed has y s).
Lemma has_month y m : 20 <= y <= 9998 -> y <> 237 -> 1 <= m <= 12 -> exists t a, R y = Ok t /\ In a (lmonths t) /\ my a = y /\ mm a = m.
Proof.
  intros Hy N Hm. pose proof (real_Cal lib) as C. destruct (cal_ok _ _ _ C y ltac:(lia)) as (t & _ & Et & _). destruct (cal_ok _ _ _ C (y + 1) ltac:(lia)) as (t' & _ & Et' & _).
  destruct (C52_code _ _ lib y t t' ltac:(lia) Et Et') as (P & Q & _). exists t. assert (I : In m (map mm (getMonthsInYear t))).
  { destruct (P ltac:(lia) N) as [[-> _]|(k & Hk & -> & _)]; [apply in_zrange; lia|]. apply in_or_app. destruct (Z.le_gt_cases m k); [left; apply in_zrange; lia|right; right; apply in_zrange; lia]. }
  apply in_map_iff in I. destruct I as (a & Ma & Ia). apply Q in Ia. exists a. tauto.
Qed.
Lemma once_ok has y m d : 21 <= y <= 9997 -> y <> 237 -> 1 <= m <= 12 -> 1 <= d ->
  (forall s l, termed_date s -> getLunar R s = Ok l -> (has l <-> l_month l = m /\ l_day l = d)) -> once has y m d.
Proof.
  intros Hy N Hm Hd H. destruct (has_month y m ltac:(lia) N Hm) as (t & a & Et & Ia & Ya & Ma). exists t, a. repeat (split; [assumption|]).
  pose proof (real_Cal lib) as C. split.
  - intros D. destruct (C49_code _ _ lib y m d 0 0 0 ltac:(lia)) as [[_ X] _]. destruct X as (l & El); [split; [exists t, a; tauto|unfold valid_time; lia]|].
    pose proof (C48_code _ _ lib y m d 0 0 0 l Hy El) as G. destruct (Lunar_new_inv _ _ _ _ _ _ _ _ El) as (t1 & mo & noon & t2 & Et1 & Em & Dm & En & ES & VT & _ & CP).
    rewrite Et in Et1. apply Ok_inj in Et1. subst t1. destruct (getMonth_inv _ _ _ Em) as (Io & Yo & Mo).
    pose proof (cal_wf C y t ltac:(lia) Et) as W. destruct (month_range C y t mo ltac:(lia) Et Io) as [M0 M1]. unfold mend in M1.
    destruct (whole_day (mfirst mo + d - 1) ltac:(lia)) as (noon' & En' & Vn & Dn). rewrite En in En'. apply Ok_inj in En'. subst noon'.
    assert (Vs : valid_solar (l_solar l)) by (rewrite ES; split; [apply Vn|exact VT]).
    assert (Ds : dayno (sdate (l_solar l)) = mfirst mo + d - 1) by (rewrite ES; exact Dn).
    pose proof (wf_bounds W mo Io) as B. unfold mend in B.
    assert (Hs : 20 <= sy (l_solar l) <= 9998).
    { destruct Vs as [Vs _]. destruct (l_solar l) as [Y M D0 h0 m0 s0]. unfold sdate in *. cbn [sy sm sd] in *.
      assert (y - 1 <= Y) by (apply (year_ge _ _ _ _ Vs); lia). assert (Y <= y + 1) by (apply (year_le _ _ _ _ Vs); replace (y + 1 + 1) with (y + 2) by lia; lia). lia. }
    assert (F : l_year l = y /\ l_month l = m /\ l_day l = d) by exact (cp_ymd _ _ _ _ _ _ _ _ _ CP).
    exists (l_solar l). split.
    { split; [exact Vs|]. split; [exact Hs|]. rewrite ES. cbn [sh smi ss]. repeat (split; [reflexivity|]). rewrite <- ES. exists l. split; [exact G|]. split; [apply F|]. apply (H _ _ (conj Vs Hs) G). tauto. }
    split. { destruct (getMonth_same C y t a ltac:(lia) Et Ia Ya) as (b & Eb & _ & (_ & _ & Fb & _)). rewrite Ma, Em in Eb. injection Eb as <-. lia. }
    intros s' (V' & Y' & H1 & H2 & H3 & l' & E' & Yl & Hl). apply (H _ _ (conj V' Y') E') in Hl. destruct Hl as [Ml Dl].
    destruct (lunar_new lib s' l' V' ltac:(lia) E') as [Es' N']. rewrite Yl, Ml, Dl, H1, H2, H3 in N'. congruence.
  - intros L s (V & Y & H1 & H2 & H3 & l & E & Yl & Hl). apply (H _ _ (conj V Y) E) in Hl. destruct Hl as [Ml Dl]. destruct (lunar_new lib s l V ltac:(lia) E) as [Es N']. rewrite Yl, Ml, Dl in N'.
    destruct (Lunar_new_inv _ _ _ _ _ _ _ _ N') as (t1 & mo & noon & t2 & Et1 & Em & Dm & _). rewrite Et in Et1. apply Ok_inj in Et1. subst t1.
    destruct (getMonth_same C y t a ltac:(lia) Et Ia Ya) as (b & Eb & _ & (_ & _ & _ & Cb)). rewrite Ma, Em in Eb. injection Eb as <-. lia.
Qed.
(** The festivals of Lunar.getFestivals; 除夕 is C69. *)
Definition feasts : list (Z * Z * string) :=
  [(1, 1, "春节"); (1, 15, "元宵节"); (2, 2, "龙头节"); (5, 5, "端午节"); (7, 7, "七夕节"); (8, 15, "中秋节"); (9, 9, "重阳节"); (12, 8, "腊八节")]%string.
Lemma feast_table : map (fun p => (fst p, [snd p])) LunarUtil_FESTIVAL = map (fun '(m, d, f) => (md m d, [utf8 f])) feasts.
Proof. vm_compute. reflexivity. Qed.
Lemma feast_keyed : keyed_by (fun _ d => d <=? 15) (map (fun p => (fst p, [snd p])) LunarUtil_FESTIVAL) = true.
Proof. vm_compute. reflexivity. Qed.
Lemma feast_assoc k (T : list (str * str)) : match assoc k (map (fun p => (fst p, [snd p])) T) with Some fs => fs | None => [] end = opt_list (assoc k T).
Proof.
  assert (E : assoc k (map (fun p => (fst p, [snd p])) T) = option_map (fun v => [v]) (assoc k T)).
  { induction T as [|[k' v] T IH]; [reflexivity|]. cbn [map assoc fst snd]. rewrite IH. destruct (assoc k T); [reflexivity|]. cbn [option_map]. destruct (str_eqb k k'); reflexivity. }
  rewrite E. destruct (assoc k T); reflexivity.
Qed.
Definition has_feast (f : str) (l : Lunar) : Prop := exists fs, Lunar_getFestivals R l = Ok fs /\ In f fs.
Definition has_other (f : str) (l : Lunar) : Prop := exists fs, Lunar_getOtherFestivals R l = Ok fs /\ In f fs.
Definition has_foto (f : str) (l : Lunar) : Prop := In f (Foto_getOtherFestivals l).
Lemma lunar_day s l : termed_date s -> getLunar R s = Ok l -> 1 <= l_day l.
Proof.
  intros [V Y] E. destruct (lunar_new lib s l V ltac:(lia) E) as [_ N]. destruct (Lunar_new_inv _ _ _ _ _ _ _ _ N) as (t1 & mo & noon & t2 & _ & _ & D & _). lia.
Qed.
Lemma keyed_lunar ok T m d names f s l : keyed_by ok T = true -> 1 <= d -> In (md m d, names) T -> In f names -> termed_date s -> getLunar R s = Ok l ->
  (In f (match assoc (md_key l) T with Some fs => fs | None => [] end) <-> l_month l = m /\ l_day l = d).
Proof.
  intros K Hd I If S E. rewrite (keyed_one _ _ _ _ _ _ K I If). pose proof (lunar_day s l S E). change (md_key l) with (md (l_month l) (l_day l)).
  split; [intros X; apply md_inj in X; [exact X|lia|lia]|intros [-> ->]; reflexivity].
Qed.
Theorem C100_feasts : forall y m d f, 21 <= y <= 9997 -> y <> 237 -> In (m, d, f) feasts -> once (has_feast (utf8 f)) y m d.
Proof.
  intros y m d f Hy N I. assert (B : 1 <= m <= 12 /\ 1 <= d <= 15 /\ utf8 f <> utf8 "除夕").
  { assert (X : forallb (fun '(m, d, f) => (1 <=? m) && (m <=? 12) && (1 <=? d) && (d <=? 15) && negb (str_eqb (utf8 f) (utf8 "除夕"))) feasts = true) by (vm_compute; reflexivity).
    rewrite forallb_forall in X. specialize (X _ I). cbv beta iota in X. rewrite !andb_true_iff, negb_true_iff in X. repeat split; try lia. intros Q. rewrite Q, str_eqb_refl in X. lia. }
  apply once_ok; [exact Hy|exact N|lia|lia|]. intros s l S E.
  assert (I' : In (md m d, [utf8 f]) (map (fun p => (fst p, [snd p])) LunarUtil_FESTIVAL)) by (rewrite feast_table; apply in_map_iff; exists (m, d, f); split; [reflexivity|exact I]).
  rewrite <- (keyed_lunar _ _ m d _ _ s l feast_keyed ltac:(lia) I' (or_introl eq_refl) S E), feast_assoc.
  destruct B as (_ & Bd & Nf). split.
  - intros (fs & Q & If). unfold Lunar_getFestivals in Q. destruct (_ && _); [|apply Ok_inj in Q; subst fs; exact If]. apply bind_ok in Q. destruct Q as (n & _ & Q). apply Ok_inj in Q. subst fs.
    destruct (negb _); [|exact If]. apply in_app_or in If. destruct If as [If|[If|[]]]; [exact If|congruence].
  - intros If. pose proof If as If'. rewrite <- feast_assoc in If'. apply (keyed_lunar _ _ m d _ _ s l feast_keyed ltac:(lia) I' (or_introl eq_refl) S E) in If'.
    exists (opt_list (assoc (md_key l) LunarUtil_FESTIVAL)). split; [|exact If]. unfold Lunar_getFestivals. replace ((Z.abs (l_month l) =? 12) && (29 <=? l_day l)) with false by lia. reflexivity.
Qed.
(** Those of Lunar.getOtherFestivals with a fixed date (the others are C83) and those of Foto.getOtherFestivals. *)
Lemma other_keyed : keyed_by (fun _ d => d <=? 30) LunarUtil_OTHER_FESTIVAL = true.
Proof. vm_compute. reflexivity. Qed.
Lemma foto_keyed : keyed_by (fun _ d => d <=? 30) FotoUtil_OTHER_FESTIVAL = true.
Proof. vm_compute. reflexivity. Qed.
Theorem C100_other : forall y k names f, 21 <= y <= 9997 -> y <> 237 -> In (k, names) LunarUtil_OTHER_FESTIVAL -> In f names ->
  exists m d, k = md m d /\ 1 <= m <= 12 /\ 1 <= d <= 30 /\ once (has_other f) y m d.
Proof.
  intros y k names f Hy N I If. destruct (keyed_day _ _ _ _ other_keyed I) as (m & d & -> & Hm & Hd & O). exists m, d. split; [reflexivity|]. split; [exact Hm|]. split; [lia|].
  apply once_ok; [exact Hy|exact N|exact Hm|lia|]. intros s l S E. rewrite <- (keyed_lunar _ _ _ _ _ _ s l other_keyed (proj1 Hd) I If S E).
  destruct (C83_code _ _ lib s l S E) as (fs & Ef & _ & _ & _ & X). fold (listed_festivals l).
  split.
  - intros (gs & Eg & Ig). rewrite Ef in Eg. apply Ok_inj in Eg. subst gs. apply X; try assumption; intros ->.
    all: assert (T : forallb (fun p => forallb (fun f => negb (str_eqb f (utf8 "寒食节")) && negb (str_eqb f (utf8 "春社")) && negb (str_eqb f (utf8 "秋社"))) (snd p)) LunarUtil_OTHER_FESTIVAL = true) by (vm_compute; reflexivity).
    all: rewrite forallb_forall in T; specialize (T _ I); cbn [snd] in T; rewrite forallb_forall in T; specialize (T _ If); cbv beta in T; rewrite str_eqb_refl in T; rewrite ?andb_false_r in T; discriminate T.
  - intros If'. exists fs. split; [exact Ef|]. destruct (festival_names l f If') as (N1 & N2 & N3). apply X; assumption.
Qed.
Theorem C100_foto : forall y k names f, 21 <= y <= 9997 -> y <> 237 -> In (k, names) FotoUtil_OTHER_FESTIVAL -> In f names ->
  exists m d, k = md m d /\ 1 <= m <= 12 /\ 1 <= d <= 30 /\ once (has_foto f) y m d.
Proof.
  intros y k names f Hy N I If. destruct (keyed_day _ _ _ _ foto_keyed I) as (m & d & -> & Hm & Hd & O). exists m, d. split; [reflexivity|]. split; [exact Hm|]. split; [lia|].
  apply once_ok; [exact Hy|exact N|exact Hm|lia|]. intros s l S E. exact (keyed_lunar _ _ _ _ _ _ s l foto_keyed (proj1 Hd) I If S E).
Qed.
(** Months have 29 or 30 days, but for the last month of 236: a festival on a day up to 29 is observed once in every year. *)
Theorem C100_every_year : forall has y m d, 21 <= y <= 9997 -> once has y m d -> d <= 29 -> ~ (y = 236 /\ m = 12) -> exists s, observed has y s /\ forall s', observed has y s' -> s' = s.
Proof.
  intros has y m d Hy (t & a & Et & Ia & Ya & Ma & O & _) D N. destruct (real_months lib y t ltac:(lia) Et) as [_ U]. destruct (U a Ia) as [L _]. unfold usual_length in L.
  destruct O as (s & S & _ & X); [lia|]. exists s. split; assumption.
Qed.
(** The months of 2024, by whatever library. *)
Lemma year_2024 t a : R 2024 = Ok t -> In a (lmonths t) -> my a = 2024 -> (mm a = 8 -> mfirst a = dayno (2024, 9, 3) /\ mcount a = 30) /\ (mm a = 1 -> mcount a = 29) /\ (mm a = 9 -> mcount a = 29).
Proof.
  intros Et Ia Ya. destruct (real_inv _ _ _ _ Et) as [_ Mt]. rewrite (cert_months_ok _ _ 2024 lib (cert_nonempty 2024 ltac:(lia))) in Mt. rewrite Mt in Ia.
  assert (Q : forallb (fun a => if my a =? 2024 then (negb (mm a =? 8) || (mfirst a =? dayno (2024, 9, 3)) && (mcount a =? 30)) && (negb (mm a =? 1) || (mcount a =? 29)) && (negb (mm a =? 9) || (mcount a =? 29)) else true) (cert_months 2024) = true)
    by (vm_compute; reflexivity).
  rewrite forallb_forall in Q. specialize (Q a Ia). cbv beta in Q. rewrite Ya, Z.eqb_refl in Q. set (n := dayno (2024, 9, 3)) in *. clearbody n. lia.
Qed.
(** 中秋节 of 2024 is on 17 September. *)
Example C100_case : exists s, observed (has_feast (utf8 "中秋节")) 2024 s /\ sdate s = (2024, 9, 17).
Proof.
  destruct (C100_feasts 2024 8 15 "中秋节"%string ltac:(lia) ltac:(lia) (nth_error_In feasts 5 eq_refl)) as (t & a & Et & Ia & Ya & Ma & O & _).
  destruct (year_2024 t a Et Ia Ya) as [Q _]. destruct (Q Ma) as [F N]. destruct O as (s & S & D & _); [lia|]. exists s. split; [exact S|]. apply dayno_inj; [apply S|unfold valid_date; cbn; lia|]. rewrite D, F. reflexivity.
Qed.
(** A festival on day 30 is left out in the years whose month has 29 days. *)
Theorem C100_day_30_refuted : (forall s, ~ observed (has_other (utf8 "正月晦")) 2024 s) /\ (forall s, ~ observed (has_foto (utf8 "药师琉璃光佛圣诞")) 2024 s).
Proof.
  split.
  - assert (I : existsb (fun p => str_eqb (fst p) (md 1 30) && existsb (str_eqb (utf8 "正月晦")) (snd p)) LunarUtil_OTHER_FESTIVAL = true) by (vm_compute; reflexivity).
    apply existsb_exists in I. destruct I as ([k ns] & I & E). cbn [fst snd] in E. apply andb_true_iff in E. destruct E as [E1 E2]. apply str_eqb_eq in E1. subst k. apply existsb_exists in E2. destruct E2 as (f & If & E2). apply str_eqb_eq in E2. subst f.
    destruct (C100_other 2024 _ _ _ ltac:(lia) ltac:(lia) I If) as (m & d & E & Hm & Hd & t & a & Et & Ia & Ya & Ma & _ & O). apply md_inj in E; [|lia|lia]. destruct (year_2024 t a Et Ia Ya) as (_ & Q & _). apply O. lia.
  - assert (I : existsb (fun p => str_eqb (fst p) (md 9 30) && existsb (str_eqb (utf8 "药师琉璃光佛圣诞")) (snd p)) FotoUtil_OTHER_FESTIVAL = true) by (vm_compute; reflexivity).
    apply existsb_exists in I. destruct I as ([k ns] & I & E). cbn [fst snd] in E. apply andb_true_iff in E. destruct E as [E1 E2]. apply str_eqb_eq in E1. subst k. apply existsb_exists in E2. destruct E2 as (f & If & E2). apply str_eqb_eq in E2. subst f.
    destruct (C100_foto 2024 _ _ _ ltac:(lia) ltac:(lia) I If) as (m & d & E & Hm & Hd & t & a & Et & Ia & Ya & Ma & _ & O). apply md_inj in E; [|lia|lia]. destruct (year_2024 t a Et Ia Ya) as (_ & _ & Q). apply O. lia.
Qed.
End LIB.
