(** Lemmas on the lunar calendar given by a family of year tables that fit together. *)
From Coq Require Import ZArith Lia Bool ZifyBool List String Floats.
From Verif Require Import Py PyFloat PyStr CalSpec DayNo Solar SolarProofs JulianDay P_Solar P_JD LunarUtil T_LunarUtil T_Misc LunarYear Lunar LunarTime LunarProofs TermProofs YearProofs.
Import ListNotations.
Open Scope Z_scope.

Definition jan1 (y : Z) : Z := dayno (y, 1, 1).
(** one past the last day of a month *)
Definition mend (m : LMonth) : Z := mfirst m + mcount m.
Definition overlap (a b : LMonth) : Prop := mfirst a < mend b /\ mfirst b < mend a.
(** the same year, number (with its sign), first day and length *)
Definition same_month (a b : LMonth) : Prop := my a = my b /\ mm a = mm b /\ mfirst a = mfirst b /\ mcount a = mcount b.
Definition coherent (a b : LMonth) : Prop :=
  (overlap a b -> same_month a b) /\ (my a = my b -> mm a = mm b -> same_month a b).

(** The table of one year. *)
Record wf_table (y : Z) (t : LYear) : Prop := mkWf {
  wf_year : lyear t = y;
  wf_length : List.length (lmonths t) = 15%nat;
  wf_contig : forall i, 0 <= i < 14 -> mfirst (nthm (lmonths t) (i + 1)) = mend (nthm (lmonths t) i);
  wf_month : forall a, In a (lmonths t) -> 1 <= mcount a <= 30 /\ 1 <= Z.abs (mm a) <= 12 /\ y - 1 <= my a <= y + 1;
  wf_first : jan1 (y - 1) < mfirst (nthm (lmonths t) 0) <= jan1 y;
  wf_last : jan1 (y + 1) < mend (nthm (lmonths t) 14) <= jan1 (y + 2)
}.
(** The tables of the years [lo]..[hi]. *)
Record Calendar (fromYear : Z -> res LYear) (lo hi : Z) : Prop := mkCal {
  cal_range : -4000 <= lo /\ hi <= 99999;
  cal_ok : forall y, lo <= y <= hi -> exists t jq, fromYear y = Ok t /\ computeJieQi (lterms t) = Ok jq;
  cal_table : forall y t, lo <= y <= hi -> fromYear y = Ok t -> wf_table y t;
  cal_agree : forall y y' t t' a b, lo <= y -> y <= y' <= y + 2 -> y' <= hi -> fromYear y = Ok t -> fromYear y' = Ok t' ->
    In a (lmonths t) -> In b (lmonths t') -> coherent a b;
  cal_own : forall y t a, lo <= y <= hi -> fromYear y = Ok t -> In a (lmonths t) -> lo <= my a <= hi ->
    exists t' b, fromYear (my a) = Ok t' /\ In b (lmonths t') /\ same_month a b
}.

Lemma same_sym a b : same_month a b -> same_month b a.
Proof. intros (A & B & C & D). repeat split; congruence. Qed.
Lemma same_trans a b c : same_month a b -> same_month b c -> same_month a c.
Proof. intros (A & B & C & D) (A' & B' & C' & D'). repeat split; congruence. Qed.
Lemma same_refl a : same_month a a.
Proof. repeat split. Qed.
Lemma coherent_sym a b : coherent a b -> coherent b a.
Proof.
  intros [A B]. split; [intros [X Y]; apply same_sym, A; split; assumption|intros X Y; apply same_sym, B; congruence].
Qed.
Lemma agree_any fy lo hi y y' t t' a b : Calendar fy lo hi -> lo <= y <= hi -> lo <= y' <= hi -> -2 <= y' - y <= 2 ->
  fy y = Ok t -> fy y' = Ok t' -> In a (lmonths t) -> In b (lmonths t') -> coherent a b.
Proof.
  intros C Hy Hy' D Et Et' Ia Ib. destruct (Z.le_gt_cases y y').
  - exact (cal_agree _ _ _ C y y' t t' a b ltac:(lia) ltac:(lia) ltac:(lia) Et Et' Ia Ib).
  - apply coherent_sym. exact (cal_agree _ _ _ C y' y t' t b a ltac:(lia) ltac:(lia) ltac:(lia) Et' Et Ib Ia).
Qed.

Lemma jan1_mono y y' : y < y' -> jan1 y < jan1 y'.
Proof. intros H. apply lex_lt_dayno; [apply valid_jan1|apply valid_jan1|left; exact H]. Qed.

Lemma nthm_in ms i : 0 <= i < Z.of_nat (List.length ms) -> In (nthm ms i) ms.
Proof. intros H. unfold nthm. apply nth_In. lia. Qed.
Lemma in_nthm ms a : In a ms -> exists i, 0 <= i < Z.of_nat (List.length ms) /\ nthm ms i = a.
Proof.
  intros H. destruct (In_nth _ _ month0 H) as (k & Hk & E). exists (Z.of_nat k). split; [lia|].
  unfold nthm. rewrite Nat2Z.id. exact E.
Qed.

Lemma solar_ext a b : sdate a = sdate b -> sh a = sh b -> smi a = smi b -> ss a = ss b -> a = b.
Proof.
  destruct a as [y1 m1 d1 h1 i1 s1], b as [y2 m2 d2 h2 i2 s2]. unfold sdate. cbn [sy sm sd sh smi ss]. intros E -> -> ->.
  apply pair_equal_spec in E. destruct E as [E ->]. apply pair_equal_spec in E. destruct E as [-> ->]. reflexivity.
Qed.

Section Table.
Context {y : Z} {t : LYear} (W : wf_table y t).
Notation mt := (nthm (lmonths t)).
Lemma wf_in i : 0 <= i < 15 -> In (mt i) (lmonths t).
Proof. intros H. apply nthm_in. rewrite (wf_length _ _ W). lia. Qed.
Lemma wf_before i j : 0 <= i < j -> j < 15 -> mend (mt i) <= mfirst (mt j).
Proof.
  intros Hi Hj. replace j with (i + 1 + Z.of_nat (Z.to_nat (j - i - 1))) in * by lia. set (n := Z.to_nat (j - i - 1)) in *. clearbody n.
  induction n as [|n IH]; [rewrite Z.add_0_r; rewrite (wf_contig _ _ W) by lia; lia|].
  specialize (IH ltac:(lia) ltac:(lia)). replace (i + 1 + Z.of_nat (S n)) with (i + 1 + Z.of_nat n + 1) by lia.
  rewrite (wf_contig _ _ W) by lia.
  pose proof (proj1 (wf_month _ _ W _ (wf_in (i + 1 + Z.of_nat n) ltac:(lia)))). unfold mend in *. lia.
Qed.
Lemma wf_lt i j : 0 <= i < 15 -> 0 <= j < 15 -> (mfirst (mt i) < mfirst (mt j) <-> i < j).
Proof.
  intros Hi Hj. destruct (Z.lt_trichotomy i j) as [L|[->|L]]; [| |].
  - pose proof (wf_before i j ltac:(lia) ltac:(lia)). pose proof (proj1 (wf_month _ _ W _ (wf_in i Hi))). unfold mend in *. lia.
  - lia.
  - pose proof (wf_before j i ltac:(lia) ltac:(lia)). pose proof (proj1 (wf_month _ _ W _ (wf_in j Hj))). unfold mend in *. lia.
Qed.
Lemma wf_cover n : mfirst (mt 0) <= n < mend (mt 14) -> exists i, 0 <= i < 15 /\ mfirst (mt i) <= n < mend (mt i).
Proof.
  intros H. assert (K : forall k, (k <= 14)%nat -> n < mend (mt (Z.of_nat k)) -> exists i, 0 <= i < 15 /\ mfirst (mt i) <= n < mend (mt i)).
  { induction k as [|k IH]; intros Hk L; [exists 0; cbn in L; lia|].
    destruct (Z.lt_ge_cases n (mfirst (mt (Z.of_nat (S k))))) as [X|X]; [|exists (Z.of_nat (S k)); lia].
    apply IH; [lia|]. rewrite <- (wf_contig _ _ W) by lia. replace (Z.of_nat k + 1) with (Z.of_nat (S k)) by lia. exact X. }
  apply (K 14%nat); [lia|]. apply H.
Qed.
Lemma wf_bounds a : In a (lmonths t) -> jan1 (y - 1) < mfirst a /\ mend a <= jan1 (y + 2).
Proof.
  intros I. destruct (in_nthm _ _ I) as (i & Hi & <-). rewrite (wf_length _ _ W) in Hi.
  pose proof (wf_first _ _ W). pose proof (wf_last _ _ W). split.
  - destruct (Z.eq_dec i 0) as [->|]; [lia|]. pose proof (proj2 (wf_lt 0 i ltac:(lia) ltac:(lia))). lia.
  - destruct (Z.eq_dec i 14) as [->|]; [lia|]. pose proof (wf_before i 14 ltac:(lia) ltac:(lia)).
    pose proof (proj1 (wf_month _ _ W _ (wf_in 14 ltac:(lia)))). unfold mend in *. lia.
Qed.
End Table.

(** ** Finding the month of a date *)
Lemma whole_day n : 0 <= n <= 366900000 -> exists s, fromJulianDay (float_of_Z n) = Ok s /\ valid_solar s /\ dayno (sdate s) = n.
Proof.
  intros H. destruct (dayno_surj n) as (((y & m) & d) & V & E). exists (mkSolar y m d 12 0 0).
  split; [apply C10_whole_days; [exact V|exact H|rewrite days_later_dayno by (exact V || apply valid_2000); rewrite dayno_2000, E; lia]|].
  split; [split; [exact V|unfold valid_time; cbn; lia]|exact E].
Qed.
Lemma find_month_spec s : valid_solar s -> forall ms,
  (forall a, In a ms -> 0 <= mfirst a <= 366900000) ->
  (forall i, 0 <= i < Z.of_nat (List.length ms) - 1 -> mfirst (nthm ms (i + 1)) = mend (nthm ms i)) ->
  ms <> [] -> mfirst (nthm ms 0) <= dayno (sdate s) -> dayno (sdate s) < mend (nthm ms (Z.of_nat (List.length ms) - 1)) ->
  exists a, In a ms /\ mfirst a <= dayno (sdate s) < mend a /\
    find_month s ms = Ok (my a, mm a, dayno (sdate s) - mfirst a + 1).
Proof.
  intros V. induction ms as [|a ms IH]; intros B C N F L; [congruence|].
  cbn [find_month]. destruct (whole_day (mfirst a)) as (f & Ef & Vf & Df); [apply B; left; reflexivity|].
  rewrite Ef. cbn [bind]. rewrite subtract_spec by assumption. cbn [bind]. rewrite Df.
  unfold nthm in F. cbn [Z.to_nat nth] in F.
  destruct (Z.ltb_spec (dayno (sdate s) - mfirst a) (mcount a)) as [X|X].
  - exists a. split; [left; reflexivity|]. split; [unfold mend; lia|]. reflexivity.
  - assert (Nm : ms <> []).
    { intros ->. cbn [List.length] in L. change (Z.of_nat 1 - 1) with 0 in L. unfold nthm in L. cbn [Z.to_nat nth] in L. unfold mend in L. lia. }
    assert (Sh : forall i, 0 <= i -> nthm (a :: ms) (i + 1) = nthm ms i).
    { intros i Hi. unfold nthm. replace (Z.to_nat (i + 1)) with (Datatypes.S (Z.to_nat i)) by lia. reflexivity. }
    assert (Ln : 0 < Z.of_nat (List.length ms)) by (destruct ms; [congruence|cbn [List.length]; lia]).
    cbn [List.length] in C, L.
    destruct (IH) as (b & Ib & Hb & Eb).
    + intros b Ib. apply B. right. exact Ib.
    + intros i Hi. rewrite <- !Sh by lia. apply C. lia.
    + exact Nm.
    + rewrite <- Sh by lia. rewrite C by lia. unfold nthm. cbn [Z.to_nat nth]. unfold mend. lia.
    + rewrite <- Sh by lia. replace (Z.of_nat (List.length ms) - 1 + 1) with (Z.of_nat (S (List.length ms)) - 1) by lia. exact L.
    + exists b. split; [right; exact Ib|]. split; [exact Hb|exact Eb].
Qed.

(** ** A Lunar object is built whenever the date exists and the terms of its solar year convert *)
Lemma Lunar_compute_ok y m d h mi s solar t jq : computeJieQi (lterms t) = Ok jq ->
  valid_solar solar -> jd_year (sy solar) -> 0 <= h < 24 -> 0 <= mi < 60 ->
  exists l, Lunar_compute y m d h mi s solar t = Ok l.
Proof.
  intros Ej V J Hh Hm. unfold Lunar_compute. rewrite Ej. cbn [bind].
  assert (N : named jq) by exact (computeJieQi_names _ _ Ej).
  assert (Ey : exists r, computeYear y solar jq = Ok r).
  { unfold computeYear. change (utf8 "立春") with (term_key 4). change (utf8 "LI_CHUN") with (term_key 28).
    rewrite !dict_at by (exact N || lia). cbn [bind]. destruct (negb _); cbn [bind]; eexists; reflexivity. }
  destruct Ey as [[[[[[yg yz] ygl] yzl] yge] yze] ->]. cbn [bind].
  assert (Em : exists r, computeMonth solar jq ygl yge = Ok r).
  { unfold computeMonth. rewrite evens_keys.
    rewrite (mapM_ok_map _ _ (fun j => term_at jq (2 * j))) by (intros j Hj; apply in_zrange in Hj; apply dict_at; [exact N|lia]).
    cbn [bind]. eexists. reflexivity. }
  destruct Em as [[[[mg mz] mge] mze] ->]. cbn [bind].
  rewrite computeDay_spec by assumption. cbn [bind].
  destruct (computeTime _ _ _) as [tg tz]. rewrite getWeek_spec by assumption. cbn [bind]. eexists. reflexivity.
Qed.

(** ** Years of days *)
Lemma jan1_bounds y m d : valid_date (y, m, d) -> jan1 y <= dayno (y, m, d) < jan1 (y + 1).
Proof. intros V. unfold jan1. rewrite !dayno_jan1. pose proof (dayno_year _ _ _ V). lia. Qed.
Lemma year_ge lo y m d : valid_date (y, m, d) -> jan1 lo <= dayno (y, m, d) -> lo <= y.
Proof.
  intros V H. pose proof (jan1_bounds _ _ _ V). destruct (Z.le_gt_cases lo y); [assumption|].
  destruct (Z.eq_dec lo (y + 1)) as [->|]; [lia|]. pose proof (jan1_mono (y + 1) lo ltac:(lia)). lia.
Qed.
Lemma year_le hi y m d : valid_date (y, m, d) -> dayno (y, m, d) < jan1 (hi + 1) -> y <= hi.
Proof.
  intros V H. pose proof (jan1_bounds _ _ _ V). destruct (Z.le_gt_cases y hi); [assumption|].
  destruct (Z.eq_dec y (hi + 1)) as [->|]; [lia|]. pose proof (jan1_mono (hi + 1) y ltac:(lia)). lia.
Qed.
Lemma jan1_in y : -4001 <= y <= 100001 -> 0 <= jan1 y <= 366000000.
Proof.
  intros H. unfold jan1. rewrite dayno_jan1. pose proof (ybase_mono (-4001) y ltac:(lia)). pose proof (ybase_mono y 100001 ltac:(lia)).
  assert (E1 : 0 <= ybase (-4001)) by (vm_compute; discriminate). assert (E2 : ybase 100001 <= 50000000) by (vm_compute; discriminate). lia.
Qed.

(** ** [getMonth] *)
Lemma getMonth_inv t m a : getMonth t m = Some a -> In a (lmonths t) /\ my a = lyear t /\ mm a = m.
Proof. unfold getMonth. intros H. apply find_some in H. destruct H as [I E]. split; [exact I|]. lia. Qed.
Lemma getMonth_in t a : In a (lmonths t) -> my a = lyear t -> exists b, getMonth t (mm a) = Some b.
Proof.
  intros I E. unfold getMonth. destruct (find _ _) as [b|] eqn:F; [now exists b|].
  pose proof (find_none _ _ F a I) as X. cbv beta in X. lia.
Qed.

Section Cal.
Context {fy : Z -> res LYear} {lo hi : Z} (C : Calendar fy lo hi).

Lemma cal_wf y t : lo <= y <= hi -> fy y = Ok t -> wf_table y t.
Proof. exact (cal_table _ _ _ C y t). Qed.
Lemma month_range y t a : lo <= y <= hi -> fy y = Ok t -> In a (lmonths t) -> 0 <= mfirst a /\ mend a <= 366000000.
Proof.
  intros Hy Et I. pose proof (cal_wf y t Hy Et) as W. pose proof (wf_bounds W a I). pose proof (cal_range _ _ _ C).
  pose proof (jan1_in (y - 1) ltac:(lia)). pose proof (jan1_in (y + 2) ltac:(lia)). lia.
Qed.
Lemma getMonth_same y t a : lo <= y <= hi -> fy y = Ok t -> In a (lmonths t) -> my a = y ->
  exists b, getMonth t (mm a) = Some b /\ In b (lmonths t) /\ same_month a b.
Proof.
  intros Hy Et I E. pose proof (cal_wf y t Hy Et) as W. destruct (getMonth_in t a I) as [b Eb]; [rewrite (wf_year _ _ W); exact E|].
  exists b. split; [exact Eb|]. destruct (getMonth_inv _ _ _ Eb) as (Ib & Yb & Mb). split; [exact Ib|].
  destruct (agree_any _ _ _ y y t t a b C ltac:(lia) ltac:(lia) ltac:(lia) Et Et I Ib) as [_ S].
  apply S; [rewrite Yb, (wf_year _ _ W); exact E|congruence].
Qed.

(** The constructor on an existing lunar date. *)
Lemma new_spec y t a d h mi s : lo <= y <= hi -> fy y = Ok t -> In a (lmonths t) -> my a = y ->
  1 <= d <= mcount a -> valid_time h mi s -> jan1 lo <= mfirst a + d - 1 < jan1 (hi + 1) ->
  exists l, Lunar_new fy y (mm a) d h mi s = Ok l /\ valid_solar (l_solar l) /\ dayno (sdate (l_solar l)) = mfirst a + d - 1 /\
    l_year l = y /\ l_month l = mm a /\ l_day l = d /\ l_hour l = h /\ l_minute l = mi /\ l_second l = s /\
    sh (l_solar l) = h /\ smi (l_solar l) = mi /\ ss (l_solar l) = s /\ lo <= sy (l_solar l) <= hi.
Proof.
  intros Hy Et I E Hd T B. destruct (getMonth_same y t a Hy Et I E) as (b & Eb & Ib & (Sy & Sm & Sf & Sc)).
  destruct (month_range y t a Hy Et I) as [M0 M1]. unfold mend in M1.
  destruct (whole_day (mfirst a + d - 1) ltac:(lia)) as (noon & En & [Vn Tn] & Dn).
  set (so := mkSolar (sy noon) (sm noon) (sd noon) h mi s).
  assert (Vs : valid_solar so) by (split; [exact Vn|exact T]).
  assert (Ls : lo <= sy noon <= hi).
  { destruct noon as [Y M D h0 m0 s0]. unfold sdate in *. cbn [sy sm sd] in *. split; [apply (year_ge _ _ _ _ Vn)|apply (year_le _ _ _ _ Vn)]; lia. }
  destruct (cal_ok _ _ _ C (sy noon) Ls) as (t2 & jq & E2 & Ej).
  pose proof (cal_range _ _ _ C) as R.
  destruct (Lunar_compute_ok y (mm a) d h mi s so t2 jq Ej Vs) as [l El];
    [unfold jd_year; unfold so; cbn [sy]; lia|unfold valid_time in T; lia|unfold valid_time in T; lia|].
  assert (H : Lunar_new fy y (mm a) d h mi s = Ok l).
  { unfold Lunar_new. rewrite Et. cbn [bind]. rewrite Eb. replace (d <? 1) with false by lia.
    replace (mcount b <? d) with false by lia. rewrite <- Sf, En. cbn [bind].
    rewrite fromYmdHms_ok by (exact Vn || exact T). cbn [bind]. fold so.
    assert (X : (if negb (sy noon =? y) then fy (sy noon) else Ok t) = Ok t2).
    { destruct (Z.eqb_spec (sy noon) y) as [Q|Q]; cbn [negb]; [|exact E2]. rewrite Q in E2. congruence. }
    rewrite X. cbn [bind]. exact El. }
  exists l. split; [exact H|]. apply Lunar_compute_inv in El.
  destruct El as [(A1 & A2 & A3) (B1 & B2 & B3) S _ _ _ _ _ _ _]. rewrite S. subst so. unfold sdate in *. cbn [sy sm sd sh smi ss] in *.
  repeat split; try assumption; try apply Vs; try lia.
Qed.

(** The month of a date: every day of the years between has exactly one. *)
Lemma getLunar_spec s : valid_solar s -> lo < sy s < hi -> exists l t a,
  getLunar fy s = Ok l /\ fy (sy s) = Ok t /\ In a (lmonths t) /\ mfirst a <= dayno (sdate s) < mend a /\
  l_year l = my a /\ l_month l = mm a /\ l_day l = dayno (sdate s) - mfirst a + 1 /\
  l_hour l = sh s /\ l_minute l = smi s /\ l_second l = ss s /\ l_solar l = s.
Proof.
  intros V Hs. destruct (cal_ok _ _ _ C (sy s) ltac:(lia)) as (t & _ & Et & _).
  pose proof (cal_wf (sy s) t ltac:(lia) Et) as W.
  assert (JB : jan1 (sy s) <= dayno (sdate s) < jan1 (sy s + 1)) by (apply jan1_bounds; apply V).
  pose proof (wf_first _ _ W) as F. pose proof (wf_last _ _ W) as L.
  destruct (find_month_spec s V (lmonths t)) as (a & Ia & Ha & Ea).
  - intros b Ib. destruct (month_range (sy s) t b ltac:(lia) Et Ib) as [X Y]. destruct (wf_month _ _ W b Ib) as [Z1 _]. unfold mend in Y. lia.
  - rewrite (wf_length _ _ W). intros i Hi. apply (wf_contig _ _ W). lia.
  - intros X. pose proof (wf_length _ _ W) as Y. rewrite X in Y. discriminate.
  - lia.
  - rewrite (wf_length _ _ W). change (Z.of_nat 15 - 1) with 14. lia.
  - pose proof (proj2 (proj2 (wf_month _ _ W a Ia))) as Hy.
    destruct (cal_own _ _ _ C (sy s) t a ltac:(lia) Et Ia ltac:(lia)) as (t' & b & Et' & Ib & (Sy & Sm & Sf & Sc)).
    unfold mend in Ha.
    assert (lo < sy s + 1 /\ sy s < hi + 1) as [U1 U2] by lia.
    pose proof (jan1_mono lo (sy s) ltac:(lia)). pose proof (jan1_mono (sy s + 1) (hi + 1) ltac:(lia)).
    destruct (new_spec (my a) t' b (dayno (sdate s) - mfirst a + 1) (sh s) (smi s) (ss s)) as (l & El & Vl & Dl & A1 & A2 & A3 & A4 & A5 & A6 & A7 & A8 & A9 & _);
      [lia|exact Et'|exact Ib|lia|lia|apply V|lia|].
    exists l, t, a. unfold mend. unfold getLunar. rewrite Et. cbn [bind]. rewrite Ea. cbn [bind]. rewrite Sm, El.
    repeat split; try assumption; try lia.
    assert (D : sdate (l_solar l) = sdate s) by (apply dayno_inj; [apply Vl|apply V|lia]).
    apply solar_ext; assumption.
Qed.

(** Two months of tables of the range that share a day are the same. *)
Lemma month_unique y y' t t' a b n : lo <= y <= hi -> lo <= y' <= hi -> fy y = Ok t -> fy y' = Ok t' ->
  In a (lmonths t) -> In b (lmonths t') -> mfirst a <= n < mend a -> mfirst b <= n < mend b -> same_month a b.
Proof.
  intros Hy Hy' Et Et' Ia Ib Ha Hb.
  pose proof (wf_bounds (cal_wf _ _ Hy Et) a Ia). pose proof (wf_bounds (cal_wf _ _ Hy' Et') b Ib).
  assert (-2 <= y' - y <= 2).
  { split; apply Z.nlt_ge; intros X; [pose proof (Z.le_gt_cases (y' + 2) (y - 1)) as Q|pose proof (Z.le_gt_cases (y + 2) (y' - 1)) as Q];
      (destruct Q as [Q|Q]; [|lia]).
    - destruct (Z.eq_dec (y' + 2) (y - 1)) as [R|R]; [rewrite R in *; lia|pose proof (jan1_mono (y' + 2) (y - 1) ltac:(lia)); lia].
    - destruct (Z.eq_dec (y + 2) (y' - 1)) as [R|R]; [rewrite R in *; lia|pose proof (jan1_mono (y + 2) (y' - 1) ltac:(lia)); lia]. }
  destruct (agree_any _ _ _ y y' t t' a b C Hy Hy' ltac:(lia) Et Et' Ia Ib) as [O _]. apply O. split; lia.
Qed.
End Cal.
