(** Lemmas on weeks, months and text, used by P_Units. *)
From Coq Require Import ZArith Lia Bool ZifyBool List Floats.
From Verif Require Import Py PyFloat PyStr CalSpec DayNo Solar SolarProofs SolarProofs2 JulianDay P_JD SolarUnits.
Import ListNotations.
Open Scope Z_scope.

(** ** Text *)
Lemma toYmd_fixed s : valid_date (sdate s) -> 0 <= sy s <= 9999 ->
  toYmd s = fixed 4 (sy s) ++ [45] ++ fixed 2 (sm s) ++ [45] ++ fixed 2 (sd s).
Proof.
  intros V Y. pose proof (last_day_bounds (sy s) (sm s)) as L. destruct V as (Hm & Hd & _). unfold toYmd.
  change 4 with (Z.of_nat 4) at 1. change 2 with (Z.of_nat 2) at 1 2.
  rewrite !fmt0_fixed; [reflexivity|..]; try lia; cbn; lia.
Qed.

Lemma toYmdHms_fixed s : valid_solar s -> 0 <= sy s <= 9999 ->
  toYmdHms s = toYmd s ++ [32] ++ fixed 2 (sh s) ++ [58] ++ fixed 2 (smi s) ++ [58] ++ fixed 2 (ss s).
Proof.
  intros [V (Hh & Hmi & Hs)] Y. unfold toYmdHms.
  change 2 with (Z.of_nat 2) at 1 2 3.
  rewrite !fmt0_fixed; [reflexivity|..]; try lia; cbn; lia.
Qed.

Lemma toYmd_length s : valid_date (sdate s) -> 0 <= sy s <= 9999 -> length (toYmd s) = 10%nat.
Proof. intros V Y. rewrite toYmd_fixed by assumption. rewrite !app_length, !fixed_length. reflexivity. Qed.

Lemma ymd_bounds s : valid_date (sdate s) -> 0 <= sm s < 10 ^ Z.of_nat 2 /\ 0 <= sd s < 10 ^ Z.of_nat 2.
Proof.
  intros V. pose proof (last_day_bounds (sy s) (sm s)). destruct V as (Hm & Hd & _).
  change (10 ^ Z.of_nat 2) with 100. lia.
Qed.

Lemma toYmd_ltb a b : valid_date (sdate a) -> valid_date (sdate b) -> 0 <= sy a <= 9999 -> 0 <= sy b <= 9999 ->
  str_ltb (toYmd a) (toYmd b) = (dayno (sdate a) <? dayno (sdate b)) /\
  str_eqb (toYmd a) (toYmd b) = (dayno (sdate a) =? dayno (sdate b)).
Proof.
  intros Va Vb Ya Yb. rewrite !toYmd_fixed by assumption.
  pose proof (ymd_bounds a Va) as [Ma Da]. pose proof (ymd_bounds b Vb) as [Mb Db].
  assert (Ya' : 0 <= sy a < 10 ^ Z.of_nat 4) by (change (10 ^ Z.of_nat 4) with 10000; lia).
  assert (Yb' : 0 <= sy b < 10 ^ Z.of_nat 4) by (change (10 ^ Z.of_nat 4) with 10000; lia).
  repeat ((rewrite str_ltb_app by (rewrite ?fixed_length; reflexivity)) ||
          (rewrite str_eqb_app by (rewrite ?fixed_length; reflexivity))).
  rewrite !fixed_ltb, !fixed_eqb by assumption.
  change (str_ltb [45] [45]) with false. change (str_eqb [45] [45]) with true. cbn [orb andb].
  assert (LT : forall x y, valid_date x -> valid_date y -> (dayno x <? dayno y) = true <-> lex_lt x y).
  { intros x y Vx Vy. rewrite Z.ltb_lt. split; [now apply dayno_lt_lex|now apply lex_lt_dayno]. }
  split; apply eq_true_iff_eq.
  - rewrite LT by assumption. unfold sdate, lex_lt. lia.
  - rewrite Z.eqb_eq. split.
    + intros H. assert (sy a = sy b /\ sm a = sm b /\ sd a = sd b) as (E1 & E2 & E3) by lia. unfold sdate. rewrite E1, E2, E3. reflexivity.
    + intros H. apply dayno_inj in H; try assumption. unfold sdate in H. injection H as E1 E2 E3. rewrite E1, E2, E3.
      rewrite !Z.eqb_refl. reflexivity.
Qed.

Lemma toYmdHms_ltb a b : valid_solar a -> valid_solar b -> 0 <= sy a <= 9999 -> 0 <= sy b <= 9999 ->
  str_ltb (toYmdHms a) (toYmdHms b) = (instant a <? instant b) /\
  str_eqb (toYmdHms a) (toYmdHms b) = (instant a =? instant b).
Proof.
  intros Va Vb Ya Yb. rewrite !toYmdHms_fixed by assumption.
  destruct (toYmd_ltb a b (proj1 Va) (proj1 Vb) Ya Yb) as [L E].
  assert (LEN : length (toYmd a) = length (toYmd b)) by (rewrite !toYmd_length; try assumption; try apply Va; try apply Vb; reflexivity).
  pose proof (proj2 Va) as Ta. pose proof (proj2 Vb) as Tb. unfold valid_time in Ta, Tb.
  rewrite str_ltb_app, str_eqb_app by exact LEN. rewrite L, E.
  repeat ((rewrite str_ltb_app by (rewrite ?fixed_length; reflexivity)) ||
          (rewrite str_eqb_app by (rewrite ?fixed_length; reflexivity))).
  rewrite !fixed_ltb, !fixed_eqb by (change (10 ^ Z.of_nat 2) with 100; lia).
  change (str_ltb [32] [32]) with false. change (str_eqb [32] [32]) with true.
  change (str_ltb [58] [58]) with false. change (str_eqb [58] [58]) with true. cbn [orb andb].
  unfold instant, sod. split; lia.
Qed.

(** ** Ceiling divisions *)
Definition zres_is (r : res Z) (n : Z) : bool := match r with Ok k => k =? n | Raise _ => false end.
Lemma zres_is_eq r n : zres_is r n = true -> r = Ok n.
Proof. destruct r; cbn; [|discriminate]. intros H. apply Z.eqb_eq in H. now subst. Qed.

Lemma ceil_div_ok n k : -20 <= n < 400 -> k = 3 \/ k = 6 \/ k = 7 -> ceil_div n k = Ok (- ((- n) / k)).
Proof.
  intros Hn Hk. apply zres_is_eq.
  assert (H : forallb (fun n => forallb (fun k => zres_is (ceil_div n k) (- ((- n) / k))) [3; 6; 7]) (zrange (-20) 400) = true)
    by (vm_compute; reflexivity).
  apply (forallb_zrange _ _ _ H n) in Hn. rewrite forallb_forall in Hn. apply Hn. cbn. lia.
Qed.

Lemma ceil_day_ok d : 1 <= d <= 31 -> py_ceil (float_of_Z d / 7)%float = Ok ((d + 6) / 7).
Proof.
  intros H. apply zres_is_eq.
  assert (K : forallb (fun d => zres_is (py_ceil (float_of_Z d / 7)%float) ((d + 6) / 7)) (zrange 1 32) = true)
    by (vm_compute; reflexivity).
  apply (forallb_zrange _ _ _ K). lia.
Qed.

(** ** Runs of consecutive days *)
Definition midnight (s : Solar) : Prop := sh s = 0 /\ smi s = 0 /\ ss s = 0.
Definition is_day (k : Z) (s : Solar) : Prop := valid_solar s /\ midnight s /\ dayno (sdate s) = k.

Lemma is_day_inj k a b : is_day k a -> is_day k b -> a = b.
Proof.
  intros (Va & (A1 & A2 & A3) & Ea) (Vb & (B1 & B2 & B3) & Eb). apply instant_inj; auto.
  unfold instant, sod. lia.
Qed.

Lemma days_unique l1 : forall l2 ks, Forall2 is_day ks l1 -> Forall2 is_day ks l2 -> l1 = l2.
Proof.
  induction l1 as [|a l1 IH]; intros l2 ks H1 H2; inversion H1; subst; inversion H2; subst; [reflexivity|].
  f_equal; [eapply is_day_inj; eassumption|eapply IH; eassumption].
Qed.

Lemma fromYmd_day y m d : valid_date (y, m, d) ->
  fromYmd y m d = Ok (mkSolar y m d 0 0 0) /\ is_day (dayno (y, m, d)) (mkSolar y m d 0 0 0).
Proof.
  intros V. assert (T : valid_time 0 0 0) by (unfold valid_time; lia). split.
  - unfold fromYmd. now apply fromYmdHms_ok.
  - split; [split; [exact V|exact T]|]. split; [repeat split|reflexivity].
Qed.

Lemma next_day k s n : is_day k s -> exists s', next s n = Ok s' /\ is_day (k + n) s'.
Proof.
  intros (V & (A & B & C) & E). destruct (nextDay_spec s n V) as (s' & E' & V' & (T1 & T2 & T3) & D').
  exists s'. split; [exact E'|]. repeat split; try apply V'; lia.
Qed.

Lemma mapM_next k s n : is_day k s -> forall a, exists l, mapM (fun i => next s i) (zseq a n) = Ok l /\
  Forall2 is_day (zseq (k + a) n) l.
Proof.
  intros D. induction n as [|n IH]; intros a; cbn [zseq mapM].
  - exists []. split; [reflexivity|constructor].
  - destruct (next_day k s a D) as (s' & E & D'). rewrite E. cbn [bind].
    destruct (IH (a + 1)) as (l & El & Fl). rewrite El. cbn [bind].
    exists (s' :: l). split; [reflexivity|]. constructor; [exact D'|]. now rewrite <- Z.add_assoc.
Qed.

Lemma SolarMonth_getDays_days y m : 1 <= m <= 12 ->
  exists l, SolarMonth_getDays (mkSolarMonth y m) = Ok l /\
    Forall2 is_day (zseq (dayno (y, m, 1)) (Z.to_nat (mlen y m))) l.
Proof.
  intros Hm. pose proof (mlen_bounds y m) as B. pose proof (last_day_bounds y m) as B'.
  destruct (fromYmd_day y m 1) as [E D]; [unfold valid_date; lia|].
  unfold SolarMonth_getDays. cbn [smy smm]. rewrite E. cbn [bind].
  rewrite getDaysOfMonth_mlen by assumption. cbn [bind]. unfold zrange.
  destruct (mapM_next _ _ (Z.to_nat (mlen y m - 1)) D 1) as (l & El & Fl). rewrite El. cbn [bind].
  eexists; split; [reflexivity|].
  replace (Z.to_nat (mlen y m)) with (S (Z.to_nat (mlen y m - 1))) by lia. cbn [zseq]. now constructor.
Qed.

Lemma Forall2_length {A B} (R : A -> B -> Prop) l1 l2 : Forall2 R l1 l2 -> length l1 = length l2.
Proof. intros F. induction F; cbn; congruence. Qed.

Lemma Forall2_filter {A B} (R : A -> B -> Prop) f g l1 l2 : Forall2 R l1 l2 ->
  (forall a b, R a b -> f a = g b) -> Forall2 R (filter f l1) (filter g l2).
Proof.
  intros F H. induction F as [|a b l1 l2 Rab F IH]; cbn; [constructor|].
  rewrite <- (H a b Rab). destruct (f a); [constructor; assumption|assumption].
Qed.

Lemma filter_zseq_none lo hi n : forall N, N + Z.of_nat n <= lo \/ hi <= N ->
  filter (fun k => (lo <=? k) && (k <? hi)) (zseq N n) = [].
Proof.
  induction n as [|n IH]; intros N H; [reflexivity|]. cbn [zseq filter].
  destruct ((lo <=? N) && (N <? hi)) eqn:E; [lia|]. apply IH. lia.
Qed.

Lemma filter_zseq_all lo hi n : forall N, lo <= N -> N + Z.of_nat n <= hi ->
  filter (fun k => (lo <=? k) && (k <? hi)) (zseq N n) = zseq N n.
Proof.
  induction n as [|n IH]; intros N H H'; [reflexivity|]. cbn [zseq filter].
  destruct ((lo <=? N) && (N <? hi)) eqn:E; [|lia]. f_equal. apply IH; lia.
Qed.

Lemma filter_zseq lo hi N n : N <= lo -> lo <= hi -> hi <= N + Z.of_nat n ->
  filter (fun k => (lo <=? k) && (k <? hi)) (zseq N n) = zseq lo (Z.to_nat (hi - lo)).
Proof.
  intros H1 H2 H3.
  replace n with (Z.to_nat (lo - N) + (Z.to_nat (hi - lo) + Z.to_nat (N + Z.of_nat n - hi)))%nat by lia.
  rewrite !zseq_app, !filter_app. rewrite filter_zseq_none by lia.
  rewrite filter_zseq_all by lia. rewrite (filter_zseq_none _ _ (Z.to_nat (N + Z.of_nat n - hi))) by lia.
  rewrite app_nil_r. cbn [app]. f_equal. lia.
Qed.

Lemma dayno_first y m : dayno (y, m, 1) = ybase y + cum y m + 1.
Proof. unfold dayno, dord. destruct ((y =? 1582) && (m =? 10) && (4 <? 1)) eqn:F; lia. Qed.

(** In a month iff the day number lies in its range. *)
Lemma in_month y m s : 1 <= m <= 12 -> valid_date (sdate s) ->
  ((sy s =? y) && (sm s =? m)) =
  ((dayno (y, m, 1) <=? dayno (sdate s)) && (dayno (sdate s) <? dayno (y, m, 1) + mlen y m)).
Proof.
  intros Hm V. pose proof (last_day_bounds y m) as LB.
  assert (V1 : valid_date (y, m, 1)) by (unfold valid_date; lia).
  assert (L1 : (sy s =? y) && (sm s =? m) = true ->
    dayno (y, m, 1) <= dayno (sdate s) < dayno (y, m, 1) + mlen y m).
  { intros E. assert (sy s = y /\ sm s = m) as [<- <-] by lia. unfold sdate in *.
    pose proof (dord_bounds _ _ _ V). rewrite dayno_first. unfold dayno. lia. }
  apply eq_true_iff_eq. split; [intros E; specialize (L1 E); lia|].
  intros E. unfold sdate in *. destruct s as [y' m' d' h' mi' s']. cbn [sy sm sd] in *.
  pose proof (dayno_year _ _ _ V1). pose proof (dayno_year _ _ _ V).
  pose proof (dord_bounds _ _ _ V) as DB.
  pose proof (dayno_first y m) as D1.
  pose proof (cum_succ y m Hm) as CS. pose proof (cum_mono y (m + 1) 13 ltac:(lia) ltac:(lia) ltac:(lia)) as CM.
  rewrite cum_13 in CM. pose proof (ybase_succ y) as YS. pose proof (cum_mono y 1 m ltac:(lia) ltac:(lia) ltac:(lia)) as CM1.
  rewrite cum_1 in CM1.
  assert (y' = y).
  { destruct (Z.lt_trichotomy y y') as [L|[L|L]]; [|lia|].
    - pose proof (ybase_mono (y + 1) y' ltac:(lia)). lia.
    - pose proof (ybase_mono (y' + 1) y ltac:(lia)). lia. }
  subst y'. destruct (Z.lt_trichotomy m m') as [L|[L|L]]; [|lia|].
  - pose proof (cum_mono y (m + 1) m' ltac:(lia) ltac:(lia) (ltac:(destruct V; lia))).
    unfold dayno in *. lia.
  - pose proof (cum_mono y (m' + 1) m ltac:(destruct V; lia) ltac:(lia) ltac:(lia)).
    pose proof (cum_succ y m' ltac:(destruct V; lia)). unfold dayno in *. lia.
Qed.

(** ** Weeks *)
Definition wdate (w : SolarWeek) : date := (wy w, wm w, wd w).
(** Days since the last start of a week. *)
Definition woff (n start : Z) : Z := (n + 1 - start) mod 7.

Lemma woff_code k start : 0 <= start <= 6 ->
  (if (k + 1) mod 7 - start <? 0 then (k + 1) mod 7 - start + 7 else (k + 1) mod 7 - start) = woff k start.
Proof. intros H. unfold woff. destruct (Z.ltb_spec ((k + 1) mod 7 - start) 0); lia. Qed.

Lemma getFirstDay_day w : valid_date (wdate w) -> jd_year (wy w) -> 0 <= wstart w <= 6 ->
  exists s, SolarWeek_getFirstDay w = Ok s /\
    is_day (dayno (wdate w) - woff (dayno (wdate w)) (wstart w)) s.
Proof.
  intros V J S. unfold SolarWeek_getFirstDay. destruct (fromYmd_day _ _ _ V) as [E D]. rewrite E. cbn [bind].
  rewrite getWeek_spec by (apply D || exact J). cbn [bind].
  change (sdate (mkSolar (wy w) (wm w) (wd w) 0 0 0)) with (wdate w).
  rewrite woff_code by exact S.
  destruct (next_day _ _ (- woff (dayno (wdate w)) (wstart w)) D) as (s' & E' & D'). exists s'. split; [exact E'|exact D'].
Qed.

Lemma getDays_days w : valid_date (wdate w) -> jd_year (wy w) -> 0 <= wstart w <= 6 ->
  exists l, SolarWeek_getDays w = Ok l /\
    Forall2 is_day (zseq (dayno (wdate w) - woff (dayno (wdate w)) (wstart w)) 7) l.
Proof.
  intros V J S. destruct (getFirstDay_day w V J S) as (s & E & D). unfold SolarWeek_getDays. rewrite E. cbn [bind].
  change (zrange 1 7) with (zseq 1 6). destruct (mapM_next _ _ 6 D 1) as (l & El & Fl). rewrite El. cbn [bind].
  eexists; split; [reflexivity|]. constructor; [exact D|exact Fl].
Qed.

(** Number of [i] in 1..n with [w + i] on weekday [start]. *)
Definition starts_within (start w n : Z) : Z :=
  Z.of_nat (length (filter (fun i => (w + i) mod 7 =? start) (zrange 1 (n + 1)))).

Lemma starts_within_closed start w n : 0 <= n -> 0 <= start <= 6 ->
  starts_within start w n = (n + (w - start) mod 7) / 7.
Proof.
  intros Hn Hs. replace n with (Z.of_nat (Z.to_nat n)) by lia. generalize (Z.to_nat n) as k. clear n Hn.
  induction k as [|k IH].
  - unfold starts_within. rewrite zrange_nil by lia. cbn [filter length]. lia.
  - replace (Z.of_nat (S k)) with (Z.of_nat k + 1) by lia. unfold starts_within in *.
    rewrite zrange_snoc by lia. rewrite filter_app, app_length, Nat2Z.inj_add, IH. cbn [filter].
    destruct (Z.eqb_spec ((w + (Z.of_nat k + 1)) mod 7) start); cbn [length]; lia.
Qed.
