(** Property theorems for stepping by weeks that stop at the ends of months (C91). *)
From Coq Require Import ZArith Lia Bool ZifyBool List Floats.
From Verif Require Import Py PyFloat CalSpec DayNo Solar SolarProofs JulianDay P_JD P_Solar SolarUnits UnitsProofs P_Units.
Import ListNotations.
Open Scope Z_scope.

(** ** The specification *)
(** A day that begins a week or a month. *)
Definition cut (start : Z) (a : date) : Prop := snd a = 1 \/ weekday a start.

(** [part_weeks start n a b]: going from [a] forward to [b], day by day, one enters [n] new parts: a part
    is what the weeks (beginning on weekday [start]) and the months leave undivided. *)
Inductive part_weeks (start : Z) : Z -> date -> date -> Prop :=
| pw_here a : part_weeks start 0 a a
| pw_inside n a b : part_weeks start n a b -> ~ cut start (tomorrow b) -> part_weeks start n a (tomorrow b)
| pw_enter n a b : part_weeks start n a b -> cut start (tomorrow b) -> part_weeks start (n + 1) a (tomorrow b).

(** ** Lemmas *)
Lemma pw_trans start a b n : part_weeks start n a b -> forall k c, part_weeks start k b c -> part_weeks start (n + k) a c.
Proof.
  intros A k c B. induction B as [b|k b c B IH N|k b c B IH N].
  - now rewrite Z.add_0_r.
  - apply pw_inside; auto.
  - rewrite Z.add_assoc. apply pw_enter; auto.
Qed.

Lemma cut_spec start a : valid_date a -> 0 <= start <= 6 -> (cut start a <-> snd a = 1 \/ woff (dayno a) start = 0).
Proof. intros V S. unfold cut. rewrite weekday_dayno by exact V. unfold woff. split; (intros [H|H]; [now left|right; lia]). Qed.

Lemma pw_zero start a : valid_date a -> 0 <= start <= 6 -> forall k b, valid_date b -> dayno b = dayno a + Z.of_nat k ->
  (forall c, valid_date c -> dayno a < dayno c <= dayno b -> snd c <> 1 /\ woff (dayno c) start <> 0) ->
  part_weeks start 0 a b.
Proof.
  intros Va S. induction k as [|k IH]; intros b Vb E H.
  - assert (b = a) as -> by (apply dayno_inj; auto; lia). constructor.
  - destruct (dayno_surj (dayno b - 1)) as (p & Vp & Ep).
    assert (b = tomorrow p) as -> by (apply dayno_inj; [exact Vb|now apply tomorrow_valid|rewrite tomorrow_dayno by exact Vp; lia]).
    apply pw_inside.
    + apply IH; [exact Vp|lia|]. intros c Vc Hc. apply H; [exact Vc|lia].
    + rewrite cut_spec by assumption. destruct (H _ Vb ltac:(lia)). tauto.
Qed.

(** Exactly one cut between [a] and [b]. *)
Lemma pw_one start a b c : valid_date a -> valid_date b -> valid_date c -> 0 <= start <= 6 ->
  dayno a < dayno c <= dayno b -> snd c = 1 \/ woff (dayno c) start = 0 ->
  (forall d, valid_date d -> dayno a < dayno d <= dayno b -> dayno d <> dayno c -> snd d <> 1 /\ woff (dayno d) start <> 0) ->
  part_weeks start 1 a b.
Proof.
  intros Va Vb Vc S L C U. destruct (dayno_surj (dayno c - 1)) as (p & Vp & Ep).
  assert (c = tomorrow p) as -> by (apply dayno_inj; [exact Vc|now apply tomorrow_valid|rewrite tomorrow_dayno by exact Vp; lia]).
  assert (A : part_weeks start 0 a p).
  { apply (pw_zero start a Va S (Z.to_nat (dayno p - dayno a))); [exact Vp|lia|]. intros d Vd Hd. apply U; [exact Vd|lia|lia]. }
  assert (B : part_weeks start 0 (tomorrow p) b).
  { apply (pw_zero start _ Vc S (Z.to_nat (dayno b - dayno (tomorrow p)))); [exact Vb|lia|].
    intros d Vd Hd. apply U; [exact Vd|lia|lia]. }
  change 1 with (0 + 1 + 0). eapply pw_trans; [|exact B]. apply pw_enter; [exact A|]. now apply cut_spec.
Qed.

(** First and last day number of the month of a date. *)
Definition ms (a : date) : Z := let '(y, m, _) := a in dayno (y, m, 1).
Definition me (a : date) : Z := let '(y, m, _) := a in dayno (y, m, 1) + mlen y m - 1.

Lemma in_month_date y m d y' m' d' : 1 <= m <= 12 -> valid_date (y', m', d') ->
  (y' = y /\ m' = m <-> ms (y, m, d) <= dayno (y', m', d') <= me (y, m, d)).
Proof.
  intros Hm V. pose proof (in_month y m (mkSolar y' m' d' 0 0 0) Hm V) as E. cbn [sy sm] in E. unfold sdate in E. cbn [sy sm sd] in E.
  unfold ms, me. lia.
Qed.

Lemma ms_me a : valid_date a -> ms a <= dayno a <= me a /\ 20 <= me a - ms a <= 30.
Proof.
  destruct a as [[y m] d]. intros V. split; [apply in_month_date; [apply V|exact V|tauto]|].
  pose proof (mlen_bounds y m). unfold ms, me. lia.
Qed.

Lemma valid_first y m d : valid_date (y, m, d) -> valid_date (y, m, 1).
Proof. intros (? & ? & _). pose proof (last_day_bounds y m). unfold valid_date. lia. Qed.

Lemma inm_same y m d y' m' d' : 1 <= m <= 12 -> valid_date (y', m', d') ->
  ms (y, m, d) <= dayno (y', m', d') <= me (y, m, d) -> y' = y /\ m' = m.
Proof. intros Hm V. apply in_month_date; assumption. Qed.

(** Dates less than three weeks apart: same month, or the later one is past a month's end. *)
Lemma near y m d y' m' d' : valid_date (y, m, d) -> valid_date (y', m', d') ->
  dayno (y, m, d) <= dayno (y', m', d') <= dayno (y, m, d) + 20 ->
  (y' = y /\ m' = m /\ ms (y', m', d') = ms (y, m, d) /\ me (y', m', d') = me (y, m, d)) \/
  (m' <> m /\ dayno (y, m, d) < ms (y', m', d') /\ me (y, m, d) < dayno (y', m', d') /\ ms (y', m', d') = me (y, m, d) + 1).
Proof.
  intros V V' L. pose proof (ms_me _ V) as B. pose proof (ms_me _ V') as B'.
  destruct (Z.le_gt_cases (dayno (y', m', d')) (me (y, m, d))) as [G|G].
  - left. destruct (inm_same y m d y' m' d' (proj1 V) V' ltac:(lia)) as [-> ->]. repeat split.
  - right. assert (NE : m' <> m).
    { intros ->. pose proof (year_of_dayno _ _ _ _ _ _ V V' ltac:(lia) ltac:(lia)) as Y.
      assert (C : y' = y \/ y' = y + 1) by lia. destruct C as [->| ->]; [unfold me in *; lia|].
      clear B B' G Y. unfold dayno in L. pose proof (dord_bounds _ _ _ V). pose proof (dord_bounds _ _ _ V').
      pose proof (mlen_bounds y m). rewrite ybase_succ in L. pose proof (ylen_bounds y).
      assert (CD : - 11 <= cum (y + 1) m - cum y m <= 11).
      { clear. unfold cum. destruct (leap (y + 1)), (leap y), (y + 1 =? 1582), (y =? 1582), (2 <? m), (10 <? m); cbn [andb]; lia. }
      lia. }
    split; [exact NE|].
    assert (X : dayno (y, m, d) < ms (y', m', d')).
    { destruct (Z.le_gt_cases (ms (y', m', d')) (dayno (y, m, d))) as [H|H]; [|exact H]. exfalso.
      destruct (inm_same y' m' d' y m d (proj1 V') V ltac:(lia)). congruence. }
    split; [exact X|]. split; [exact G|].
    (* the first of the later month is the day after the last of the earlier one *)
    destruct (dayno_surj (me (y, m, d) + 1)) as ([[y2 m2] d2] & V2 & E2). pose proof (ms_me _ V2) as B2.
    assert (M2 : ms (y2, m2, d2) > me (y, m, d)).
    { destruct (Z.le_gt_cases (ms (y2, m2, d2)) (me (y, m, d))) as [H|H]; [|lia]. exfalso.
      destruct (Z.le_gt_cases (ms (y, m, d)) (ms (y2, m2, d2))) as [K|K].
      - destruct (inm_same y m d y2 m2 1 (proj1 V) (valid_first _ _ _ V2) ltac:(unfold ms in *; lia)) as [-> ->].
        unfold me, ms in *. lia.
      - destruct (inm_same y2 m2 d2 y m 1 (proj1 V2) (valid_first _ _ _ V) ltac:(unfold ms in *; lia)) as [-> ->].
        unfold me, ms in *. lia. }
    assert (M3 : ms (y2, m2, d2) = me (y, m, d) + 1) by lia.
    destruct (inm_same y2 m2 d2 y' m' d' (proj1 V2) V' ltac:(lia)) as [-> ->]. exact M3.
Qed.

(** Firsts of months are at least three weeks apart. *)
Lemma firsts_apart a b : valid_date a -> valid_date b -> snd a = 1 -> snd b = 1 -> dayno a < dayno b -> dayno a + 20 < dayno b.
Proof.
  destruct a as [[y m] d], b as [[y' m'] d']. cbn [snd]. intros V V' -> -> L.
  destruct (Z.le_gt_cases (dayno (y', m', 1)) (dayno (y, m, 1) + 20)) as [G|G]; [|lia].
  destruct (near _ _ _ _ _ _ V V' ltac:(lia)) as [(-> & -> & _)|(_ & X)]; [lia|].
  pose proof (ms_me _ V). unfold ms in *. lia.
Qed.

Lemma snd_ms a : valid_date a -> snd a = 1 <-> dayno a = ms a.
Proof.
  destruct a as [[y m] d]. intros V. cbn [snd]. unfold ms. split; [now intros ->|]. intros E.
  assert (V1 : valid_date (y, m, 1)).
  { destruct V as (? & ? & _). pose proof (last_day_bounds y m). unfold valid_date. lia. }
  apply dayno_inj in E; auto. congruence.
Qed.


(** The number of the week in the month is 1 exactly in the week of the first. *)
Lemma index_first start k s : is_day k s -> jd_year (sy s) -> 0 <= start <= 6 ->
  exists i, SolarWeek_getIndex (mkSolarWeek (sy s) (sm s) (sd s) start) = Ok i /\
    (i = 1 -> k - woff k start <= ms (sdate s)) /\
    (~ (sy s = 1582 /\ sm s = 10 /\ 15 <= sd s) -> i = - ((- (k - ms (sdate s) + 1 + woff (ms (sdate s)) start)) / 7)).
Proof.
  intros (V & _ & E) J S. pose proof (valid_first _ _ _ (proj1 V)) as V1. unfold SolarWeek_getIndex. cbn [wy wm wd wstart].
  destruct (fromYmd_day _ _ _ V1) as [E1 I1]. rewrite E1. cbn [bind].
  rewrite getWeek_spec by (apply I1 || exact J). cbn [bind].
  change (dayno (sdate (mkSolar (sy s) (sm s) 1 0 0 0))) with (ms (sdate s)). rewrite woff_code by exact S.
  set (M := ms (sdate s)) in *.
  assert (O : 0 <= woff M start <= 6) by (unfold woff; lia).
  pose proof (last_day_bounds (sy s) (sm s)) as LB. destruct V as [(Hm & Hd & Hg) _]. cbn [sdate] in Hd.
  rewrite ceil_div_ok by lia. eexists. split; [reflexivity|].
  assert (N : k = M - 1 + dord (sy s) (sm s) (sd s)).
  { unfold M, ms, sdate. rewrite dayno_first. rewrite <- E. unfold sdate, dayno. lia. }
  assert (DO : (sy s = 1582 /\ sm s = 10 /\ 15 <= sd s /\ dord (sy s) (sm s) (sd s) = sd s - 10) \/
               ~ (sy s = 1582 /\ sm s = 10 /\ 15 <= sd s) /\ dord (sy s) (sm s) (sd s) = sd s).
  { unfold dord. destruct ((sy s =? 1582) && (sm s =? 10) && (4 <? sd s)) eqn:G; [left|right]; lia. }
  clearbody M. clear - N DO O. unfold woff in *. split.
  - intros H. destruct DO as [DO|DO]; lia.
  - intros G. destruct DO as [DO|[_ DO]]; [lia|]. do 2 f_equal. lia.
Qed.

Lemma weeks_of_month s : is_day (dayno (sdate s)) s -> jd_year (sy s) ->
  getWeeksOfMonth (sy s) (sm s) 0 = Ok (- ((- (me (sdate s) - ms (sdate s) + 1 + woff (ms (sdate s)) 0)) / 7)).
Proof.
  intros (V & _) J. pose proof (valid_first _ _ _ (proj1 V)) as V1. unfold getWeeksOfMonth.
  rewrite getDaysOfMonth_mlen by apply (proj1 V). cbn [bind].
  destruct (fromYmd_day _ _ _ V1) as [E1 I1]. rewrite E1. cbn [bind].
  rewrite getWeek_spec by (apply I1 || exact J). cbn [bind].
  change (dayno (sdate (mkSolar (sy s) (sm s) 1 0 0 0))) with (ms (sdate s)).
  pose proof (ms_me _ (proj1 V)) as [_ B]. assert (ML : mlen (sy s) (sm s) = me (sdate s) - ms (sdate s) + 1) by (unfold me, ms, sdate; lia).
  rewrite ML. rewrite ceil_div_ok by lia. unfold woff. do 3 f_equal. lia.
Qed.

Lemma gap_dayno s : valid_date (sdate s) -> sy s = 1582 /\ sm s = 10 /\ 15 <= sd s -> dayno (1582, 10, 4) < dayno (sdate s).
Proof.
  intros V (A & B & C). apply lex_lt_dayno; [unfold valid_date; cbn; lia|exact V|]. unfold lex_lt, sdate. lia.
Qed.

Lemma year_le a b : valid_date a -> valid_date b -> dayno a <= dayno b -> fst (fst a) <= fst (fst b).
Proof.
  intros Va Vb L. destruct (Z.eq_dec (dayno a) (dayno b)) as [E|N].
  - apply dayno_inj in E; auto. subst. lia.
  - pose proof (dayno_lt_lex _ _ Va Vb ltac:(lia)) as H. destruct a as [[y m] d], b as [[y' m'] d']. cbn in *. lia.
Qed.

Definition fwd_inv (w0 : date) (start n0 : Z) (st : Z * Solar * SolarWeek * Z) : Prop :=
  let '(n, solar, week, month) := st in
  exists s, is_day s solar /\ 0 <= n <= n0 /\ valid_date (wdate week) /\ wstart week = start /\ month = wm week /\
    part_weeks start (n0 - n) w0 (wdate week) /\ dayno w0 <= dayno (wdate week) /\ s <= dayno w0 + 7 * (n0 - n) /\
    s - woff s start <= dayno (wdate week) <= s /\
    (ms (wdate week) = ms (sdate solar) /\ wm week = sm solar \/ dayno (wdate week) < ms (sdate solar)).

Lemma fwd_step w0 e start n0 st : valid_date w0 -> valid_date e -> 0 <= start <= 6 -> 0 <= n0 ->
  dayno e = dayno w0 + 7 * n0 -> jd_year (fst (fst w0)) -> jd_year (fst (fst e)) ->
  ~ (dayno w0 < dayno (1582, 10, 1) /\ dayno (1582, 10, 4) < dayno e) ->
  fwd_inv w0 start n0 st -> let '(n, _, week, _) := st in
  match SolarWeek_next_step start true st with
  | inl st' => fwd_inv w0 start n0 st' /\ fst (fst (fst st')) = n - 1
  | inr r => r = Ok week /\ n = 0
  end.
Proof.
  destruct st as [[[n solar] week] month]. intros V0 Ve S N0 Ee J0 Je G.
  intros (s & Ds & Hn & Vw & Sw & Mw & P & L0 & Ls & Lw & C). unfold SolarWeek_next_step.
  destruct (Z.eqb_spec n 0) as [->|Nn]; [split; reflexivity|].
  destruct (next_day _ _ 7 Ds) as (s' & E' & D'). rewrite E'. cbn [bind].
  destruct D' as (V' & M' & X'). assert (D' : is_day (s + 7) s') by (split; [exact V'|split; assumption]).
  set (week' := mkSolarWeek (sy s') (sm s') (sd s') start).
  assert (J' : jd_year (sy s')).
  { pose proof (year_le w0 (sdate s') V0 (proj1 V') ltac:(lia)) as A. pose proof (year_le (sdate s') e (proj1 V') Ve ltac:(lia)) as B.
    unfold jd_year in *. cbn [sdate fst] in A, B. lia. }
  destruct Ds as (Vs & Ms & Xs). pose proof (ms_me _ (proj1 V')) as B'. pose proof (ms_me _ (proj1 Vs)) as Bs.
  pose proof (ms_me _ Vw) as Bw.
  assert (O : 0 <= woff s start <= 6) by (unfold woff; lia).
  assert (O' : woff (s + 7) start = woff s start) by (unfold woff; lia).
  cbn [wm week']. destruct (Z.eqb_spec month (sm s')) as [Em|Nm].
  - (* the month of the week is still that of the new day *)
    cbn [bind]. split; [|reflexivity]. exists (s + 7). cbn [wdate].
    destruct (near _ _ _ _ _ _ Vw (proj1 V')) as [(Y & Mm & E1 & E2)|(Nm & _)];
      [fold (wdate week); fold (sdate s'); lia| |congruence].
    fold (wdate week) in E1, E2. fold (sdate s') in E1, E2.
    split; [exact D'|]. split; [lia|]. split; [exact (proj1 V')|]. split; [reflexivity|]. split; [exact Em|].
    split.
    + replace (n0 - (n - 1)) with (n0 - n + 1) by lia. eapply pw_trans; [exact P|].
      destruct (dayno_surj (s + 7 - woff s start)) as (c & Vc & Ec).
      change (wdate week') with (sdate s').
      apply (pw_one start (wdate week) (sdate s') c); try assumption; [exact (proj1 V')|lia|right; rewrite Ec; unfold woff; lia|].
      intros d Vd Hd Nd. split; [|unfold woff in *; lia].
      rewrite snd_ms by exact Vd. intros F.
      destruct d as [[y2 m2] d2], (wdate week) as [[y1 m1] d1] eqn:Ew.
      destruct (near _ _ _ _ _ _ Vw Vd ltac:(lia)) as [(-> & -> & E3 & E4)|(_ & Q1 & Q2 & _)]; lia.
    + change (wdate week') with (sdate s'). split; [lia|]. split; [lia|]. split; [lia|]. left. split; reflexivity.
  - destruct (index_first start _ _ D' J' S) as (i & Ei & I1 & I2). fold week' in Ei. rewrite Ei. cbn [bind].
    (* the new day lies in a later month than the week *)
    destruct (near _ _ _ _ _ _ Vw (proj1 V')) as [(Y & Mm & _)|(_ & Q1 & Q2 & Q3)];
      [fold (wdate week); fold (sdate s'); lia|subst month; congruence|].
    fold (wdate week) in Q1, Q2, Q3. fold (sdate s') in Q1, Q2, Q3.
    rewrite X' in *.
    destruct (Z.eqb_spec 1 i) as [<-|Ni].
    + specialize (I1 eq_refl). destruct (getFirstDay_day week' (proj1 V') J' S) as (fd & Ef & Df). rewrite Ef. cbn [bind].
      change (dayno (wdate week')) with (dayno (sdate s')) in Df. cbn [wstart week'] in Df. rewrite X', O' in *.
      split; [|reflexivity]. exists (s + 7). cbn [wm].
      set (F := s + 7 - woff s start) in *. destruct Df as (Vf & _ & Xf).
      change (wdate (mkSolarWeek (sy fd) (sm fd) (sd fd) start)) with (sdate fd).
      split; [exact D'|]. split; [lia|]. split; [exact (proj1 Vf)|]. split; [reflexivity|]. split; [reflexivity|].
      split; [|split; [lia|split; [lia|split; [lia|]]]].
      * replace (n0 - (n - 1)) with (n0 - n + 1) by lia. eapply pw_trans; [exact P|].
        apply (pw_one start (wdate week) (sdate fd) (sdate fd)); try assumption; try exact (proj1 Vf); [lia|right; rewrite Xf; unfold F, woff; lia|].
        intros d Vd Hd Nd. split; [|unfold F, woff in *; lia].
        intros K. pose proof (valid_first _ _ _ (proj1 V')) as V1.
        pose proof (firsts_apart d (sy s', sm s', 1) Vd V1 K eq_refl) as A. change (dayno (sy s', sm s', 1)) with (ms (sdate s')) in A. lia.
      * destruct (near _ _ _ _ _ _ (proj1 Vf) (proj1 V')) as [(Y & Mm & R1 & R2)|(R0 & R1 & R2 & R3)];
          [fold (sdate fd); fold (sdate s'); lia| |right; exact R1].
        left. split; [symmetry; exact R1|symmetry; exact Mm].
    + pose proof (valid_first _ _ _ (proj1 V')) as V1. change (wy week') with (sy s'). change (wm week') with (sm s').
      destruct (fromYmd_day _ _ _ V1) as [E1 D1]. rewrite E1. cbn [bind sy sm sd].
      split; [|reflexivity]. change (dayno (sy s', sm s', 1)) with (ms (sdate s')) in D1. exists (ms (sdate s')).
      set (f := mkSolar (sy s') (sm s') 1 0 0 0) in *.
      change (wdate (mkSolarWeek (sy s') (sm s') 1 start)) with (sdate f).
      assert (Mf : ms (sdate f) = ms (sdate s')) by reflexivity.
      assert (Xf : dayno (sdate f) = ms (sdate s')) by reflexivity.
      (* the first of the new month lies in an earlier week than the new day *)
      assert (K : ms (sdate s') < s + 7 - woff s start).
      { destruct C as [[C1 C2]|C].
        - assert (NG : ~ (sy s' = 1582 /\ sm s' = 10 /\ 15 <= sd s')).
          { intros H. pose proof (gap_dayno s' (proj1 V') H) as T. apply G. split; [|lia].
            assert (ms (sdate s') = dayno (1582, 10, 1)) as <- by (unfold ms, sdate; destruct H as (-> & -> & _); reflexivity).
            destruct (near _ _ _ _ _ _ (proj1 Vs) (proj1 V')) as [(_ & Mm & _)|(_ & T2 & _)];
              [fold (sdate solar); fold (sdate s'); lia|congruence|]. fold (sdate s') in T2. fold (sdate solar) in T2. lia. }
          specialize (I2 NG). unfold woff in *. lia.
        - assert (ms (sdate s') = ms (sdate solar)); [|lia].
          destruct (near _ _ _ _ _ _ Vw (proj1 Vs)) as [(_ & _ & T & _)|(_ & _ & _ & T)];
            [fold (wdate week); fold (sdate solar); lia|fold (wdate week) in T; fold (sdate solar) in T; lia|].
          fold (wdate week) in T; fold (sdate solar) in T. lia. }
      split; [exact D1|]. split; [lia|]. split; [exact V1|]. split; [reflexivity|]. split; [reflexivity|].
      split; [|split; [lia|split; [lia|split; [rewrite Xf; unfold woff; lia|left; split; reflexivity]]]].
      replace (n0 - (n - 1)) with (n0 - n + 1) by lia. eapply pw_trans; [exact P|].
      apply (pw_one start (wdate week) (sdate f) (sdate f)); try assumption; try exact V1; [lia|left; reflexivity|].
      intros d Vd Hd Nd. split; [|unfold woff in *; lia].
      intros T. pose proof (firsts_apart d (sdate f) Vd V1 T eq_refl) as A. lia.
Qed.

Definition bwd_inv (w0 : date) (n0 : Z) (st : Z * Solar * SolarWeek * Z) : Prop :=
  let '(n, solar, week, month) := st in
  exists s, is_day s solar /\ 0 <= - n <= n0 /\ valid_date (wdate week) /\ wstart week = 0 /\ month = wm week /\
    part_weeks 0 (n0 + n) (wdate week) w0 /\ dayno (wdate week) <= dayno w0 /\ dayno w0 - 7 * (n0 + n) <= s /\
    s <= dayno (wdate week) <= s - woff s 0 + 6 /\
    (ms (wdate week) = ms (sdate solar) /\ wm week = sm solar \/ me (sdate solar) < dayno (wdate week)).

Lemma oct_dayno s : valid_date (sdate s) -> sy s = 1582 /\ sm s = 10 -> dayno (sdate s) < dayno (1582, 11, 1) /\ me (sdate s) = dayno (1582, 10, 31).
Proof.
  intros V (A & B). split.
  - apply lex_lt_dayno; [exact V|unfold valid_date; cbn; lia|]. unfold lex_lt, sdate. lia.
  - unfold me, sdate. rewrite A, B. vm_compute. reflexivity.
Qed.

Lemma bwd_step w0 e n0 st : valid_date w0 -> valid_date e -> 0 <= n0 ->
  dayno e = dayno w0 - 7 * n0 -> jd_year (fst (fst w0)) -> jd_year (fst (fst e)) ->
  ~ (dayno e < dayno (1582, 11, 1) /\ dayno (1582, 10, 31) < dayno w0) ->
  bwd_inv w0 n0 st -> let '(n, _, week, _) := st in
  match SolarWeek_next_step 0 false st with
  | inl st' => bwd_inv w0 n0 st' /\ fst (fst (fst st')) = n + 1
  | inr r => r = Ok week /\ n = 0
  end.
Proof.
  destruct st as [[[n solar] week] month]. intros V0 Ve N0 Ee J0 Je G.
  intros (s & Ds & Hn & Vw & Sw & Mw & P & L0 & Ls & Lw & C). unfold SolarWeek_next_step.
  destruct (Z.eqb_spec n 0) as [->|Nn]; [split; reflexivity|].
  destruct (next_day _ _ (-7) Ds) as (s' & E' & D'). rewrite E'. cbn [bind].
  replace (s + -7) with (s - 7) in D' by lia.
  destruct D' as (V' & M' & X'). assert (D' : is_day (s - 7) s') by (split; [exact V'|split; assumption]).
  set (week' := mkSolarWeek (sy s') (sm s') (sd s') 0).
  assert (J' : jd_year (sy s')).
  { pose proof (year_le e (sdate s') Ve (proj1 V') ltac:(lia)) as A. pose proof (year_le (sdate s') w0 (proj1 V') V0 ltac:(lia)) as B.
    unfold jd_year in *. cbn [sdate fst] in A, B. lia. }
  destruct Ds as (Vs & Ms & Xs). pose proof (ms_me _ (proj1 V')) as B'. pose proof (ms_me _ (proj1 Vs)) as Bs.
  pose proof (ms_me _ Vw) as Bw.
  assert (O : 0 <= woff s 0 <= 6) by (unfold woff; lia).
  assert (O' : woff (s - 7) 0 = woff s 0) by (unfold woff; lia).
  cbn [wm week']. destruct (Z.eqb_spec month (sm s')) as [Em|Nm].
  - cbn [bind]. split; [|reflexivity]. exists (s - 7). cbn [wdate].
    destruct (near _ _ _ _ _ _ (proj1 V') Vw) as [(Y & Mm & E1 & E2)|(Nm & _)];
      [fold (wdate week); fold (sdate s'); lia| |congruence].
    fold (wdate week) in E1, E2. fold (sdate s') in E1, E2.
    change (wdate week') with (sdate s').
    split; [exact D'|]. split; [lia|]. split; [exact (proj1 V')|]. split; [reflexivity|]. split; [exact Em|].
    split; [|split; [lia|split; [lia|split; [lia|left; split; reflexivity]]]].
    replace (n0 + (n + 1)) with (1 + (n0 + n)) by lia. eapply pw_trans; [|exact P].
    destruct (dayno_surj (s - woff s 0)) as (c & Vc & Ec).
    apply (pw_one 0 (sdate s') (wdate week) c); try assumption; [exact (proj1 V')|lia|lia|right; rewrite Ec; unfold woff; lia|].
    intros d Vd Hd Nd. split; [|unfold woff in *; lia].
    rewrite snd_ms by exact Vd. intros F. rewrite X' in *.
    destruct d as [[y2 m2] d2].
    destruct (near _ _ _ _ _ _ (proj1 V') Vd) as [(-> & -> & E3 & E4)|(_ & Q1 & Q2 & _)];
      fold (sdate s') in *; [lia| |]; change (dayno (sy s', sm s', sd s')) with (dayno (sdate s')) in *; lia.
  - destruct (index_first 0 _ _ D' J' ltac:(lia)) as (i & Ei & I1 & I2). fold week' in Ei. rewrite Ei. cbn [bind].
    destruct (near _ _ _ _ _ _ (proj1 V') Vw) as [(Y & Mm & _)|(_ & Q1 & Q2 & Q3)];
      [fold (wdate week); fold (sdate s'); lia|subst month; congruence|].
    fold (wdate week) in Q1, Q2, Q3. fold (sdate s') in Q1, Q2, Q3.
    assert (NO : ~ (sy s' = 1582 /\ sm s' = 10)).
    { intros H. destruct (oct_dayno s' (proj1 V') H) as [T1 T2]. apply G. split; [lia|]. rewrite <- T2. lia. }
    specialize (I2 ltac:(tauto)).
    change (wy week') with (sy s'). change (wm week') with (sm s').
    rewrite weeks_of_month by (try exact J'; rewrite X'; exact D'). cbn [bind].
    rewrite X' in *.
    assert (ML : me (sdate s') - ms (sdate s') + 1 = last_day (sy s') (sm s')).
    { unfold me, ms, sdate, mlen. destruct ((sy s' =? 1582) && (sm s' =? 10)) eqn:T; [lia|lia]. }
    match goal with |- context [?a =? i] => destruct (Z.eqb_spec a i) as [Ew|Ew] end.
    + assert (LM : me (sdate s') <= s - 7 - woff s 0 + 6) by (subst i; unfold woff in *; lia).
      destruct (getFirstDay_day week' (proj1 V') J' ltac:(cbn; lia)) as (fd & Ef & Df). rewrite Ef. cbn [bind].
      change (dayno (wdate week')) with (dayno (sdate s')) in Df. cbn [wstart week'] in Df. rewrite X', O' in *.
      destruct (next_day _ _ 6 Df) as (ld & El & Dl). rewrite El. cbn [bind].
      split; [|reflexivity]. exists (s - 7). cbn [wm].
      set (F := s - 7 - woff s 0 + 6) in *. destruct Dl as (Vl & _ & Xl).
      change (wdate (mkSolarWeek (sy ld) (sm ld) (sd ld) 0)) with (sdate ld).
      split; [exact D'|]. split; [lia|]. split; [exact (proj1 Vl)|]. split; [reflexivity|]. split; [reflexivity|].
      split; [|split; [lia|split; [lia|split; [unfold F in *; lia|]]]].
      * replace (n0 + (n + 1)) with (1 + (n0 + n)) by lia. eapply pw_trans; [|exact P].
        destruct (dayno_surj (F + 1)) as (c & Vc & Ec).
        apply (pw_one 0 (sdate ld) (wdate week) c); try assumption; try exact (proj1 Vl); [lia|unfold F in *; lia|right; rewrite Ec; unfold F, woff; lia|].
        intros d Vd Hd Nd. split; [|unfold F, woff in *; lia].
        intros K. pose proof (valid_first _ _ _ Vw) as V1.
        pose proof (fun H => firsts_apart d (wy week, wm week, 1) Vd V1 K eq_refl H) as A.
        pose proof (fun H => firsts_apart (wy week, wm week, 1) d V1 Vd eq_refl K H) as A2.
        change (dayno (wy week, wm week, 1)) with (ms (wdate week)) in A, A2. unfold F in *. lia.
      * destruct (near _ _ _ _ _ _ (proj1 V') (proj1 Vl)) as [(Y & Mm & R1 & R2)|(R0 & R1 & R2 & R3)];
          [fold (sdate ld); fold (sdate s'); unfold F in *; lia| |right; exact R2].
        left. split; [exact R1|exact Mm].
    + rewrite getDaysOfMonth_mlen by apply (proj1 V'). cbn [bind].
      assert (MM : mlen (sy s') (sm s') = last_day (sy s') (sm s')) by (unfold mlen; destruct ((sy s' =? 1582) && (sm s' =? 10)) eqn:T; [lia|reflexivity]).
      rewrite MM. assert (V1 : valid_date (sy s', sm s', last_day (sy s') (sm s'))).
      { pose proof (last_day_bounds (sy s') (sm s')). destruct (proj1 V') as (? & ? & ?). unfold valid_date. lia. }
      destruct (fromYmd_day _ _ _ V1) as [E1 D1]. rewrite E1. cbn [bind sy sm sd].
      split; [|reflexivity].
      assert (XE : dayno (sy s', sm s', last_day (sy s') (sm s')) = me (sdate s')).
      { unfold me, sdate. rewrite dayno_first, MM. unfold dayno, dord. destruct ((sy s' =? 1582) && (sm s' =? 10)) eqn:T; cbn [andb]; lia. }
      rewrite XE in D1. exists (me (sdate s')).
      set (f := mkSolar (sy s') (sm s') (last_day (sy s') (sm s')) 0 0 0) in *.
      change (wdate (mkSolarWeek (sy s') (sm s') (last_day (sy s') (sm s')) 0)) with (sdate f).
      assert (Xf : dayno (sdate f) = me (sdate s')) by exact XE.
      assert (K : s - woff s 0 <= me (sdate s')) by (subst i; unfold woff in *; lia).
      split; [exact D1|]. split; [lia|]. split; [exact V1|]. split; [reflexivity|]. split; [reflexivity|].
      split; [|split; [lia|split; [lia|split; [rewrite Xf; unfold woff; lia|left; split; reflexivity]]]].
      replace (n0 + (n + 1)) with (1 + (n0 + n)) by lia. eapply pw_trans; [|exact P].
      pose proof (valid_first _ _ _ Vw) as V2.
      apply (pw_one 0 (sdate f) (wdate week) (wy week, wm week, 1)); try assumption; try exact V1; [lia| |left; reflexivity|];
        change (dayno (wy week, wm week, 1)) with (ms (wdate week)); [lia|].
      intros d Vd Hd Nd. split; [|unfold woff in *; lia].
      intros T. 
      pose proof (fun H => firsts_apart d (wy week, wm week, 1) Vd V2 T eq_refl H) as A.
      pose proof (fun H => firsts_apart (wy week, wm week, 1) d V2 Vd eq_refl T H) as A2.
      change (dayno (wy week, wm week, 1)) with (ms (wdate week)) in A, A2. lia.
Qed.

(** ** C91 *)
(** The count is determined by the two dates. *)
Lemma pw_valid start n a b : part_weeks start n a b -> valid_date a -> valid_date b /\ dayno a <= dayno b /\ 0 <= n.
Proof.
  intros P V. induction P as [a|n a b P IH N|n a b P IH N]; [repeat split; try apply V; lia|..];
    destruct (IH V) as (Vb & L & Hn); (split; [now apply tomorrow_valid|]); rewrite tomorrow_dayno by exact Vb; lia.
Qed.

Lemma tomorrow_inj a b : valid_date a -> valid_date b -> tomorrow a = tomorrow b -> a = b.
Proof. intros Va Vb E. apply dayno_inj; auto. apply (f_equal dayno) in E. rewrite !tomorrow_dayno in E by assumption. lia. Qed.

Lemma pw_inv start k a c : part_weeks start k a c -> (k = 0 /\ a = c) \/
  exists b k', c = tomorrow b /\ part_weeks start k' a b /\ (k = k' /\ ~ cut start c \/ k = k' + 1 /\ cut start c).
Proof. intros [|k' a' b P N|k' a' b P N]; [now left|right..]; exists b, k'; auto. Qed.

Theorem C91_count_unique : forall start a b n k, valid_date a -> part_weeks start n a b -> part_weeks start k a b -> n = k.
Proof.
  intros start a b n k V P. revert k. induction P as [a|n a b P IH N|n a b P IH N]; intros k Q;
    destruct (pw_inv _ _ _ _ Q) as [[-> E]|(c & k' & E & Q' & H)].
  - reflexivity.
  - destruct (pw_valid _ _ _ _ Q' V) as (Vc & L & _). pose proof (tomorrow_dayno c Vc) as T. rewrite <- E in T. lia.
  - destruct (pw_valid _ _ _ _ P V) as (Vb & L & _). pose proof (tomorrow_dayno b Vb) as T. rewrite <- E in T. lia.
  - destruct (pw_valid _ _ _ _ P V) as (Vb & _). destruct (pw_valid _ _ _ _ Q' V) as (Vc & _).
    apply tomorrow_inj in E; auto. subst c. destruct H as [[-> _]|[_ H]]; [auto|contradiction].
  - destruct (pw_valid _ _ _ _ P V) as (Vb & L & _). pose proof (tomorrow_dayno b Vb) as T. rewrite <- E in T. lia.
  - destruct (pw_valid _ _ _ _ P V) as (Vb & _). destruct (pw_valid _ _ _ _ Q' V) as (Vc & _).
    apply tomorrow_inj in E; auto. subst c. destruct H as [[_ H]|[-> _]]; [contradiction|f_equal; auto].
Qed.

Lemma earlier_dayno a b : valid_date a -> valid_date b -> (earlier a b <-> dayno a < dayno b).
Proof.
  intros Va Vb. split.
  - intros (n & Hn & D). apply days_later_dayno in D; auto. lia.
  - intros L. exists (dayno b - dayno a). split; [lia|]. apply days_later_dayno; auto. lia.
Qed.

(** Forward, for every start of the week: [next(n, True)] enters exactly [n] new parts.  The [7 * n]-th day
    [e] only serves to keep the way inside the years of getJulianDay and away from the gap: a step from
    September 1582 must not reach beyond 4 October. *)
Theorem C91_forward : forall w n e, valid_date (wy w, wm w, wd w) -> 0 <= wstart w <= 6 -> 0 < n ->
  valid_date e -> days_later (7 * n) (wy w, wm w, wd w) e -> jd_year (wy w) -> jd_year (fst (fst e)) ->
  ~ (earlier (wy w, wm w, wd w) (1582, 10, 1) /\ earlier (1582, 10, 4) e) ->
  exists w', SolarWeek_next w n true = Ok w' /\ wstart w' = wstart w /\ valid_date (wy w', wm w', wd w') /\
    part_weeks (wstart w) n (wy w, wm w, wd w) (wy w', wm w', wd w').
Proof.
  intros w n e V S Hn Ve De J Je G. fold (wdate w) in *. apply days_later_dayno in De; auto.
  assert (V1 : valid_date (1582, 10, 1)) by (unfold valid_date; cbn; lia).
  assert (V4 : valid_date (1582, 10, 4)) by (unfold valid_date; cbn; lia).
  rewrite !earlier_dayno in G by assumption.
  unfold SolarWeek_next. destruct (Z.eqb_spec 0 n) as [<-|N]; [lia|].
  destruct (fromYmd_day _ _ _ V) as [E1 D1]. rewrite E1. cbn [bind sy sm sd].
  rewrite (proj2 (Z.ltb_lt 0 n)) by lia.
  destruct (loop_rule (fwd_inv (wdate w) (wstart w) n)
    (fun r => exists w', r = Ok w' /\ wstart w' = wstart w /\ valid_date (wdate w') /\ part_weeks (wstart w) n (wdate w) (wdate w'))
    (fun st => fst (fst (fst st))) (SolarWeek_next_step (wstart w) true) (Z.abs n + 1)
    (n, mkSolar (wy w) (wm w) (wd w) 0 0 0, mkSolarWeek (wy w) (wm w) (wd w) (wstart w), wm w)) as (r & E & w' & -> & Q).
  - intros [[[k s] wk] m] (s0 & _ & H & _). cbn [fst]. lia.
  - intros [[[k s] wk] m] I. pose proof (fwd_step (wdate w) e (wstart w) n _ V Ve S ltac:(lia) ltac:(lia) J Je G I) as H. cbv beta iota in H.
    destruct (SolarWeek_next_step (wstart w) true (k, s, wk, m)) as [st'|r].
    + destruct H as [H1 H2]. split; [exact H1|]. cbn [fst]. lia.
    + destruct H as [-> ->]. destruct I as (s0 & _ & _ & Vw & Sw & _ & P & _). exists wk.
      split; [reflexivity|]. split; [exact Sw|]. split; [exact Vw|]. now rewrite Z.sub_0_r in P.
  - exists (dayno (wdate w)). change (wdate (mkSolarWeek (wy w) (wm w) (wd w) (wstart w))) with (wdate w).
    split; [exact D1|]. split; [lia|]. split; [exact V|]. split; [reflexivity|]. split; [reflexivity|].
    rewrite Z.sub_diag. split; [constructor|]. split; [lia|]. split; [lia|].
    split; [unfold woff; lia|]. left. split; reflexivity.
  - cbn [fst]. lia.
  - rewrite E. cbn [bind]. exists w'. split; [reflexivity|exact Q].
Qed.

(** Backward, for weeks that begin on Sunday. *)
Theorem C91_backward : forall w n e, valid_date (wy w, wm w, wd w) -> wstart w = 0 -> 0 < n ->
  valid_date e -> days_later (7 * n) e (wy w, wm w, wd w) -> jd_year (wy w) -> jd_year (fst (fst e)) ->
  ~ (earlier e (1582, 11, 1) /\ earlier (1582, 10, 31) (wy w, wm w, wd w)) ->
  exists w', SolarWeek_next w (- n) true = Ok w' /\ wstart w' = 0 /\ valid_date (wy w', wm w', wd w') /\
    part_weeks 0 n (wy w', wm w', wd w') (wy w, wm w, wd w).
Proof.
  intros w n e V S Hn Ve De J Je G. fold (wdate w) in *. apply days_later_dayno in De; auto.
  assert (V1 : valid_date (1582, 11, 1)) by (unfold valid_date; cbn; lia).
  assert (V4 : valid_date (1582, 10, 31)) by (unfold valid_date; cbn; lia).
  rewrite !earlier_dayno in G by assumption.
  unfold SolarWeek_next. destruct (Z.eqb_spec 0 (- n)) as [|N]; [lia|].
  destruct (fromYmd_day _ _ _ V) as [E1 D1]. rewrite E1. cbn [bind sy sm sd].
  destruct (Z.ltb_spec 0 (- n)); [lia|]. rewrite S.
  destruct (loop_rule (bwd_inv (wdate w) n)
    (fun r => exists w', r = Ok w' /\ wstart w' = 0 /\ valid_date (wdate w') /\ part_weeks 0 n (wdate w') (wdate w))
    (fun st => - fst (fst (fst st))) (SolarWeek_next_step 0 false) (Z.abs (- n) + 1)
    (- n, mkSolar (wy w) (wm w) (wd w) 0 0 0, mkSolarWeek (wy w) (wm w) (wd w) 0, wm w)) as (r & E & w' & -> & Q).
  - intros [[[k s] wk] m] (s0 & _ & H1 & _). cbn [fst]. lia.
  - intros [[[k s] wk] m] I. pose proof (bwd_step (wdate w) e n _ V Ve ltac:(lia) ltac:(lia) J Je G I) as H1. cbv beta iota in H1.
    destruct (SolarWeek_next_step 0 false (k, s, wk, m)) as [st'|r].
    + destruct H1 as [H1 H2]. split; [exact H1|]. cbn [fst]. lia.
    + destruct H1 as [-> ->]. destruct I as (s0 & _ & _ & Vw & Sw & _ & P & _). exists wk.
      split; [reflexivity|]. split; [exact Sw|]. split; [exact Vw|]. now rewrite Z.add_0_r in P.
  - exists (dayno (wdate w)). change (wdate (mkSolarWeek (wy w) (wm w) (wd w) 0)) with (wdate w).
    split; [exact D1|]. split; [lia|]. split; [exact V|]. split; [reflexivity|]. split; [reflexivity|].
    rewrite Z.add_opp_diag_r. split; [constructor|]. split; [lia|]. split; [lia|].
    split; [unfold woff; lia|]. left. split; reflexivity.
  - cbn [fst]. lia.
  - rewrite E. cbn [bind]. exists w'. split; [reflexivity|exact Q].
Qed.

Theorem C91_zero : forall w, SolarWeek_next w 0 true = Ok w.
Proof. now intros [y m d s]. Qed.

Ltac pw_cut := apply cut_spec; [unfold valid_date; cbn; lia|lia|]; (left; reflexivity) || (right; vm_compute; reflexivity).
Ltac pw_none := rewrite cut_spec; [vm_compute; intros [?|?]; discriminate|unfold valid_date; cbn; lia|lia].

(** Defect: with weeks from Monday a step back from 1 June 2022 leaves out 30 and 31 May, since getWeeksOfMonth
    counts one week too few. *)
Theorem C91_backward_refuted :
  ~ (forall w n e, valid_date (wy w, wm w, wd w) -> 0 <= wstart w <= 6 -> 0 < n ->
       valid_date e -> days_later (7 * n) e (wy w, wm w, wd w) -> jd_year (wy w) -> jd_year (fst (fst e)) ->
       ~ (earlier e (1582, 11, 1) /\ earlier (1582, 10, 31) (wy w, wm w, wd w)) ->
       exists w', SolarWeek_next w (- n) true = Ok w' /\
         part_weeks (wstart w) n (wy w', wm w', wd w') (wy w, wm w, wd w)).
Proof.
  intros H. specialize (H (mkSolarWeek 2022 6 1 1) 1 (2022, 5, 25)). cbn [wy wm wd wstart fst] in H.
  assert (V1 : valid_date (2022, 6, 1)) by (unfold valid_date; cbn; lia).
  assert (V2 : valid_date (2022, 5, 25)) by (unfold valid_date; cbn; lia).
  assert (V3 : valid_date (2022, 5, 29)) by (unfold valid_date; cbn; lia).
  destruct H as (w' & E & P); try assumption; try (unfold jd_year; lia); try lia.
  - apply days_later_dayno; [exact V2|exact V1|]. vm_compute. reflexivity.
  - rewrite earlier_dayno by (try exact V2; unfold valid_date; cbn; lia). intros [A _]. vm_compute in A. discriminate.
  - assert (E2 : SolarWeek_next (mkSolarWeek 2022 6 1 1) (-(1)) true = Ok (mkSolarWeek 2022 5 29 1)) by (vm_compute; reflexivity).
    rewrite E2 in E. apply Ok_inj in E. subst w'. cbn [wy wm wd] in P.
    assert (P2 : part_weeks 1 (0 + 1 + 1) (2022, 5, 29) (2022, 6, 1)).
    { change (2022, 6, 1) with (tomorrow (2022, 5, 31)). apply pw_enter; [|change (cut 1 (2022, 6, 1)); pw_cut].
      change (2022, 5, 31) with (tomorrow (2022, 5, 30)). apply pw_inside; [|change (~ cut 1 (2022, 5, 31)); pw_none].
      change (2022, 5, 30) with (tomorrow (2022, 5, 29)). apply pw_enter; [constructor|change (cut 1 (2022, 5, 30)); pw_cut]. }
    pose proof (C91_count_unique _ _ _ _ _ V3 P P2). lia.
Qed.

(** Defect: the weeks of October 1582 are numbered by the raw day, so a step from 28 September 1582 leaves out
    Sunday 30 September, and a step back from 1 November leaves out Sunday 31 October. *)
Theorem C91_gap_refuted :
  SolarWeek_next (mkSolarWeek 1582 9 28 0) 1 true = Ok (mkSolarWeek 1582 10 1 0) /\
  part_weeks 0 2 (1582, 9, 28) (1582, 10, 1) /\
  SolarWeek_next (mkSolarWeek 1582 11 1 0) (-1) true = Ok (mkSolarWeek 1582 10 30 0) /\
  part_weeks 0 2 (1582, 10, 30) (1582, 11, 1).
Proof.
  split; [vm_compute; reflexivity|]. split; [|split; [vm_compute; reflexivity|]].
  - change 2 with (0 + 1 + 1).
    change (1582, 10, 1) with (tomorrow (1582, 9, 30)). apply pw_enter; [|change (cut 0 (1582, 10, 1)); pw_cut].
    change (1582, 9, 30) with (tomorrow (1582, 9, 29)). apply pw_enter; [|change (cut 0 (1582, 9, 30)); pw_cut].
    change (1582, 9, 29) with (tomorrow (1582, 9, 28)). apply pw_inside; [constructor|change (~ cut 0 (1582, 9, 29)); pw_none].
  - change 2 with (0 + 1 + 1).
    change (1582, 11, 1) with (tomorrow (1582, 10, 31)). apply pw_enter; [|change (cut 0 (1582, 11, 1)); pw_cut].
    change (1582, 10, 31) with (tomorrow (1582, 10, 30)). apply pw_enter; [constructor|change (cut 0 (1582, 10, 31)); pw_cut].
Qed.

(** April 2022 ends on a Saturday; Sunday 1 May 2022 is a part of its own when weeks begin on Monday. *)
Example C91_case : SolarWeek_next (mkSolarWeek 2022 4 27 1) 1 true = Ok (mkSolarWeek 2022 5 1 1) /\
  SolarWeek_next (mkSolarWeek 2022 4 27 1) 2 true = Ok (mkSolarWeek 2022 5 8 1) /\
  SolarWeek_next (mkSolarWeek 2022 6 1 0) (-1) true = Ok (mkSolarWeek 2022 5 31 0) /\
  part_weeks 1 1 (2022, 4, 29) (2022, 5, 1).
Proof.
  split; [vm_compute; reflexivity|]. split; [vm_compute; reflexivity|]. split; [vm_compute; reflexivity|].
  change 1 with (0 + 1) at 2. change (2022, 5, 1) with (tomorrow (2022, 4, 30)). apply pw_enter; [|change (cut 1 (2022, 5, 1)); pw_cut].
  change (2022, 4, 30) with (tomorrow (2022, 4, 29)). apply pw_inside; [constructor|change (~ cut 1 (2022, 4, 30)); pw_none].
Qed.
