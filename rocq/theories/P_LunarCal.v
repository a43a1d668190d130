(** C47-C51: conversions between the solar and the lunar calendar, for any family of year tables that fit together
    ([Calendar] of CalProofs.v; P_LunarYears.v shows that the code's own tables do). *)
From Coq Require Import ZArith Lia Bool ZifyBool List String Floats.
From Verif Require Import Py PyFloat PyStr CalSpec DayNo Solar SolarProofs JulianDay P_Solar P_JD LunarUtil T_LunarUtil T_Misc LunarYear Lunar LunarTime
  LunarProofs TermProofs YearProofs CalProofs Demo P_Pillars.
Import ListNotations.
Open Scope Z_scope.

(** ** C47: Solar -> Lunar -> Solar *)
Theorem C47_round_trip : forall fy lo hi s, Calendar fy lo hi -> valid_solar s -> lo < sy s < hi ->
  exists l, getLunar fy s = Ok l /\ l_solar l = s.
Proof.
  intros fy lo hi s C V H. destruct (getLunar_spec C s V H) as (l & t & a & E & _ & _ & _ & _ & _ & _ & _ & _ & _ & S). eauto.
Qed.

(** The lunar date is that of the only month listed for any year that contains the day. *)
Theorem C47_lunar_date : forall fy lo hi s l y t a, Calendar fy lo hi -> valid_solar s -> lo < sy s < hi ->
  getLunar fy s = Ok l -> lo <= y <= hi -> fy y = Ok t -> In a (lmonths t) -> mfirst a <= dayno (sdate s) < mfirst a + mcount a ->
  l_year l = my a /\ l_month l = mm a /\ l_day l = dayno (sdate s) - mfirst a + 1 /\
  l_hour l = sh s /\ l_minute l = smi s /\ l_second l = ss s.
Proof.
  intros fy lo hi s l y t a C V H E Hy Et Ia Ha.
  destruct (getLunar_spec C s V H) as (l' & t' & b & E' & Et' & Ib & Hb & A1 & A2 & A3 & A4 & A5 & A6 & S).
  rewrite E in E'. apply Ok_inj in E'. subst l'.
  destruct (month_unique C y (sy s) t t' a b (dayno (sdate s)) Hy ltac:(lia) Et Et' Ia Ib Ha Hb) as (U1 & U2 & U3 & U4).
  rewrite A1, A2, A3. repeat split; try assumption; try congruence.
Qed.

(** ** C48: Lunar -> Solar -> Lunar *)
Lemma year_of_month fy lo hi y t a n : Calendar fy lo hi -> lo < y < hi -> fy y = Ok t -> In a (lmonths t) -> mfirst a <= n < mend a ->
  jan1 lo <= n < jan1 (hi + 1).
Proof.
  intros C Hy Et Ia Hn. pose proof (wf_bounds (cal_wf C y t ltac:(lia) Et) a Ia) as B.
  assert (jan1 lo <= jan1 (y - 1)) by (destruct (Z.eq_dec lo (y - 1)) as [->|]; [lia|pose proof (jan1_mono lo (y - 1)); lia]).
  assert (jan1 (y + 2) <= jan1 (hi + 1)) by (destruct (Z.eq_dec (y + 2) (hi + 1)) as [<-|]; [lia|pose proof (jan1_mono (y + 2) (hi + 1)); lia]).
  lia.
Qed.
Theorem C48_round_trip : forall fy lo hi y m d h mi s l, Calendar fy lo hi -> lo + 1 < y < hi - 1 ->
  Lunar_new fy y m d h mi s = Ok l ->
  exists l', getLunar fy (l_solar l) = Ok l' /\
    l_year l' = y /\ l_month l' = m /\ l_day l' = d /\ l_hour l' = h /\ l_minute l' = mi /\ l_second l' = s /\
    l_solar l' = l_solar l.
Proof.
  intros fy lo hi y m d h mi s l C Hy H.
  destruct (Lunar_new_inv _ _ _ _ _ _ _ _ H) as (t & mo & noon & t2 & Et & Em & Hd & En & ES & VT & _ & CP).
  destruct (getMonth_inv _ _ _ Em) as (Ia & Ya & Ma). pose proof (cal_wf C y t ltac:(lia) Et) as W. rewrite (wf_year _ _ W) in Ya.
  destruct (month_range C y t mo ltac:(lia) Et Ia) as [M0 M1]. unfold mend in M1.
  destruct (whole_day (mfirst mo + d - 1) ltac:(lia)) as (noon' & En' & Vn & Dn). rewrite En in En'. apply Ok_inj in En'. subst noon'.
  assert (Vs : valid_solar (l_solar l)) by (rewrite ES; split; [apply Vn|exact VT]).
  assert (Ds : dayno (sdate (l_solar l)) = mfirst mo + d - 1) by (rewrite ES; exact Dn).
  pose proof (wf_bounds W mo Ia) as B. unfold mend in B.
  assert (Hs : lo < sy (l_solar l) < hi).
  { destruct Vs as [Vs _]. destruct (l_solar l) as [Y M D h0 m0 s0]. unfold sdate in *. cbn [sy sm sd] in *.
    assert (y - 1 <= Y) by (apply (year_ge _ _ _ _ Vs); lia).
    assert (Y <= y + 1) by (apply (year_le _ _ _ _ Vs); replace (y + 1 + 1) with (y + 2) by lia; lia). lia. }
  destruct (C47_round_trip _ _ _ _ C Vs Hs) as (l' & E' & S'). exists l'. split; [exact E'|].
  destruct (C47_lunar_date _ _ _ _ l' y t mo C Vs Hs E' ltac:(lia) Et Ia ltac:(lia)) as (A1 & A2 & A3 & A4 & A5 & A6).
  rewrite A1, A2, A3, A4, A5, A6, S', ES. cbn [sh smi ss]. repeat split; try assumption; try lia.
  unfold sdate in *. rewrite ES in Ds. cbn [sy sm sd] in *. lia.
Qed.

(** ** C49: the constructor accepts exactly the existing lunar dates *)
Theorem C49_accepted_iff : forall fy lo hi y m d h mi s, Calendar fy lo hi -> lo < y < hi ->
  ((exists l, Lunar_new fy y m d h mi s = Ok l) <->
   (exists t a, fy y = Ok t /\ In a (lmonths t) /\ my a = y /\ mm a = m /\ 1 <= d <= mcount a) /\ valid_time h mi s).
Proof.
  intros fy lo hi y m d h mi s C Hy. split.
  - intros [l H]. destruct (Lunar_new_inv _ _ _ _ _ _ _ _ H) as (t & mo & noon & t2 & Et & Em & Hd & _ & _ & VT & _).
    destruct (getMonth_inv _ _ _ Em) as (Ia & Ya & Ma). pose proof (cal_wf C y t ltac:(lia) Et) as W. rewrite (wf_year _ _ W) in Ya.
    split; [|exact VT]. exists t, mo. tauto.
  - intros [(t & a & Et & Ia & Ya & <- & Hd) VT].
    pose proof (year_of_month _ _ _ y t a (mfirst a + d - 1) C Hy Et Ia ltac:(unfold mend; lia)) as J.
    destruct (new_spec C y t a d h mi s ltac:(lia) Et Ia Ya Hd VT J) as (l & E & _). eauto.
Qed.

(** The same with the errors spelled out: a bad time, an unknown month or a day out of range raises. *)
Theorem C49_rejected : forall fy lo hi y m d h mi s, Calendar fy lo hi -> lo < y < hi ->
  ~ ((exists t a, fy y = Ok t /\ In a (lmonths t) /\ my a = y /\ mm a = m /\ 1 <= d <= mcount a) /\ valid_time h mi s) ->
  exists e, Lunar_new fy y m d h mi s = Raise e.
Proof.
  intros fy lo hi y m d h mi s C Hy N. destruct (Lunar_new fy y m d h mi s) as [l|e] eqn:E; [|now exists e].
  exfalso. apply N. apply (C49_accepted_iff _ _ _ _ _ _ _ _ _ C Hy). now exists l.
Qed.

(** ** C50: Lunar.next *)
Theorem C50_next : forall fy lo hi l s n, Calendar fy lo hi -> l_solar l = s -> valid_solar s ->
  exists s', valid_solar s' /\ days_later n (sdate s) (sdate s') /\ same_time s' s /\
    Lunar_next fy l n = getLunar fy s' /\
    (lo < sy s' < hi -> exists l', Lunar_next fy l n = Ok l' /\ l_solar l' = s').
Proof.
  intros fy lo hi l s n C E V. destruct (nextDay_spec s n V) as (s' & E' & V' & T & D).
  exists s'. split; [exact V'|]. split; [apply days_later_dayno; [apply V|apply V'|exact D]|]. split; [exact T|].
  assert (X : Lunar_next fy l n = getLunar fy s') by (unfold Lunar_next, next; now rewrite E, E').
  split; [exact X|]. intros H. rewrite X. apply (C47_round_trip _ _ _ _ C V' H).
Qed.
(** additive, hence invertible, as long as the date in between is in the range *)
Theorem C50_additive : forall fy lo hi l s1 n k, Calendar fy lo hi -> valid_solar (l_solar l) ->
  next (l_solar l) n = Ok s1 -> lo < sy s1 < hi ->
  exists l1, Lunar_next fy l n = Ok l1 /\ Lunar_next fy l1 k = Lunar_next fy l (n + k).
Proof.
  intros fy lo hi l s1 n k C V H R. unfold next in H.
  destruct (nextDay_spec (l_solar l) n V) as (s1' & E1 & V1 & T1 & D1). rewrite H in E1. apply Ok_inj in E1. subst s1'.
  destruct (C47_round_trip _ _ _ _ C V1 R) as (l1 & E1 & S1). exists l1.
  split; [unfold Lunar_next, next; rewrite H; exact E1|].
  unfold Lunar_next, next. rewrite S1.
  destruct (nextDay_spec s1 k V1) as (s2 & E2 & V2 & T2 & D2). destruct (nextDay_spec (l_solar l) (n + k) V) as (s3 & E3 & V3 & T3 & D3).
  rewrite E2, E3. cbn [bind]. f_equal.
  assert (D : sdate s2 = sdate s3) by (apply dayno_inj; [apply V2|apply V3|lia]).
  destruct T1 as (a1 & a2 & a3), T2 as (b1 & b2 & b3), T3 as (c1 & c2 & c3).
  apply solar_ext; congruence.
Qed.
Theorem C50_inverse : forall fy lo hi l s1 n, Calendar fy lo hi -> valid_solar (l_solar l) -> lo < sy (l_solar l) < hi ->
  next (l_solar l) n = Ok s1 -> lo < sy s1 < hi ->
  exists l1 l0, Lunar_next fy l n = Ok l1 /\ Lunar_next fy l1 (- n) = Ok l0 /\ l_solar l0 = l_solar l.
Proof.
  intros fy lo hi l s1 n C V R0 H R. destruct (C50_additive _ _ _ _ _ _ (- n) C V H R) as (l1 & E1 & E2).
  destruct (C50_next _ _ _ l (l_solar l) 0 C eq_refl V) as (s' & V' & D & T & E & X).
  assert (S : s' = l_solar l).
  { apply days_later_dayno in D; [|apply V|apply V']. assert (Q : sdate s' = sdate (l_solar l)) by (apply dayno_inj; [apply V'|apply V|lia]).
    destruct T as (t1 & t2 & t3). apply solar_ext; assumption. }
  subst s'. destruct (X R0) as (l0 & E0 & S0). exists l1, l0. split; [exact E1|]. split; [|exact S0].
  rewrite E2. now replace (n + - n) with 0 by lia.
Qed.
(** within a month the next day has the next number; after the last day comes day 1 of the month that begins then *)
Theorem C50_day_by_day : forall fy lo hi y t a d h mi s l, Calendar fy lo hi -> lo + 1 < y < hi - 2 ->
  fy y = Ok t -> In a (lmonths t) -> my a = y -> Lunar_new fy y (mm a) d h mi s = Ok l ->
  exists l', Lunar_next fy l 1 = Ok l' /\
    (d < mcount a -> l_year l' = y /\ l_month l' = mm a /\ l_day l' = d + 1) /\
    (d = mcount a -> l_day l' = 1 /\ exists y2 t2 b, lo <= y2 <= hi /\ fy y2 = Ok t2 /\ In b (lmonths t2) /\
       mfirst b = mfirst a + mcount a /\ l_year l' = my b /\ l_month l' = mm b).
Proof.
  intros fy lo hi y t a d h mi s l C Hy Et Ia Ya H.
  assert (A : (exists l, Lunar_new fy y (mm a) d h mi s = Ok l)) by eauto.
  apply (C49_accepted_iff fy lo hi y (mm a) d h mi s C ltac:(lia)) in A. destruct A as [(t0 & a0 & Et0 & Ia0 & Ya0 & Ma0 & Hd) VT].
  rewrite Et in Et0. apply Ok_inj in Et0. subst t0.
  destruct (agree_any _ _ _ y y t t a a0 C ltac:(lia) ltac:(lia) ltac:(lia) Et Et Ia Ia0) as [_ S].
  destruct (S ltac:(congruence) ltac:(congruence)) as (_ & _ & _ & Sc). rewrite <- Sc in Hd. clear S Sc Ia0 Ya0 Ma0 a0.
  pose proof (wf_bounds (cal_wf C y t ltac:(lia) Et) a Ia) as B.
  pose proof (year_of_month _ _ _ y t a (mfirst a + d - 1) C ltac:(lia) Et Ia ltac:(unfold mend; lia)) as J.
  destruct (new_spec C y t a d h mi s ltac:(lia) Et Ia Ya Hd VT J) as (l0 & E0 & V0 & D0 & _). rewrite H in E0. apply Ok_inj in E0. subst l0.
  destruct (C50_next _ _ _ l (l_solar l) 1 C eq_refl V0) as (s' & V' & D & T & E & X).
  apply days_later_dayno in D; [|apply V0|apply V'].
  assert (Hs : y - 1 <= sy s' <= y + 2).
  { destruct V' as [V' _]. destruct s' as [Y M D' h0 m0 s0]. unfold sdate in D at 1, V'. cbn [sy sm sd] in *. unfold mend in B. split.
    - apply (year_ge _ _ _ _ V'). lia.
    - apply (year_le _ _ _ _ V'). pose proof (jan1_mono (y + 2) (y + 2 + 1)). lia. }
  assert (Hs' : lo < sy s' < hi) by lia.
  destruct (X Hs') as (l' & El' & Sl'). exists l'. split; [exact El'|].
  rewrite E in El'. split.
  - intros L. destruct (C47_lunar_date _ _ _ _ l' y t a C V' Hs' El' ltac:(lia) Et Ia ltac:(lia)) as (A1 & A2 & A3 & _).
    rewrite A1, A2, A3. repeat split; lia.
  - intros ->. destruct (getLunar_spec C s' V' Hs') as (l2 & t2 & b & E2 & Et2 & Ib & Hb & A1 & A2 & A3 & _).
    rewrite El' in E2. apply Ok_inj in E2. subst l2.
    assert (F : mfirst b = mfirst a + mcount a).
    { destruct (Z.eq_dec (mfirst b) (dayno (sdate s'))) as [->|Nb]; [lia|]. exfalso.
      destruct (month_unique C y (sy s') t t2 a b (dayno (sdate (l_solar l))) ltac:(lia) ltac:(lia) Et Et2 Ia Ib) as (_ & _ & U3 & U4); unfold mend in *; lia. }
    split; [lia|]. exists (sy s'), t2, b. repeat split; try assumption; lia.
Qed.

(** ** C51: LunarMonth.next *)
(** [listed]: a month of some table of the range.  [walk n a b]: [b] is the month [n] places after [a]. *)
Definition listed (fy : Z -> res LYear) (lo hi : Z) (c : LMonth) : Prop :=
  exists y t, lo <= y <= hi /\ fy y = Ok t /\ In c (lmonths t).
Inductive walk (fy : Z -> res LYear) (lo hi : Z) : nat -> LMonth -> LMonth -> Prop :=
| walk_0 a b : listed fy lo hi b -> same_month a b -> walk fy lo hi O a b
| walk_S n a b c : walk fy lo hi n a b -> listed fy lo hi c -> mfirst c = mfirst b + mcount b -> walk fy lo hi (S n) a c.

Section Walk.
Context {fy : Z -> res LYear} {lo hi : Z} (C : Calendar fy lo hi).
Notation walk := (walk fy lo hi).
Notation listed := (listed fy lo hi).

Lemma walk_listed n a b : walk n a b -> listed b.
Proof. intros []; assumption. Qed.
Lemma walk_same n a b c : walk n a b -> same_month b c -> listed c -> walk n a c.
Proof.
  intros W S L. destruct W as [a b Lb S0|n a b' b W Lb F].
  - apply walk_0; [exact L|exact (same_trans _ _ _ S0 S)].
  - apply (walk_S _ _ _ n a b'); [exact W|exact L|]. destruct S as (_ & _ & S & _). congruence.
Qed.
Lemma walk_trans n a b : walk n a b -> forall k c, walk k b c -> walk (k + n) a c.
Proof.
  intros W k c Wk. revert W. induction Wk as [b c L S|k b d c Wk IH L F]; intros W; cbn [Nat.add].
  - exact (walk_same _ _ _ _ W S L).
  - apply (walk_S _ _ _ (k + n) a d); [apply IH; exact W|exact L|exact F].
Qed.
Lemma listed_count c : listed c -> 1 <= mcount c <= 30.
Proof. intros (y & t & Hy & Et & I). exact (proj1 (wf_month _ _ (cal_wf C y t Hy Et) c I)). Qed.
Lemma walk_fun n a b c : walk n a b -> walk n a c -> same_month b c.
Proof.
  intros W. revert c. induction W as [a b L S|n a b' b W IH L F]; intros c Wc.
  - inversion Wc as [a' c' Lc Sc|]; subst. exact (same_trans _ _ _ (same_sym _ _ S) Sc).
  - inversion Wc as [|n' a' c' c'' Wc' Lc Fc]; subst. destruct (IH _ Wc') as (_ & _ & S3 & S4).
    pose proof (listed_count b L). pose proof (listed_count c Lc).
    destruct L as (y & t & Hy & Et & I), Lc as (y' & t' & Hy' & Et' & I').
    apply (month_unique C y y' t t' b c (mfirst b) Hy Hy' Et Et' I I'); unfold mend; lia.
Qed.
Lemma walk_pre n a b : walk n a b -> forall c, same_month c a -> walk n c b.
Proof.
  intros W. induction W as [a b L S|n a b' b W IH L F]; intros c S'.
  - apply walk_0; [exact L|exact (same_trans _ _ _ S' S)].
  - apply (walk_S _ _ _ n c b'); [apply IH; exact S'|exact L|exact F].
Qed.
Lemma walk_split n k a c : walk (k + n) a c -> exists b, walk n a b /\ walk k b c.
Proof.
  revert c. induction k as [|k IH]; intros c W; cbn [Nat.add] in W.
  - exists c. split; [exact W|]. apply walk_0; [exact (walk_listed _ _ _ W)|apply same_refl].
  - inversion W as [|n' a' b' c' W' L F]; subst. destruct (IH _ W') as (b & W1 & W2). exists b. split; [exact W1|].
    exact (walk_S _ _ _ k b b' c W2 L F).
Qed.
Lemma walk_inj n a b c : listed a -> listed b -> walk n a c -> walk n b c -> same_month a b.
Proof.
  intros La Lb. revert c. induction n as [|n IH]; intros c Wa Wb.
  - inversion Wa as [a' c' Lc Sa|]; subst. inversion Wb as [b' c' Lc' Sb|]; subst. exact (same_trans _ _ _ Sa (same_sym _ _ Sb)).
  - inversion Wa as [|n1 a' x c' W1 L1 F1]; subst. inversion Wb as [|n2 b' z c' W2 L2 F2]; subst.
    assert (S : same_month z x).
    { pose proof (walk_listed _ _ _ W1) as Lx. pose proof (walk_listed _ _ _ W2) as Lz.
      pose proof (listed_count x Lx). pose proof (listed_count z Lz).
      destruct Lx as (y & t & Hy & Et & I), Lz as (y' & t' & Hy' & Et' & I').
      apply (month_unique C y' y t' t z x (mfirst c - 1) Hy' Hy Et' Et I' I); unfold mend; lia. }
    apply (IH x); [exact W1|]. exact (walk_same _ _ _ _ W2 S (walk_listed _ _ _ W1)).
Qed.
Lemma walk_bound n a b : walk n a b -> listed a -> mfirst a <= mfirst b <= mfirst a + 30 * Z.of_nat n.
Proof.
  intros W La. induction W as [a b L (_ & _ & S & _)|n a b' b W IH L F]; [lia|].
  specialize (IH La). pose proof (listed_count b' (walk_listed _ _ _ W)). lia.
Qed.
Lemma walk_table y t i : lo <= y <= hi -> fy y = Ok t -> 0 <= i < 15 -> forall n, i + Z.of_nat n < 15 ->
  walk n (nthm (lmonths t) i) (nthm (lmonths t) (i + Z.of_nat n)).
Proof.
  intros Hy Et Hi. pose proof (cal_wf C y t Hy Et) as W.
  assert (L : forall j, 0 <= j < 15 -> listed (nthm (lmonths t) j)) by (intros j Hj; exists y, t; repeat split; try lia; [exact Et|apply (wf_in W); lia]).
  induction n as [|n IH]; intros Hn; [rewrite Z.add_0_r; apply walk_0; [apply L; lia|apply same_refl]|].
  apply (walk_S _ _ _ n _ (nthm (lmonths t) (i + Z.of_nat n))); [apply IH; lia|apply L; lia|].
  replace (i + Z.of_nat (S n)) with (i + Z.of_nat n + 1) by lia. apply (wf_contig _ _ W). lia.
Qed.

Lemma month_pos_here ms iy im p : forall k idx, 0 <= p < Z.of_nat (List.length ms) ->
  my (nthm ms p) = iy -> mm (nthm ms p) = im ->
  (forall q, 0 <= q < p -> ~ (my (nthm ms q) = iy /\ mm (nthm ms q) = im)) ->
  month_pos ms iy im k idx = k + p.
Proof.
  revert p. induction ms as [|a ms IH]; intros p k idx Hp Y M N; [cbn in Hp; lia|].
  cbn [month_pos]. destruct (Z.eq_dec p 0) as [->|P].
  - unfold nthm in Y, M. cbn [Z.to_nat nth] in Y, M. rewrite Y, M, !Z.eqb_refl. cbn [andb]. lia.
  - assert (Sh : forall i, 0 < i -> nthm (a :: ms) i = nthm ms (i - 1)).
    { intros i Hi. unfold nthm. replace (Z.to_nat i) with (Datatypes.S (Z.to_nat (i - 1))) by lia. reflexivity. }
    destruct ((my a =? iy) && (mm a =? im)) eqn:E.
    + exfalso. apply (N 0 ltac:(lia)). unfold nthm. cbn [Z.to_nat nth]. lia.
    + rewrite (IH (p - 1)); [lia|cbn [List.length] in Hp; lia| | |].
      * rewrite <- Sh by lia. exact Y.
      * rewrite <- Sh by lia. exact M.
      * intros q Hq X. apply (N (q + 1) ltac:(lia)). rewrite Sh by lia. now replace (q + 1 - 1) with q by lia.
Qed.
Lemma month_pos_table y t p idx : lo <= y <= hi -> fy y = Ok t -> 0 <= p < 15 ->
  month_pos (lmonths t) (my (nthm (lmonths t) p)) (mm (nthm (lmonths t) p)) 0 idx = p.
Proof.
  intros Hy Et Hp. pose proof (cal_wf C y t Hy Et) as W.
  rewrite (month_pos_here _ _ _ p); [lia|rewrite (wf_length _ _ W); lia|reflexivity|reflexivity|].
  intros q Hq [X1 X2]. destruct (agree_any _ _ _ y y t t _ _ C Hy Hy ltac:(lia) Et Et (wf_in W q ltac:(lia)) (wf_in W p ltac:(lia))) as [_ S].
  destruct (S X1 X2) as (_ & _ & F & _). pose proof (proj2 (wf_lt W q p ltac:(lia) ltac:(lia))). lia.
Qed.

(** the last month of a table in the next one, and the first in the one before *)
Lemma last_in_next y t t' : lo <= y -> y + 1 <= hi -> fy y = Ok t -> fy (y + 1) = Ok t' ->
  exists p, 0 <= p < 14 /\ same_month (nthm (lmonths t) 14) (nthm (lmonths t') p).
Proof.
  intros Hy Hy' Et Et'. pose proof (cal_wf C y t ltac:(lia) Et) as W. pose proof (cal_wf C (y + 1) t' ltac:(lia) Et') as W'.
  pose proof (wf_last _ _ W) as L. pose proof (wf_first _ _ W') as F'. pose proof (wf_last _ _ W') as L'.
  replace (y + 1 + 1) with (y + 2) in L' by lia.
  pose proof (proj1 (wf_month _ _ W _ (wf_in W 14 ltac:(lia)))) as Q.
  destruct (wf_cover W' (mend (nthm (lmonths t) 14) - 1)) as (p & Hp & Cp); [lia|].
  assert (S : same_month (nthm (lmonths t) 14) (nthm (lmonths t') p)).
  { apply (month_unique C y (y + 1) t t' _ _ (mend (nthm (lmonths t) 14) - 1) ltac:(lia) ltac:(lia) Et Et' (wf_in W 14 ltac:(lia)) (wf_in W' p ltac:(lia)));
      [unfold mend; lia|exact Cp]. }
  exists p. split; [|exact S]. destruct S as (_ & _ & S3 & S4). destruct (Z.eq_dec p 14) as [->|]; [|lia].
  exfalso. unfold mend in *. lia.
Qed.
Lemma first_in_prev y t t' : lo <= y - 1 -> y <= hi -> fy y = Ok t -> fy (y - 1) = Ok t' ->
  exists p, 0 < p < 15 /\ same_month (nthm (lmonths t) 0) (nthm (lmonths t') p).
Proof.
  intros Hy Hy' Et Et'. pose proof (cal_wf C y t ltac:(lia) Et) as W. pose proof (cal_wf C (y - 1) t' ltac:(lia) Et') as W'.
  pose proof (wf_first _ _ W) as F. pose proof (wf_first _ _ W') as F'. pose proof (wf_last _ _ W') as L'.
  replace (y - 1 + 1) with y in L' by lia.
  pose proof (proj1 (wf_month _ _ W _ (wf_in W 0 ltac:(lia)))) as Q.
  destruct (wf_cover W' (mfirst (nthm (lmonths t) 0))) as (p & Hp & Cp); [lia|].
  assert (S : same_month (nthm (lmonths t) 0) (nthm (lmonths t') p)).
  { apply (month_unique C y (y - 1) t t' _ _ (mfirst (nthm (lmonths t) 0)) ltac:(lia) ltac:(lia) Et Et' (wf_in W 0 ltac:(lia)) (wf_in W' p ltac:(lia)));
      [unfold mend; lia|exact Cp]. }
  exists p. split; [|exact S]. destruct S as (_ & _ & S3 & S4). destruct (Z.eq_dec p 0) as [->|]; [|lia].
  exfalso. lia.
Qed.

Let state := (list LMonth * Z * Z * Z * Z * Z)%type.
Definition at_month (m : LMonth) (n : Z) (st : state) (ny p : Z) (t : LYear) : Prop :=
  let '(months, ny', iy, im, index, rest) := st in
  ny' = ny /\ lo <= ny <= hi /\ fy ny = Ok t /\ months = lmonths t /\ 0 <= p < 15 /\
  my (nthm (lmonths t) p) = iy /\ mm (nthm (lmonths t) p) = im /\ 0 <= rest <= n.

Lemma fwd_spec m n : listed m -> lo <= my m <= hi -> 0 < n -> mfirst m + 30 * (n + 1) <= jan1 (hi + 1) ->
  forall t, fy (my m) = Ok t -> exists r, loop (Z.abs n + 2) (month_fwd fy) (lmonths t, my m, my m, mm m, 0, Z.abs n) = Ok r /\
    exists b, r = Ok b /\ walk (Z.to_nat n) m b.
Proof.
  intros Lm Hm Hn B t Et.
  destruct (loop_rule (fun st : state => exists ny p t, at_month m n st ny p t /\
        walk (Z.to_nat (n - snd st)) m (nthm (lmonths t) p) /\ (p < 14 \/ snd st = n))
      (fun r => exists b, r = Ok b /\ walk (Z.to_nat n) m b)
      (fun st : state => let '(months, ny', iy, im, index, rest) := st in
         if month_pos months iy im 0 index =? 14 then rest + 1 else rest)
      (month_fwd fy) (Z.abs n + 2) (lmonths t, my m, my m, mm m, 0, Z.abs n)) as (r & E & Q).
  - intros [[[[[months ny'] iy] im] index] rest] (ny & p & t0 & A & _). destruct A as (_ & _ & _ & _ & _ & _ & _ & R). destruct (_ =? _); lia.
  - intros [[[[[months ny'] iy] im] index] rest] (ny & p & t0 & A & Wk & Hp).
    destruct A as (-> & Hy & Et0 & -> & Hp0 & <- & <- & R). cbn [snd] in *.
    pose proof (cal_wf C ny t0 Hy Et0) as W.
    unfold month_fwd. rewrite (month_pos_table ny t0 p index Hy Et0 Hp0). rewrite (wf_length _ _ W).
    change (Z.of_nat 15) with 15. replace (15 - p - 1) with (14 - p) by lia.
    destruct (Z.ltb_spec rest (14 - p)) as [X|X].
    + rewrite (py_index_nth _ _ month0) by (rewrite (wf_length _ _ W); lia). eexists. split; [reflexivity|].
      replace (Z.to_nat n) with (Z.to_nat rest + Z.to_nat (n - rest))%nat by lia.
      apply (walk_trans _ _ _ Wk). pose proof (walk_table ny t0 p Hy Et0 Hp0 (Z.to_nat rest) ltac:(lia)) as V.
      replace (p + Z.of_nat (Z.to_nat rest)) with (p + rest) in V by lia. exact V.
    + rewrite (py_index_nth _ _ month0) by (rewrite (wf_length _ _ W); lia). change (15 - 1) with 14.
      fold (nthm (lmonths t0) 14).
      assert (W14 : walk (Z.to_nat (n - (rest - (14 - p)))) m (nthm (lmonths t0) 14)).
      { replace (Z.to_nat (n - (rest - (14 - p)))) with (Z.to_nat (14 - p) + Z.to_nat (n - rest))%nat by lia.
        apply (walk_trans _ _ _ Wk). pose proof (walk_table ny t0 p Hy Et0 Hp0 (Z.to_nat (14 - p)) ltac:(lia)) as V.
        replace (p + Z.of_nat (Z.to_nat (14 - p))) with 14 in V by lia. exact V. }
      pose proof (walk_bound _ _ _ W14 Lm) as BW. pose proof (wf_last _ _ W) as L14.
      pose proof (proj1 (wf_month _ _ W _ (wf_in W 14 ltac:(lia)))) as C14. unfold mend in L14.
      assert (Hh : ny < hi).
      { destruct (Z.lt_ge_cases ny hi) as [|G]; [assumption|]. assert (ny = hi) by lia. subst ny. lia. }
      destruct (cal_ok _ _ _ C (ny + 1) ltac:(lia)) as (t1 & _ & Et1 & _). rewrite Et1.
      destruct (last_in_next ny t0 t1 ltac:(lia) ltac:(lia) Et0 Et1) as (p1 & Hp1 & S1).
      pose proof (cal_wf C (ny + 1) t1 ltac:(lia) Et1) as W1.
      split.
      * exists (ny + 1), p1, t1. cbn [snd]. split; [|split; [|lia]].
        -- repeat split; try lia; try assumption; destruct S1 as (Q1 & Q2 & _); congruence.
        -- apply (walk_same _ _ _ _ W14 S1). exists (ny + 1), t1. repeat split; try lia; [exact Et1|apply (wf_in W1); lia].
      * destruct S1 as (Q1 & Q2 & _). rewrite Q1, Q2.
        rewrite (month_pos_table (ny + 1) t1 p1 _ ltac:(lia) Et1 ltac:(lia)). replace (p1 =? 14) with false by lia.
        destruct (Z.eqb_spec p 14); lia.
  - pose proof (cal_wf C (my m) t Hm Et) as W. destruct Lm as (y0 & t0 & Hy0 & Et0 & I0).
    destruct (cal_own _ _ _ C y0 t0 m Hy0 Et0 I0 Hm) as (t' & b & Et' & Ib & Sb).
    rewrite Et in Et'. apply Ok_inj in Et'. subst t'. destruct (in_nthm _ _ Ib) as (p & Hp & <-). rewrite (wf_length _ _ W) in Hp.
    exists (my m), p, t. cbn [snd]. destruct Sb as (Sb1 & Sb2 & Sb3 & Sb4). split; [|split].
    + repeat split; try lia; try assumption.
    + replace (Z.to_nat (n - Z.abs n)) with O by lia. apply walk_0; [|repeat split; congruence].
      exists (my m), t. repeat split; try lia; [exact Et|apply (wf_in W); lia].
    + right. lia.
  - destruct (_ =? _); lia.
  - exists r. split; [exact E|exact Q].
Qed.

Lemma bwd_spec m n : listed m -> lo <= my m <= hi -> 0 < n -> jan1 lo <= mfirst m - 30 * n ->
  forall t, fy (my m) = Ok t -> exists r, loop (Z.abs (- n) + 2) (month_bwd fy) (lmonths t, my m, my m, mm m, 0, Z.abs (- n)) = Ok r /\
    exists b, r = Ok b /\ listed b /\ walk (Z.to_nat n) b m.
Proof.
  intros Lm Hm Hn B t Et.
  destruct (loop_rule (fun st : state => exists ny p t, at_month m n st ny p t /\
        walk (Z.to_nat (n - snd st)) (nthm (lmonths t) p) m /\ (0 < p \/ snd st = n))
      (fun r => exists b, r = Ok b /\ listed b /\ walk (Z.to_nat n) b m)
      (fun st : state => let '(months, ny', iy, im, index, rest) := st in
         if month_pos months iy im 0 index =? 0 then rest + 1 else rest)
      (month_bwd fy) (Z.abs (- n) + 2) (lmonths t, my m, my m, mm m, 0, Z.abs (- n))) as (r & E & Q).
  - intros [[[[[months ny'] iy] im] index] rest] (ny & p & t0 & A & _). destruct A as (_ & _ & _ & _ & _ & _ & _ & R). destruct (_ =? _); lia.
  - intros [[[[[months ny'] iy] im] index] rest] (ny & p & t0 & A & Wk & Hp).
    destruct A as (-> & Hy & Et0 & -> & Hp0 & <- & <- & R). cbn [snd] in *.
    pose proof (cal_wf C ny t0 Hy Et0) as W.
    unfold month_bwd. rewrite (month_pos_table ny t0 p index Hy Et0 Hp0).
    destruct (Z.leb_spec rest p) as [X|X].
    + rewrite (py_index_nth _ _ month0) by (rewrite (wf_length _ _ W); lia). eexists. split; [reflexivity|].
      split; [exists ny, t0; repeat split; try lia; [exact Et0|apply (wf_in W); lia]|].
      replace (Z.to_nat n) with (Z.to_nat (n - rest) + Z.to_nat rest)%nat by lia.
      apply (walk_trans _ _ (nthm (lmonths t0) p)); [|exact Wk].
      pose proof (walk_table ny t0 (p - rest) Hy Et0 ltac:(lia) (Z.to_nat rest) ltac:(lia)) as V.
      replace (p - rest + Z.of_nat (Z.to_nat rest)) with p in V by lia. exact V.
    + rewrite (py_index_nth _ _ month0) by (rewrite (wf_length _ _ W); lia).
      fold (nthm (lmonths t0) 0).
      assert (W0 : walk (Z.to_nat (n - (rest - p))) (nthm (lmonths t0) 0) m).
      { replace (Z.to_nat (n - (rest - p))) with (Z.to_nat (n - rest) + Z.to_nat p)%nat by lia.
        apply (walk_trans _ _ (nthm (lmonths t0) p)); [|exact Wk].
        pose proof (walk_table ny t0 0 Hy Et0 ltac:(lia) (Z.to_nat p) ltac:(lia)) as V.
        replace (0 + Z.of_nat (Z.to_nat p)) with p in V by lia. exact V. }
      assert (L0 : listed (nthm (lmonths t0) 0)) by (exists ny, t0; repeat split; try lia; [exact Et0|apply (wf_in W); lia]).
      pose proof (walk_bound _ _ _ W0 L0) as BW. pose proof (wf_first _ _ W) as F0.
      assert (Hh : lo < ny).
      { destruct (Z.lt_ge_cases lo ny) as [|G]; [assumption|]. assert (ny = lo) by lia. subst ny. lia. }
      destruct (cal_ok _ _ _ C (ny - 1) ltac:(lia)) as (t1 & _ & Et1 & _). rewrite Et1.
      destruct (first_in_prev ny t0 t1 ltac:(lia) ltac:(lia) Et0 Et1) as (p1 & Hp1 & S1).
      pose proof (cal_wf C (ny - 1) t1 ltac:(lia) Et1) as W1.
      split.
      * exists (ny - 1), p1, t1. cbn [snd]. split; [|split; [|lia]].
        -- repeat split; try lia; try assumption; destruct S1 as (Q1 & Q2 & _); congruence.
        -- replace (Z.to_nat (n - (rest - p))) with (Z.to_nat (n - (rest - p)) + 0)%nat by lia.
           apply (walk_trans _ _ (nthm (lmonths t0) 0)); [|exact W0]. apply walk_0; [exact L0|apply same_sym, S1].
      * destruct S1 as (Q1 & Q2 & _). rewrite Q1, Q2.
        rewrite (month_pos_table (ny - 1) t1 p1 _ ltac:(lia) Et1 ltac:(lia)). replace (p1 =? 0) with false by lia.
        destruct (Z.eqb_spec p 0); lia.
  - pose proof (cal_wf C (my m) t Hm Et) as W. pose proof Lm as (y0 & t0 & Hy0 & Et0 & I0).
    destruct (cal_own _ _ _ C y0 t0 m Hy0 Et0 I0 Hm) as (t' & b & Et' & Ib & Sb).
    rewrite Et in Et'. apply Ok_inj in Et'. subst t'. destruct (in_nthm _ _ Ib) as (p & Hp & <-). rewrite (wf_length _ _ W) in Hp.
    exists (my m), p, t. cbn [snd]. destruct Sb as (Sb1 & Sb2 & Sb3 & Sb4). split; [|split].
    + repeat split; try lia; try assumption.
    + replace (Z.to_nat (n - Z.abs (- n))) with O by lia. apply walk_0; [exact Lm|repeat split; congruence].
    + right. lia.
  - destruct (_ =? _); lia.
  - exists r. split; [exact E|exact Q].
Qed.
End Walk.

(** [steps n a b]: [b] is [n] months after [a], before for negative [n]. *)
Definition steps (fy : Z -> res LYear) (lo hi n : Z) (a b : LMonth) : Prop :=
  if 0 <=? n then walk fy lo hi (Z.to_nat n) a b else walk fy lo hi (Z.to_nat (- n)) b a.

(** [next(n)] is the [n]-th month after (before) in the sequence of all months, leap months included. *)
Theorem C51_next : forall fy lo hi m n, Calendar fy lo hi -> listed fy lo hi m -> lo <= my m <= hi ->
  jan1 lo <= mfirst m + 30 * n - 30 -> mfirst m + 30 * (n + 1) <= jan1 (hi + 1) ->
  exists b, LunarMonth_next fy m n = Ok (Some b) /\ listed fy lo hi b /\ steps fy lo hi n m b.
Proof.
  intros fy lo hi m n C L Hm B1 B2. unfold steps. unfold LunarMonth_next.
  destruct (cal_ok _ _ _ C (my m) Hm) as (t & _ & Et & _).
  destruct (Z.eqb_spec 0 n) as [<-|N].
  - unfold LunarMonth_fromYm. rewrite Et. cbn [bind].
    pose proof L as (y0 & t0 & Hy0 & Et0 & I0). destruct (cal_own _ _ _ C y0 t0 m Hy0 Et0 I0 Hm) as (t' & b & Et' & Ib & Sb).
    rewrite Et in Et'. apply Ok_inj in Et'. subst t'. pose proof Sb as (Sb1 & Sb2 & _).
    destruct (getMonth_same C (my m) t b Hm Et Ib (eq_sym Sb1)) as (c & Ec & Ic & Sc). rewrite Sb2, Ec. exists c. split; [reflexivity|].
    assert (Lc : listed fy lo hi c) by (exists (my m), t; auto). split; [exact Lc|].
    cbn [Z.leb Z.compare Z.to_nat]. apply walk_0; [exact Lc|exact (same_trans _ _ _ Sb Sc)].
  - rewrite Et. cbn [bind]. destruct (Z.ltb_spec 0 n) as [P|P].
    + destruct (fwd_spec C m n L Hm P B2 t Et) as (r & -> & b & -> & W). cbn [bind]. exists b. split; [reflexivity|]. split; [exact (walk_listed _ _ _ W)|].
      replace (0 <=? n) with true by lia. exact W.
    + destruct (bwd_spec C m (- n) L Hm ltac:(lia) ltac:(lia) t Et) as (r & E & b & Er & Lb & W). rewrite Z.opp_involutive in E.
      rewrite E. cbn [bind]. rewrite Er. cbn [bind]. exists b. split; [reflexivity|]. split; [exact Lb|].
      replace (0 <=? n) with false by lia. exact W.
Qed.
(** There is one such month, and moving twice is moving by the sum: [next(i).next(j) = next(i+j)] for all signs. *)
Theorem C51_unique : forall fy lo hi n a b c, Calendar fy lo hi -> listed fy lo hi b -> listed fy lo hi c ->
  steps fy lo hi n a b -> steps fy lo hi n a c -> same_month b c.
Proof.
  intros fy lo hi n a b c C Lb Lc. unfold steps. destruct (0 <=? n); [apply (walk_fun C)|exact (walk_inj C _ b c a Lb Lc)].
Qed.
Theorem C51_additive : forall fy lo hi i j a b c d, Calendar fy lo hi ->
  listed fy lo hi a -> listed fy lo hi b -> listed fy lo hi c -> listed fy lo hi d ->
  steps fy lo hi i a b -> steps fy lo hi j b c -> steps fy lo hi (i + j) a d -> same_month c d.
Proof.
  intros fy lo hi i j a b c d C La Lb Lc Ld. unfold steps.
  destruct (Z.leb_spec 0 i) as [I|I], (Z.leb_spec 0 j) as [J|J], (Z.leb_spec 0 (i + j)) as [K|K]; try lia; intros W1 W2 W3.
  - replace (Z.to_nat (i + j)) with (Z.to_nat j + Z.to_nat i)%nat in W3 by lia.
    exact (walk_fun C _ _ _ _ (walk_trans _ _ _ W1 _ _ W2) W3).
  - replace (Z.to_nat i) with (Z.to_nat (- j) + Z.to_nat (i + j))%nat in W1 by lia.
    destruct (walk_split _ _ _ _ W1) as (x & X1 & X2).
    pose proof (walk_fun C _ _ _ _ X1 W3) as S.
    exact (same_trans _ _ _ (walk_inj C _ c x b Lc (walk_listed _ _ _ X1) W2 X2) S).
  - pose proof (walk_trans _ _ _ W3 _ _ W1) as W. replace (Z.to_nat i + Z.to_nat (- (i + j)))%nat with (Z.to_nat (- j)) in W by lia.
    exact (walk_inj C _ c d b Lc Ld W2 W).
  - pose proof (walk_trans _ _ _ W1 _ _ W3) as W. replace (Z.to_nat (i + j) + Z.to_nat (- i))%nat with (Z.to_nat j) in W by lia.
    exact (walk_fun C _ _ _ _ W2 W).
  - replace (Z.to_nat (- i)) with (Z.to_nat (- (i + j)) + Z.to_nat j)%nat in W1 by lia.
    destruct (walk_split _ _ _ _ W1) as (x & X1 & X2).
    exact (same_trans _ _ _ (walk_fun C _ _ _ _ W2 X1) (walk_inj C _ x d a (walk_listed _ _ _ X1) Ld X2 W3)).
  - pose proof (walk_trans _ _ _ W2 _ _ W1) as W. replace (Z.to_nat (- i) + Z.to_nat (- j))%nat with (Z.to_nat (- (i + j))) in W by lia.
    exact (walk_inj C _ c d a Lc Ld W W3).
Qed.
