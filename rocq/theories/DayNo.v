(** Day numbers: a closed form counting [tomorrow] steps, and its properties.
    Only used inside proofs. *)
From Coq Require Import ZArith Lia Bool ZifyBool.
From Verif Require Import Py CalSpec.
Open Scope Z_scope.

(** Day number of the day before 1 January of year [y]. *)
Definition ybase (y : Z) : Z :=
  1721057 + 365 * y + (y + 3) / 4 +
  (if y <=? 1582 then 0 else 2 - (y + 99) / 100 + (y + 399) / 400).

Definition ylen (y : Z) : Z := if y =? 1582 then 355 else if leap y then 366 else 365.

(** Days of the year before month [m]. *)
Definition cum (y m : Z) : Z :=
  (match m with
   | 1 => 0 | 2 => 31 | 3 => 59 | 4 => 90 | 5 => 120 | 6 => 151 | 7 => 181
   | 8 => 212 | 9 => 243 | 10 => 273 | 11 => 304 | 12 => 334 | _ => 365 end)
  + (if leap y && (2 <? m) then 1 else 0)
  - (if (y =? 1582) && (10 <? m) then 10 else 0).

(** Ordinal day in the month, without the gap. *)
Definition dord (y m d : Z) : Z :=
  if (y =? 1582) && (m =? 10) && (4 <? d) then d - 10 else d.

Definition mlen (y m : Z) : Z := if (y =? 1582) && (m =? 10) then 21 else last_day y m.

Definition dayno (a : date) : Z :=
  let '(y, m, d) := a in ybase y + cum y m + dord y m d.

Lemma month_cases (m : Z) : 1 <= m <= 12 ->
  m = 1 \/ m = 2 \/ m = 3 \/ m = 4 \/ m = 5 \/ m = 6 \/ m = 7 \/ m = 8 \/ m = 9 \/ m = 10 \/ m = 11 \/ m = 12.
Proof. lia. Qed.

Ltac dmonth m H :=
  let K := fresh in
  pose proof (month_cases m H) as K;
  repeat (destruct K as [K|K]; [subst m|]); [..|subst m].

Lemma ybase_succ y : ybase (y + 1) = ybase y + ylen y.
Proof. unfold ybase, ylen, leap. repeat (match goal with |- context [if ?b then _ else _] => destruct b eqn:? end); lia. Qed.

Lemma ylen_bounds y : 355 <= ylen y <= 366.
Proof. unfold ylen. destruct (y =? 1582), (leap y); lia. Qed.

Lemma leap_1582 : leap 1582 = false. Proof. reflexivity. Qed.

Lemma cum_succ y m : 1 <= m <= 12 -> cum y (m + 1) = cum y m + mlen y m.
Proof.
  intros H. unfold cum, mlen. dmonth m H; cbn [Z.add Pos.add Pos.succ last_day];
    destruct (leap y) eqn:L; destruct (y =? 1582) eqn:E; cbn; try reflexivity;
    apply Z.eqb_eq in E; subst y; discriminate L.
Qed.

Lemma cum_1 y : cum y 1 = 0.
Proof. unfold cum. cbn. rewrite !andb_false_r. reflexivity. Qed.

Lemma cum_13 y : cum y 13 = ylen y.
Proof.
  unfold cum, ylen. cbn. rewrite !andb_true_r.
  destruct (leap y) eqn:L; destruct (y =? 1582) eqn:E; try reflexivity.
  apply Z.eqb_eq in E; subst y; discriminate L.
Qed.

Lemma last_day_bounds y m : 28 <= last_day y m <= 31.
Proof.
  unfold last_day. destruct m as [|p|p]; try lia.
  do 4 (destruct p; try lia; try (destruct (leap y); lia)).
Qed.

Lemma mlen_bounds y m : 21 <= mlen y m <= 31.
Proof. unfold mlen. pose proof (last_day_bounds y m). destruct (_ && _); lia. Qed.

Lemma dord_bounds y m d : valid_date (y, m, d) -> 1 <= dord y m d <= mlen y m.
Proof.
  intros (Hm & Hd & Hg). unfold dord, mlen.
  destruct (Z.eqb_spec y 1582), (Z.eqb_spec m 10); cbn [andb]; try lia.
  subst. cbn in Hd. destruct (Z.ltb_spec 4 d); lia.
Qed.

Lemma dord_inj y m d d' : valid_date (y, m, d) -> valid_date (y, m, d') ->
  dord y m d = dord y m d' -> d = d'.
Proof.
  intros (Hm & Hd & Hg) (_ & Hd' & Hg'). unfold dord.
  destruct (Z.eqb_spec y 1582), (Z.eqb_spec m 10); cbn [andb]; try lia.
  destruct (Z.ltb_spec 4 d), (Z.ltb_spec 4 d'); lia.
Qed.

Lemma cum_mono y m m' : 1 <= m -> m <= m' -> m' <= 13 -> cum y m <= cum y m'.
Proof.
  intros H1 H2 H3. replace m' with (m + Z.of_nat (Z.to_nat (m' - m))) by lia.
  assert (K : Z.of_nat (Z.to_nat (m' - m)) <= 13 - m) by lia. revert K.
  generalize (Z.to_nat (m' - m)) as n. induction n as [|n IH]; intros K.
  - rewrite Z.add_0_r. lia.
  - replace (m + Z.of_nat (S n)) with ((m + Z.of_nat n) + 1) by lia.
    rewrite cum_succ by lia. pose proof (mlen_bounds y (m + Z.of_nat n)). lia.
Qed.

Lemma ybase_mono y y' : y <= y' -> ybase y + 355 * (y' - y) <= ybase y'.
Proof.
  intros H. replace y' with (y + Z.of_nat (Z.to_nat (y' - y))) by lia.
  generalize (Z.to_nat (y' - y)) as n. induction n as [|n IH].
  - rewrite Z.add_0_r. lia.
  - replace (y + Z.of_nat (S n)) with ((y + Z.of_nat n) + 1) by lia.
    rewrite ybase_succ. pose proof (ylen_bounds (y + Z.of_nat n)). lia.
Qed.

(** Position inside the year. *)
Lemma dayno_year y m d : valid_date (y, m, d) -> ybase y < dayno (y, m, d) <= ybase (y + 1).
Proof.
  intros V. pose proof (dord_bounds _ _ _ V). destruct V as (Hm & _). unfold dayno.
  pose proof (cum_succ y m Hm). pose proof (cum_mono y 1 m ltac:(lia) ltac:(lia) ltac:(lia)).
  pose proof (cum_mono y (m + 1) 13 ltac:(lia) ltac:(lia) ltac:(lia)).
  rewrite cum_1 in *. rewrite cum_13 in *. rewrite ybase_succ. lia.
Qed.

Lemma dayno_inj a b : valid_date a -> valid_date b -> dayno a = dayno b -> a = b.
Proof.
  destruct a as [[y m] d], b as [[y' m'] d']. intros Va Vb E.
  pose proof (dayno_year _ _ _ Va). pose proof (dayno_year _ _ _ Vb).
  assert (y = y').
  { destruct (Z.lt_trichotomy y y') as [L|[L|L]]; [|assumption|].
    - pose proof (ybase_mono (y + 1) y' ltac:(lia)). lia.
    - pose proof (ybase_mono (y' + 1) y ltac:(lia)). lia. }
  subst y'.
  pose proof (dord_bounds _ _ _ Va). pose proof (dord_bounds _ _ _ Vb).
  assert (Hm := proj1 Va). assert (Hm' := proj1 Vb).
  unfold dayno in E.
  assert (m = m').
  { destruct (Z.lt_trichotomy m m') as [L|[L|L]]; [|assumption|].
    - pose proof (cum_mono y (m + 1) m' ltac:(lia) ltac:(lia) ltac:(lia)).
      pose proof (cum_succ y m Hm). lia.
    - pose proof (cum_mono y (m' + 1) m ltac:(lia) ltac:(lia) ltac:(lia)).
      pose proof (cum_succ y m' Hm'). lia. }
  subst m'.
  assert (d = d') by (apply (dord_inj y m); auto; lia). now subst.
Qed.

Lemma tomorrow_valid a : valid_date a -> valid_date (tomorrow a).
Proof.
  destruct a as [[y m] d]. intros (Hm & Hd & Hg). unfold tomorrow.
  destruct (Z.eqb_spec y 1582) as [E1|E1], (Z.eqb_spec m 10) as [E2|E2], (Z.eqb_spec d 4) as [E3|E3]; cbn [andb];
    try (subst; cbn; lia);
    (destruct (Z.ltb_spec d (last_day y m)) as [L|L]; [unfold valid_date; lia|];
     destruct (Z.ltb_spec m 12) as [L2|L2]; unfold valid_date;
       [pose proof (last_day_bounds y (m + 1)); lia | cbn; lia]).
Qed.

Lemma tomorrow_dayno a : valid_date a -> dayno (tomorrow a) = dayno a + 1.
Proof.
  destruct a as [[y m] d]. intros (Hm & Hd & Hg). unfold tomorrow.
  destruct ((y =? 1582) && (m =? 10) && (d =? 4)) eqn:E.
  - assert (y = 1582 /\ m = 10 /\ d = 4) by lia. destruct H as (-> & -> & ->). vm_compute. reflexivity.
  - destruct (Z.ltb_spec d (last_day y m)) as [L|L].
    + unfold dayno, dord.
      destruct (Z.eqb_spec y 1582), (Z.eqb_spec m 10); cbn [andb] in *; try lia.
      destruct (Z.ltb_spec 4 d), (Z.ltb_spec 4 (d + 1)), (Z.eqb_spec d 4); try discriminate E; lia.
    + assert (D : dord y m d = mlen y m).
      { unfold dord, mlen. destruct (Z.eqb_spec y 1582), (Z.eqb_spec m 10); cbn [andb]; try lia.
        subst. cbn in L, Hd. destruct (Z.ltb_spec 4 d); lia. }
      assert (D1 : forall y m, dord y m 1 = 1).
      { intros. unfold dord. change (4 <? 1) with false. now rewrite andb_false_r. }
      destruct (Z.ltb_spec m 12) as [L2|L2]; unfold dayno; rewrite D, D1.
      * rewrite cum_succ by lia. lia.
      * assert (m = 12) by lia. subst m. rewrite ybase_succ, cum_1, <- cum_13.
        change 13 with (12 + 1). rewrite (cum_succ y 12) by lia. lia.
Qed.

Lemma iter_tomorrow n a : valid_date a ->
  valid_date (Nat.iter n tomorrow a) /\ dayno (Nat.iter n tomorrow a) = dayno a + Z.of_nat n.
Proof.
  intros V. induction n as [|n [IH1 IH2]]; cbn [Nat.iter nat_rect].
  - split; [assumption|lia].
  - unfold Nat.iter in *. cbn. split. now apply tomorrow_valid. rewrite tomorrow_dayno by assumption. lia.
Qed.

(** Every day number is the number of exactly one existing date. *)
Lemma days_later_dayno n a b : valid_date a -> valid_date b ->
  (days_later n a b <-> dayno b = dayno a + n).
Proof.
  intros Va Vb. unfold days_later. destruct (Z.leb_spec 0 n) as [L|L].
  - destruct (iter_tomorrow (Z.to_nat n) a Va) as [V E]. split.
    + intros <-. lia.
    + intros H. apply dayno_inj; auto. lia.
  - destruct (iter_tomorrow (Z.to_nat (- n)) b Vb) as [V E]. split.
    + intros <-. lia.
    + intros H. apply dayno_inj; auto. lia.
Qed.

(** Lexicographic order of dates is the order of day numbers. *)
Definition lex_lt (a b : date) : Prop :=
  let '(y, m, d) := a in let '(y', m', d') := b in
  y < y' \/ (y = y' /\ (m < m' \/ (m = m' /\ d < d'))).

Lemma lex_lt_dayno a b : valid_date a -> valid_date b -> lex_lt a b -> dayno a < dayno b.
Proof.
  destruct a as [[y m] d], b as [[y' m'] d']. intros Va Vb [L|[-> [L|[-> L]]]].
  - pose proof (dayno_year _ _ _ Va). pose proof (dayno_year _ _ _ Vb).
    pose proof (ybase_mono (y + 1) y' ltac:(lia)). lia.
  - pose proof (dord_bounds _ _ _ Va). pose proof (dord_bounds _ _ _ Vb).
    assert (Hm := proj1 Va). assert (Hm' := proj1 Vb).
    pose proof (cum_mono y' (m + 1) m' ltac:(lia) ltac:(lia) ltac:(lia)).
    pose proof (cum_succ y' m Hm). unfold dayno. lia.
  - destruct Va as (_ & ? & Ga), Vb as (_ & ? & Gb). unfold dayno, dord.
    destruct (Z.eqb_spec y' 1582), (Z.eqb_spec m' 10); cbn [andb]; try lia;
    destruct (4 <? d) eqn:?, (4 <? d') eqn:?; lia.
Qed.

Lemma lex_total a b : a = b \/ lex_lt a b \/ lex_lt b a.
Proof.
  destruct a as [[y m] d], b as [[y' m'] d']. unfold lex_lt.
  destruct (Z.lt_trichotomy y y') as [|[->|]]; [lia| |lia].
  destruct (Z.lt_trichotomy m m') as [|[->|]]; [lia| |lia].
  destruct (Z.lt_trichotomy d d') as [|[->|]]; [lia|now left|lia].
Qed.

Lemma dayno_lt_lex a b : valid_date a -> valid_date b -> dayno a < dayno b -> lex_lt a b.
Proof.
  intros Va Vb L. destruct (lex_total a b) as [->|[H|H]]; [lia|assumption|].
  apply lex_lt_dayno in H; auto. lia.
Qed.

(** The inverse of [dayno]: every integer is the number of an existing date. *)
Lemma valid_jan1 y : valid_date (y, 1, 1).
Proof. unfold valid_date, last_day. lia. Qed.

Lemma dayno_jan1 y : dayno (y, 1, 1) = ybase y + 1.
Proof.
  unfold dayno. rewrite cum_1. unfold dord. change (1 =? 10) with false.
  rewrite andb_false_r. cbn [andb]. lia.
Qed.

Lemma dayno_surj n : exists a, valid_date a /\ dayno a = n.
Proof.
  assert (K : exists y, dayno (y, 1, 1) <= n).
  { exists (Z.min 0 (n - 1721058)). rewrite dayno_jan1.
    pose proof (ybase_mono (Z.min 0 (n - 1721058)) 0 ltac:(lia)).
    assert (ybase 0 = 1721057) by reflexivity. lia. }
  destruct K as [y L]. pose proof (valid_jan1 y) as V.
  destruct (iter_tomorrow (Z.to_nat (n - dayno (y, 1, 1))) (y, 1, 1) V).
  eexists; split; eauto. lia.
Qed.
