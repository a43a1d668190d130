(** Integer part of the Julian Day algorithms: the Meeus formulas agree with [dayno]. *)
From Coq Require Import ZArith Lia Bool ZifyBool.
From Verif Require Import Py CalSpec DayNo.
Open Scope Z_scope.

(** March based year and month. *)
Definition myear (y m : Z) : Z := if m <=? 2 then y - 1 else y.
Definition mmonth (m : Z) : Z := if m <=? 2 then m + 12 else m.

(** floor(30.6001 * (m + 1)) *)
Definition mb (m : Z) : Z := 306001 * (m + 1) / 10000.

Definition greg (a : date) : bool :=
  let '(y, m, d) := a in 588829 <=? y * 372 + m * 31 + d.

Definition mcorr (g : bool) (Y : Z) : Z := if g then 2 - Y / 100 + (Y / 100) / 4 else 0.

Lemma greg_spec y m d : valid_date (y, m, d) ->
  greg (y, m, d) = ((1582 <? y) || ((y =? 1582) && ((10 <? m) || ((m =? 10) && (15 <=? d))))).
Proof.
  intros (Hm & Hd & Hg). unfold greg. pose proof (last_day_bounds y m). lia.
Qed.

(** Evaluate comparisons of literals. *)
Ltac ceval t := let v := eval vm_compute in t in
  lazymatch v with true => change t with true | false => change t with false end.
Ltac csimp := repeat match goal with
  | |- context [(?a <? ?b)] => ceval (a <? b)
  | |- context [(?a <=? ?b)] => ceval (a <=? b)
  | |- context [(?a =? ?b)] => ceval (a =? b)
  end; cbn [andb orb].

Lemma meeus_fwd y m d : valid_date (y, m, d) ->
  dayno (y, m, d) =
  1461 * (myear y m + 4716) / 4 + mb (mmonth m) + d + mcorr (greg (y, m, d)) (myear y m) - 1524.
Proof.
  intros V. rewrite (greg_spec y m d V). destruct V as (Hm & Hd & Hg).
  unfold dayno, ybase, cum, dord, mcorr, leap, myear, mmonth, mb.
  destruct (Z.leb_spec y 1582) as [L|L].
  - replace (1582 <? y) with false by lia. cbn [orb].
    dmonth m Hm; cbv beta iota zeta; csimp; rewrite ?andb_false_r, ?andb_true_r;
    repeat match goal with |- context [if ?b then _ else _] => destruct b eqn:? end; lia.
  - replace (1582 <? y) with true by lia. replace (y =? 1582) with false by lia. cbn [orb andb].
    dmonth m Hm; cbv beta iota zeta; csimp; rewrite ?andb_false_r, ?andb_true_r;
    repeat match goal with |- context [if ?b then _ else _] => destruct b eqn:? end; lia.
Qed.

Lemma greg_dayno a : valid_date a -> greg a = (2299161 <=? dayno a).
Proof.
  intros V. assert (V0 : valid_date (1582, 10, 15)) by (unfold valid_date; cbn; lia).
  assert (E0 : dayno (1582, 10, 15) = 2299161) by (vm_compute; reflexivity).
  destruct a as [[y m] d]. rewrite greg_spec by assumption.
  destruct (lex_total (y, m, d) (1582, 10, 15)) as [E|[L|L]].
  - rewrite E, E0. inversion E. reflexivity.
  - pose proof (lex_lt_dayno _ _ V V0 L). rewrite E0 in *. unfold lex_lt in L. lia.
  - pose proof (lex_lt_dayno _ _ V0 V L). rewrite E0 in *. unfold lex_lt in L. lia.
Qed.

Lemma mb_bounds m : 1 <= m <= 12 -> mb (mmonth m) =
  match m with 1 => 428 | 2 => 459 | 3 => 122 | 4 => 153 | 5 => 183 | 6 => 214 | 7 => 244
             | 8 => 275 | 9 => 306 | 10 => 336 | 11 => 367 | _ => 397 end.
Proof. intros H. dmonth m H; reflexivity. Qed.

Lemma cent y m d : valid_date (y, m, d) -> greg (y, m, d) = true ->
  (4 * dayno (y, m, d) - 7468865) / 146097 = myear y m / 100 - 4.
Proof.
  intros V G. rewrite (meeus_fwd y m d V), G. assert (G' := G). rewrite greg_spec in G' by assumption.
  destruct V as (Hm & Hd & Hg). unfold mcorr. rewrite mb_bounds by assumption.
  pose proof (last_day_bounds y m).
  assert (Hb : 122 <= match m with 1 => 428 | 2 => 459 | 3 => 122 | 4 => 153 | 5 => 183 | 6 => 214 | 7 => 244
             | 8 => 275 | 9 => 306 | 10 => 336 | 11 => 367 | _ => 397 end + d - 1 <= 487 /\
      (match m with 1 => 428 | 2 => 459 | 3 => 122 | 4 => 153 | 5 => 183 | 6 => 214 | 7 => 244
             | 8 => 275 | 9 => 306 | 10 => 336 | 11 => 367 | _ => 397 end + d - 1 = 487 -> m = 2 /\ leap y = true)).
  { clear G G' Hg. dmonth m Hm; cbn [last_day] in Hd; destruct (leap y); split; try lia;
     intros; split; try reflexivity; try lia. }
  set (b := match m with 1 => 428 | 2 => 459 | 3 => 122 | 4 => 153 | 5 => 183 | 6 => 214 | 7 => 244
             | 8 => 275 | 9 => 306 | 10 => 336 | 11 => 367 | _ => 397 end + d - 1) in *.
  replace (match m with 1 => 428 | 2 => 459 | 3 => 122 | 4 => 153 | 5 => 183 | 6 => 214 | 7 => 244
             | 8 => 275 | 9 => 306 | 10 => 336 | 11 => 367 | _ => 397 end) with (b + 1 - d) by (unfold b; lia).
  destruct Hb as [Hb1 Hb2].
  set (Y := myear y m) in *.
  assert (HY : Y mod 100 = 99 -> b = 487 -> Y mod 400 = 399).
  { intros K1 K2. destruct (Hb2 K2) as [-> L]. unfold Y, myear in *. cbn in K1 |- *.
    unfold leap in L. destruct (Z.leb_spec y 1582); lia. }
  clearbody b Y. clear Hb2 Hd Hg Hm G G'.
  set (c := Y / 400). set (e := (Y - 400 * c) / 100). set (r := Y - 400 * c - 100 * e).
  assert (Hc : Y = 400 * c + 100 * e + r) by (unfold r; ring).
  assert (He : 0 <= e <= 3) by (unfold e, c; lia).
  assert (Hr : 0 <= r <= 99) by (unfold r, e; lia).
  assert (HA : Y / 100 = 4 * c + e) by lia.
  assert (HA4 : Y / 100 / 4 = c) by lia.
  assert (H99 : r = 99 -> b = 487 -> e = 3) by lia.
  assert (HQ : 1461 * (Y + 4716) / 4 = 146100 * c + 36525 * e + 1722519 + 1461 * r / 4) by lia.
  rewrite HA4, HA, HQ. clear HA HA4 HQ HY. clearbody c e r.
  assert (HR : 4 * (1461 * r / 4) <= 1461 * r <= 4 * (1461 * r / 4) + 3) by lia.
  assert (HR9 : r = 99 -> 1461 * r / 4 = 36159) by (intros ->; reflexivity).
  set (q := 1461 * r / 4) in *. clearbody q.
  assert (B : 0 <= 4 * q + 4 * b - e - 485 < 146097).
  { destruct (Z.eq_dec r 99) as [E9|E9].
    - specialize (HR9 E9). specialize (H99 E9). destruct (Z.eq_dec b 487) as [E8|E8]; [specialize (H99 E8)|]; lia.
    - lia. }
  symmetry. apply Z.div_unique with (4 * q + 4 * b - e - 485); [left; exact B|lia].
Qed.

(** Number of days since the start of the March based year. *)
Lemma year_idx y m d : valid_date (y, m, d) ->
  (20 * (1461 * (myear y m + 4716) / 4 + mb (mmonth m) + d) - 2442) / 7305 = myear y m + 4716.
Proof.
  intros (Hm & Hd & Hg). rewrite mb_bounds by assumption. unfold last_day, myear in *.
  assert (HL : leap y = true -> y mod 4 = 0).
  { unfold leap. destruct (Z.leb_spec y 1582); lia. }
  dmonth m Hm; cbv beta iota zeta in *; csimp; try lia. destruct (leap y) eqn:?; lia.
Qed.

Lemma month_idx y m d : valid_date (y, m, d) ->
  let d3 := mb (mmonth m) + d in
  1000 * d3 / 30601 = mmonth m + 1 /\ d3 - 30601 * (mmonth m + 1) / 1000 = d /\ 122 < d3 < 489.
Proof.
  intros (Hm & Hd & Hg). rewrite mb_bounds by assumption. cbv zeta.
  assert (Hl : d <= match m with 2 => 29 | 4 | 6 | 9 | 11 => 30 | _ => 31 end).
  { unfold last_day in Hd. dmonth m Hm; destruct (leap y); lia. }
  dmonth m Hm; cbv beta iota zeta in *; unfold mmonth; csimp; lia.
Qed.
