(** C44: the shape of the month table of a LunarYear, for any astronomy (any functions in place of
    ShouXingUtil.calcQi, calcShuo and qiAccurate2). *)
From Coq Require Import ZArith Lia Bool ZifyBool List String Floats.
From Verif Require Import Py PyFloat PyStr Solar LunarUtil T_LunarUtil T_Misc ShouXing LunarYear Lunar LunarProofs TermProofs YearProofs Demo.
Import ListNotations.
Open Scope Z_scope.

Definition month (t : LYear) (i : Z) : LMonth := nthm (lmonths t) i.

(** Fifteen months; each begins on the day after the last day of the one before. *)
Theorem C44_shape : forall sky y t, LunarYear_new sky y = Ok t ->
  List.length (lmonths t) = 15%nat /\ lyear t = y /\
  forall i, 0 <= i < 14 -> mfirst (month t (i + 1)) = mfirst (month t i) + mcount (month t i).
Proof.
  intros sky y t H. destruct (LunarYear_new_inv _ _ _ H) as (jq & terms & hs & leap & _ & _ & _ & _ & Em & Ey & _).
  apply months_from_spec in Em; [|lia]. destruct Em as (L & _ & S). split; [exact L|]. split; [exact Ey|].
  intros i Hi. unfold month. destruct (S i ltac:(lia)) as (A & B & _). destruct (S (i + 1) ltac:(lia)) as (A' & _).
  rewrite A, B, A'. replace (0 + (i + 1)) with (0 + i + 1) by lia. lia.
Qed.

(** The calendar reforms: from January of AD 9 to AD 23 and from AD 237 to AD 239 the twelfth month was the first.  The day numbers
    are Julian day numbers of first days of months; the month that closes a reform period counts to neither side. *)
Inductive usage := Civil | Reform | Closing.
Definition usage_of (first : Z) : usage :=
  if (1724360 <=? first) && (first <? 1729794) || (1807724 <=? first) && (first <? 1808699) then Reform
  else if (first =? 1729794) || (first =? 1808699) then Closing else Civil.

Lemma number'_civil leap dm i : usage_of dm = Civil -> number' leap dm i = number leap i.
Proof. intros H. apply number'_plain. unfold usage_of in H. unfold reform. destruct (_ || _) eqn:E in H; [discriminate|]. destruct (_ || _) eqn:E' in H; [discriminate|]. lia. Qed.
Lemma number'_reform leap dm i : usage_of dm = Reform -> number' leap dm i = number leap i mod 12 + 1.
Proof.
  intros H. unfold usage_of in H. destruct (_ || _) eqn:E in H; [|destruct (_ || _) in H; discriminate].
  unfold number', number. set (v := if leap <=? i then i - 1 else i).
  destruct ((1724360 <=? dm) && (dm <? 1729794)) eqn:E1; [Z.div_mod_to_equations; lia|].
  destruct ((1807724 <=? dm) && (dm <? 1808699)) eqn:E2; [Z.div_mod_to_equations; lia|]. cbn [orb] in E. discriminate.
Qed.
Lemma number_step leap i : 0 <= i -> leap <> i + 1 -> number leap (i + 1) = number leap i mod 12 + 1.
Proof. intros Hi Hl. unfold number. destruct (Z.leb_spec leap i), (Z.leb_spec leap (i + 1)); try lia; Z.div_mod_to_equations; lia. Qed.
Lemma number_leap leap i : leap = i + 1 -> number leap (i + 1) = number leap i.
Proof. intros ->. unfold number. replace (i + 1 <=? i) with false by lia. replace (i + 1 <=? i + 1) with true by lia. now replace (i + 1 - 1) with i by lia. Qed.
Lemma signed_plain leap dm i : usage_of dm <> Closing -> signed leap dm i = if i =? leap then - number' leap dm i else number' leap dm i.
Proof.
  intros H. unfold signed. destruct (i =? leap); [reflexivity|].
  destruct ((dm =? 1729794) || (dm =? 1808699)) eqn:E; [|reflexivity]. exfalso. apply H. unfold usage_of.
  rewrite E. now replace ((1724360 <=? dm) && (dm <? 1729794) || (1807724 <=? dm) && (dm <? 1808699)) with false by lia.
Qed.

(** The first month is month 11 of the previous year (month 12 when that lies in a reform period). *)
Theorem C44_first : forall sky y t, LunarYear_new sky y = Ok t -> let m := month t 0 in
  my m = y - 1 /\
  match usage_of (mfirst m) with Civil => mm m = 11 | Reform => mm m = 12 | Closing => mm m = -11 end.
Proof.
  intros sky y t H m. destruct (LunarYear_new_inv _ _ _ H) as (jq & terms & hs & leap & _ & _ & _ & El & Em & _ & _ & _ & _ & Lj & Lh & _).
  pose proof (leap_range _ _ _ _ Lh Lj El) as R.
  apply months_from_spec in Em; [|lia]. destruct Em as (_ & _ & S). destruct (S 0 ltac:(lia)) as (A & _ & C & D & _).
  fold (month t 0) in *. fold m in A, C, D. rewrite <- A in *. split; [rewrite D by reflexivity; reflexivity|].
  rewrite C. change (0 + 0) with 0. assert (N : number leap 0 = 11) by (unfold number; now replace (leap <=? 0) with false by lia).
  assert (NL : (0 =? leap) = false) by lia.
  destruct (usage_of (mfirst m)) eqn:U.
  - rewrite signed_plain, NL, number'_civil, N by congruence. reflexivity.
  - rewrite signed_plain, NL, number'_reform, N by congruence. reflexivity.
  - unfold signed. rewrite NL. unfold usage_of in U. destruct (_ || _) in U; [discriminate|].
    destruct ((mfirst m =? 1729794) || (mfirst m =? 1808699)); [reflexivity|discriminate].
Qed.

(** Two consecutive months under the same usage: the second either repeats the number of the first as its leap month, in
    the same year, or has the next number (1 after 12), and then the year grows by one exactly with month 1. *)
Theorem C44_numbering : forall sky y t i, LunarYear_new sky y = Ok t -> 0 <= i < 14 ->
  let a := month t i in let b := month t (i + 1) in
  usage_of (mfirst a) = usage_of (mfirst b) -> usage_of (mfirst a) <> Closing ->
  1 <= Z.abs (mm a) <= 12 /\
  ((mm b < 0 /\ 0 < mm a /\ mm b = - mm a /\ my b = my a) \/
   (mm b = Z.abs (mm a) mod 12 + 1 /\ my b = my a + (if mm b =? 1 then 1 else 0))).
Proof.
  intros sky y t i H Hi a b U NC. destruct (LunarYear_new_inv _ _ _ H) as (jq & terms & hs & leap & _ & _ & _ & El & Em & _ & _ & _ & _ & Lj & Lh & _).
  pose proof (leap_range _ _ _ _ Lh Lj El) as R.
  apply months_from_spec in Em; [|lia]. destruct Em as (_ & _ & S).
  destruct (S i ltac:(lia)) as (A & _ & C & _ & _). destruct (S (i + 1) ltac:(lia)) as (A' & _ & C' & _ & E'). clear S.
  fold (month t i) in A, C. fold (month t (i + 1)) in A', C', E'. fold a in A, C. fold b in A', C', E'.
  specialize (E' ltac:(lia)). replace (i + 1 - 1) with i in E' by lia. fold (month t i) in E'. fold a in E'.
  replace (0 + (i + 1) - 1) with (0 + i) in E' by lia. rewrite <- A', <- A in E'. rewrite <- A in C. rewrite <- A' in C'.
  change (0 + i) with i in *. change (0 + (i + 1)) with (i + 1) in *.
  rewrite signed_plain in C by exact NC. rewrite signed_plain in C' by congruence.
  pose proof (number'_range leap (mfirst a) i) as Ra. pose proof (number'_range leap (mfirst b) (i + 1)) as Rb.
  split; [rewrite C; destruct (i =? leap); lia|].
  assert (N : number' leap (mfirst b) (i + 1) = if leap =? i + 1 then number' leap (mfirst a) i else number' leap (mfirst a) i mod 12 + 1).
  { destruct (usage_of (mfirst a)) eqn:Ua; [| |congruence].
    - rewrite !number'_civil by congruence. destruct (Z.eqb_spec leap (i + 1)); [now apply number_leap|apply number_step; lia].
    - rewrite !number'_reform by congruence. destruct (Z.eqb_spec leap (i + 1)); [now rewrite number_leap|now rewrite number_step by lia]. }
  set (na := number' leap (mfirst a) i) in *. set (nb := number' leap (mfirst b) (i + 1)) in *. clearbody na nb. rewrite C, C', E', N.
  destruct (Z.eqb_spec leap (i + 1)) as [L|L].
  - left. replace (i =? leap) with false by lia. replace (i + 1 =? leap) with true by lia. replace (na <? na) with false by lia. lia.
  - right. replace (i + 1 =? leap) with false by lia.
    assert (Z.abs (if i =? leap then - na else na) = na) as -> by (destruct (i =? leap); lia). split; [reflexivity|].
    f_equal. destruct (Z.eqb_spec (na mod 12 + 1) 1), (Z.ltb_spec (na mod 12 + 1) na); try reflexivity; exfalso; Z.div_mod_to_equations; lia.
Qed.

(** At most one of the fifteen is a leap month, reform closings apart. *)
Theorem C44_one_leap : forall sky y t i j, LunarYear_new sky y = Ok t -> 0 <= i < 15 -> 0 <= j < 15 ->
  usage_of (mfirst (month t i)) <> Closing -> usage_of (mfirst (month t j)) <> Closing ->
  mm (month t i) < 0 -> mm (month t j) < 0 -> i = j.
Proof.
  intros sky y t i j H Hi Hj Ui Uj Ni Nj. destruct (LunarYear_new_inv _ _ _ H) as (jq & terms & hs & leap & _ & _ & _ & El & Em & _).
  apply months_from_spec in Em; [|lia]. destruct Em as (_ & _ & S).
  destruct (S i ltac:(lia)) as (A & _ & C & _ & _). destruct (S j ltac:(lia)) as (A' & _ & C' & _ & _). unfold month in *.
  rewrite <- A in C. rewrite <- A' in C'. change (0 + i) with i in *. change (0 + j) with j in *.
  rewrite signed_plain in C by exact Ui. rewrite signed_plain in C' by exact Uj.
  pose proof (number'_range leap (mfirst (nthm (lmonths t) i)) i). pose proof (number'_range leap (mfirst (nthm (lmonths t) j)) j).
  destruct (Z.eqb_spec i leap), (Z.eqb_spec j leap); lia.
Qed.

(** Where the leap month is.  [jq] are the days of 26 solar terms from one winter solstice on (the even ones are the major
    terms, [jq 24] is the next winter solstice) and [hs] the first days of sixteen months, as the code computes them.
    [has m q]: month [m] contains the day [q]. *)
Definition has (hs : list Z) (i q : Z) : Prop := nthz hs i <= q < nthz hs (i + 1).
Theorem C44_leap_rule : forall sky y t jq hs i, LunarYear_new sky y = Ok t ->
  compute_jq sky y = Ok jq -> compute_hs sky jq = Ok hs ->
  ~ In y LunarYear_LEAP_11 -> ~ In y LunarYear_LEAP_12 ->
  has hs 0 (nthz jq 0) -> (forall k, 0 <= k < 25 -> nthz jq k < nthz jq (k + 1)) ->
  0 <= i < 15 -> usage_of (mfirst (month t i)) <> Closing -> mm (month t i) < 0 ->
  nthz hs 13 <= nthz jq 24 /\
  (forall k, 0 <= k <= 12 -> ~ has hs i (nthz jq (2 * k))) /\
  ((forall j k, 0 <= j < i -> 0 <= k < 12 -> has hs j (nthz jq (2 * k)) -> ~ has hs j (nthz jq (2 * k + 2))) ->
   forall j, 0 <= j < i -> has hs j (nthz jq (2 * j))).
Proof.
  intros sky y t jq hs i H Ej Eh N11 N12 H0 Inc Hi U Neg.
  destruct (LunarYear_new_inv _ _ _ H) as (jq' & terms & hs' & leap & Ej' & _ & Eh' & El & Em & _ & _ & _ & _ & Lj & Lh & _).
  rewrite Ej in Ej'. apply Ok_inj in Ej'. subst jq'. rewrite Eh in Eh'. apply Ok_inj in Eh'. subst hs'.
  apply months_from_spec in Em; [|lia]. destruct Em as (_ & _ & S). destruct (S i ltac:(lia)) as (A & _ & C & _ & _).
  unfold month in *. rewrite <- A in C. change (0 + i) with i in *. rewrite signed_plain in C by exact U.
  pose proof (number'_range leap (mfirst (nthm (lmonths t) i)) i) as Rn.
  destruct (Z.eqb_spec i leap) as [<-|]; [|lia]. clear Rn C A S Neg U.
  destruct (leap_index_spec y hs jq Lh Lj) as (i' & E' & Cs). rewrite El in E'. apply Ok_inj in E'. subst i'.
  destruct Cs as [[X _]|[(_ & X & _)|(_ & _ & [X|(X13 & X1 & X2 & X3)])]]; [contradiction|contradiction|lia|].
  assert (Mono : forall a b, 0 <= a -> a <= b <= 25 -> nthz jq a <= nthz jq b).
  { intros a b Ha Hb. replace b with (a + Z.of_nat (Z.to_nat (b - a))) in * by lia. set (n := Z.to_nat (b - a)) in *. clearbody n.
    induction n as [|n IH]; [rewrite Z.add_0_r; lia|]. specialize (IH ltac:(lia)). pose proof (Inc (a + Z.of_nat n) ltac:(lia)) as I.
    replace (a + Z.of_nat (Datatypes.S n)) with (a + Z.of_nat n + 1) by lia. lia. }
  split; [exact X13|]. split.
  - intros k Hk Hh. unfold has in Hh. destruct (Z.lt_ge_cases k i) as [L|L].
    + destruct (Z.eq_dec i 1) as [->|].
      * replace k with 0 in Hh by lia. unfold has in H0. change (2 * 0) with 0 in Hh. change (0 + 1) with 1 in H0. lia.
      * pose proof (X3 (i - 1) ltac:(lia)) as I. replace (i - 1 + 1) with i in I by lia.
        pose proof (Mono (2 * k) (2 * (i - 1)) ltac:(lia) ltac:(lia)). lia.
    + pose proof (Mono (2 * i) (2 * k) ltac:(lia) ltac:(lia)). lia.
  - intros Two j Hj. destruct Hj as [Hj0 Hj]. revert Hj. pattern j. revert j Hj0.
    apply natlike_ind; [intros _; exact H0|]. intros j Hj0 IH Hj. specialize (IH ltac:(lia)).
    pose proof (X3 (Z.succ j) ltac:(lia)) as I. unfold has in *. split; [|exact I].
    destruct (Z.lt_ge_cases (nthz jq (2 * Z.succ j)) (nthz hs (Z.succ j))) as [L|L]; [|exact L]. exfalso.
    apply (Two j j ltac:(lia) ltac:(lia) IH). replace (2 * j + 2) with (2 * Z.succ j) by lia. replace (j + 1) with (Z.succ j) by lia.
    pose proof (Mono (2 * j) (2 * Z.succ j) ltac:(lia) ltac:(lia)). lia.
Qed.

(** And there is one (listed, except in the years with a leap month 11 or 12 by decree) exactly when thirteen months begin
    between the two solstices. *)
Theorem C44_leap_exists : forall sky y t jq hs, LunarYear_new sky y = Ok t ->
  compute_jq sky y = Ok jq -> compute_hs sky jq = Ok hs ->
  ~ In y LunarYear_LEAP_11 -> ~ In y LunarYear_LEAP_12 ->
  (forall i, 0 <= i < 15 -> usage_of (mfirst (month t i)) <> Closing) ->
  ((exists i, 0 <= i < 15 /\ mm (month t i) < 0) <-> nthz hs 13 <= nthz jq 24).
Proof.
  intros sky y t jq hs H Ej Eh N11 N12 NC.
  destruct (LunarYear_new_inv _ _ _ H) as (jq' & terms & hs' & leap & Ej' & _ & Eh' & El & Em & _ & _ & _ & _ & Lj & Lh & _).
  rewrite Ej in Ej'. apply Ok_inj in Ej'. subst jq'. rewrite Eh in Eh'. apply Ok_inj in Eh'. subst hs'.
  apply months_from_spec in Em; [|lia]. destruct Em as (_ & _ & S).
  assert (Sg : forall i, 0 <= i < 15 -> (mm (month t i) < 0 <-> i = leap)).
  { intros i Hi. destruct (S i ltac:(lia)) as (A & _ & C & _ & _). specialize (NC i Hi). unfold month in *. rewrite <- A in C. change (0 + i) with i in *.
    rewrite signed_plain in C by exact NC. pose proof (number'_range leap (mfirst (nthm (lmonths t) i)) i) as Rn.
    rewrite C. destruct (Z.eqb_spec i leap); lia. }
  destruct (leap_index_spec y hs jq Lh Lj) as (i' & E' & Cs). rewrite El in E'. apply Ok_inj in E'. subst i'.
  destruct Cs as [[X _]|[(_ & X & _)|(_ & _ & [X|X])]]; [contradiction|contradiction| |].
  - split; [intros (i & Hi & N); apply Sg in N; lia|lia].
  - split; [lia|]. intros _. exists leap. split; [lia|]. apply Sg; lia.
Qed.

(** 2025: the seventh month after month 11 of 2024 is the leap month 6. *)
Definition demo_sky := shouxing demo_sin demo_cos.
Example C44_case :
  (let! jq := compute_jq demo_sky 2025 in let! hs := compute_hs demo_sky jq in
   let! ms := compute_months 2025 hs jq in
   Ok (forallb (fun k => nthz jq k <? nthz jq (k + 1)) (zrange 0 25), (nthz hs 0 <=? nthz jq 0) && (nthz jq 0 <? nthz hs 1),
       map mm ms, map my ms, map (fun i => usage_of (mfirst (nthm ms i))) [0; 8; 14])) =
  Ok (true, true, [11; 12; 1; 2; 3; 4; 5; 6; -6; 7; 8; 9; 10; 11; 12],
      [2024; 2024; 2025; 2025; 2025; 2025; 2025; 2025; 2025; 2025; 2025; 2025; 2025; 2025; 2025], [Civil; Civil; Civil]).
Proof. vm_compute. reflexivity. Qed.
