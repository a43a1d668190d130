(** The lunar years 0 to 241, whose reforms of AD 9 and AD 237 renumber the months: what still holds of their tables, whatever the
    C library computes (the months come from the tables of linear coefficients). *)
From Coq Require Import ZArith Lia Bool ZifyBool List String Floats.
From Verif Require Import Py PyFloat PyStr CalSpec DayNo Solar SolarProofs LunarYear Lunar LunarProofs YearProofs CalProofs CalCheck P_YearTable P_LunarCal P_LunarYears.
Import ListNotations.
Open Scope Z_scope.

Definition eqlist (a b : list Z) : bool := if list_eq_dec Z.eq_dec a b then true else false.
Definition own (y : Z) (ms : list LMonth) : list LMonth := filter (fun m => my m =? y) ms.
Definition leap_of (y : Z) (ms : list LMonth) : Z := match find (fun m => (my m =? y) && isLeap m) ms with Some m => Z.abs (mm m) | None => 0 end.
Definition first_of (y : Z) (ms : list LMonth) : option LMonth := find (fun m => (my m =? y) && (mm m =? 1)) ms.
(** The months are numbered 1 to 12, with at most one leap month. *)
Definition numbered (y : Z) (ms : list LMonth) : bool :=
  let ns := map mm (own y ms) in let k := leap_of y ms in
  if k =? 0 then eqlist ns plain_year else (1 <=? k) && (k <=? 12) && eqlist ns (leap_year k).
(** A month that is followed by one of another year is month 12. *)
Fixpoint closes (y : Z) (ms : list LMonth) : bool :=
  match ms with
  | [] => true
  | a :: r => (negb (my a =? y) || (Z.abs (mm a) =? 12) || match r with [] => false | b :: _ => my b =? y end) && closes y r
  end.
Definition early_year (y : Z) (ms ms' : list LMonth) : bool :=
  match first_of y ms, first_of (y + 1) ms' with
  | Some a, Some b =>
      (mfirst b - mfirst a =? total (own y ms)) && ((y =? 8) || (y =? 237) || numbered y ms) && ((y =? 8) || closes y ms) &&
      ((y <=? 19) || forallb (fun m => jan1 (my m) <=? mfirst m) ms && (mfirst a <? jan1 y + 91))
  | _, _ => false
  end.
Fixpoint early (y : Z) (ts : list (list LMonth)) : bool :=
  match ts with ms :: ((ms' :: _) as r) => early_year y ms ms' && early (y + 1) r | _ => true end.
Lemma early_years fsin fcos : early 0 (tables fsin fcos 0 243) = true.
Proof. vm_compute. reflexivity. Qed.
Lemma early_nth ts : forall y n, early y ts = true -> (S n < List.length ts)%nat -> early_year (y + Z.of_nat n) (nth n ts []) (nth (S n) ts []) = true.
Proof.
  induction ts as [|ms [|ms' r] IH]; intros y n H L; [cbn in L; lia|cbn in L; lia|]. cbn [early] in H. apply andb_true_iff in H. destruct H as [H1 H2].
  destruct n as [|n]; [rewrite Z.add_0_r; exact H1|]. specialize (IH (y + 1) n H2 ltac:(cbn [List.length] in *; lia)).
  replace (y + Z.of_nat (S n)) with (y + 1 + Z.of_nat n) by lia. exact IH.
Qed.
Lemma eqlist_ok a b : eqlist a b = true -> a = b.
Proof. unfold eqlist. destruct (list_eq_dec Z.eq_dec a b); [auto|discriminate]. Qed.

Section EARLY.
Context (fsin fcos : float -> float).
Notation R := (real fsin fcos).
Lemma early_ok y t t' : 0 <= y <= 241 -> R y = Ok t -> R (y + 1) = Ok t' -> early_year y (lmonths t) (lmonths t') = true.
Proof.
  intros Hy Et Et'. destruct (real_inv _ _ _ _ Et) as [_ M]. destruct (real_inv _ _ _ _ Et') as [_ M']. rewrite M, M'.
  pose proof (early_nth _ 0 (Z.to_nat y) (early_years fsin fcos)) as H. rewrite Z2Nat.id in H by lia. cbn [Z.add] in H.
  pose proof (tables_nth fsin fcos 0 243 y ltac:(lia)) as N. pose proof (tables_nth fsin fcos 0 243 (y + 1) ltac:(lia)) as N'.
  replace (Z.to_nat (y - 0)) with (Z.to_nat y) in N by lia. replace (Z.to_nat (y + 1 - 0)) with (S (Z.to_nat y)) in N' by lia. rewrite N, N' in H.
  apply H. unfold tables. rewrite map_length, zrange_length. lia.
Qed.
Lemma early_first y t t' : 0 <= y <= 241 -> R y = Ok t -> R (y + 1) = Ok t' -> exists a b, getMonth t 1 = Some a /\ getMonth t' 1 = Some b /\ mfirst b - mfirst a = total (getMonthsInYear t) /\
  (20 <= y -> jan1 y <= mfirst a < jan1 y + 91).
Proof.
  intros Hy Et Et'. pose proof (early_ok y t t' Hy Et Et') as H. destruct (real_inv _ _ _ _ Et) as [Y _]. destruct (real_inv _ _ _ _ Et') as [Y' _].
  unfold early_year, first_of in H. destruct (find _ (lmonths t)) as [a|] eqn:Ea; [|discriminate]. destruct (find _ (lmonths t')) as [b|] eqn:Eb; [|discriminate].
  exists a, b. unfold getMonth, getMonthsInYear. rewrite Y, Y'. split; [exact Ea|]. split; [exact Eb|]. unfold own in H. rewrite !andb_true_iff in H. destruct H as [[[H1 _] _] H2]. split; [lia|].
  intros L. apply orb_true_iff in H2. destruct H2 as [H2|H2]; [lia|]. apply andb_true_iff in H2. destruct H2 as [H2 H3]. rewrite forallb_forall in H2.
  apply find_some in Ea. destruct Ea as [Ia Xa]. specialize (H2 a Ia). replace (my a) with y in H2 by lia. lia.
Qed.
Lemma early_ahead y t t' a : 20 <= y <= 241 -> R y = Ok t -> R (y + 1) = Ok t' -> In a (lmonths t) -> jan1 (my a) <= mfirst a.
Proof.
  intros Hy Et Et' Ia. pose proof (early_ok y t t' ltac:(lia) Et Et') as H. unfold early_year, first_of in H. destruct (find _ (lmonths t)) as [b|] eqn:Ea; [|discriminate]. destruct (find _ (lmonths t')) as [c|] eqn:Eb; [|discriminate].
  rewrite !andb_true_iff in H. destruct H as [_ H]. apply orb_true_iff in H. destruct H as [H|H]; [lia|]. apply andb_true_iff in H. destruct H as [H _]. rewrite forallb_forall in H. specialize (H a Ia). cbv beta in H. lia.
Qed.
Lemma early_numbered y t t' : 0 <= y <= 241 -> y <> 8 -> y <> 237 -> R y = Ok t -> R (y + 1) = Ok t' ->
  (map mm (getMonthsInYear t) = plain_year /\ getLeapMonth t = 0) \/ (exists k, 1 <= k <= 12 /\ map mm (getMonthsInYear t) = leap_year k /\ getLeapMonth t = k).
Proof.
  intros Hy N1 N2 Et Et'. pose proof (early_ok y t t' ltac:(lia) Et Et') as H. destruct (real_inv _ _ _ _ Et) as [Y _]. unfold early_year, first_of in H. destruct (find _ (lmonths t)) as [b|] eqn:Ea; [|discriminate]. destruct (find _ (lmonths t')) as [c|] eqn:Eb; [|discriminate].
  rewrite !andb_true_iff in H. destruct H as [[[_ H] _] _]. replace ((y =? 8) || (y =? 237)) with false in H by lia. cbn [orb] in H. unfold numbered, own in H. unfold getLeapMonth, getMonthsInYear. rewrite Y.
  fold (leap_of y (lmonths t)). destruct (Z.eqb_spec (leap_of y (lmonths t)) 0) as [E|E]; [left; split; [apply eqlist_ok, H|exact E]|].
  right. exists (leap_of y (lmonths t)). rewrite !andb_true_iff in H. destruct H as [H1 H2]. split; [lia|]. split; [apply eqlist_ok, H2|reflexivity].
Qed.
Lemma closes_nth y ms : closes y ms = true -> forall i, 0 <= i < Z.of_nat (List.length ms) -> my (nthm ms i) = y -> Z.abs (mm (nthm ms i)) = 12 \/ (i + 1 < Z.of_nat (List.length ms) /\ my (nthm ms (i + 1)) = y).
Proof.
  induction ms as [|a r IH]; intros H i Hi E; [cbn in Hi; lia|]. cbn [closes] in H. apply andb_true_iff in H. destruct H as [H1 H2].
  destruct (Z.eq_dec i 0) as [->|N].
  - change (nthm (a :: r) 0) with a in *. replace (my a =? y) with true in H1 by lia. cbn [negb orb] in H1. destruct (Z.eqb_spec (Z.abs (mm a)) 12) as [|M]; [left; assumption|]. right.
    destruct r as [|b r]; [discriminate|]. change (nthm (a :: b :: r) (0 + 1)) with b. cbn [orb] in H1. cbn [List.length]. lia.
  - assert (Sh : forall j, 0 < j -> nthm (a :: r) j = nthm r (j - 1)).
    { intros j Hj. unfold nthm. replace (Z.to_nat j) with (Datatypes.S (Z.to_nat (j - 1))) by lia. reflexivity. }
    rewrite Sh in E by lia. rewrite !Sh by lia. specialize (IH H2 (i - 1) ltac:(cbn [List.length] in Hi; lia) E). replace (i - 1 + 1) with (i + 1 - 1) in IH by lia. cbn [List.length]. lia.
Qed.
Lemma early_closes y t t' i : 0 <= y <= 241 -> y <> 8 -> R y = Ok t -> R (y + 1) = Ok t' -> 0 <= i < Z.of_nat (List.length (lmonths t)) -> my (nthm (lmonths t) i) = y ->
  Z.abs (mm (nthm (lmonths t) i)) = 12 \/ (i + 1 < Z.of_nat (List.length (lmonths t)) /\ my (nthm (lmonths t) (i + 1)) = y).
Proof.
  intros Hy N Et Et'. pose proof (early_ok y t t' ltac:(lia) Et Et') as H. unfold early_year, first_of in H. destruct (find _ (lmonths t)) as [b|] eqn:Ea; [|discriminate]. destruct (find _ (lmonths t')) as [c|] eqn:Eb; [|discriminate].
  rewrite !andb_true_iff in H. destruct H as [[_ H] _]. replace (y =? 8) with false in H by lia. cbn [orb] in H. apply closes_nth, H.
Qed.
End EARLY.
Lemma dayCount_total t : LunarYear_getDayCount t = total (getMonthsInYear t).
Proof.
  unfold LunarYear_getDayCount, getMonthsInYear, total.
  assert (G : forall l n, fold_left (fun n m => if my m =? lyear t then n + mcount m else n) l n = n + fold_right (fun m n => mcount m + n) 0 (filter (fun m => my m =? lyear t) l)).
  { induction l as [|a l IH]; intros n; cbn [fold_left filter fold_right]; [lia|]. rewrite IH. destruct (my a =? lyear t); cbn [fold_right]; lia. }
  rewrite G. lia.
Qed.
