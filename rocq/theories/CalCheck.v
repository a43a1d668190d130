(** A test for [Calendar]: tables that fit together, decided by comparing neighbouring years. *)
From Coq Require Import ZArith Lia Bool ZifyBool List String Floats.
From Verif Require Import Py PyFloat PyStr CalSpec DayNo Solar SolarProofs LunarYear Lunar LunarProofs YearProofs CalProofs.
Import ListNotations.
Open Scope Z_scope.

(** the place of a month in its year: 1, -1, 2, -2, ... *)
Definition key (m : LMonth) : Z := 26 * my m + 2 * Z.abs (mm m) + (if mm m <? 0 then 1 else 0).
Definition sameb (a b : LMonth) : bool :=
  (mfirst a =? mfirst b) && (mcount a =? mcount b) && (mm a =? mm b) && (my a =? my b).
Definition precedes (a b : LMonth) : bool := (mfirst b =? mend a) && (key a <? key b).
Fixpoint chainb (a : LMonth) (ms : list LMonth) : bool :=
  match ms with [] => true | b :: t => if precedes a b then chainb b t else false end.
Definition monthb (y : Z) (a : LMonth) : bool :=
  (1 <=? mcount a) && (mcount a <=? 30) && (1 <=? Z.abs (mm a)) && (Z.abs (mm a) <=? 12) && (y - 1 <=? my a) && (my a <=? y + 1).
Definition tableb (y : Z) (ms : list LMonth) : bool :=
  match ms with
  | [] => false
  | a :: t => (List.length ms =? 15)%nat && chainb a t && forallb (monthb y) ms &&
      (jan1 (y - 1) <? mfirst a) && (mfirst a <=? jan1 y) &&
      (let z := mend (last ms month0) in (jan1 (y + 1) <? z) && (z <=? jan1 (y + 2)))
  end.
(** the second list begins with the rest of the first *)
Fixpoint prefixb (r ms : list LMonth) : bool :=
  match r, ms with
  | [], _ => true
  | a :: r, b :: ms => if sameb a b then prefixb r ms else false
  | _, [] => false
  end.
Fixpoint alignb (ms ms' : list LMonth) : bool :=
  match ms, ms' with
  | a :: t, b :: _ => if mfirst a =? mfirst b then prefixb ms ms' else alignb t ms'
  | _, _ => false
  end.
Definition ownb (y : Z) (ms ms' : list LMonth) : bool :=
  forallb (fun a => if my a =? y then existsb (sameb a) ms else true) ms' &&
  forallb (fun a => if my a =? y + 1 then existsb (sameb a) ms' else true) ms.
Definition apart (ms ms' : list LMonth) : bool :=
  let a := last ms month0 in let b := hd month0 ms' in (mend a <=? mfirst b) && (key a <? key b).
Fixpoint calb (y : Z) (ts : list (list LMonth)) : bool :=
  match ts with
  | [] => true
  | a :: ts' => tableb y a &&
      match ts' with
      | [] => true
      | b :: ts'' => alignb a b && ownb y a b && match ts'' with [] => true | c :: _ => apart a c end
      end && calb (y + 1) ts'
  end.

Lemma sameb_ok a b : sameb a b = true -> same_month a b.
Proof. unfold sameb, same_month. lia. Qed.
Lemma key_same a b : 1 <= Z.abs (mm a) <= 12 -> 1 <= Z.abs (mm b) <= 12 -> my a = my b -> mm a = mm b -> key a = key b.
Proof. unfold key. intros _ _ -> ->. reflexivity. Qed.

Lemma chainb_nth a t : chainb a t = true -> forall i, 0 <= i < Z.of_nat (List.length t) ->
  precedes (nthm (a :: t) i) (nthm (a :: t) (i + 1)) = true.
Proof.
  revert a. induction t as [|b t IH]; intros a H i Hi; [cbn in Hi; lia|].
  cbn [chainb] in H. destruct (precedes a b) eqn:E; [|discriminate].
  destruct (Z.eq_dec i 0) as [->|N]; [exact E|].
  assert (Sh : forall j, 0 < j -> nthm (a :: b :: t) j = nthm (b :: t) (j - 1)).
  { intros j Hj. unfold nthm. replace (Z.to_nat j) with (Datatypes.S (Z.to_nat (j - 1))) by lia. reflexivity. }
  rewrite !Sh by lia. cbn [List.length] in Hi. replace (i + 1 - 1) with (i - 1 + 1) by lia. apply IH; [exact H|lia].
Qed.
Lemma last_nth (ms : list LMonth) : forall a, last (a :: ms) month0 = nthm (a :: ms) (Z.of_nat (List.length ms)).
Proof.
  induction ms as [|b ms IH]; intros a; [reflexivity|].
  change (last (a :: b :: ms) month0) with (last (b :: ms) month0). rewrite IH. unfold nthm. cbn [List.length]. rewrite !Nat2Z.id. reflexivity.
Qed.
(** a table whose keys also increase *)
Record keyed (y : Z) (t : LYear) : Prop := mkKeyed {
  ky_wf : wf_table y t;
  ky_step : forall i, 0 <= i < 14 -> key (nthm (lmonths t) i) < key (nthm (lmonths t) (i + 1))
}.
Lemma tableb_ok y t : lyear t = y -> tableb y (lmonths t) = true -> keyed y t.
Proof.
  intros Y H. destruct (lmonths t) as [|a ms] eqn:E; [discriminate|]. unfold tableb in H. cbv zeta in H.
  rewrite !andb_true_iff in H. destruct H as (((((L & Ch) & F) & B1) & B2) & B3 & B4).
  apply Nat.eqb_eq in L. rewrite last_nth in B3, B4. rewrite forallb_forall in F.
  assert (L' : List.length ms = 14%nat) by (cbn in L; lia). rewrite L' in B3, B4. change (Z.of_nat 14) with 14 in *.
  pose proof (chainb_nth a ms Ch) as P. rewrite L' in P. change (Z.of_nat 14) with 14 in P.
  split; [split|]; rewrite ?E; try assumption.
  - intros i Hi. specialize (P i Hi). unfold precedes in P. lia.
  - intros b Ib. specialize (F b Ib). unfold monthb in F. lia.
  - change (nthm (a :: ms) 0) with a. lia.
  - lia.
  - intros i Hi. specialize (P i Hi). unfold precedes in P. lia.
Qed.
Lemma keyed_lt y t : keyed y t -> forall i j, 0 <= i < j -> j < 15 -> key (nthm (lmonths t) i) < key (nthm (lmonths t) j).
Proof.
  intros K i j Hi Hj. replace j with (i + 1 + Z.of_nat (Z.to_nat (j - i - 1))) in * by lia. set (n := Z.to_nat (j - i - 1)) in *. clearbody n.
  induction n as [|n IH]; [rewrite Z.add_0_r; apply (ky_step _ _ K); lia|].
  specialize (IH ltac:(lia) ltac:(lia)). pose proof (ky_step _ _ K (i + 1 + Z.of_nat n) ltac:(lia)).
  replace (i + 1 + Z.of_nat (S n)) with (i + 1 + Z.of_nat n + 1) by lia. lia.
Qed.
(** months in order are coherent *)
Lemma coherent_before a b : mend a <= mfirst b -> key a < key b -> coherent a b.
Proof.
  intros H K. split; [unfold overlap; lia|]. intros Y M. exfalso. unfold key in K. rewrite Y, M in K. lia.
Qed.
Lemma coherent_same a b : same_month a b -> coherent a b.
Proof. intros S. split; auto. Qed.
Lemma coherent_subst a a' b : same_month a a' -> coherent a' b -> coherent a b.
Proof.
  intros S [A B]. pose proof S as (S1 & S2 & S3 & S4). split.
  - intros [X Y]. apply (same_trans _ _ _ S). apply A. unfold overlap, mend in *. lia.
  - intros X Y. apply (same_trans _ _ _ S). apply B; congruence.
Qed.

Lemma prefixb_ok : forall r ms, prefixb r ms = true -> (List.length r <= List.length ms)%nat /\
  forall i, 0 <= i < Z.of_nat (List.length r) -> same_month (nthm r i) (nthm ms i).
Proof.
  induction r as [|a r IH]; intros ms H; [split; [cbn; lia|intros i Hi; cbn in Hi; lia]|].
  destruct ms as [|b ms]; [discriminate|]. cbn [prefixb] in H. destruct (sameb a b) eqn:E; [|discriminate].
  destruct (IH ms H) as [L S]. split; [cbn; lia|]. intros i Hi. destruct (Z.eq_dec i 0) as [->|N]; [exact (sameb_ok _ _ E)|].
  unfold nthm. replace (Z.to_nat i) with (Datatypes.S (Z.to_nat (i - 1))) by lia. cbn [nth]. apply S. cbn [List.length] in Hi. lia.
Qed.
Lemma alignb_ok : forall ms ms', alignb ms ms' = true -> exists k, 0 <= k < Z.of_nat (List.length ms) /\
  forall i, 0 <= i -> i + k < Z.of_nat (List.length ms) -> same_month (nthm ms (i + k)) (nthm ms' i).
Proof.
  induction ms as [|a ms IH]; intros ms' H; [discriminate|].
  destruct ms' as [|b ms']; [discriminate|]. cbn [alignb] in H. destruct (mfirst a =? mfirst b) eqn:E.
  - exists 0. split; [cbn [List.length]; lia|]. intros i Hi Hk. destruct (prefixb_ok _ _ H) as [_ S]. rewrite Z.add_0_r in *. apply S. lia.
  - destruct (IH _ H) as (k & Hk & S). exists (k + 1). cbn [List.length]. split; [lia|]. intros i Hi Hj.
    unfold nthm. replace (Z.to_nat (i + (k + 1))) with (Datatypes.S (Z.to_nat (i + k))) by lia. cbn [nth]. apply S; lia.
Qed.

Lemma aligned_coherent y t t' a b : keyed y t -> keyed (y + 1) t' -> alignb (lmonths t) (lmonths t') = true ->
  In a (lmonths t) -> In b (lmonths t') -> coherent a b.
Proof.
  intros K K' Al Ia Ib. destruct (alignb_ok _ _ Al) as (k & Hk & S). pose proof (ky_wf _ _ K) as W. pose proof (ky_wf _ _ K') as W'.
  rewrite (wf_length _ _ W) in Hk, S. destruct (in_nthm _ _ Ia) as (i & Hi & <-). destruct (in_nthm _ _ Ib) as (j & Hj & <-).
  rewrite (wf_length _ _ W) in Hi. rewrite (wf_length _ _ W') in Hj. change (Z.of_nat 15) with 15 in *.
  destruct (Z.lt_ge_cases (j + k) 15) as [L|L].
  - pose proof (S j ltac:(lia) ltac:(lia)) as Sj. apply coherent_sym. apply (coherent_subst _ _ _ (same_sym _ _ Sj)). apply coherent_sym.
    destruct (Z.lt_trichotomy i (j + k)) as [X|[->|X]].
    + apply coherent_before; [apply (wf_before W)|apply (keyed_lt _ _ K)]; lia.
    + apply coherent_same, same_refl.
    + apply coherent_sym, coherent_before; [apply (wf_before W)|apply (keyed_lt _ _ K)]; lia.
  - pose proof (S (14 - k) ltac:(lia) ltac:(lia)) as S14. replace (14 - k + k) with 14 in S14 by lia.
    pose proof (wf_before W' (14 - k) j ltac:(lia) ltac:(lia)) as B1. pose proof (keyed_lt _ _ K' (14 - k) j ltac:(lia) ltac:(lia)) as B2.
    destruct S14 as (S1 & S2 & S3 & S4).
    assert (Ek : key (nthm (lmonths t) 14) = key (nthm (lmonths t') (14 - k))) by (unfold key; rewrite S1, S2; reflexivity).
    pose proof (proj1 (wf_month _ _ W' _ (wf_in W' (14 - k) ltac:(lia)))) as C14.
    apply coherent_before.
    + destruct (Z.eq_dec i 14) as [->|]; [unfold mend in *; lia|]. pose proof (wf_before W i 14 ltac:(lia) ltac:(lia)). unfold mend in *. lia.
    + destruct (Z.eq_dec i 14) as [->|]; [lia|]. pose proof (keyed_lt _ _ K i 14 ltac:(lia) ltac:(lia)). lia.
Qed.
Lemma apart_coherent y t t' a b : keyed y t -> keyed (y + 2) t' -> apart (lmonths t) (lmonths t') = true ->
  In a (lmonths t) -> In b (lmonths t') -> coherent a b.
Proof.
  intros K K' Ap Ia Ib. pose proof (ky_wf _ _ K) as W. pose proof (ky_wf _ _ K') as W'.
  destruct (in_nthm _ _ Ia) as (i & Hi & <-). destruct (in_nthm _ _ Ib) as (j & Hj & <-).
  rewrite (wf_length _ _ W) in Hi. rewrite (wf_length _ _ W') in Hj. change (Z.of_nat 15) with 15 in *.
  unfold apart in Ap.
  replace (last (lmonths t) month0) with (nthm (lmonths t) 14) in Ap.
  2:{ pose proof (wf_length _ _ W) as L. destruct (lmonths t) as [|x l]; [discriminate|]. rewrite last_nth. cbn in L. now replace (Z.of_nat (List.length l)) with 14 by lia. }
  replace (hd month0 (lmonths t')) with (nthm (lmonths t') 0) in Ap by (destruct (lmonths t'); reflexivity).
  pose proof (proj1 (wf_month _ _ W _ (wf_in W i ltac:(lia)))) as Ci. pose proof (proj1 (wf_month _ _ W' _ (wf_in W' 0 ltac:(lia)))) as C0.
  pose proof (proj1 (wf_month _ _ W _ (wf_in W 14 ltac:(lia)))) as C14.
  apply coherent_before.
  - assert (mend (nthm (lmonths t) i) <= mend (nthm (lmonths t) 14)).
    { destruct (Z.eq_dec i 14) as [->|]; [lia|]. pose proof (wf_before W i 14 ltac:(lia) ltac:(lia)). unfold mend in *. lia. }
    assert (mfirst (nthm (lmonths t') 0) <= mfirst (nthm (lmonths t') j)).
    { destruct (Z.eq_dec j 0) as [->|]; [lia|]. pose proof (wf_before W' 0 j ltac:(lia) ltac:(lia)). unfold mend in *. lia. }
    lia.
  - assert (key (nthm (lmonths t) i) <= key (nthm (lmonths t) 14)).
    { destruct (Z.eq_dec i 14) as [->|]; [lia|]. pose proof (keyed_lt _ _ K i 14 ltac:(lia) ltac:(lia)). lia. }
    assert (key (nthm (lmonths t') 0) <= key (nthm (lmonths t') j)).
    { destruct (Z.eq_dec j 0) as [->|]; [lia|]. pose proof (keyed_lt _ _ K' 0 j ltac:(lia) ltac:(lia)). lia. }
    lia.
Qed.
Lemma self_coherent y t a b : keyed y t -> In a (lmonths t) -> In b (lmonths t) -> coherent a b.
Proof.
  intros K Ia Ib. pose proof (ky_wf _ _ K) as W.
  destruct (in_nthm _ _ Ia) as (i & Hi & <-). destruct (in_nthm _ _ Ib) as (j & Hj & <-). rewrite (wf_length _ _ W) in *. change (Z.of_nat 15) with 15 in *.
  destruct (Z.lt_trichotomy i j) as [X|[->|X]].
  - apply coherent_before; [apply (wf_before W)|apply (keyed_lt _ _ K)]; lia.
  - apply coherent_same, same_refl.
  - apply coherent_sym, coherent_before; [apply (wf_before W)|apply (keyed_lt _ _ K)]; lia.
Qed.
Lemma ownb_ok y ms ms' : ownb y ms ms' = true ->
  (forall a, In a ms' -> my a = y -> exists b, In b ms /\ same_month a b) /\
  (forall a, In a ms -> my a = y + 1 -> exists b, In b ms' /\ same_month a b).
Proof.
  unfold ownb. rewrite andb_true_iff, !forallb_forall. intros [A B].
  split; intros a Ia E; [specialize (A a Ia)|specialize (B a Ia)]; cbv beta in *.
  - replace (my a =? y) with true in A by lia. apply existsb_exists in A. destruct A as (b & Ib & S). exists b. split; [exact Ib|exact (sameb_ok _ _ S)].
  - replace (my a =? y + 1) with true in B by lia. apply existsb_exists in B. destruct B as (b & Ib & S). exists b. split; [exact Ib|exact (sameb_ok _ _ S)].
Qed.

Lemma calb_nth ts : forall y, calb y ts = true -> forall i, (i < List.length ts)%nat ->
  let t i := nth i ts [] in
  tableb (y + Z.of_nat i) (t i) = true /\
  ((S i < List.length ts)%nat -> alignb (t i) (t (S i)) = true /\ ownb (y + Z.of_nat i) (t i) (t (S i)) = true) /\
  ((S (S i) < List.length ts)%nat -> apart (t i) (t (S (S i))) = true).
Proof.
  induction ts as [|a ts IH]; intros y H i Hi t; [cbn in Hi; lia|]. cbn [calb] in H. rewrite !andb_true_iff in H. destruct H as [[A B] R].
  destruct i as [|i].
  - subst t. cbn [nth Z.of_nat]. rewrite Z.add_0_r. split; [exact A|].
    destruct ts as [|b ts]; [split; intros X; cbn in X; lia|]. rewrite !andb_true_iff in B. destruct B as [[B1 B2] B3].
    split; [intros _; split; assumption|]. destruct ts as [|c ts]; [intros X; cbn in X; lia|intros _; exact B3].
  - specialize (IH (y + 1) R i ltac:(cbn in Hi; lia)). cbv zeta in IH. replace (y + 1 + Z.of_nat i) with (y + Z.of_nat (S i)) in IH by lia.
    subst t. cbn [nth]. destruct IH as (I1 & I2 & I3). split; [exact I1|]. split; intros X; [apply I2|apply I3]; cbn [List.length] in X; lia.
Qed.

(** Tables whose months are the listed ones make a calendar. *)
Theorem calb_ok fy lo ts : let hi := lo + Z.of_nat (List.length ts) - 1 in
  calb lo ts = true -> -4000 <= lo -> hi <= 99999 ->
  (forall y, lo <= y <= hi -> exists t jq, fy y = Ok t /\ computeJieQi (lterms t) = Ok jq) ->
  (forall y t, lo <= y <= hi -> fy y = Ok t -> lyear t = y /\ lmonths t = nth (Z.to_nat (y - lo)) ts []) ->
  Calendar fy lo hi.
Proof.
  intros hi H Hlo Hhi Ok_ Ms.
  assert (N : forall y, lo <= y <= hi -> (Z.to_nat (y - lo) < List.length ts)%nat) by (intros y Hy; lia).
  assert (K : forall y t, lo <= y <= hi -> fy y = Ok t -> keyed y t).
  { intros y t Hy Et. destruct (Ms y t Hy Et) as [Y M]. apply tableb_ok; [exact Y|]. rewrite M.
    destruct (calb_nth ts lo H (Z.to_nat (y - lo)) (N y Hy)) as [T _]. cbv zeta in T. now replace (lo + Z.of_nat (Z.to_nat (y - lo))) with y in T by lia. }
  split.
  - lia.
  - exact Ok_.
  - intros y t Hy Et. exact (ky_wf _ _ (K y t Hy Et)).
  - intros y y' t t' a b L1 L2 L3 Et Et' Ia Ib.
    destruct (Ms y t ltac:(lia) Et) as [_ M]. destruct (Ms y' t' ltac:(lia) Et') as [_ M'].
    destruct (calb_nth ts lo H (Z.to_nat (y - lo)) (N y ltac:(lia))) as (_ & T2 & T3). cbv zeta in T2, T3.
    pose proof (K y t ltac:(lia) Et) as Ky. pose proof (K y' t' ltac:(lia) Et') as Ky'.
    destruct (Z.eq_dec y' y) as [->|]; [rewrite Et in Et'; apply Ok_inj in Et'; subst t'; exact (self_coherent _ _ _ _ Ky Ia Ib)|].
    destruct (Z.eq_dec y' (y + 1)) as [->|].
    + apply (aligned_coherent y t t'); try assumption. rewrite M, M'. replace (Z.to_nat (y + 1 - lo)) with (S (Z.to_nat (y - lo))) by lia. apply T2. lia.
    + assert (y' = y + 2) by lia. subst y'. apply (apart_coherent y t t'); try assumption. rewrite M, M'.
      replace (Z.to_nat (y + 2 - lo)) with (S (S (Z.to_nat (y - lo)))) by lia. apply T3. lia.
  - intros y t a Hy Et Ia Ha. pose proof (K y t Hy Et) as Ky. pose proof (proj2 (proj2 (wf_month _ _ (ky_wf _ _ Ky) a Ia))) as R.
    destruct (Ok_ (my a) Ha) as (t' & _ & Et' & _). destruct (Ms y t Hy Et) as [_ M]. destruct (Ms (my a) t' Ha Et') as [_ M'].
    destruct (Z.eq_dec (my a) y) as [E|]; [rewrite E in *; rewrite Et in Et'; apply Ok_inj in Et'; subst t'; exists t, a; repeat split; auto|].
    destruct (Z.eq_dec (my a) (y - 1)) as [E|].
    + destruct (calb_nth ts lo H (Z.to_nat (y - 1 - lo)) (N (y - 1) ltac:(lia))) as (_ & T2 & _). cbv zeta in T2.
      destruct (T2 ltac:(lia)) as [_ O]. apply ownb_ok in O. destruct O as [O _]. rewrite E in M'.
      replace (S (Z.to_nat (y - 1 - lo))) with (Z.to_nat (y - lo)) in O by lia. rewrite <- M, <- M' in O.
      destruct (O a Ia ltac:(lia)) as (b & Ib & S). exists t', b. auto.
    + assert (E : my a = y + 1) by lia.
      destruct (calb_nth ts lo H (Z.to_nat (y - lo)) (N y ltac:(lia))) as (_ & T2 & _). cbv zeta in T2.
      destruct (T2 ltac:(lia)) as [_ O]. apply ownb_ok in O. destruct O as [_ O]. rewrite E in M'.
      replace (S (Z.to_nat (y - lo))) with (Z.to_nat (y + 1 - lo)) in O by lia. rewrite <- M, <- M' in O.
      destruct (O a Ia ltac:(lia)) as (b & Ib & S). exists t', b. auto.
Qed.
