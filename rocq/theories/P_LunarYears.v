(** C45, C46, C52: the months of whole lunar years; the code's own tables form a calendar. *)
From Coq Require Import ZArith Lia Bool ZifyBool List String Floats.
From Verif Require Import Py PyFloat PyStr CalSpec DayNo Solar SolarProofs JulianDay P_Solar P_JD LunarUtil T_LunarUtil T_Misc ShouXing LunarYear Lunar LunarTime
  LunarProofs TermProofs YearProofs CalProofs CalCheck P_YearTable P_LunarCal Demo.
Import ListNotations.
Open Scope Z_scope.

(** ** The code's tables *)
(** LunarYear.fromYear with any C library in place of math.sin and math.cos *)
Definition real (fsin fcos : float -> float) (y : Z) : res LYear := LunarYear_new (shouxing fsin fcos) y.
Definition months_of (fsin fcos : float -> float) (y : Z) : list LMonth :=
  let sky := shouxing fsin fcos in
  match (let! jq := compute_jq sky y in let! hs := compute_hs sky jq in compute_months y hs jq) with Ok l => l | Raise _ => [] end.
Definition tables (fsin fcos : float -> float) (lo hi : Z) : list (list LMonth) := map (months_of fsin fcos) (zrange lo hi).

Lemma real_inv fsin fcos y t : real fsin fcos y = Ok t -> lyear t = y /\ lmonths t = months_of fsin fcos y.
Proof.
  unfold real, months_of, LunarYear_new. intros H.
  apply bind_ok in H. destruct H as (jq & -> & H). apply bind_ok in H. destruct H as (terms & _ & H). cbn [bind].
  apply bind_ok in H. destruct H as (hs & -> & H). cbn [bind]. apply bind_ok in H. destruct H as (ms & -> & H). apply Ok_inj in H. subst t. auto.
Qed.
Lemma zseq_length a n : List.length (zseq a n) = n.
Proof. revert a. induction n as [|n IH]; intros a; cbn; [reflexivity|now rewrite IH]. Qed.
Lemma zseq_nth n : forall a i d, (i < n)%nat -> nth i (zseq a n) d = a + Z.of_nat i.
Proof.
  induction n as [|n IH]; intros a i d H; [lia|]. destruct i as [|i]; cbn [zseq nth]; [lia|]. rewrite IH by lia. lia.
Qed.
Lemma zrange_length a b : List.length (zrange a b) = Z.to_nat (b - a).
Proof. unfold zrange. apply zseq_length. Qed.
Lemma zrange_nth a b i d : (i < Z.to_nat (b - a))%nat -> nth i (zrange a b) d = a + Z.of_nat i.
Proof. unfold zrange. apply zseq_nth. Qed.
Lemma tables_nth fsin fcos lo hi y : lo <= y < hi -> nth (Z.to_nat (y - lo)) (tables fsin fcos lo hi) [] = months_of fsin fcos y.
Proof.
  intros H. unfold tables. rewrite (nth_indep _ [] (months_of fsin fcos 0)) by (rewrite map_length, zrange_length; lia).
  rewrite map_nth. rewrite zrange_nth by lia. f_equal. lia.
Qed.

(** Up to 616 the months come from the tables of linear coefficients of the historical calendars, so the checks below hold
    whatever the C library computes.  One month has 28 days, that before the reform of AD 237. *)
Definition usual_length (a : LMonth) : bool :=
  (mcount a =? 29) || (mcount a =? 30) || (my a =? 236) && (mm a =? 12) && (mcount a =? 28).
(** After AD 240 no month begins before the first of January of its year. *)
Definition not_ahead (a : LMonth) : bool := (my a <=? 240) || (jan1 (my a) <=? mfirst a).
Definition check (lo : Z) (ts : list (list LMonth)) : bool :=
  if calb lo ts then forallb (forallb (fun a => if usual_length a then not_ahead a else false)) ts else false.
Lemma check_0_18 fsin fcos : check 0 (tables fsin fcos 0 19) = true.
Proof. vm_compute. reflexivity. Qed.
Lemma check_19_616 fsin fcos : check 19 (tables fsin fcos 19 617) = true.
Proof. vm_compute. reflexivity. Qed.
Lemma check_calb lo ts : check lo ts = true -> calb lo ts = true.
Proof. unfold check. destruct (calb lo ts); [reflexivity|discriminate]. Qed.
Lemma check_table fsin fcos lo hi y t : check lo (tables fsin fcos lo (hi + 1)) = true -> lo <= y <= hi -> real fsin fcos y = Ok t ->
  keyed y t /\ forall a, In a (lmonths t) -> usual_length a = true /\ not_ahead a = true.
Proof.
  intros H Hy Et. destruct (real_inv _ _ _ _ Et) as [Y M]. pose proof (tables_nth fsin fcos lo (hi + 1) y ltac:(lia)) as N. rewrite <- M in N.
  assert (L : (Z.to_nat (y - lo) < List.length (tables fsin fcos lo (hi + 1)))%nat) by (unfold tables; rewrite map_length, zrange_length; lia).
  destruct (calb_nth _ _ (check_calb _ _ H) _ L) as [T _]. cbv zeta in T. rewrite N in T.
  replace (lo + Z.of_nat (Z.to_nat (y - lo))) with y in T by lia. split; [exact (tableb_ok _ _ Y T)|].
  unfold check in H. destruct (calb lo _); [|discriminate]. rewrite forallb_forall in H.
  pose proof (H (lmonths t)) as X. rewrite forallb_forall in X. intros a Ia. specialize (X ltac:(rewrite <- N; apply nth_In; exact L) a Ia).
  destruct (usual_length a); [split; [reflexivity|exact X]|discriminate].
Qed.

(** The solar terms of the years are computed and converted without an exception.  (Their instants do go through sin and cos.) *)
Definition terms_convert (fsin fcos : float -> float) (lo hi : Z) : Prop :=
  forall y, lo <= y <= hi -> exists t jq, real fsin fcos y = Ok t /\ computeJieQi (lterms t) = Ok jq.
Lemma real_cal fsin fcos lo hi : calb lo (tables fsin fcos lo (hi + 1)) = true -> -4000 <= lo <= hi -> hi <= 99999 ->
  terms_convert fsin fcos lo hi -> Calendar (real fsin fcos) lo hi.
Proof.
  intros H L Hh T. assert (E : lo + Z.of_nat (List.length (tables fsin fcos lo (hi + 1))) - 1 = hi)
    by (unfold tables; rewrite map_length, zrange_length; lia).
  rewrite <- E. apply calb_ok; [exact H|lia|lia|rewrite E; exact T|].
  rewrite E. intros y t Hy Et. destruct (real_inv _ _ _ _ Et) as [Y M]. split; [exact Y|].
  rewrite tables_nth by lia. exact M.
Qed.
Theorem C46_real_calendar : forall fsin fcos,
  (terms_convert fsin fcos 0 18 -> Calendar (real fsin fcos) 0 18) /\
  (terms_convert fsin fcos 19 616 -> Calendar (real fsin fcos) 19 616).
Proof. intros fsin fcos. split; intros T; apply real_cal; try lia; [apply check_calb, check_0_18|exact T|apply check_calb, check_19_616|exact T]. Qed.

(** ** C45: the months tile the time line *)
Theorem C45_months_tile : forall fsin fcos y t, 0 <= y <= 616 -> real fsin fcos y = Ok t ->
  List.length (lmonths t) = 15%nat /\
  (forall i, 0 <= i < 14 -> mfirst (month t (i + 1)) = mfirst (month t i) + mcount (month t i)) /\
  (forall i, 0 <= i < 15 -> mcount (month t i) = 29 \/ mcount (month t i) = 30 \/
     (my (month t i) = 236 /\ mm (month t i) = 12 /\ mcount (month t i) = 28)) /\
  mfirst (month t 0) <= dayno (y, 1, 1) /\ dayno (y, 12, 31) < mfirst (month t 14) + mcount (month t 14).
Proof.
  intros fsin fcos y t Hy Et.
  assert (H : keyed y t /\ forall a, In a (lmonths t) -> usual_length a = true /\ not_ahead a = true).
  { destruct (Z.le_gt_cases y 18).
    - apply (check_table fsin fcos 0 18); [apply check_0_18|lia|exact Et].
    - apply (check_table fsin fcos 19 616); [apply check_19_616|lia|exact Et]. }
  destruct H as [K U]. pose proof (ky_wf _ _ K) as W. unfold month.
  split; [exact (wf_length _ _ W)|]. split; [exact (wf_contig _ _ W)|].
  split; [intros i Hi; destruct (U _ (wf_in W i Hi)) as [U' _]; unfold usual_length in U'; lia|].
  pose proof (wf_first _ _ W). pose proof (wf_last _ _ W). unfold jan1, mend in *. split; [lia|].
  assert (V : valid_date (y, 12, 31)) by (unfold valid_date; cbn; lia).
  pose proof (jan1_bounds _ _ _ V). unfold jan1 in *. lia.
Qed.
(** so every day of such a year lies in exactly one month of its table *)
Theorem C45_every_day : forall fsin fcos y t m d, 0 <= y <= 616 -> real fsin fcos y = Ok t -> valid_date (y, m, d) ->
  exists i, 0 <= i < 15 /\ mfirst (month t i) <= dayno (y, m, d) < mfirst (month t i) + mcount (month t i) /\
    forall j, 0 <= j < 15 -> mfirst (month t j) <= dayno (y, m, d) < mfirst (month t j) + mcount (month t j) -> j = i.
Proof.
  intros fsin fcos y t m d Hy Et V.
  assert (K : keyed y t).
  { destruct (Z.le_gt_cases y 18).
    - apply (check_table fsin fcos 0 18); [apply check_0_18|lia|exact Et].
    - apply (check_table fsin fcos 19 616); [apply check_19_616|lia|exact Et]. }
  pose proof (ky_wf _ _ K) as W. pose proof (jan1_bounds _ _ _ V). pose proof (wf_first _ _ W). pose proof (wf_last _ _ W).
  destruct (wf_cover W (dayno (y, m, d)) ltac:(lia)) as (i & Hi & Ci). exists i. split; [exact Hi|]. split; [exact Ci|].
  intros j Hj Cj. unfold month in *. destruct (Z.lt_trichotomy i j) as [X|[->|X]]; [|reflexivity|].
  - pose proof (wf_before W i j ltac:(lia) ltac:(lia)). lia.
  - pose proof (wf_before W j i ltac:(lia) ltac:(lia)). unfold mend in *. lia.
Qed.

(** ** C46: neighbouring tables agree *)
Theorem C46_neighbours : forall fsin fcos y t t' a b, 0 <= y <= 615 -> y <> 18 ->
  real fsin fcos y = Ok t -> real fsin fcos (y + 1) = Ok t' -> In a (lmonths t) -> In b (lmonths t') ->
  (my a = my b /\ mm a = mm b \/
   (exists n, mfirst a <= n < mfirst a + mcount a /\ mfirst b <= n < mfirst b + mcount b)) ->
  my a = my b /\ mm a = mm b /\ mfirst a = mfirst b /\ mcount a = mcount b.
Proof.
  intros fsin fcos y t t' a b Hy N Et Et' Ia Ib H.
  assert (X : keyed y t /\ keyed (y + 1) t' /\ alignb (lmonths t) (lmonths t') = true).
  { assert (G : forall lo hi, check lo (tables fsin fcos lo (hi + 1)) = true -> lo <= y < hi -> keyed y t /\ keyed (y + 1) t' /\ alignb (lmonths t) (lmonths t') = true).
    { intros lo hi Ck R. destruct (check_table _ _ lo hi y t Ck ltac:(lia) Et) as [K _]. destruct (check_table _ _ lo hi (y + 1) t' Ck ltac:(lia) Et') as [K' _].
      split; [exact K|]. split; [exact K'|]. destruct (real_inv _ _ _ _ Et) as [_ M]. destruct (real_inv _ _ _ _ Et') as [_ M'].
      rewrite M, M', <- (tables_nth fsin fcos lo (hi + 1) y), <- (tables_nth fsin fcos lo (hi + 1) (y + 1)) by lia.
      replace (Z.to_nat (y + 1 - lo)) with (S (Z.to_nat (y - lo))) by lia.
      assert (L : (S (Z.to_nat (y - lo)) < List.length (tables fsin fcos lo (hi + 1)))%nat) by (unfold tables; rewrite map_length, zrange_length; lia).
      destruct (calb_nth _ _ (check_calb _ _ Ck) (Z.to_nat (y - lo)) ltac:(lia)) as (_ & T & _). now apply T. }
    destruct (Z.le_gt_cases y 18); [apply (G 0 18); [apply check_0_18|lia]|apply (G 19 616); [apply check_19_616|lia]]. }
  destruct X as (K & K' & Al). destruct (aligned_coherent y t t' a b K K' Al Ia Ib) as [O S].
  destruct H as [[H1 H2]|(n & H1 & H2)]; [exact (S H1 H2)|]. apply O. unfold overlap, mend. lia.
Qed.
(** The tables of AD 18 and 19 do not: the month that began on day 1728022 (25 January 19) is month 2 of 19 in the one and the leap
    month 1 in the other. *)
Theorem C46_refuted : forall fsin fcos t t', real fsin fcos 18 = Ok t -> real fsin fcos 19 = Ok t' ->
  exists a b, In a (lmonths t) /\ In b (lmonths t') /\ mfirst a = mfirst b /\ my a = 19 /\ my b = 19 /\ mm a = 2 /\ mm b = -1.
Proof.
  intros fsin fcos t t' Et Et'. destruct (real_inv _ _ _ _ Et) as [_ M]. destruct (real_inv _ _ _ _ Et') as [_ M'].
  exists (nthm (lmonths t) 14), (nthm (lmonths t') 2). rewrite M, M'.
  assert (E : nthm (months_of fsin fcos 18) 14 = mkLMonth 19 2 30 1728022 2 /\ nthm (months_of fsin fcos 19) 2 = mkLMonth 19 (-1) 30 1728022 2 /\
    List.length (months_of fsin fcos 18) = 15%nat /\ List.length (months_of fsin fcos 19) = 15%nat) by (vm_compute; repeat split).
  destruct E as (E1 & E2 & L1 & L2). split; [apply nthm_in; rewrite L1; lia|]. split; [apply nthm_in; rewrite L2; lia|].
  rewrite E1, E2. repeat split.
Qed.
(** The index of a month, from which getZhi and getGanZhi are computed, depends on the table it is taken from. *)
Theorem C46_index_refuted : forall fsin fcos t t', real fsin fcos 301 = Ok t -> real fsin fcos 302 = Ok t' ->
  exists a b, In a (lmonths t) /\ In b (lmonths t') /\ mfirst a = mfirst b /\ my a = 301 /\ my b = 301 /\ mm a = 11 /\ mm b = 11 /\
    mindex a = 12 /\ mindex b = 11 /\ LunarMonth_getZhiIndex a <> LunarMonth_getZhiIndex b.
Proof.
  intros fsin fcos t t' Et Et'. destruct (real_inv _ _ _ _ Et) as [_ M]. destruct (real_inv _ _ _ _ Et') as [_ M'].
  exists (nthm (lmonths t) 13), (nthm (lmonths t') 0). rewrite M, M'.
  assert (E : nthm (months_of fsin fcos 301) 13 = mkLMonth 301 11 29 1831349 12 /\ nthm (months_of fsin fcos 302) 0 = mkLMonth 301 11 29 1831349 11 /\
    List.length (months_of fsin fcos 301) = 15%nat /\ List.length (months_of fsin fcos 302) = 15%nat) by (vm_compute; repeat split).
  destruct E as (E1 & E2 & L1 & L2). split; [apply nthm_in; rewrite L1; lia|]. split; [apply nthm_in; rewrite L2; lia|].
  rewrite E1, E2. repeat split. vm_compute. discriminate.
Qed.
(** LunarMonth.next walks from one table to the other through that month, and so skips the leap month of AD 19. *)
Definition months18 : list LMonth := Eval vm_compute in months_of (fun x => x) (fun x => x) 18.
Definition months19 : list LMonth := Eval vm_compute in months_of (fun x => x) (fun x => x) 19.
Lemma skips_leap fy g z tm g' z' tm' : fy 18 = Ok (mkLYear 18 g z months18 tm) -> fy 19 = Ok (mkLYear 19 g' z' months19 tm') ->
  LunarMonth_next fy (mkLMonth 18 12 30 1727963 12) 2 = Ok (Some (mkLMonth 19 2 29 1728052 3)).
Proof.
  intros E E'. unfold LunarMonth_next. cbn [Z.eqb my mm]. rewrite E. cbn [bind lmonths].
  set (m := months18) in *. vm_compute. rewrite E'. vm_compute. reflexivity.
Qed.
Theorem C51_refuted : forall fsin fcos t t', real fsin fcos 18 = Ok t -> real fsin fcos 19 = Ok t' ->
  exists m b c, getMonth t 12 = Some m /\ LunarMonth_next (real fsin fcos) m 2 = Ok (Some b) /\ my b = 19 /\ mm b = 2 /\
    getMonth t' (-1) = Some c /\ mfirst m < mfirst c < mfirst b.
Proof.
  intros fsin fcos t t' Et Et'. destruct (real_inv _ _ _ _ Et) as [Y M]. destruct (real_inv _ _ _ _ Et') as [Y' M'].
  assert (E1 : months_of fsin fcos 18 = months18) by (vm_compute; reflexivity).
  assert (E2 : months_of fsin fcos 19 = months19) by (vm_compute; reflexivity).
  destruct t as [y g z ms tm], t' as [y' g' z' ms' tm']. cbn [lyear lmonths] in *. subst y y' ms ms'. rewrite E1 in Et. rewrite E2 in Et'. rewrite E1, E2.
  exists (mkLMonth 18 12 30 1727963 12), (mkLMonth 19 2 29 1728052 3), (mkLMonth 19 (-1) 30 1728022 2).
  split; [reflexivity|]. split; [exact (skips_leap _ _ _ _ _ _ _ Et Et')|]. repeat split.
Qed.

(** ** C52: the months of a lunar year *)
(** The numbers of the months of a year: plain, or with leap month [k]. *)
Definition plain_year : list Z := zrange 1 13.
Definition leap_year (k : Z) : list Z := zrange 1 (k + 1) ++ [- k] ++ zrange (k + 1) 13.
Definition total (ms : list LMonth) : Z := fold_right (fun m n => mcount m + n) 0 ms.

Fixpoint linked (l : list LMonth) : Prop :=
  match l with
  | a :: ((b :: _) as t) => mfirst b = mend a /\ my a <= my b /\ linked t
  | _ => True
  end.
Lemma linked_nth l : (forall i, 0 <= i < Z.of_nat (List.length l) - 1 -> mfirst (nthm l (i + 1)) = mend (nthm l i) /\ my (nthm l i) <= my (nthm l (i + 1))) <-> linked l.
Proof.
  induction l as [|a [|b t] IH]; [split; [exact (fun _ => I)|intros _ i Hi; cbn in Hi; lia]|split; [exact (fun _ => I)|intros _ i Hi; cbn in Hi; lia]|].
  assert (Sh : forall i, 0 <= i -> nthm (a :: b :: t) (i + 1) = nthm (b :: t) i).
  { intros i Hi. unfold nthm. replace (Z.to_nat (i + 1)) with (Datatypes.S (Z.to_nat i)) by lia. reflexivity. }
  split.
  - intros H. destruct (H 0) as [H1 H2]; [cbn [List.length]; lia|]. split; [exact H1|]. split; [exact H2|]. apply IH.
    intros i Hi. rewrite <- !Sh by lia. apply H. cbn [List.length] in *. lia.
  - intros (H1 & H2 & H3) i Hi. destruct (Z.eq_dec i 0) as [->|N]; [split; assumption|].
    replace i with (i - 1 + 1) by lia. rewrite !Sh by lia. apply (proj2 IH H3). cbn [List.length] in *. lia.
Qed.
Lemma linked_ge b t : linked (b :: t) -> forall c, In c (b :: t) -> my b <= my c.
Proof.
  revert b. induction t as [|c t IH]; intros b H x [<-|I]; try lia; [destruct I|].
  destruct H as (_ & H & H'). specialize (IH c H' x I). lia.
Qed.
Lemma linked_filter y l : linked l -> linked (filter (fun m => my m =? y) l).
Proof.
  induction l as [|a [|b t] IH]; intros H; [exact I|cbn; destruct (my a =? y); exact I|].
  pose proof (linked_ge b t) as G. destruct H as (H1 & H2 & H3). specialize (IH H3). specialize (G H3).
  change (filter (fun m => my m =? y) (a :: b :: t)) with (if my a =? y then a :: filter (fun m => my m =? y) (b :: t) else filter (fun m => my m =? y) (b :: t)).
  destruct (Z.eqb_spec (my a) y) as [E|]; [|exact IH].
  destruct (Z.eq_dec (my b) y) as [Eb|Nb].
  - cbn [filter] in *. replace (my b =? y) with true in * by lia. split; [exact H1|]. split; [exact H2|exact IH].
  - assert (N : filter (fun m => my m =? y) (b :: t) = []).
    { destruct (filter (fun m => my m =? y) (b :: t)) as [|c r] eqn:F; [reflexivity|].
      assert (I : In c (filter (fun m => my m =? y) (b :: t))) by (rewrite F; left; reflexivity).
      apply filter_In in I. destruct I as [I X]. specialize (G c I). lia. }
    rewrite N. exact I.
Qed.
(** Number and year of each month as a function of the position of the leap month. *)
Definition year_at (leap i : Z) : Z :=
  (if (if leap <=? 2 then 3 else 2) <=? i then 1 else 0) + (if (i =? 14) && (14 <? leap) then 1 else 0).
Lemma civil_months sky y t : LunarYear_new sky y = Ok t -> (forall i, 0 <= i < 15 -> usage_of (mfirst (month t i)) = Civil) ->
  exists leap, 1 <= leap <= 16 /\ leap <> 15 /\
  forall i, 0 <= i < 15 -> mm (month t i) = (if i =? leap then - number leap i else number leap i) /\
    my (month t i) = y - 1 + year_at leap i.
Proof.
  intros H U. destruct (LunarYear_new_inv _ _ _ H) as (jq & terms & hs & leap & _ & _ & _ & El & Em & _ & _ & _ & _ & Lj & Lh & _).
  pose proof (leap_range _ _ _ _ Lh Lj El) as R. exists leap. split; [lia|]. split; [lia|].
  apply months_from_spec in Em; [|lia]. destruct Em as (_ & _ & S). unfold month in *.
  assert (M : forall i, 0 <= i < 15 -> mm (nthm (lmonths t) i) = if i =? leap then - number leap i else number leap i).
  { intros i Hi. destruct (S i ltac:(lia)) as (A & _ & C & _ & _). change (0 + i) with i in *. rewrite <- A in C.
    rewrite C. rewrite signed_plain by (rewrite (U i Hi); discriminate). rewrite number'_civil by apply (U i Hi). reflexivity. }
  intros i Hi. split; [apply M; exact Hi|].
  destruct Hi as [Hi Hi']. revert Hi'. pattern i. revert i Hi. apply natlike_ind.
  - intros _. destruct (S 0 ltac:(lia)) as (_ & _ & _ & D & _). rewrite D by reflexivity. cbn [Z.eqb]. unfold year_at. cbn [Z.eqb andb].
    destruct (leap <=? 2); cbn; lia.
  - intros i Hi IH Hi'. specialize (IH ltac:(lia)). replace (Z.succ i) with (i + 1) in * by lia.
    destruct (S i ltac:(lia)) as (A & _). destruct (S (i + 1) ltac:(lia)) as (A' & _ & _ & _ & E'). specialize (E' ltac:(lia)).
    replace (i + 1 - 1) with i in E' by lia. rewrite E', IH.
    replace (0 + (i + 1) - 1) with (0 + i) by lia. rewrite <- A', <- A. rewrite !number'_civil by (apply U; lia).
    change (0 + (i + 1)) with (i + 1). change (0 + i) with i. rewrite <- Z.add_assoc. f_equal.
    assert (T : forallb (fun leap => forallb (fun i => (year_at leap i + (if number leap (i + 1) <? number leap i then 1 else 0) =? year_at leap (i + 1)) || (leap =? 15)) (zrange 0 14)) (zrange 1 17) = true)
      by (vm_compute; reflexivity).
    pose proof (forallb_zrange _ _ _ T leap ltac:(lia)) as T1. cbv beta in T1. pose proof (forallb_zrange _ _ _ T1 i ltac:(lia)) as T2. cbv beta in T2. lia.
Qed.

Theorem C52_months_of_year : forall sky y t, LunarYear_new sky y = Ok t ->
  (forall i, 0 <= i < 15 -> usage_of (mfirst (month t i)) = Civil) ->
  let ms := getMonthsInYear t in
  ((map mm ms = plain_year /\ getLeapMonth t = 0) \/
   (exists k, 1 <= k <= 12 /\ map mm ms = leap_year k /\ getLeapMonth t = k)) /\
  LunarYear_getDayCount t = total ms /\
  (forall a, In a ms <-> In a (lmonths t) /\ my a = y) /\
  (forall i, 0 <= i < Z.of_nat (List.length ms) - 1 -> mfirst (nthm ms (i + 1)) = mfirst (nthm ms i) + mcount (nthm ms i)).
Proof.
  intros sky y t H U ms. destruct (C44_shape sky y t H) as (L & Y & Co).
  destruct (civil_months sky y t H U) as (leap & R1 & R2 & F).
  split; [|split; [|split]].
  3:{ intros a. unfold ms, getMonthsInYear. rewrite filter_In, Y. split; intros [A B]; split; try assumption; lia. }
  2:{ unfold LunarYear_getDayCount, ms, getMonthsInYear, total. rewrite Y.
      assert (G : forall l n, fold_left (fun n m => if my m =? y then n + mcount m else n) l n = n + fold_right (fun m n => mcount m + n) 0 (filter (fun m => my m =? y) l)).
      { induction l as [|a l IH]; intros n; cbn [fold_left filter fold_right]; [lia|]. rewrite IH. destruct (my a =? y); cbn [fold_right]; lia. }
      rewrite G. lia. }
  - set (f := fun m => (my m - y, mm m)). set (g := fun i => (year_at leap i - 1, if i =? leap then - number leap i else number leap i)).
    assert (Ef : map f (lmonths t) = map g (zrange 0 15)).
    { apply (nth_ext _ _ (f month0) (g 0)); [rewrite !map_length, L; reflexivity|]. rewrite map_length, L. intros n Hn.
      rewrite !map_nth. rewrite (zrange_nth 0 15 n 0 Hn). destruct (F (Z.of_nat n) ltac:(lia)) as [F1 F2].
      unfold month, nthm in F1, F2. rewrite Nat2Z.id in F1, F2. unfold f, g. rewrite F1, F2. change (0 + Z.of_nat n) with (Z.of_nat n). f_equal. lia. }
    assert (E1 : map mm ms = map snd (filter (fun p => fst p =? 0) (map f (lmonths t)))).
    { unfold ms, getMonthsInYear. rewrite Y. clear. induction (lmonths t) as [|a l IH]; [reflexivity|]. cbn [filter map].
      unfold f at 1. cbn [fst]. replace (my a - y =? 0) with (my a =? y) by lia. destruct (my a =? y); cbn [map]; [f_equal; exact IH|exact IH]. }
    assert (E2 : getLeapMonth t = match find (fun p => (fst p =? 0) && (snd p <? 0)) (map f (lmonths t)) with Some p => Z.abs (snd p) | None => 0 end).
    { unfold getLeapMonth. rewrite Y. clear. unfold isLeap. induction (lmonths t) as [|a l IH]; [reflexivity|]. cbn [find map].
      change (fst (f a)) with (my a - y). change (snd (f a)) with (mm a). replace (my a - y =? 0) with (my a =? y) by lia. destruct ((my a =? y) && (mm a <? 0)); [reflexivity|exact IH]. }
    rewrite E1, E2, Ef. clear E1 E2 Ef F U H Co L Y ms f. subst g.
    assert (Cs : leap = 1 \/ leap = 2 \/ leap = 16 \/ 3 <= leap <= 14) by lia.
    destruct Cs as [C|[C|[C|C]]]; [subst leap; left; vm_compute; split; reflexivity ..|]. right.
    exists (leap - 2). split; [lia|].
    assert (Cs : leap = 3 \/ leap = 4 \/ leap = 5 \/ leap = 6 \/ leap = 7 \/ leap = 8 \/ leap = 9 \/ leap = 10 \/ leap = 11 \/ leap = 12 \/ leap = 13 \/ leap = 14) by lia.
    destruct Cs as [C'|[C'|[C'|[C'|[C'|[C'|[C'|[C'|[C'|[C'|[C'|C']]]]]]]]]]]; subst leap; vm_compute; split; reflexivity.
  - assert (K : linked (lmonths t)).
    { apply linked_nth. rewrite L. change (Z.of_nat 15) with 15. intros i Hi. split; [apply Co; lia|].
      destruct (F i ltac:(lia)) as [_ Fi]. destruct (F (i + 1) ltac:(lia)) as [_ Fj]. unfold month in *. rewrite Fi, Fj.
      unfold year_at. repeat match goal with |- context [if ?b then _ else _] => destruct b eqn:? end; lia. }
    apply (linked_filter y) in K. intros i Hi. unfold ms, getMonthsInYear in *. rewrite Y in *. apply (proj2 (linked_nth _) K i Hi).
Qed.

Lemma total_linked l : l <> [] -> linked l -> total l = mend (nthm l (Z.of_nat (List.length l) - 1)) - mfirst (nthm l 0).
Proof.
  induction l as [|a [|b t] IH]; intros N H; [congruence|unfold total, nthm, mend; cbn; lia|].
  destruct H as (H1 & _ & H3). specialize (IH ltac:(discriminate) H3). change (total (a :: b :: t)) with (mcount a + total (b :: t)). rewrite IH.
  assert (Sh : nthm (a :: b :: t) (Z.of_nat (List.length (a :: b :: t)) - 1) = nthm (b :: t) (Z.of_nat (List.length (b :: t)) - 1)).
  { unfold nthm. cbn [List.length].
    replace (Z.to_nat (Z.of_nat (S (S (List.length t))) - 1)) with (Datatypes.S (Z.to_nat (Z.of_nat (S (List.length t)) - 1))) by lia. reflexivity. }
  rewrite Sh. change (nthm (a :: b :: t) 0) with a. change (nthm (b :: t) 0) with b. unfold mend in *. lia.
Qed.
(** The length of a lunar year is the distance to the first day of the next. *)
Theorem C52_next_new_year : forall sky lo hi y t t', Calendar (LunarYear_new sky) lo hi -> lo <= y -> y + 1 <= hi ->
  LunarYear_new sky y = Ok t -> LunarYear_new sky (y + 1) = Ok t' ->
  (forall i, 0 <= i < 15 -> usage_of (mfirst (month t i)) = Civil) -> (forall i, 0 <= i < 15 -> usage_of (mfirst (month t' i)) = Civil) ->
  exists a b, getMonth t 1 = Some a /\ getMonth t' 1 = Some b /\ mfirst b = mfirst a + LunarYear_getDayCount t.
Proof.
  intros sky lo hi y t t' C Hy Hy' Et Et' U U'.
  pose proof (cal_wf C y t ltac:(lia) Et) as W. pose proof (cal_wf C (y + 1) t' ltac:(lia) Et') as W'.
  destruct (C52_months_of_year sky y t Et U) as (Nu & Tot & Mem & Lk). set (ms := getMonthsInYear t) in *.
  destruct (civil_months sky (y + 1) t' Et' U') as (leap & R1 & R2 & F).
  set (k := if leap <=? 2 then 3 else 2).
  assert (Hk : 2 <= k <= 3) by (unfold k; destruct (leap <=? 2); lia).
  assert (N : mm (month t' k) = 1 /\ my (month t' k) = y + 1 /\ my (month t' (k - 1)) = y).
  { destruct (F k ltac:(lia)) as [F1 F2]. destruct (F (k - 1) ltac:(lia)) as [_ F3]. rewrite F1, F2, F3.
    assert (T : forallb (fun leap => let k := if leap <=? 2 then 3 else 2 in (leap =? 15) ||
       ((year_at leap k =? 1) && (year_at leap (k - 1) =? 0) && ((if k =? leap then - number leap k else number leap k) =? 1))) (zrange 1 17) = true) by (vm_compute; reflexivity).
    pose proof (forallb_zrange _ _ _ T leap ltac:(lia)) as T1. cbv beta zeta in T1. fold k in T1.
    destruct (leap =? 15) eqn:E15; [lia|]. cbn [orb] in T1. rewrite !andb_true_iff in T1. destruct T1 as [[T1 T2] T3].
    apply Z.eqb_eq in T1, T2, T3. rewrite T1, T2, T3. lia. }
  destruct N as (N1 & N2 & N3). unfold month in *.
  pose proof (wf_in W' k ltac:(lia)) as Ik. pose proof (wf_in W' (k - 1) ltac:(lia)) as Ik'.
  pose proof (wf_contig _ _ W' (k - 1) ltac:(lia)) as Ck. replace (k - 1 + 1) with k in Ck by lia.
  destruct (cal_own _ _ _ C (y + 1) t' _ ltac:(lia) Et' Ik' ltac:(lia)) as (t0 & c & Et0 & Ic & (S1 & S2 & S3 & S4)).
  rewrite N3, Et in Et0. apply Ok_inj in Et0. subst t0.
  assert (Im : In c ms) by (apply Mem; split; [exact Ic|congruence]).
  destruct (in_nthm _ _ Im) as (p & Hp & Ep).
  assert (P : p = Z.of_nat (List.length ms) - 1).
  { destruct (Z.eq_dec p (Z.of_nat (List.length ms) - 1)) as [|Np]; [assumption|]. exfalso.
    specialize (Lk p ltac:(lia)). assert (Id : In (nthm ms (p + 1)) ms) by (apply nthm_in; lia). apply Mem in Id. destruct Id as [Id Yd].
    pose proof (proj1 (wf_month _ _ W _ Id)). pose proof (proj1 (wf_month _ _ W' _ Ik)).
    destruct (month_unique C y (y + 1) t t' (nthm ms (p + 1)) (nthm (lmonths t') k) (mfirst (nthm (lmonths t') k)) ltac:(lia) ltac:(lia) Et Et' Id Ik) as (X & _);
      [unfold mend in *; rewrite Lk, Ep; lia|unfold mend; lia|lia]. }
  assert (Nn : ms <> []) by (intros X; rewrite X in Im; exact Im).
  assert (Lkd : linked ms).
  { apply linked_nth. intros i Hi. split; [apply Lk; exact Hi|].
    assert (I1 : In (nthm ms i) ms) by (apply nthm_in; lia). assert (I2 : In (nthm ms (i + 1)) ms) by (apply nthm_in; lia).
    apply Mem in I1, I2. lia. }
  pose proof (total_linked ms Nn Lkd) as Tl. rewrite <- P, Ep in Tl.
  assert (M1 : mm (nthm ms 0) = 1).
  { assert (H : mm (nthm ms 0) = nth 0 (map mm ms) (mm month0)) by (unfold nthm; rewrite map_nth; reflexivity). rewrite H.
    destruct Nu as [[-> _]|(kk & Hkk & -> & _)]; [reflexivity|]. unfold leap_year. rewrite zrange_cons by lia. reflexivity. }
  assert (I0 : In (nthm ms 0) ms) by (apply nthm_in; destruct ms; [congruence|cbn [List.length]; lia]). apply Mem in I0. destruct I0 as [I0 Y0].
  destruct (getMonth_same C y t _ ltac:(lia) Et I0 Y0) as (a & Ea & _ & (_ & _ & Sa & _)). rewrite M1 in Ea.
  destruct (getMonth_same C (y + 1) t' _ ltac:(lia) Et' Ik N2) as (b & Eb & _ & (_ & _ & Sb & _)). rewrite N1 in Eb.
  exists a, b. split; [exact Ea|]. split; [exact Eb|]. rewrite Tot, Tl, <- Sa, <- Sb, Ck. unfold mend. lia.
Qed.

(** Nothing unusual happens after AD 240. *)
Theorem C52_civil : forall fy lo hi y t i, Calendar fy lo hi -> lo <= y <= hi -> 241 <= y -> fy y = Ok t -> 0 <= i < 15 ->
  usage_of (mfirst (month t i)) = Civil.
Proof.
  intros fy lo hi y t i C Hy H Et Hi. pose proof (cal_wf C y t Hy Et) as W.
  pose proof (proj1 (wf_bounds W _ (wf_in W i Hi))) as B.
  assert (J : jan1 240 <= jan1 (y - 1)) by (destruct (Z.eq_dec y 241) as [->|]; [apply Z.le_refl|pose proof (jan1_mono 240 (y - 1)); lia]).
  assert (1808700 <= jan1 240) by (vm_compute; discriminate). unfold month, usage_of.
  set (x := mfirst (nthm (lmonths t) i)) in *. clearbody x. clear W C.
  replace ((1724360 <=? x) && (x <? 1729794) || (1807724 <=? x) && (x <? 1808699)) with false by lia.
  replace ((x =? 1729794) || (x =? 1808699)) with false by lia. reflexivity.
Qed.
(** Hence for the years 241..615 of the code, whatever the C library computes. *)
Theorem C52_real : forall fsin fcos y t t', terms_convert fsin fcos 19 616 -> 241 <= y <= 615 ->
  real fsin fcos y = Ok t -> real fsin fcos (y + 1) = Ok t' ->
  ((map mm (getMonthsInYear t) = plain_year /\ getLeapMonth t = 0) \/
   (exists k, 1 <= k <= 12 /\ map mm (getMonthsInYear t) = leap_year k /\ getLeapMonth t = k)) /\
  exists a b, getMonth t 1 = Some a /\ getMonth t' 1 = Some b /\ mfirst b - mfirst a = total (getMonthsInYear t) /\
    LunarYear_getDayCount t = total (getMonthsInYear t).
Proof.
  intros fsin fcos y t t' T Hy Et Et'. pose proof (proj2 (C46_real_calendar fsin fcos) T) as C.
  pose proof (fun i => C52_civil _ _ _ y t i C ltac:(lia) ltac:(lia) Et) as U.
  pose proof (fun i => C52_civil _ _ _ (y + 1) t' i C ltac:(lia) ltac:(lia) Et') as U'.
  destruct (C52_months_of_year _ y t Et U) as (Nu & Tot & _ & _). split; [exact Nu|].
  destruct (C52_next_new_year _ _ _ y t t' C ltac:(lia) ltac:(lia) Et Et' U U') as (a & b & Ea & Eb & E). exists a, b.
  repeat split; try assumption. lia.
Qed.
(** In the reform years it is otherwise: AD 8 has eleven ordinary months and a leap month, and no month 12. *)
Theorem C52_refuted : forall fsin fcos t, real fsin fcos 8 = Ok t -> map mm (getMonthsInYear t) = [1; -1; 2; 3; 4; 5; 6; 7; 8; 9; 10; 11].
Proof.
  intros fsin fcos t Et. destruct (real_inv _ _ _ _ Et) as [Y M]. unfold getMonthsInYear. rewrite Y, M. vm_compute. reflexivity.
Qed.

(** ** The lunar year is never ahead of the solar year after AD 240 *)
Definition civil (fy : Z -> res LYear) (lo hi : Z) : Prop := forall y t a, lo <= y <= hi -> fy y = Ok t -> In a (lmonths t) -> jan1 (my a) <= mfirst a.
Lemma cal_sub fy lo hi lo' hi' : Calendar fy lo hi -> lo <= lo' -> hi' <= hi -> Calendar fy lo' hi'.
Proof.
  intros C L H. pose proof (cal_range _ _ _ C) as R. constructor; [lia|..].
  - intros y Hy. apply (cal_ok _ _ _ C). lia.
  - intros y t Hy. apply (cal_table _ _ _ C). lia.
  - intros y y' t t' a b H1 H2 H3. apply (cal_agree _ _ _ C); lia.
  - intros y t a Hy Et Ia Hm. apply (cal_own _ _ _ C y t a); try assumption; lia.
Qed.
Lemma civil_year fy lo hi s l : Calendar fy lo hi -> civil fy lo hi -> valid_solar s -> lo < sy s < hi -> getLunar fy s = Ok l ->
  l_year l = sy s \/ l_year l = sy s - 1.
Proof.
  intros C Cv V H E. destruct (getLunar_spec C s V H) as (l' & t & a & E' & Et & Ia & Ha & Ey & _). rewrite E in E'. apply Ok_inj in E'. subst l'.
  pose proof (Cv (sy s) t a ltac:(lia) Et Ia) as J. pose proof (proj2 (proj2 (wf_month _ _ (cal_wf C (sy s) t ltac:(lia) Et) a Ia))) as W.
  assert (my a <= sy s); [|lia]. destruct V as [V _]. unfold sdate in *. apply (year_ge _ _ _ _ V). lia.
Qed.
Theorem C46_real_civil : forall fsin fcos, terms_convert fsin fcos 19 616 -> Calendar (real fsin fcos) 242 616 /\ civil (real fsin fcos) 242 616.
Proof.
  intros fsin fcos T. pose proof (proj2 (C46_real_calendar fsin fcos) T) as C. split; [apply (cal_sub _ 19 616); [exact C|lia|lia]|].
  intros y t a Hy Et Ia. destruct (check_table fsin fcos 19 616 y t (check_19_616 fsin fcos) ltac:(lia) Et) as [_ U].
  destruct (U a Ia) as [_ N]. unfold not_ahead in N. pose proof (proj2 (proj2 (wf_month _ _ (cal_wf C y t ltac:(lia) Et) a Ia))). lia.
Qed.
