(** C59: the solar terms of every year from 0 to 9999, computed in binary64 with any C library whose sin and cos meet [libm]. *)
From Coq Require Import ZArith Lia ZifyBool Reals Lra Psatz.
From Flocq Require Import Core BinarySingleNaN PrimFloat.
From Coq Require Import Bool List Floats.
From Verif Require Import Py PyFloat PyStr FloatFacts FloatTac CalSpec DayNo Solar SolarProofs JulianDay FromJulianDay CalProofs TermProofs T_ShouXing ShouXing FloatExpr Trig
  SunLon SunDt SunTerm SunQi SunKb SunYear SunDate CertTerms LunarYear Lunar T_LunarUtil T_Misc LunarProofs YearProofs CalCheck P_LunarCal P_LunarYears.
Import ListNotations.
Open Scope R_scope.
Local Set Warnings "-inexact-float".

Lemma real_terms fsin fcos y t : libm fsin fcos -> (0 <= y <= 9999)%Z -> real fsin fcos y = Ok t -> @terms_are fsin fcos y (lterms t).
Proof.
  intros lib Hy H. unfold real, LunarYear_new in H. apply bind_ok in H. destruct H as (jq & Ej & H). apply bind_ok in H. destruct H as (Ts & Et & H).
  apply bind_ok in H. destruct H as (hs & _ & H). apply bind_ok in H. destruct H as (ms & _ & H). apply Ok_inj in H. subst t. cbn [lterms].
  destruct (compute_terms_ok lib y jq Hy Ej) as (Ts' & Et' & L & P). rewrite Et in Et'. apply Ok_inj in Et'. subst Ts'. split; assumption.
Qed.

(** The table of a year has 31 instants in days, from 大雪 of the year before to 惊蛰 of the next; each is more than 14 and
    less than 16.5 days before the next one; they convert to dates, and 立春 (the fifth) lies in the year. *)
Theorem C59_terms : forall fsin fcos y t, libm fsin fcos -> (0 <= y <= 9999)%Z -> real fsin fcos y = Ok t ->
  List.length (lterms t) = 31%nat /\
  (forall i, (0 <= i < 30)%Z -> exists a b, py_index (lterms t) i = Ok a /\ py_index (lterms t) (i + 1) = Ok b /\ FIN a /\ FIN b /\ 14 < FR b - FR a < 16.5) /\
  (exists jq, computeJieQi (lterms t) = Ok jq) /\
  (exists a s, py_index (lterms t) 4 = Ok a /\ fromJulianDay a = Ok s /\ sy s = y /\
    IZR (dayno (y, 1, 1)%Z) < FR a + 0.5 < IZR (dayno (y + 1, 1, 1)%Z)).
Proof.
  intros fsin fcos y t lib Hy Et. pose proof (real_terms _ _ _ _ lib Hy Et) as H. destruct H as [L P]. split; [exact L|]. split; [|split].
  - intros i Hi. destruct (P i ltac:(lia)) as (T & E & I & _). destruct (P (i + 1)%Z ltac:(lia)) as (T' & E' & I' & _). exists (T + 2451545)%float, (T' + 2451545)%float.
    assert (K : k_ok (24 * (y - 2000) + 17 + i)) by (unfold k_ok; lia). replace (24 * (y - 2000) + 17 + (i + 1))%Z with (24 * (y - 2000) + 17 + i + 1)%Z in I' by lia.
    assert (K' : k_ok (24 * (y - 2000) + 17 + i + 1)) by (unfold k_ok; lia).
    destruct (term_jd lib _ T I K) as [F N]. destruct (term_jd lib _ T' I' K') as [F' N']. destruct (gap_T lib _ 1 T T' I I' ltac:(lia) K K') as [G _].
    apply Rabs_le_inv in N, N'. repeat split; try assumption; lra.
  - destruct (jieqi_ok lib y (lterms t) Hy (conj L P)) as (jq & Ej & _). exists jq. exact Ej.
  - destruct (P 4%Z ltac:(lia)) as (T & E & I & _). replace (24 * (y - 2000) + 17 + 4)%Z with (24 * (y - 2000) + 21)%Z in I by lia.
    assert (K : k_ok (24 * (y - 2000) + 21)) by (unfold k_ok; lia). pose proof (lichun_in lib y T Hy I) as B. destruct (term_conv lib _ T I K) as (s & Es & Ys & _).
    destruct (term_jd lib _ T I K) as [F N]. apply Rabs_le_inv in N. exists (T + 2451545)%float, s. split; [exact E|]. split; [exact Es|]. split; [apply Ys; lra|].
    unfold jan1 in B. lra.
Qed.
(** The other way round: the instants are always computed, and the tables of the years 0..616 always are. *)
Theorem C59_terms_total : forall fsin fcos y, libm fsin fcos -> (0 <= y <= 9999)%Z ->
  exists qs Ts jq, compute_jq (shouxing fsin fcos) y = Ok qs /\ compute_terms (shouxing fsin fcos) qs = Ok Ts /\ computeJieQi Ts = Ok jq.
Proof.
  intros fsin fcos y lib Hy. destruct (compute_jq_ok lib y Hy) as (qs & Eq & _). destruct (compute_terms_ok lib y qs Hy Eq) as (Ts & Et & H).
  destruct (jieqi_ok lib y Ts Hy H) as (jq & Ej & _). exists qs, Ts, jq. auto.
Qed.
Lemma real_total fsin fcos y : libm fsin fcos -> (0 <= y <= 9999)%Z -> months_of fsin fcos y <> [] -> exists t jq, real fsin fcos y = Ok t /\ computeJieQi (lterms t) = Ok jq.
Proof.
  intros lib Hy N. destruct (C59_terms_total _ _ y lib Hy) as (qs & Ts & jq & Eq & Et & Ej). unfold months_of in N. unfold real, LunarYear_new. rewrite Eq in *. cbn [bind] in *. rewrite Et. cbn [bind].
  destruct (compute_hs (shouxing fsin fcos) qs) as [hs|] eqn:Eh; cbn [bind] in *; [|congruence]. destruct (compute_months y hs qs) as [ms|] eqn:Em; cbn [bind] in *; [|congruence].
  eexists. exists jq. split; [reflexivity|]. exact Ej.
Qed.
Lemma calb_nonempty fsin fcos lo hi y : calb lo (tables fsin fcos lo (hi + 1)) = true -> (lo <= y <= hi)%Z -> months_of fsin fcos y <> [].
Proof.
  intros H Hy N. assert (L : (Z.to_nat (y - lo) < List.length (tables fsin fcos lo (hi + 1)))%nat) by (unfold tables; rewrite map_length, zrange_length; lia).
  destruct (calb_nth _ _ H _ L) as [T _]. cbv zeta in T. rewrite tables_nth in T by lia. rewrite N in T. discriminate T.
Qed.
Lemma convert_libm fsin fcos lo hi : libm fsin fcos -> calb lo (tables fsin fcos lo (hi + 1)) = true -> (0 <= lo)%Z -> (hi <= 9999)%Z -> terms_convert fsin fcos lo hi.
Proof. intros lib H L Hh y Hy. apply real_total; [exact lib|lia|]. apply (calb_nonempty _ _ lo hi y H Hy). Qed.
Theorem C46_libm : forall fsin fcos, libm fsin fcos -> Calendar (real fsin fcos) 0 18 /\ Calendar (real fsin fcos) 19 616.
Proof.
  intros fsin fcos lib. pose proof (C46_real_calendar fsin fcos) as [H1 H2]. split; [apply H1|apply H2]; apply convert_libm; try exact lib; try lia; apply check_calb; [apply check_0_18|apply check_19_616].
Qed.

(** The seven terms that the tables of two neighbouring years share are the same floats in both. *)
Theorem C59_shared : forall fsin fcos y t t' i, libm fsin fcos -> (0 <= y < 9999)%Z -> real fsin fcos y = Ok t -> real fsin fcos (y + 1) = Ok t' ->
  (0 <= i < 7)%Z -> exists a, py_index (lterms t) (24 + i) = Ok a /\ py_index (lterms t') i = Ok a.
Proof.
  intros fsin fcos y t t' i lib Hy Et Et' Hi. destruct (real_terms fsin fcos y t lib ltac:(lia) Et) as [_ P]. destruct (real_terms fsin fcos (y + 1) t' lib ltac:(lia) Et') as [_ P'].
  destruct (P (24 + i)%Z ltac:(lia)) as (T & E & _ & C). destruct (P' i ltac:(lia)) as (T' & E' & _ & C').
  replace (24 * (y + 1 - 2000) + 17 + i)%Z with (24 * (y - 2000) + 17 + (24 + i))%Z in C' by lia. rewrite C in C'. apply Ok_inj in C'. subst T'. eauto.
Qed.
(** For the years named by [dated], 1..523 and 1583..4039, the dates are those of existing days in increasing order: [good_terms]. *)
Theorem C59_good : forall fsin fcos y t jq, libm fsin fcos -> (1 <= y <= 523 \/ 1583 <= y <= 4039)%Z -> real fsin fcos y = Ok t -> computeJieQi (lterms t) = Ok jq ->
  good_terms y jq /\ sy (term_at jq 26) = (y + 1)%Z /\
  (forall i, (0 <= i < 31)%Z -> (sy (term_at jq i), sm (term_at jq i)) = term_month y i) /\
  (forall i, (0 <= i < 30)%Z -> (14 <= dayno (sdate (term_at jq (i + 1))) - dayno (sdate (term_at jq i)) <= 17)%Z).
Proof.
  intros fsin fcos y t jq lib Hy Et Ej. assert (D : dated y) by (unfold dated; lia). pose proof (real_terms fsin fcos y t lib ltac:(lia) Et) as R.
  pose proof (good_real lib y _ jq ltac:(lia) D R Ej) as G. split; [exact G|].
  pose proof (dated_terms lib y _ jq D R Ej) as Q.
  split; [|split].
  - destruct (Q 26%Z ltac:(lia)) as (_ & _ & _ & E & _). unfold term_month in E. cbn in E. congruence.
  - intros i Hi. destruct (Q i Hi) as (_ & _ & _ & E & _). exact E.
  - intros i Hi. destruct (Q i ltac:(lia)) as (T & I & V & _ & B). destruct (Q (i + 1)%Z ltac:(lia)) as (T' & I' & V' & _ & B'). replace (24 * (y - 2000) + 17 + (i + 1))%Z with (24 * (y - 2000) + 17 + i + 1)%Z in I' by lia.
    destruct (gap_T lib _ 1 T T' I I' ltac:(lia) ltac:(unfold k_ok; lia) ltac:(unfold k_ok; lia)) as [_ G1]. specialize (G1 ltac:(unfold k_old; lia)). apply Rabs_le_inv in B, B'.
    assert (X1 : IZR (instant (term_at jq i)) + 86400 * 14 < IZR (instant (term_at jq (i + 1)))) by lra. assert (X2 : IZR (instant (term_at jq (i + 1))) < IZR (instant (term_at jq i)) + 86400 * 17) by lra.
    rewrite <- mult_IZR, <- plus_IZR in X1, X2. apply lt_IZR in X1, X2. pose proof (sod_bounds _ V). pose proof (sod_bounds _ V'). unfold instant in X1, X2. lia.
Qed.
Definition month_before (p : Z * Z) : Z * Z := let '(a, b) := p in (if b =? 1 then (a - 1, 12) else (a, b - 1))%Z.
(** From 524 to 1582 the months of the Julian calendar drift against the terms, and from 4040 on those of the Gregorian calendar: each falls in the
    month named by [term_month] or the one before. *)
Theorem C59_good_drift : forall fsin fcos y t jq, libm fsin fcos -> (524 <= y <= 1582 \/ 4040 <= y <= 9998)%Z -> real fsin fcos y = Ok t -> computeJieQi (lterms t) = Ok jq ->
  good_terms y jq /\
  (forall i, (0 <= i < 31)%Z -> (sy (term_at jq i), sm (term_at jq i)) = term_month y i \/ (sy (term_at jq i), sm (term_at jq i)) = month_before (term_month y i)) /\
  (forall i, (0 <= i < 30)%Z -> (14 <= dayno (sdate (term_at jq (i + 1))) - dayno (sdate (term_at jq i)) <= 17)%Z).
Proof.
  intros fsin fcos y t jq lib Hy Et Ej. pose proof (real_terms fsin fcos y t lib ltac:(lia) Et) as R. split; [exact (good_mid lib y _ jq Hy R Ej)|]. split; [|exact (mid_gap lib y _ jq Hy R Ej)].
  intros i Hi. destruct (mid_terms lib y _ jq Hy R Ej i Hi) as (_ & _ & _ & _ & M).
  assert (T1 : month_of (y + i / 24) (i mod 24 / 2) = term_month y i /\ month_of (y + i / 24) (i mod 24 / 2 - 1) = month_before (term_month y i)).
  { assert (C : forall j, (0 <= j < 31)%Z -> month_of (j / 24) (j mod 24 / 2) = term_month 0 j /\ month_of (j / 24) (j mod 24 / 2 - 1) = month_before (term_month 0 j)).
    { set (eqp := fun p q : Z * Z => (fst p =? fst q)%Z && (snd p =? snd q)%Z). assert (EQ : forall p q, eqp p q = true -> p = q) by (intros [p1 p2] [q1 q2] H; unfold eqp in H; cbn [fst snd] in H; f_equal; lia).
      assert (Q : forallb (fun j => eqp (month_of (j / 24) (j mod 24 / 2)) (term_month 0 j) && eqp (month_of (j / 24) (j mod 24 / 2 - 1)) (month_before (term_month 0 j))) (zrange 0 31) = true) by (vm_compute; reflexivity).
      intros j Hj. pose proof (forallb_zrange _ _ _ Q j Hj) as Q1. cbv beta in Q1. apply andb_true_iff in Q1. split; apply EQ, Q1. }
    assert (S1 : forall a n, month_of (y + a) n = (let '(c, d) := month_of a n in (y + c, d))%Z) by (intros a n; unfold month_of; destruct (n <? 1)%Z; f_equal; lia).
    assert (S2 : forall j, term_month y j = (let '(c, d) := term_month 0 j in (y + c, d))%Z) by (intros j; unfold term_month; destruct (j <? 2)%Z, (j <? 26)%Z; f_equal; lia).
    assert (S3 : forall p, month_before (let '(c, d) := p in (y + c, d))%Z = (let '(c, d) := month_before p in (y + c, d))%Z) by (intros [c d]; unfold month_before; destruct (d =? 1)%Z; f_equal; lia).
    destruct (C i Hi) as [C1 C2]. rewrite !S1, C1, C2, S2, S3. auto. }
  destruct T1 as [<- <-]. exact M.
Qed.
Theorem C59_dates : forall fsin fcos y t jq, libm fsin fcos -> (1 <= y <= 9998)%Z -> real fsin fcos y = Ok t -> computeJieQi (lterms t) = Ok jq ->
  good_terms y jq /\ (forall i, (0 <= i < 30)%Z -> (14 <= dayno (sdate (term_at jq (i + 1))) - dayno (sdate (term_at jq i)) <= 17)%Z).
Proof.
  intros fsin fcos y t jq lib Hy Et Ej. assert ((524 <= y <= 1582 \/ 4040 <= y <= 9998) \/ (1 <= y <= 523 \/ 1583 <= y <= 4039))%Z as [C|C] by lia.
  - destruct (C59_good_drift fsin fcos y t jq lib C Et Ej) as (G & _ & D). auto.
  - destruct (C59_good fsin fcos y t jq lib C Et Ej) as (G & _ & _ & D). auto.
Qed.
(** The hypotheses can be met: [rsin] and [rcos] of Trig.v are such a library. *)
Example C59_case : (exists t, real rsin rcos 300 = Ok t /\ List.length (lterms t) = 31%nat) /\
  (let! a := qiAccurate2 (float_arith rsin rcos) 8800%float in let! s := fromJulianDay (a + 2451545)%float in Ok (sdate s, Solar.sh s, smi s, ss s)) = Ok ((2024, 2, 4)%Z, 16%Z, 26%Z, 53%Z).
Proof.
  split; [|vm_compute; reflexivity]. destruct (C46_libm _ _ libm_ref) as [_ C]. destruct (cal_ok _ _ _ C 300%Z ltac:(lia)) as (t & jq & Et & _). exists t. split; [exact Et|].
  apply (C59_terms _ _ 300%Z t libm_ref ltac:(lia) Et).
Qed.
