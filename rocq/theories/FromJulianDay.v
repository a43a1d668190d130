(** Error analysis of Solar.fromJulianDay. *)
From Coq Require Import ZArith Lia Bool ZifyBool List Reals Lra.
From Flocq Require Import Core BinarySingleNaN PrimFloat.
From Coq Require Import Floats.
From Verif Require Import Py PyFloat FloatFacts FloatTac CalSpec DayNo Meeus Solar SolarProofs JulianDay.
Open Scope R_scope.

Lemma lit186 : FIN 1867216.25 /\ FR 1867216.25 = 7468865 / 4.
Proof.
  destruct (lit_dyadic 1867216.25%float 8019632728309760 32 ltac:(vm_compute; reflexivity) ltac:(lia)) as [A B].
  split; [exact A|]. rewrite B. lra.
Qed.
Lemma lit365 : FIN 36524.25 /\ FR 36524.25 = 146097 / 4.
Proof.
  destruct (lit_dyadic 36524.25%float 5019854696349696 37 ltac:(vm_compute; reflexivity) ltac:(lia)) as [A B].
  split; [exact A|]. rewrite B. lra.
Qed.
Lemma lit1221 : FIN 122.1 /\ near 64 (FR 122.1) (1221 / 10).
Proof.
  destruct (lit_dyadic 122.1%float 8592023664092774 46 ltac:(vm_compute; reflexivity) ltac:(lia)) as [A B].
  split; [exact A|]. rewrite B. unfold near, eps52. lra.
Qed.

(** int((d - 1867216.25) / 36524.25) *)
Lemma cent_float N : (1867217 <= N <= 400000000)%Z ->
  py_int ((float_of_Z N - 1867216.25) / 36524.25)%float = Ok ((4 * N - 7468865) / 146097)%Z.
Proof.
  intros H. destruct (float_of_Z_spec N ltac:(lia)) as [FN EN].
  destruct lit186 as [F1 E1], lit365 as [F2 E2].
  assert (RNN : 1867217 <= IZR N <= 400000000) by (split; apply IZR_le; lia).
  destruct (fsub_b (float_of_Z N) 1867216.25 400000000 FN F1) as (F3 & V3 & _); try (rewrite ?EN, ?E1; lra).
  rewrite EN, E1 in V3.
  replace (IZR N - 7468865 / 4) with (IZR (4 * N - 7468865) / IZR (2 ^ 2)) in V3
    by (rewrite minus_IZR, mult_IZR; change (2 ^ 2)%Z with 4%Z; lra).
  rewrite RN_dyadic in V3 by lia. change (2 ^ 2)%Z with 4%Z in V3.
  assert (E4 : FR (float_of_Z N - 1867216.25)%float / FR 36524.25 = IZR (4 * N - 7468865) / IZR 146097).
  { rewrite V3, E2. field. }
  assert (RQ : 0 <= IZR (4 * N - 7468865) <= 1700000000) by (split; apply IZR_le; lia).
  destruct (fdiv_p (float_of_Z N - 1867216.25)%float 36524.25 20000 F3) as (F4 & V4 & _); try (rewrite ?E4, ?E2; lra).
  rewrite py_int_spec by exact F4. f_equal. rewrite V4, E4.
  rewrite RN_div_trunc by lia. apply Z.quot_div_nonneg; lia.
Qed.

(** int((d - 122.1) / 365.25) *)
Lemma year_float N : (123 <= N <= 400000000)%Z ->
  py_int ((float_of_Z N - 122.1) / 365.25)%float = Ok ((20 * N - 2442) / 7305)%Z.
Proof.
  intros H. destruct (float_of_Z_spec N ltac:(lia)) as [FN EN].
  destruct lit1221 as [F1 E1], lit36525 as [F2 E2]. unfold near, eps52 in E1.
  assert (RNN : 123 <= IZR N <= 400000000) by (split; apply IZR_le; lia).
  destruct (fsub_b (float_of_Z N) 122.1 400000000 FN F1) as (F3 & _ & V3); try (rewrite ?EN; lra).
  rewrite EN in V3. unfold near, eps52 in V3. set (u := (float_of_Z N - 122.1)%float) in *. clearbody u.
  destruct (fdiv_p u 365.25 2000000 F3) as (F4 & _ & V4); try (rewrite ?E2; lra).
  rewrite E2 in V4. replace (FR u / (1461 / 4)) with (FR u * 4 / 1461) in V4 by field.
  unfold near, eps52 in V4. rewrite py_int_spec by exact F4. f_equal.
  set (q := ((20 * N - 2442) / 7305)%Z).
  assert (Hq : (7305 * q + 3 <= 20 * N - 2442 /\ 20 * N - 2442 + 2 <= 7305 * (q + 1) /\ 0 <= q)%Z).
  { unfold q. assert ((20 * N - 2442) mod 5 = 3)%Z by lia. lia. }
  clearbody q. destruct Hq as (Q1 & Q2 & Q3).
  apply IZR_le in Q1, Q2. rewrite ?plus_IZR, ?mult_IZR, ?minus_IZR, ?plus_IZR, ?mult_IZR in Q1, Q2.
  rewrite (plus_IZR q 1) in Q2. apply Ztrunc_bnd; [exact Q3| |]; lra.
Qed.

Definition zres_eqb (r : res Z) (z : Z) : bool := match r with Ok a => (a =? z)%Z | _ => false end.
Lemma zres_eqb_eq r z : zres_eqb r z = true -> r = Ok z.
Proof. destruct r; cbn; [|discriminate]. intros H. apply Z.eqb_eq in H. now subst. Qed.

Lemma month_float d : (122 < d < 489)%Z -> py_int (float_of_Z d / 30.601)%float = Ok (1000 * d / 30601)%Z.
Proof.
  intros H. apply zres_eqb_eq.
  assert (K : forallb (fun d => zres_eqb (py_int (float_of_Z d / 30.601)%float) (1000 * d / 30601)%Z) (zrange 123 489) = true)
    by (vm_compute; reflexivity).
  rewrite forallb_forall in K. apply K. apply in_zrange. lia.
Qed.

Lemma day_float m : (4 <= m <= 15)%Z -> py_int (30.601 * float_of_Z m)%float = Ok (30601 * m / 1000)%Z.
Proof.
  intros H. apply zres_eqb_eq.
  assert (K : forallb (fun m => zres_eqb (py_int (30.601 * float_of_Z m)%float) (30601 * m / 1000)%Z) (zrange 4 16) = true)
    by (vm_compute; reflexivity).
  rewrite forallb_forall in K. apply K. apply in_zrange. lia.
Qed.

(** One step of the sexagesimal expansion: multiply by [k], split off the integer part. *)
Lemma digit_step f k : FIN f -> 0 <= FR f <= 1 -> (1 <= k <= 60)%Z ->
  exists q, py_int (f * float_of_Z k)%float = Ok q /\ (0 <= q <= k)%Z /\
    FIN (f * float_of_Z k - float_of_Z q)%float /\
    0 <= FR (f * float_of_Z k - float_of_Z q)%float <= 1 /\
    near 60 (IZR q + FR (f * float_of_Z k - float_of_Z q)%float) (IZR k * FR f).
Proof.
  intros Hf Hr Hk. destruct (float_of_Z_spec k ltac:(lia)) as [Fk Ek].
  assert (Rk : 1 <= IZR k <= 60) by (split; apply IZR_le; lia).
  assert (0 <= FR f * IZR k <= 60) by nra.
  destruct (fmul_b f (float_of_Z k) 60 Hf Fk) as (F1 & V1 & N1); try (rewrite ?Ek; lra).
  rewrite Ek in V1, N1. set (g := (f * float_of_Z k)%float) in *.
  assert (G0 : 0 <= FR g) by (rewrite V1; apply (RN_ge_int 0); [lia|lra]).
  assert (G1 : FR g <= IZR k) by (rewrite V1; apply (RN_le_int k); [lia|nra]).
  clear V1. clearbody g. rewrite py_int_spec by exact F1. exists (Zfloor (FR g)).
  rewrite Ztrunc_floor by exact G0. split; [reflexivity|].
  pose proof (Zfloor_lb (FR g)) as L. pose proof (Zfloor_ub (FR g)) as U.
  assert (Q0 : (0 <= Zfloor (FR g))%Z) by (apply (Zfloor_lub 0); exact G0).
  assert (Q1 : (Zfloor (FR g) <= k)%Z) by (apply le_IZR; lra).
  split; [lia|]. set (q := Zfloor (FR g)) in *. clearbody q.
  destruct (float_of_Z_spec q ltac:(lia)) as [Fq Eq].
  destruct (fsub_b g (float_of_Z q) 1 F1 Fq) as (F2 & V2 & _); try (rewrite ?Eq; lra).
  rewrite Eq in V2. rewrite frac_exact in V2 by (assumption || lra).
  split; [exact F2|]. rewrite V2. split; [lra|]. unfold near, eps52 in *. lra.
Qed.

Definition hms (h mi s S : Z) : Prop := (h = S / 3600 /\ mi = S / 60 mod 60 /\ s = S mod 60)%Z.

Lemma fromJulianDay_spec jd : FIN jd -> - (1 / 2) <= FR jd <= 36696392549999 / 100000 ->
  FIN (jd + 0.5)%float /\
  exists N S y m d, IZR N <= FR (jd + 0.5)%float < IZR N + 1 /\ (0 <= N)%Z /\
    valid_date (y, m, d) /\ dayno (y, m, d) = N /\ (0 <= S <= 86400)%Z /\
    - (1 / 2 + 1 / 1000000000) <= IZR S - 86400 * (FR (jd + 0.5)%float - IZR N) <= 1 / 2 + 1 / 1000000000 /\
    fromJulianDay jd =
      if (S <? 86400)%Z then Ok (mkSolar y m d (S / 3600) (S / 60 mod 60) (S mod 60))
      else fromYmdHms y m (d + 1) 0 0 0.
Proof.
  intros FJ RJ. destruct lit05 as [FL EL].
  destruct (fadd_b jd 0.5 366963927 FJ FL) as (F0 & V0 & N0); try (rewrite ?EL; lra).
  split; [exact F0|]. rewrite EL in V0, N0. unfold near, eps52 in N0.
  set (x := (jd + 0.5)%float) in *.
  assert (X0 : 0 <= FR x) by (rewrite V0; apply (RN_ge_int 0); [lia|lra]).
  pose proof (Zfloor_lb (FR x)) as LB. pose proof (Zfloor_ub (FR x)) as UB.
  assert (HN0 : (0 <= Zfloor (FR x))%Z) by (apply (Zfloor_lub 0); exact X0).
  assert (HN1 : (Zfloor (FR x) <= 366963925)%Z) by
    (assert (HL : IZR (Zfloor (FR x)) < 366963926) by lra; apply lt_IZR in HL; lia).
  unfold fromJulianDay. fold x. rewrite py_int_spec by exact F0. rewrite Ztrunc_floor by exact X0.
  clear V0 N0. clearbody x. set (N := Zfloor (FR x)) in *. clearbody N. cbn [bind].
  destruct (dayno_surj N) as ([[y m] d] & V & EN).
  (* the date *)
  assert (HY : (-4712 <= y <= 1000000)%Z).
  { pose proof (dayno_year _ _ _ V) as DY. rewrite EN in DY.
    split.
    - destruct (Z.le_gt_cases (-4712) y) as [|G]; [assumption|exfalso].
      pose proof (ybase_mono (y + 1) (-4712) ltac:(lia)) as K. change (ybase (-4712)) with (-1)%Z in K. lia.
    - destruct (Z.le_gt_cases y 1000000) as [|G]; [assumption|exfalso].
      pose proof (ybase_mono 1000001 y ltac:(lia)) as K. change (ybase 1000001) with (366963925)%Z in K. lia. }
  assert (HMY : (-4713 <= myear y m <= 1000000)%Z) by (unfold myear; destruct (m <=? 2)%Z; lia).
  pose proof (meeus_fwd _ _ _ V) as MF. rewrite EN in MF.
  pose proof (year_idx _ _ _ V) as YI. pose proof (month_idx _ _ _ V) as MI. cbv zeta in MI.
  destruct MI as (MI1 & MI2 & MI3).
  assert (HD : exists d2, (if (2299161 <=? N)%Z then
               let! c := py_int ((float_of_Z N - 1867216.25) / 36524.25)%float in
               let! q := int_truediv c 4 in
               Ok (N + (1 + c - q))%Z
             else Ok N) = Ok d2 /\
             (d2 + 1524 = 1461 * (myear y m + 4716) / 4 + mb (mmonth m) + d)%Z).
  { destruct (greg (y, m, d)) eqn:G; assert (G' := G); rewrite greg_dayno, EN in G' by exact V; rewrite G'.
    - pose proof (cent _ _ _ V G) as CE. rewrite EN in CE.
      rewrite cent_float by lia. cbn [bind]. rewrite CE.
      assert (1581 <= myear y m)%Z.
      { rewrite greg_spec in G by exact V. unfold myear; destruct (m <=? 2)%Z; lia. }
      rewrite int_truediv_spec by lia. rewrite Z.quot_div_nonneg by lia. cbn [bind].
      eexists. split; [reflexivity|]. cbn [mcorr] in MF. lia.
    - eexists. split; [reflexivity|]. cbn [mcorr] in MF. lia. }
  destruct HD as (d2 & HD1 & HD2). rewrite HD1. clear HD1. cbn [bind]. rewrite HD2.
  set (d3 := (mb (mmonth m) + d)%Z) in *.
  rewrite <- Z.add_assoc in YI |- *. fold d3 in YI |- *.
  rewrite year_float by lia. rewrite YI. cbn [bind].
  rewrite mul36525 by lia. cbn [bind].
  replace (1461 * (myear y m + 4716) / 4 + d3 - 1461 * (myear y m + 4716) / 4)%Z with d3 by lia.
  rewrite month_float by exact MI3. rewrite MI1. cbn [bind].
  assert (Hm : (1 <= m <= 12)%Z) by (destruct V; assumption).
  assert (HMM : (3 <= mmonth m <= 14)%Z) by (unfold mmonth; destruct (Z.leb_spec m 2); lia).
  rewrite day_float by lia. cbn [bind]. rewrite MI2.
  assert (HP : (if (13 <? mmonth m + 1)%Z then ((mmonth m + 1 - 13)%Z, (myear y m + 4716 - 4715)%Z)
                else ((mmonth m + 1 - 1)%Z, (myear y m + 4716 - 4716)%Z)) = (m, y)).
  { unfold mmonth, myear. destruct (Z.leb_spec m 2).
    - replace (13 <? m + 12 + 1)%Z with true by lia. f_equal; lia.
    - replace (13 <? m + 1)%Z with false by lia. f_equal; lia. }
  rewrite HP. clear HP YI MI1 MI2 MI3 HD2 MF d3 HMM HMY.
  (* the time of day *)
  destruct (float_of_Z_spec N ltac:(lia)) as [FN ENr].
  destruct (fsub_b x (float_of_Z N) 1 F0 FN) as (F1 & V1 & _); try (rewrite ?ENr; lra).
  rewrite ENr in V1. rewrite frac_exact in V1 by (assumption || lra).
  set (f := (x - float_of_Z N)%float) in *. clearbody f.
  change 24%float with (float_of_Z 24). change 60%float with (float_of_Z 60).
  destruct (digit_step f 24 F1 ltac:(lra) ltac:(lia)) as (h & I2 & B2 & F2 & R2 & N2).
  rewrite I2. cbn [bind]. set (f2 := (f * float_of_Z 24 - float_of_Z h)%float) in *. clearbody f2.
  destruct (digit_step f2 60 F2 R2 ltac:(lia)) as (mi & I3 & B3 & F3 & R3 & N3).
  rewrite I3. cbn [bind]. set (f3 := (f2 * float_of_Z 60 - float_of_Z mi)%float) in *. clearbody f3.
  destruct (float_of_Z_spec 60 ltac:(lia)) as [F60 E60].
  destruct (fmul_b f3 (float_of_Z 60) 60 F3 F60) as (F4 & V4 & N4); try (rewrite ?E60; lra).
  rewrite E60 in V4, N4. set (f4 := (f3 * float_of_Z 60)%float) in *.
  assert (G0 : 0 <= FR f4) by (rewrite V4; apply (RN_ge_int 0); [lia|lra]).
  assert (G1 : FR f4 <= 60) by (rewrite V4; apply (RN_le_int 60); [lia|lra]).
  clearbody f4. rewrite py_round_spec by exact F4. cbn [bind].
  pose proof (ZnearestE_bnd (FR f4)) as ZB. apply Rabs_le_inv in ZB.
  set (s := ZnearestE (FR f4)) in *. clearbody s.
  assert (B4 : (0 <= s <= 60)%Z).
  { assert (A1 : -1 < IZR s) by lra. assert (A2 : IZR s < 61) by lra.
    apply lt_IZR in A1, A2. lia. }
  unfold near, eps52 in *.
  assert (TS : - (1 / 2 + 1 / 1000000000) <= IZR (3600 * h + 60 * mi + s) - 86400 * (FR x - IZR N) <= 1 / 2 + 1 / 1000000000).
  { rewrite !plus_IZR, !mult_IZR. lra. }
  assert (TB : (0 <= 3600 * h + 60 * mi + s <= 86400)%Z).
  { split; [lia|]. assert (IZR (3600 * h + 60 * mi + s) < 86401) by lra. apply lt_IZR in H. lia. }
  exists N, (3600 * h + 60 * mi + s)%Z, y, m, d.
  split; [lra|]. split; [exact HN0|]. split; [exact V|]. split; [exact EN|]. split; [exact TB|]. split; [exact TS|].
  clear - V B2 B3 B4 TB.
  destruct (Z.ltb_spec 59 s) as [L1|L1].
  - destruct (Z.ltb_spec 59 (mi + 1)) as [L2|L2].
    + destruct (Z.ltb_spec 23 (h + 1)) as [L3|L3].
      * replace (3600 * h + 60 * mi + s <? 86400)%Z with false by lia. f_equal; lia.
      * replace (3600 * h + 60 * mi + s <? 86400)%Z with true by lia.
        rewrite fromYmdHms_ok by (assumption || (unfold valid_time; lia)). do 2 f_equal; lia.
    + destruct (Z.ltb_spec 23 h) as [L3|L3].
      * exfalso. lia.
      * replace (3600 * h + 60 * mi + s <? 86400)%Z with true by lia.
        rewrite fromYmdHms_ok by (assumption || (unfold valid_time; lia)). do 2 f_equal; lia.
  - destruct (Z.ltb_spec 59 mi) as [L2|L2].
    + destruct (Z.ltb_spec 23 (h + 1)) as [L3|L3].
      * replace (3600 * h + 60 * mi + s <? 86400)%Z with false by lia. f_equal; lia.
      * replace (3600 * h + 60 * mi + s <? 86400)%Z with true by lia.
        rewrite fromYmdHms_ok by (assumption || (unfold valid_time; lia)). do 2 f_equal; lia.
    + destruct (Z.ltb_spec 23 h) as [L3|L3].
      * replace (3600 * h + 60 * mi + s <? 86400)%Z with false by lia. f_equal; lia.
      * replace (3600 * h + 60 * mi + s <? 86400)%Z with true by lia.
        rewrite fromYmdHms_ok by (assumption || (unfold valid_time; lia)). do 2 f_equal; lia.
Qed.
