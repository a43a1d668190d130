(** Error analysis of Solar.getJulianDay and Solar.getWeek. *)
From Coq Require Import ZArith Lia Bool ZifyBool Reals Lra.
From Flocq Require Import Core BinarySingleNaN PrimFloat.
From Coq Require Import Floats.
From Verif Require Import Py PyFloat FloatFacts FloatTac CalSpec DayNo Meeus Solar SolarProofs.
Open Scope Z_scope.

Definition jd_year (y : Z) : Prop := -4712 <= y <= 1000000.

Lemma dayno_range y m d : valid_date (y, m, d) -> jd_year y -> 0 <= dayno (y, m, d) <= 367000000.
Proof.
  intros V J. pose proof (dayno_year _ _ _ V). unfold jd_year in J.
  pose proof (ybase_mono (-4712) y ltac:(lia)). pose proof (ybase_mono (y + 1) 1000001 ltac:(lia)).
  change (ybase (-4712)) with (-1) in *. change (ybase 1000001) with 366963925 in *. lia.
Qed.

Definition dayfrac (h mi s : Z) : float :=
  (((float_of_Z s / 60 + float_of_Z mi) / 60 + float_of_Z h) / 24)%float.

Open Scope R_scope.

Lemma M_ok (z : Z) : (1 <= z <= 10 ^ 50)%Z -> 1 <= IZR z <= IZR (10 ^ 50).
Proof. intros [A B]. split; apply IZR_le; assumption. Qed.

Ltac lit c := let X := fresh "L" in
  let t := eval vm_compute in (Prim2SF c) in
  assert (X : Prim2SF c = t) by (vm_compute; reflexivity);
  apply lit_spec in X; destruct X.

Lemma lit60 : FIN 60 /\ FR 60 = 60.
Proof. exact (float_of_Z_spec 60 ltac:(lia)). Qed.
Lemma lit24 : FIN 24 /\ FR 24 = 24.
Proof. exact (float_of_Z_spec 24 ltac:(lia)). Qed.

Lemma RN_ge_int n r : (Z.abs n <= 2 ^ 53)%Z -> IZR n <= r -> IZR n <= RN r.
Proof. intros Hn H. rewrite <- (RN_int n Hn). now apply RN_mono. Qed.
Lemma RN_le_int n r : (Z.abs n <= 2 ^ 53)%Z -> r <= IZR n -> RN r <= IZR n.
Proof. intros Hn H. rewrite <- (RN_int n Hn). now apply RN_mono. Qed.

Ltac izr := repeat match goal with
  | H : (_ <= _ <= _)%Z |- _ => destruct H
  | H : (_ <= _)%Z |- _ => apply IZR_le in H
  | H : (_ < _)%Z |- _ => apply IZR_lt in H end.

Lemma fdiv_p x y M : FIN x -> 0 < FR y -> - M <= FR x / FR y <= M -> 1 <= M <= IZR (10 ^ 50) ->
  FIN (x / y)%float /\ FR (x / y)%float = RN (FR x / FR y) /\ near M (FR (x / y)%float) (FR x / FR y).
Proof. intros Hx Hy. apply fdiv_b; [exact Hx|lra]. Qed.

Lemma dayfrac_spec h mi s : valid_time h mi s ->
  FIN (dayfrac h mi s) /\ 0 <= FR (dayfrac h mi s) /\
  near 4 (FR (dayfrac h mi s)) (IZR (h * 3600 + mi * 60 + s) / 86400).
Proof.
  intros (Hh & Hmi & Hs). unfold dayfrac.
  destruct (float_of_Z_spec h ltac:(lia)) as [Fh Eh].
  destruct (float_of_Z_spec mi ltac:(lia)) as [Fm Em].
  destruct (float_of_Z_spec s ltac:(lia)) as [Fs Es].
  destruct lit60 as [F60 E60], lit24 as [F24 E24].
  assert (Rh : 0 <= IZR h <= 23) by (split; apply IZR_le; lia).
  assert (Rm : 0 <= IZR mi <= 59) by (split; apply IZR_le; lia).
  assert (Rs : 0 <= IZR s <= 59) by (split; apply IZR_le; lia).
  clear Hh Hmi Hs.
  destruct (fdiv_p (float_of_Z s) 60 1 Fs) as (F1 & V1 & N1); try (rewrite ?Es, ?E60; lra).
  rewrite Es, E60 in V1, N1.
  assert (P1 : 0 <= FR (float_of_Z s / 60)%float) by (rewrite V1; apply (RN_ge_int 0); [lia|lra]).
  clear V1. set (a := (float_of_Z s / 60)%float) in *. clearbody a. unfold near, eps52 in N1.
  destruct (fadd_b a (float_of_Z mi) 61 F1 Fm) as (F2 & V2 & N2); try (rewrite ?Em; lra).
  rewrite Em in V2, N2.
  assert (P2 : 0 <= FR (a + float_of_Z mi)%float) by (rewrite V2; apply (RN_ge_int 0); [lia|lra]).
  clear V2. set (b := (a + float_of_Z mi)%float) in *. clearbody b. unfold near, eps52 in N2.
  destruct (fdiv_p b 60 2 F2) as (F3 & V3 & N3); try (rewrite ?E60; lra).
  rewrite E60 in V3, N3.
  assert (P3 : 0 <= FR (b / 60)%float) by (rewrite V3; apply (RN_ge_int 0); [lia|lra]).
  clear V3. set (c := (b / 60)%float) in *. clearbody c. unfold near, eps52 in N3.
  destruct (fadd_b c (float_of_Z h) 25 F3 Fh) as (F4 & V4 & N4); try (rewrite ?Eh; lra).
  rewrite Eh in V4, N4.
  assert (P4 : 0 <= FR (c + float_of_Z h)%float) by (rewrite V4; apply (RN_ge_int 0); [lia|lra]).
  clear V4. set (d := (c + float_of_Z h)%float) in *. clearbody d. unfold near, eps52 in N4.
  destruct (fdiv_p d 24 2 F4) as (F5 & V5 & N5); try (rewrite ?E24; lra).
  rewrite E24 in V5, N5.
  assert (P5 : 0 <= FR (d / 24)%float) by (rewrite V5; apply (RN_ge_int 0); [lia|lra]).
  split; [exact F5|]. split; [exact P5|].
  unfold near, eps52 in *. rewrite !plus_IZR, !mult_IZR. lra.
Qed.


(** Literals that occur in the algorithms. *)
Lemma lit_dyadic c p k : Prim2SF c = S754_finite false p (- k) -> (0 <= k)%Z ->
  FIN c /\ FR c = IZR (Zpos p) / IZR (2 ^ k).
Proof.
  intros E Hk. apply lit_spec in E. destruct E as [A B]. split; [exact A|].
  rewrite B, bpow_opp. change 2%Z with (radix_val radix2). rewrite IZR_Zpower by exact Hk. reflexivity.
Qed.

Lemma lit36525 : FIN 365.25 /\ FR 365.25 = 1461 / 4.
Proof.
  destruct (lit_dyadic 365.25%float 6425545952722944 44 ltac:(vm_compute; reflexivity) ltac:(lia)) as [A B].
  split; [exact A|]. rewrite B. lra.
Qed.

Lemma lit15245 : FIN 1524.5 /\ FR 1524.5 = 3049 / 2.
Proof.
  destruct (lit_dyadic 1524.5%float 6704821906178048 42 ltac:(vm_compute; reflexivity) ltac:(lia)) as [A B].
  split; [exact A|]. rewrite B. lra.
Qed.

Lemma lit05 : FIN 0.5 /\ FR 0.5 = 1 / 2.
Proof.
  destruct (lit_dyadic 0.5%float 4503599627370496 53 ltac:(vm_compute; reflexivity) ltac:(lia)) as [A B].
  split; [exact A|]. rewrite B. lra.
Qed.

Lemma Zfloor_div_IZR a b : (0 < b)%Z -> Zfloor (IZR a / IZR b) = (a / b)%Z.
Proof. intros. apply Zfloor_div. lia. Qed.

(** int(365.25 * Y) *)
Lemma mul36525 Y : (0 <= Y <= 2000000)%Z ->
  py_int (365.25 * float_of_Z Y)%float = Ok (1461 * Y / 4)%Z.
Proof.
  intros H. destruct (float_of_Z_spec Y ltac:(lia)) as [FY EY].
  assert (Rv : 0 <= IZR Y <= 2000000) by (split; apply IZR_le; lia).
  destruct lit36525 as [FL EL].
  destruct (fmul_b 365.25 (float_of_Z Y) 1000000000 FL FY) as (F & V & _); try (rewrite ?EY, ?EL; lra).
  rewrite EY, EL in V. rewrite py_int_spec by exact F. f_equal. rewrite V.
  replace (1461 / 4 * IZR Y) with (IZR (1461 * Y) / IZR (2 ^ 2)) by (rewrite mult_IZR; change (2 ^ 2)%Z with 4%Z; lra).
  rewrite RN_dyadic by lia. rewrite Ztrunc_floor.
  - apply Zfloor_div_IZR. lia.
  - rewrite mult_IZR. change (2 ^ 2)%Z with 4%Z. lra.
Qed.

Lemma mul306 m : (1 <= m <= 12)%Z -> py_int (30.6001 * float_of_Z (mmonth m + 1))%float = Ok (mb (mmonth m)).
Proof. intros H. dmonth m H; vm_compute; reflexivity. Qed.

Definition realJD (s : Solar) : R := IZR (dayno (sdate s)) - 1 / 2 + IZR (sod s) / 86400.

Lemma getJulianDay_spec s : valid_solar s -> jd_year (sy s) ->
  exists jd, getJulianDay s = Ok jd /\ FIN jd /\
    -(3 / 10000000) <= FR jd - realJD s <= 3 / 10000000 /\
    (forall k, FR (dayfrac (sh s) (smi s) (ss s)) = IZR k / 8 -> FR jd = IZR (dayno (sdate s)) - 1 / 2 + IZR k / 8).
Proof.
  intros [V T] J. destruct s as [y m d h mi s]. unfold realJD, sod, sdate in *. cbn [sy sm sd sh smi ss] in *.
  pose proof (dayno_range _ _ _ V J) as HN. unfold jd_year in J.
  destruct (dayfrac_spec h mi s T) as (Ff & Pf & Nf).
  unfold getJulianDay. cbn [sy sm sd sh smi ss]. fold (dayfrac h mi s).
  set (t := dayfrac h mi s) in *. clearbody t.
  assert (Hd : (1 <= d <= 31)%Z) by (pose proof (last_day_bounds y m); destruct V as (? & ? & ?); lia).
  destruct (float_of_Z_spec d ltac:(lia)) as [Fd Ed].
  assert (Rd : 1 <= IZR d <= 31) by (split; apply IZR_le; lia).
  assert (HS : (0 <= h * 3600 + mi * 60 + s <= 86399)%Z) by (destruct T as (? & ? & ?); lia).
  set (S := (h * 3600 + mi * 60 + s)%Z) in *. clearbody S.
  assert (RS : 0 <= IZR S <= 86399) by (split; apply IZR_le; lia).
  unfold near, eps52 in Nf.
  destruct (fadd_b (float_of_Z d) t 33 Fd Ff) as (F1 & V1 & N1); try (rewrite ?Ed; lra).
  rewrite Ed in V1, N1. unfold near, eps52 in N1.
  assert (I1 : IZR d <= FR (float_of_Z d + t)%float) by (rewrite V1; apply RN_ge_int; [lia|lra]).
  rewrite py_int_spec by exact F1. rewrite (Ztrunc_bnd _ d) by (lia || lra). cbn [bind].
  change (588829 <=? y * 372 + m * 31 + d)%Z with (greg (y, m, d)).
  assert (Em : (if (m <=? 2)%Z then ((y - 1)%Z, (m + 12)%Z) else (y, m)) = (myear y m, mmonth m)).
  { unfold myear, mmonth. destruct (m <=? 2)%Z; reflexivity. }
  rewrite Em. clear Em.
  assert (HY : (-4713 <= myear y m <= 1000000)%Z) by (unfold myear; destruct (m <=? 2)%Z; lia).
  assert (Hn : (if greg (y, m, d) then
               let! n := int_truediv (myear y m) 100 in
               let! q := int_truediv n 4 in
               Ok (2 - n + q)%Z
             else Ok 0%Z) = Ok (mcorr (greg (y, m, d)) (myear y m))).
  { destruct (greg (y, m, d)) eqn:G; [|reflexivity].
    rewrite greg_spec in G by exact V.
    assert (1581 <= myear y m)%Z by (unfold myear; destruct (m <=? 2)%Z; lia).
    rewrite int_truediv_spec by lia. rewrite Z.quot_div_nonneg by lia. cbn [bind].
    rewrite int_truediv_spec by lia. rewrite Z.quot_div_nonneg by lia. reflexivity. }
  rewrite Hn. clear Hn. cbn [bind].
  rewrite mul36525 by lia. cbn [bind].
  rewrite mul306 by (destruct V; assumption). cbn [bind].
  pose proof (meeus_fwd y m d V) as MF.
  assert (HB : (122 <= mb (mmonth m) <= 459)%Z).
  { destruct V as (Hm & _). rewrite mb_bounds by assumption. dmonth m Hm; lia. }
  assert (HC : (-10000 <= mcorr (greg (y, m, d)) (myear y m) <= 10)%Z).
  { destruct (greg (y, m, d)) eqn:G; cbn [mcorr]; [|lia]. rewrite greg_spec in G by exact V.
    assert (1581 <= myear y m)%Z by (unfold myear; destruct (m <=? 2)%Z; lia).  lia. }
  set (A := (1461 * (myear y m + 4716) / 4)%Z) in *.
  set (B := mb (mmonth m)) in *. set (C := mcorr (greg (y, m, d)) (myear y m)) in *.
  assert (HA : (0 <= A <= 370000000)%Z) by lia.
  set (N := dayno (y, m, d)) in *. clearbody A B C N.
  destruct (float_of_Z_spec (A + B) ltac:(lia)) as [FA EA].
  destruct (float_of_Z_spec C ltac:(lia)) as [FC EC].
  assert (RA : 0 <= IZR (A + B) <= 370001000) by (split; apply IZR_le; lia).
  assert (RC : -10000 <= IZR C <= 10) by (split; apply IZR_le; lia).
  assert (EN : IZR N = IZR (A + B) + IZR d + IZR C - 1524).
  { rewrite <- !plus_IZR, <- minus_IZR. apply f_equal. lia. }
  assert (RNN : 0 <= IZR N <= 367000000) by (split; apply IZR_le; lia).
  set (x1 := (float_of_Z d + t)%float) in *.
  destruct (fadd_b (float_of_Z (A + B)) x1 370010000 FA F1) as (F2 & V2 & N2); try (rewrite ?EA; lra).
  set (x2 := (float_of_Z (A + B) + x1)%float) in *. rewrite EA in V2, N2. unfold near, eps52 in N2.
  destruct (fadd_b x2 (float_of_Z C) 370020000 F2 FC) as (F3 & V3 & N3); try (rewrite ?EC; lra).
  set (x3 := (x2 + float_of_Z C)%float) in *. rewrite EC in V3, N3. unfold near, eps52 in N3.
  destruct lit15245 as [FL EL].
  destruct (fsub_b x3 1524.5 370020000 F3 FL) as (F4 & V4 & N4); try (rewrite ?EL; lra).
  rewrite EL in V4, N4. unfold near, eps52 in N4.
  eexists. split; [reflexivity|]. split; [exact F4|]. split; [lra|].
  intros k Ek.
  assert (Rt : 0 <= IZR k / 8 <= 2) by lra.
  assert (Kk : (0 <= k <= 16)%Z) by (split; apply le_IZR; lra).
  clear N1 N2 N3 N4 I1. rewrite V4, V3, V2, V1, Ek.
  assert (E8 : forall n, (Z.abs n <= 2 ^ 53)%Z -> RN (IZR n / 8) = IZR n / 8).
  { intros n Hn. apply (RN_dyadic n 3 Hn). lia. }
  replace (IZR d + IZR k / 8) with (IZR (8 * d + k) / 8) by (rewrite plus_IZR, mult_IZR; lra).
  rewrite E8 by lia.
  replace (IZR (A + B) + IZR (8 * d + k) / 8) with (IZR (8 * (A + B) + 8 * d + k) / 8)
    by (rewrite ?plus_IZR, ?mult_IZR, ?plus_IZR; lra).
  rewrite E8 by lia.
  replace (IZR (8 * (A + B) + 8 * d + k) / 8 + IZR C) with (IZR (8 * (A + B + C) + 8 * d + k) / 8)
    by (rewrite ?plus_IZR, ?mult_IZR, ?plus_IZR; lra).
  rewrite E8 by lia.
  replace (IZR (8 * (A + B + C) + 8 * d + k) / 8 - 3049 / 2) with (IZR (8 * (A + B + C) + 8 * d + k - 12196) / 8)
    by (rewrite ?minus_IZR, ?plus_IZR, ?mult_IZR, ?plus_IZR; lra).
  rewrite E8 by lia. rewrite EN. rewrite ?minus_IZR, ?plus_IZR, ?mult_IZR, ?plus_IZR; lra.
Qed.
