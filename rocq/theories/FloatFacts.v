(** Facts about binary64 arithmetic, through Flocq's equivalence with [PrimFloat]. *)
From Coq Require Import ZArith Lia Reals Lra.
From Coq Require Uint63.
From Flocq Require Import Core BinarySingleNaN PrimFloat Operations Relative.
From Coq Require Import Floats.
From Verif Require Import Py PyFloat.
Open Scope R_scope.

Notation prec53 := 53%Z.
Definition FIN (x : float) : Prop := BinarySingleNaN.is_finite (Prim2B x) = true.
Definition FR (x : float) : R := B2R (Prim2B x).
Definition RN (r : R) : R := round radix2 (FLT_exp (-1074) 53) ZnearestE r.

#[global] Instance vexp : Valid_exp (FLT_exp (-1074) 53).
Proof. apply FLT_exp_valid. reflexivity. Qed.

Definition big : R := bpow radix2 1000.

Lemma RN_big r : Rabs r <= big -> Rabs (RN r) <= big.
Proof.
  intros H. unfold RN, big in *.
  apply abs_round_le_generic; auto with typeclass_instances.
  apply generic_format_bpow. cbv; discriminate.
Qed.

Lemma RN_lt_emax r : Rabs r <= big -> Rlt_bool (Rabs (RN r)) (bpow radix2 1024) = true.
Proof.
  intros H. apply Rlt_bool_true. eapply Rle_lt_trans. now apply RN_big.
  unfold big. now apply bpow_lt.
Qed.

Lemma fadd_spec x y : FIN x -> FIN y -> Rabs (FR x + FR y) <= big ->
  FIN (x + y)%float /\ FR (x + y)%float = RN (FR x + FR y).
Proof.
  intros Hx Hy H. unfold FIN, FR in *. rewrite add_equiv.
  pose proof (Bplus_correct _ _ Hprec Hmax mode_NE _ _ Hx Hy) as C.
  change (round radix2 (SpecFloat.fexp prec emax) (round_mode mode_NE)) with RN in C.
  change (bpow radix2 emax) with (bpow radix2 1024) in C.
  rewrite (RN_lt_emax _ H) in C. tauto.
Qed.

Lemma fsub_spec x y : FIN x -> FIN y -> Rabs (FR x - FR y) <= big ->
  FIN (x - y)%float /\ FR (x - y)%float = RN (FR x - FR y).
Proof.
  intros Hx Hy H. unfold FIN, FR in *. rewrite sub_equiv.
  pose proof (Bminus_correct _ _ Hprec Hmax mode_NE _ _ Hx Hy) as C.
  change (round radix2 (SpecFloat.fexp prec emax) (round_mode mode_NE)) with RN in C.
  change (bpow radix2 emax) with (bpow radix2 1024) in C.
  rewrite (RN_lt_emax _ H) in C. tauto.
Qed.

Lemma fmul_spec x y : FIN x -> FIN y -> Rabs (FR x * FR y) <= big ->
  FIN (x * y)%float /\ FR (x * y)%float = RN (FR x * FR y).
Proof.
  intros Hx Hy H. unfold FIN, FR in *. rewrite mul_equiv.
  pose proof (Bmult_correct _ _ Hprec Hmax mode_NE (Prim2B x) (Prim2B y)) as C.
  change (round radix2 (SpecFloat.fexp prec emax) (round_mode mode_NE)) with RN in C.
  change (bpow radix2 emax) with (bpow radix2 1024) in C.
  rewrite (RN_lt_emax _ H) in C. destruct C as (C1 & C2 & _).
  split; [now rewrite C2, Hx, Hy|assumption].
Qed.

Lemma fdiv_spec x y : FIN x -> FR y <> 0 -> Rabs (FR x / FR y) <= big ->
  FIN (x / y)%float /\ FR (x / y)%float = RN (FR x / FR y).
Proof.
  intros Hx Hy H. unfold FIN, FR in *. rewrite div_equiv.
  pose proof (Bdiv_correct _ _ Hprec Hmax mode_NE (Prim2B x) (Prim2B y) Hy) as C.
  change (round radix2 (SpecFloat.fexp prec emax) (round_mode mode_NE)) with RN in C.
  change (bpow radix2 emax) with (bpow radix2 1024) in C.
  rewrite (RN_lt_emax _ H) in C. destruct C as (C1 & C2 & _).
  split; [now rewrite C2|assumption].
Qed.

Lemma fopp_spec x : FIN x -> FIN (- x)%float /\ FR (- x)%float = - FR x.
Proof.
  intros Hx. unfold FIN, FR in *. rewrite opp_equiv. rewrite is_finite_Bopp, B2R_Bopp. auto.
Qed.

(** Literals: their value is read off the bits. *)
Lemma FR_SF x : FR x = SF2R radix2 (Prim2SF x).
Proof. unfold FR. now rewrite <- B2SF_Prim2B, SF2R_B2SF. Qed.

Lemma FIN_SF x : is_finite_SF (Prim2SF x) = true -> FIN x.
Proof. unfold FIN. now rewrite <- B2SF_Prim2B, is_finite_SF_B2SF. Qed.

(** Exactly representable reals are not rounded. *)
Lemma RN_exact n e : (Z.abs n <= 2 ^ 53)%Z -> (-1074 <= e)%Z ->
  RN (IZR n * bpow radix2 e) = IZR n * bpow radix2 e.
Proof.
  intros Hn He. apply round_generic; auto with typeclass_instances.
  destruct (Z.eq_dec (Z.abs n) (2 ^ 53)) as [E|E].
  - assert (IZR n * bpow radix2 e = bpow radix2 (53 + e) \/ IZR n * bpow radix2 e = - bpow radix2 (53 + e)) as [X|X].
    { rewrite bpow_plus. change (bpow radix2 53) with (IZR (2 ^ 53)).
      destruct (Zabs_spec n) as [[_ A]|[_ A]]; rewrite A in E.
      + left. now rewrite E.
      + right. replace n with (- 2 ^ 53)%Z by lia. rewrite opp_IZR. ring. }
    + rewrite X. apply generic_format_bpow. unfold FLT_exp. lia.
    + rewrite X. apply generic_format_opp, generic_format_bpow. unfold FLT_exp. lia.
  - apply generic_format_FLT. exists (Float radix2 n e); cbn [Fnum Fexp]; try lia.
    + reflexivity.
    + change (radix2 ^ 53)%Z with (2 ^ 53)%Z. lia.
Qed.

Lemma RN_int n : (Z.abs n <= 2 ^ 53)%Z -> RN (IZR n) = IZR n.
Proof.
  intros H. pose proof (RN_exact n 0 H ltac:(lia)) as E.
  change (bpow radix2 0) with 1 in E. now rewrite Rmult_1_r in E.
Qed.

(** Dyadic numbers with denominator 2^k. *)
Lemma RN_dyadic n k : (Z.abs n <= 2 ^ 53)%Z -> (0 <= k <= 1074)%Z ->
  RN (IZR n / IZR (2 ^ k)) = IZR n / IZR (2 ^ k).
Proof.
  intros H Hk. pose proof (RN_exact n (- k) H ltac:(lia)) as E.
  rewrite bpow_opp in E. change 2%Z with (radix_val radix2). rewrite IZR_Zpower by lia. exact E.
Qed.

Lemma RN_mono x y : x <= y -> RN x <= RN y.
Proof. intros. apply round_le; auto with typeclass_instances. Qed.

Lemma RN_0 : RN 0 = 0.
Proof. apply round_0; auto with typeclass_instances. Qed.

Lemma RN_opp x : RN (- x) = - RN x.
Proof.
  unfold RN. rewrite round_NE_opp. reflexivity.
Qed.

(** Standard model: relative error 2^-53, absolute error 2^-1075. *)
Lemma RN_err r : Rabs (RN r - r) <= / 9007199254740992 * Rabs r + bpow radix2 (-1075).
Proof.
  destruct (error_N_FLT radix2 (-1074) 53 ltac:(lia) (fun x => negb (Z.even x)) r)
    as (eps & eta & He & Ht & _ & E).
  change (RN r) with (round radix2 (FLT_exp (-1074) 53) (Znearest (fun x => negb (Z.even x))) r). rewrite E.
  replace (r * (1 + eps) + eta - r) with (eps * r + eta) by ring.
  eapply Rle_trans. apply Rabs_triang. rewrite Rabs_mult.
  apply Rplus_le_compat.
  - apply Rmult_le_compat_r. apply Rabs_pos. eapply Rle_trans. exact He.
    change (bpow radix2 (- (53) + 1)) with (/ IZR 4503599627370496). lra.
  - eapply Rle_trans. exact Ht. change (-1075)%Z with (-1 + -1074)%Z. rewrite bpow_plus.
    change (bpow radix2 (-1)) with (/ 2). lra.
Qed.

(** Absolute error for magnitudes up to [M]. *)
Lemma RN_err_le r M : Rabs r <= M -> 1 <= M -> Rabs (RN r - r) <= M / 4503599627370496.
Proof.
  intros H HM. eapply Rle_trans. apply RN_err.
  assert (bpow radix2 (-1075) <= / 9007199254740992).
  { change (/ 9007199254740992) with (/ IZR (2 ^ 53)). change (/ IZR (2 ^ 53)) with (bpow radix2 (-53)).
    apply bpow_le. lia. }
  lra.
Qed.

Lemma Ztrunc_shiftr m k : (0 <= m)%Z -> (0 <= k)%Z ->
  Ztrunc (IZR m * bpow radix2 (- k)) = Z.shiftr m k.
Proof.
  intros Hm Hk. rewrite Z.shiftr_div_pow2 by lia.
  rewrite Ztrunc_floor.
  2:{ apply Rmult_le_pos. now apply IZR_le. apply bpow_ge_0. }
  rewrite bpow_opp, <- IZR_Zpower by lia.
  change (IZR m * / IZR (radix2 ^ k)) with (IZR m / IZR (radix2 ^ k)).
  apply Zfloor_div. change (radix_val radix2) with 2%Z. apply Z.pow_nonzero; lia.
Qed.

Lemma Ztrunc_shiftl m k : (0 <= k)%Z -> Ztrunc (IZR m * bpow radix2 k) = Z.shiftl m k.
Proof.
  intros Hk. rewrite Z.shiftl_mul_pow2 by lia. rewrite <- IZR_Zpower by lia.
  rewrite <- mult_IZR. apply Ztrunc_IZR.
Qed.

(** [int(x)] is truncation of the real value. *)
Lemma py_int_spec x : FIN x -> py_int x = Ok (Ztrunc (FR x)).
Proof.
  intros H. assert (F : is_finite_SF (Prim2SF x) = true).
  { unfold FIN in H. now rewrite <- B2SF_Prim2B, is_finite_SF_B2SF. }
  rewrite FR_SF. unfold py_int.
  destruct (Prim2SF x) as [s|s| |s m e]; try discriminate F; cbn [SF2R].
  - now rewrite Ztrunc_IZR.
  - unfold F2R; cbn [Fnum Fexp]. f_equal.
    assert (G : forall z, Ztrunc (IZR (cond_Zopp s z) * bpow radix2 e)
               = cond_Zopp s (Ztrunc (IZR z * bpow radix2 e))).
    { intros z. destruct s; cbn [cond_Zopp]; [|reflexivity].
      rewrite opp_IZR, Ropp_mult_distr_l_reverse, Ztrunc_opp. reflexivity. }
    rewrite G. destruct (Z.leb_spec 0 e) as [L|L].
    + rewrite Ztrunc_shiftl by lia. destruct s; reflexivity.
    + replace (Ztrunc (IZR (Zpos m) * bpow radix2 e)) with (Z.shiftr (Zpos m) (- e)).
      destruct s; reflexivity.
      rewrite <- Ztrunc_shiftr by lia. f_equal. f_equal. f_equal. lia.
Qed.

Lemma py_floor_spec x : FIN x -> py_floor x = Ok (Zfloor (FR x)).
Proof.
  intros H. assert (F : is_finite_SF (Prim2SF x) = true).
  { unfold FIN in H. now rewrite <- B2SF_Prim2B, is_finite_SF_B2SF. }
  rewrite FR_SF. unfold py_floor.
  destruct (Prim2SF x) as [s|s| |s m e]; try discriminate F; cbn [SF2R].
  - now rewrite Zfloor_IZR.
  - unfold F2R; cbn [Fnum Fexp]. f_equal.
    replace (if s then Zneg m else Zpos m) with (cond_Zopp s (Zpos m)) by (destruct s; reflexivity).
    generalize (cond_Zopp s (Zpos m)) as z; intros z.
    destruct (Z.leb_spec 0 e) as [L|L].
    + rewrite Z.shiftl_mul_pow2 by lia. change 2%Z with (radix_val radix2).
      rewrite <- IZR_Zpower by lia. now rewrite <- mult_IZR, Zfloor_IZR.
    + replace e with (- (- e))%Z by lia. rewrite Z.shiftl_opp_r, Z.shiftr_div_pow2 by lia.
      rewrite bpow_opp, <- IZR_Zpower by lia. symmetry. apply Zfloor_div.
      change (radix_val radix2) with 2%Z. apply Z.pow_nonzero; lia.
Qed.

(** [round(x)]: nearest integer, ties to even. *)
Lemma py_round_spec x : FIN x -> py_round x = Ok (ZnearestE (FR x)).
Proof.
  intros H. assert (F : is_finite_SF (Prim2SF x) = true).
  { unfold FIN in H. now rewrite <- B2SF_Prim2B, is_finite_SF_B2SF. }
  rewrite FR_SF. unfold py_round.
  destruct (Prim2SF x) as [s|s| |s m e]; try discriminate F; cbn [SF2R].
  - f_equal. symmetry. apply (Znearest_imp _ 0 0). rewrite Rminus_0_r, Rabs_R0. lra.
  - unfold F2R; cbn [Fnum Fexp].
    assert (G : forall z, ZnearestE (IZR (cond_Zopp s z) * bpow radix2 e)
               = cond_Zopp s (ZnearestE (IZR z * bpow radix2 e))).
    { intros z. destruct s; cbn [cond_Zopp]; [|reflexivity].
      rewrite opp_IZR, Ropp_mult_distr_l_reverse, Znearest_opp. f_equal.
      unfold Znearest. destruct (Rcompare _ _); try reflexivity.
      replace (negb (negb (Z.even (- (Zfloor (IZR z * bpow radix2 e) + 1)))))
         with (negb (Z.even (Zfloor (IZR z * bpow radix2 e)))); [reflexivity|].
      rewrite Z.even_opp, negb_involutive, Z.even_add. cbn [Z.even].
      destruct (Z.even _); reflexivity. }
    rewrite G. destruct (Z.leb_spec 0 e) as [L|L].
    + f_equal. rewrite Z.shiftl_mul_pow2 by lia. change 2%Z with (radix_val radix2).
      rewrite <- IZR_Zpower by lia. rewrite <- mult_IZR.
      replace (ZnearestE (IZR (Zpos m * radix2 ^ e))) with (Zpos m * radix2 ^ e)%Z.
      destruct s; reflexivity.
      symmetry. apply Znearest_imp. rewrite Rminus_diag_eq by reflexivity. rewrite Rabs_R0. lra.
    + f_equal. set (k := (- e)%Z). assert (Hk : (0 < k)%Z) by (unfold k; lia).
      replace e with (- k)%Z by (unfold k; lia).
      rewrite bpow_opp, <- IZR_Zpower by lia. change (radix_val radix2) with 2%Z.
      rewrite Z.shiftr_div_pow2 by lia. rewrite !Z.shiftl_mul_pow2 by lia.
      assert (P : (0 < 2 ^ k)%Z) by (apply Z.pow_pos_nonneg; lia).
      set (h := (2 ^ k)%Z) in *. set (q := (Zpos m / h)%Z).
      assert (D : (Zpos m = q * h + (Zpos m - q * h))%Z) by ring.
      assert (B : (0 <= Zpos m - q * h < h)%Z).
      { pose proof (Z.div_mod (Zpos m) h ltac:(lia)). pose proof (Z.mod_pos_bound (Zpos m) h P).
        unfold q. lia. }
      set (r := (Zpos m - q * h)%Z) in *.
      change (IZR (Zpos m) * / IZR h) with (IZR (Zpos m) / IZR h).
      assert (Hh : 0 < IZR h) by now apply IZR_lt.
      assert (V : IZR (Zpos m) / IZR h = IZR q + IZR r / IZR h).
      { rewrite D at 1. rewrite plus_IZR, mult_IZR. field. lra. }
      assert (Fl : Zfloor (IZR (Zpos m) / IZR h) = q).
      { rewrite Zfloor_div by lia. reflexivity. }
      replace (Z.compare (2 * r) (1 * h)) with (Rcompare (IZR r / IZR h) (/ 2)).
      2:{ rewrite Z.mul_1_l. destruct (Z.compare_spec (2 * r) h) as [C|C|C].
          - apply Rcompare_Eq. apply (f_equal IZR) in C. rewrite mult_IZR in C.
            apply (Rmult_eq_reg_r (IZR h)); [|lra]. field_simplify; lra.
          - apply Rcompare_Lt. apply IZR_lt in C. rewrite mult_IZR in C.
            apply (Rmult_lt_reg_r (IZR h)); [lra|]. field_simplify; lra.
          - apply Rcompare_Gt. apply IZR_lt in C. rewrite mult_IZR in C.
            apply (Rmult_lt_reg_r (IZR h)); [lra|]. field_simplify; lra. }
      unfold Znearest. rewrite Fl. rewrite V.
      replace (IZR q + IZR r / IZR h - IZR q) with (IZR r / IZR h) by ring.
      destruct (Rcompare_spec (IZR r / IZR h) (/ 2)) as [C|C|C].
      * destruct s; reflexivity.
      * destruct (Z.even q); cbn [negb].
        -- destruct s; reflexivity.
        -- rewrite (Zceil_floor_neq (IZR q + IZR r / IZR h)).
           2:{ rewrite <- V, Fl. intros E. rewrite V in E. lra. }
           rewrite <- V, Fl. destruct s; reflexivity.
      * rewrite (Zceil_floor_neq (IZR q + IZR r / IZR h)).
        2:{ rewrite <- V, Fl. intros E. rewrite V in E. lra. }
        rewrite <- V, Fl. destruct s; reflexivity.
Qed.

Lemma to_Z_of_Z z : (0 <= z < 2 ^ 63)%Z -> Uint63.to_Z (Uint63.of_Z z) = z.
Proof. intros. rewrite Uint63.of_Z_spec. apply Z.mod_small. exact H. Qed.

Lemma of_uint63_spec z : (0 <= z <= 2 ^ 53)%Z ->
  FIN (PrimFloat.of_uint63 (Uint63.of_Z z)) /\ FR (PrimFloat.of_uint63 (Uint63.of_Z z)) = IZR z.
Proof.
  intros H. unfold FIN, FR. rewrite of_int63_equiv.
  rewrite to_Z_of_Z by lia.
  pose proof (binary_normalize_correct _ _ Hprec Hmax mode_NE z 0 false) as C. cbv zeta in C.
  change (round radix2 (SpecFloat.fexp prec emax) (round_mode mode_NE)) with RN in C.
  change (bpow radix2 emax) with (bpow radix2 1024) in C.
  assert (E : F2R (Float radix2 z 0) = IZR z) by (unfold F2R; cbn; ring).
  rewrite E in C.
  rewrite RN_lt_emax in C.
  2:{ rewrite Rabs_pos_eq by (apply IZR_le; lia). unfold big.
      apply Rle_trans with (bpow radix2 53).
      change (bpow radix2 53) with (IZR (2 ^ 53)). apply IZR_le. lia.
      apply bpow_le. lia. }
  rewrite RN_int in C by lia. tauto.
Qed.

Lemma float_of_Z_spec z : (Z.abs z <= 2 ^ 53)%Z ->
  FIN (float_of_Z z) /\ FR (float_of_Z z) = IZR z.
Proof.
  intros H. unfold float_of_Z. destruct (Z.ltb_spec z 0) as [L|L].
  - destruct (of_uint63_spec (- z) ltac:(lia)) as [A B].
    destruct (fopp_spec _ A) as [C D]. split; [exact C|].
    rewrite D, B, opp_IZR. ring.
  - apply of_uint63_spec. lia.
Qed.

Lemma big_ge z : (z <= 2 ^ 200)%Z -> IZR z <= big.
Proof.
  intros H. apply Rle_trans with (bpow radix2 200).
  - change (bpow radix2 200) with (IZR (2 ^ 200)). now apply IZR_le.
  - apply bpow_le. lia.
Qed.

Lemma le_big r : Rabs r <= IZR (10 ^ 50) -> Rabs r <= big.
Proof.
  intros H. eapply Rle_trans. exact H. apply big_ge. cbv; discriminate.
Qed.

(** The quotient of integers, truncated, is exact up to 2^52. *)
Lemma RN_div_trunc a b : (0 <= a <= 2 ^ 52)%Z -> (0 < b <= 2 ^ 53)%Z ->
  Ztrunc (RN (IZR a / IZR b)) = Z.quot a b.
Proof.
  intros Ha Hb. rewrite Z.quot_div_nonneg by lia.
  set (q := (a / b)%Z).
  assert (Hq : (q * b <= a /\ a + 1 <= (q + 1) * b /\ 0 <= q)%Z).
  { unfold q. pose proof (Z.div_mod a b ltac:(lia)). pose proof (Z.mod_pos_bound a b ltac:(lia)).
    assert (0 <= a / b)%Z by (apply Z.div_pos; lia). nia. }
  destruct Hq as (Q1 & Q2 & Q3).
  assert (Pb : 0 < IZR b) by (apply IZR_lt; lia).
  set (r := IZR a / IZR b).
  assert (Er : r * IZR b = IZR a) by (unfold r; field; lra).
  assert (L1 : IZR q <= r).
  { apply (Rmult_le_reg_r (IZR b)); [lra|]. rewrite Er, <- mult_IZR. now apply IZR_le. }
  assert (r0 : 0 <= r) by (eapply Rle_trans; [|exact L1]; now apply IZR_le).
  assert (L2 : r * IZR b + 1 <= (IZR q + 1) * IZR b).
  { rewrite Er. rewrite <- !plus_IZR, <- mult_IZR. now apply IZR_le. }
  assert (L3 : IZR q <= RN r).
  { rewrite <- (RN_int q). now apply RN_mono.
    assert (q <= a)%Z by nia. lia. }
  assert (L4 : RN r < IZR q + 1).
  { apply Rnot_le_lt. intros C.
    pose proof (RN_err r) as E. rewrite (Rabs_pos_eq r r0) in E.
    pose proof (Rle_abs (RN r - r)) as E2.
    set (t := bpow radix2 (-1075)) in *.
    assert (Ht : t <= / IZR (2 ^ 60)).
    { unfold t. change (/ IZR (2 ^ 60)) with (bpow radix2 (-60)). apply bpow_le. lia. }
    assert (Pt : 0 < t) by apply bpow_gt_0.
    assert (D : IZR q + 1 - r <= / 9007199254740992 * r + t) by lra.
    assert (D2 : (IZR q + 1 - r) * IZR b <= (/ 9007199254740992 * r + t) * IZR b)
      by (apply Rmult_le_compat_r; lra).
    assert (Ba : IZR a <= IZR (2 ^ 52)) by (apply IZR_le; lia).
    assert (Bb : IZR b <= IZR (2 ^ 53)) by (apply IZR_le; lia).
    assert (D3 : t * IZR b <= / IZR (2 ^ 60) * IZR (2 ^ 53)).
    { apply Rmult_le_compat; lra. }
    replace ((/ 9007199254740992 * r + t) * IZR b)
       with (/ 9007199254740992 * (r * IZR b) + t * IZR b) in D2 by ring.
    replace ((IZR q + 1 - r) * IZR b) with ((IZR q + 1) * IZR b - r * IZR b) in D2 by ring.
    rewrite Er in *. change (2 ^ 60)%Z with 1152921504606846976%Z in *.
    change (2 ^ 52)%Z with 4503599627370496%Z in *. change (2 ^ 53)%Z with 9007199254740992%Z in *.
    lra. }
  rewrite Ztrunc_floor.
  - apply Zfloor_imp. rewrite plus_IZR. lra.
  - eapply Rle_trans; [|exact L3]. now apply IZR_le.
Qed.

Lemma int_truediv_spec a b : (Z.abs a <= 2 ^ 52)%Z -> (0 < b <= 2 ^ 53)%Z ->
  int_truediv a b = Ok (Z.quot a b).
Proof.
  intros Ha Hb. unfold int_truediv.
  destruct (Z.eqb_spec b 0); [lia|].
  destruct (float_of_Z_spec a ltac:(lia)) as [FA EA].
  destruct (float_of_Z_spec b ltac:(lia)) as [FB EB].
  assert (Pb : 0 < IZR b) by (apply IZR_lt; lia).
  assert (B1 : 1 <= IZR b) by (apply IZR_le; lia).
  assert (G : Rabs (IZR a / IZR b) <= big).
  { apply le_big. unfold Rdiv. rewrite Rabs_mult, Rabs_inv, (Rabs_pos_eq (IZR b)) by lra.
    apply Rle_trans with (Rabs (IZR a) * 1).
    - apply Rmult_le_compat_l. apply Rabs_pos. rewrite <- Rinv_1. apply Rinv_le; lra.
    - rewrite Rmult_1_r, <- abs_IZR. apply Rle_trans with (IZR (2 ^ 52)).
      apply IZR_le. lia. apply IZR_le. lia. }
  destruct (fdiv_spec (float_of_Z a) (float_of_Z b)) as [F E]; rewrite ?EA, ?EB in *; auto; [lra|].
  rewrite py_int_spec by exact F. rewrite E. f_equal.
  destruct (Z.le_gt_cases 0 a).
  - apply RN_div_trunc; lia.
  - replace a with (- (- a))%Z by lia. rewrite opp_IZR.
    replace (- IZR (- a) / IZR b) with (- (IZR (- a) / IZR b)) by (field; lra).
    rewrite RN_opp, Ztrunc_opp, RN_div_trunc by lia.
    rewrite !Z.quot_opp_l by lia. lia.
Qed.
