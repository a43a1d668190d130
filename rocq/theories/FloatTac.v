(** Interval style lemmas for binary64 expressions, and literals. *)
From Coq Require Import ZArith Lia Reals Lra.
From Flocq Require Import Core BinarySingleNaN PrimFloat.
From Coq Require Import Floats.
From Verif Require Import Py PyFloat FloatFacts.
Open Scope R_scope.

Definition eps52 : R := / 4503599627370496.

Definition near (M a b : R) : Prop := - (M * eps52) <= a - b <= M * eps52.

Lemma abs_bnd r M : - M <= r <= M -> Rabs r <= M.
Proof. intros. apply Rabs_le. lra. Qed.

Lemma big_of_M r M : - M <= r <= M -> M <= IZR (10 ^ 50) -> Rabs r <= big.
Proof. intros H1 H2. apply le_big. apply abs_bnd in H1. lra. Qed.

Lemma RN_near r M : - M <= r <= M -> 1 <= M -> near M (RN r) r.
Proof.
  intros H HM. pose proof (RN_err_le r M (abs_bnd _ _ H) HM) as E.
  unfold near, eps52. apply Rabs_le_inv in E. lra.
Qed.

Lemma fadd_b x y M : FIN x -> FIN y -> - M <= FR x + FR y <= M -> 1 <= M <= IZR (10 ^ 50) ->
  FIN (x + y)%float /\ FR (x + y)%float = RN (FR x + FR y) /\ near M (FR (x + y)%float) (FR x + FR y).
Proof.
  intros Hx Hy H [H1 H2]. destruct (fadd_spec x y Hx Hy (big_of_M _ _ H H2)) as [A B].
  repeat split; try assumption; rewrite B; apply RN_near; auto.
Qed.

Lemma fsub_b x y M : FIN x -> FIN y -> - M <= FR x - FR y <= M -> 1 <= M <= IZR (10 ^ 50) ->
  FIN (x - y)%float /\ FR (x - y)%float = RN (FR x - FR y) /\ near M (FR (x - y)%float) (FR x - FR y).
Proof.
  intros Hx Hy H [H1 H2]. destruct (fsub_spec x y Hx Hy (big_of_M _ _ H H2)) as [A B].
  repeat split; try assumption; rewrite B; apply RN_near; auto.
Qed.

Lemma fmul_b x y M : FIN x -> FIN y -> - M <= FR x * FR y <= M -> 1 <= M <= IZR (10 ^ 50) ->
  FIN (x * y)%float /\ FR (x * y)%float = RN (FR x * FR y) /\ near M (FR (x * y)%float) (FR x * FR y).
Proof.
  intros Hx Hy H [H1 H2]. destruct (fmul_spec x y Hx Hy (big_of_M _ _ H H2)) as [A B].
  repeat split; try assumption; rewrite B; apply RN_near; auto.
Qed.

Lemma fdiv_b x y M : FIN x -> FR y <> 0 -> - M <= FR x / FR y <= M -> 1 <= M <= IZR (10 ^ 50) ->
  FIN (x / y)%float /\ FR (x / y)%float = RN (FR x / FR y) /\ near M (FR (x / y)%float) (FR x / FR y).
Proof.
  intros Hx Hy H [H1 H2]. destruct (fdiv_spec x y Hx Hy (big_of_M _ _ H H2)) as [A B].
  repeat split; try assumption; rewrite B; apply RN_near; auto.
Qed.

(** Value of a literal [c]: [lit c q] proves [FIN c /\ FR c = q]. *)
Lemma lit_spec (c : float) s m e : Prim2SF c = S754_finite s m e ->
  FIN c /\ FR c = IZR (if s then Zneg m else Zpos m) * bpow radix2 e.
Proof.
  intros E. split.
  - apply FIN_SF. rewrite E. reflexivity.
  - rewrite FR_SF, E. cbn [SF2R]. unfold F2R. cbn [Fnum Fexp]. destruct s; reflexivity.
Qed.

(** Fraction part: [x - floor x] is representable. *)
Lemma FR_format x : FIN x -> exists n e, FR x = IZR n * bpow radix2 e /\ (Z.abs n < 2 ^ 53)%Z /\ (-1074 <= e)%Z.
Proof.
  intros H. pose proof (generic_format_B2R _ _ (Prim2B x)) as G. fold (FR x) in G.
  change (SpecFloat.fexp prec emax) with (FLT_exp (-1074) 53) in G.
  apply FLT_format_generic in G; [|reflexivity]. destruct G as [f A B C].
  exists (Fnum f), (Fexp f). split; [exact A|]. split; [|exact C].
  change (radix2 ^ 53)%Z with (2 ^ 53)%Z in B. exact B.
Qed.

Lemma frac_exact x k : FIN x -> (0 <= k)%Z -> IZR k <= FR x -> FR x < IZR k + 1 -> RN (FR x - IZR k) = FR x - IZR k.
Proof.
  intros Hx Hk L U. destruct (FR_format x Hx) as (n & e & E & Hn & He).
  destruct (Z.le_gt_cases 0 e) as [C|C].
  - (* integer *)
    rewrite E in *. rewrite <- IZR_Zpower in * by assumption. rewrite <- mult_IZR in *.
    assert (n * radix2 ^ e = k)%Z as ->.
    { apply le_IZR in L. rewrite <- plus_IZR in U. apply lt_IZR in U. lia. }
    rewrite Rminus_diag_eq by reflexivity. apply RN_0.
  - assert (P : bpow radix2 e * IZR (2 ^ (- e)) = 1).
    { change 2%Z with (radix_val radix2). rewrite IZR_Zpower by lia. rewrite <- bpow_plus.
      now replace (e + - e)%Z with 0%Z by lia. }
    assert (D : FR x - IZR k = IZR (n - k * 2 ^ (- e)) * bpow radix2 e).
    { rewrite E, minus_IZR, mult_IZR. rewrite Rmult_minus_distr_r.
      rewrite (Rmult_assoc (IZR k)), (Rmult_comm (IZR (2 ^ (- e)))), P. ring. }
    rewrite D. apply RN_exact; [|assumption].
    assert (Pe : 0 < bpow radix2 e) by apply bpow_gt_0.
    assert (0 <= n - k * 2 ^ (- e))%Z.
    { apply le_IZR. apply (Rmult_le_reg_r (bpow radix2 e)); [exact Pe|]. rewrite <- D. lra. }
    assert (0 <= k * 2 ^ (- e))%Z.
    { apply Z.mul_nonneg_nonneg; [assumption|]. apply Z.pow_nonneg. lia. }
    lia.
Qed.

(** Equality of floats from equality of values. *)
Lemma FR_inj x y : FIN x -> FIN y -> FR x <> 0 -> FR x = FR y -> x = y.
Proof.
  intros Hx Hy N E. apply Prim2B_inj. apply B2R_inj.
  - unfold FIN, FR in *. destruct (Prim2B x); cbn in *; try discriminate; try lra; try reflexivity.
  - rewrite E in N. unfold FIN, FR in *. destruct (Prim2B y); cbn in *; try discriminate; try lra; try reflexivity.
  - exact E.
Qed.

(** Comparison. *)
Lemma fltb_spec x y : FIN x -> FIN y -> (PrimFloat.ltb x y = true <-> FR x < FR y).
Proof.
  intros Hx Hy. rewrite ltb_equiv. unfold FIN, FR in *. rewrite Bltb_correct by assumption.
  destruct (Rlt_bool_spec (B2R (Prim2B x)) (B2R (Prim2B y))); split; intros; try easy; lra.
Qed.

Lemma feqb_spec x y : FIN x -> FIN y -> (PrimFloat.eqb x y = true <-> FR x = FR y).
Proof.
  intros Hx Hy. rewrite eqb_equiv. unfold FIN, FR in *. rewrite Beqb_correct by assumption.
  destruct (Req_bool_spec (B2R (Prim2B x)) (B2R (Prim2B y))); split; intros; try easy; lra.
Qed.

(** Truncation from bounds. *)
Lemma Ztrunc_bnd r k : (0 <= k)%Z -> IZR k <= r -> r < IZR k + 1 -> Ztrunc r = k.
Proof.
  intros Hk L U. rewrite Ztrunc_floor.
  - apply Zfloor_imp. rewrite plus_IZR. lra.
  - apply IZR_le in Hk. lra.
Qed.

Lemma ZnearestE_bnd r : Rabs (r - IZR (ZnearestE r)) <= / 2.
Proof. apply Znearest_half. Qed.
