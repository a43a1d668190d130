(** A proof device: straight-line float expressions in one variable, and a bound on their values, their slopes and the rounding
    error made by evaluating them in binary64.  [expr_arith] is an instance of [Arith], so the formulas of ShouXing.v
    are turned into expressions by running them. *)
From Coq Require Import ZArith Lia Reals Lra Psatz.
From Flocq Require Import Core BinarySingleNaN PrimFloat.
From Coq Require Import Bool List Floats.
From Verif Require Import Py PyFloat FloatFacts FloatTac ShouXing.
Import ListNotations.
Open Scope R_scope.

(** What is assumed of the C library's sin and cos: for arguments up to 2^23 the result is a number within 2^-40 of the true value. *)
Definition libm (fsin fcos : float -> float) : Prop := forall x, FIN x -> Rabs (FR x) <= IZR (2 ^ 23) ->
  (FIN (fsin x) /\ Rabs (FR (fsin x) - sin (FR x)) <= / IZR (2 ^ 40)) /\
  (FIN (fcos x) /\ Rabs (FR (fcos x) - cos (FR x)) <= / IZR (2 ^ 40)).

Inductive expr :=
  | EX | EL (c : float) | EAdd (a b : expr) | ESub (a b : expr) | EMul (a b : expr) | EDiv (a b : expr) | ESin (a : expr) | ECos (a : expr).
Definition expr_arith : Arith :=
  mkArith expr EL EAdd ESub EMul EDiv ESin ECos (fun _ => Raise ExcType) (fun _ _ => Raise ExcType).

Fixpoint ef (fsin fcos : float -> float) (x : float) (e : expr) : float :=
  match e with
  | EX => x
  | EL c => c
  | EAdd a b => (ef fsin fcos x a + ef fsin fcos x b)%float
  | ESub a b => (ef fsin fcos x a - ef fsin fcos x b)%float
  | EMul a b => (ef fsin fcos x a * ef fsin fcos x b)%float
  | EDiv a b => (ef fsin fcos x a / ef fsin fcos x b)%float
  | ESin a => fsin (ef fsin fcos x a)
  | ECos a => fcos (ef fsin fcos x a)
  end.
Fixpoint er (x : R) (e : expr) : R :=
  match e with
  | EX => x
  | EL c => FR c
  | EAdd a b => er x a + er x b
  | ESub a b => er x a - er x b
  | EMul a b => er x a * er x b
  | EDiv a b => er x a / er x b
  | ESin a => sin (er x a)
  | ECos a => cos (er x a)
  end.

(** ** Numbers scaled by 2^60 *)
Definition P2 : Z := Eval vm_compute in (2 ^ 60)%Z.
Definition sc (z : Z) : R := IZR z / IZR P2.
Lemma P2_pos : 0 < IZR P2. Proof. apply IZR_lt. reflexivity. Qed.
Lemma sc_le a b : (a <= b)%Z -> sc a <= sc b.
Proof. intros H. unfold sc. apply Rmult_le_compat_r; [apply Rlt_le, Rinv_0_lt_compat, P2_pos|now apply IZR_le]. Qed.
Lemma sc_add a b : sc (a + b) = sc a + sc b.
Proof. unfold sc. rewrite plus_IZR. unfold Rdiv. ring. Qed.
Lemma sc_sub a b : sc (a - b) = sc a - sc b.
Proof. unfold sc. rewrite minus_IZR. unfold Rdiv. ring. Qed.
Lemma sc_opp a : sc (- a) = - sc a.
Proof. unfold sc. rewrite opp_IZR. unfold Rdiv. ring. Qed.
Lemma sc_one : sc P2 = 1.
Proof. unfold sc. apply Rinv_r. apply Rgt_not_eq, P2_pos. Qed.
Lemma sc_0 : sc 0 = 0. Proof. unfold sc. lra. Qed.
Lemma sc_int z : sc (z * P2) = IZR z.
Proof. unfold sc. rewrite mult_IZR. unfold Rdiv. rewrite Rmult_assoc, Rinv_r by (apply Rgt_not_eq, P2_pos). ring. Qed.

Definition cdiv (a b : Z) : Z := (- ((- a) / b))%Z.
Lemma div_le a b : (0 < b)%Z -> IZR (a / b) <= IZR a / IZR b.
Proof.
  intros H. assert (0 < IZR b) by now apply IZR_lt. apply Rmult_le_reg_r with (IZR b); [assumption|].
  unfold Rdiv. rewrite Rmult_assoc, Rinv_l by lra. rewrite Rmult_1_r, <- mult_IZR. apply IZR_le. rewrite Z.mul_comm. apply Z.mul_div_le. exact H.
Qed.
Lemma cdiv_ge a b : (0 < b)%Z -> IZR a / IZR b <= IZR (cdiv a b).
Proof.
  intros H. unfold cdiv. rewrite opp_IZR. pose proof (div_le (- a) b H) as D. rewrite opp_IZR in D. unfold Rdiv in *. lra.
Qed.
(** division by 2^60, down and up *)
Definition down (a : Z) : Z := Z.shiftr a 60.
Definition up (a : Z) : Z := (- Z.shiftr (- a) 60)%Z.
Lemma down_div a : down a = (a / P2)%Z.
Proof. unfold down. rewrite Z.shiftr_div_pow2 by lia. reflexivity. Qed.
Lemma up_cdiv a : up a = cdiv a P2.
Proof. unfold up, cdiv. rewrite Z.shiftr_div_pow2 by lia. reflexivity. Qed.
(** products of scaled numbers *)
Lemma sc_mul_lo a b : sc (a * b / P2) <= sc a * sc b.
Proof.
  replace (sc a * sc b) with (IZR (a * b) / IZR P2 / IZR P2) by (unfold sc; rewrite mult_IZR; unfold Rdiv; ring).
  unfold sc. apply Rmult_le_compat_r; [apply Rlt_le, Rinv_0_lt_compat, P2_pos|]. apply div_le. reflexivity.
Qed.
Lemma sc_mul_hi a b : sc a * sc b <= sc (cdiv (a * b) P2).
Proof.
  replace (sc a * sc b) with (IZR (a * b) / IZR P2 / IZR P2) by (unfold sc; rewrite mult_IZR; unfold Rdiv; ring).
  unfold sc. apply Rmult_le_compat_r; [apply Rlt_le, Rinv_0_lt_compat, P2_pos|]. apply cdiv_ge. reflexivity.
Qed.

(** ** Interval products *)
Lemma aff_lo m a b x y : a <= x <= b -> m <= a * y -> m <= b * y -> m <= x * y.
Proof. intros [H1 H2] H3 H4. destruct (Rle_lt_dec 0 y); nra. Qed.
Lemma itv_lo m a b c d x y : a <= x <= b -> c <= y <= d -> m <= a * c -> m <= a * d -> m <= b * c -> m <= b * d -> m <= x * y.
Proof.
  intros Hx Hy H1 H2 H3 H4. apply aff_lo with a b; [exact Hx| |].
  - rewrite Rmult_comm. apply aff_lo with c d; [exact Hy|lra..].
  - rewrite Rmult_comm. apply aff_lo with c d; [exact Hy|lra..].
Qed.
Definition min4 a b c d := Z.min (Z.min a b) (Z.min c d).
Definition max4 a b c d := Z.max (Z.max a b) (Z.max c d).
Definition imul_lo (a b c d : Z) : Z :=
  if ((a =? 0) && (b =? 0))%Z then 0%Z else down (min4 (a * c) (a * d) (b * c) (b * d)).
Definition imul_hi (a b c d : Z) : Z :=
  if ((a =? 0) && (b =? 0))%Z then 0%Z else up (max4 (a * c) (a * d) (b * c) (b * d)).
Lemma min4_le a b c d : (min4 a b c d <= a /\ min4 a b c d <= b /\ min4 a b c d <= c /\ min4 a b c d <= d)%Z.
Proof. unfold min4. lia. Qed.
Lemma max4_ge a b c d : (a <= max4 a b c d /\ b <= max4 a b c d /\ c <= max4 a b c d /\ d <= max4 a b c d)%Z.
Proof. unfold max4. lia. Qed.
Lemma sc_prod_ge m a b : (m <= a * b)%Z -> sc (m / P2) <= sc a * sc b.
Proof. intros H. eapply Rle_trans; [|apply sc_mul_lo]. apply sc_le. apply Z.div_le_mono; [reflexivity|exact H]. Qed.
Lemma sc_prod_le m a b : (a * b <= m)%Z -> sc a * sc b <= sc (cdiv m P2).
Proof.
  intros H. eapply Rle_trans; [apply sc_mul_hi|]. apply sc_le. unfold cdiv. apply -> Z.opp_le_mono. apply Z.div_le_mono; [reflexivity|lia].
Qed.
Lemma imul_ok a b c d x y : sc a <= x <= sc b -> sc c <= y <= sc d -> sc (imul_lo a b c d) <= x * y <= sc (imul_hi a b c d).
Proof.
  intros Hx Hy. unfold imul_lo, imul_hi. destruct ((a =? 0) && (b =? 0))%Z eqn:E0.
  { apply andb_true_iff in E0. destruct E0 as [Ea Eb]. apply Z.eqb_eq in Ea, Eb. subst a b. rewrite sc_0 in *. replace x with 0 by lra. lra. }
  clear E0. rewrite down_div, up_cdiv. destruct (min4_le (a * c) (a * d) (b * c) (b * d)) as (A1 & A2 & A3 & A4).
  destruct (max4_ge (a * c) (a * d) (b * c) (b * d)) as (B1 & B2 & B3 & B4).
  split.
  - apply itv_lo with (sc a) (sc b) (sc c) (sc d); try assumption; now apply sc_prod_ge.
  - set (M := max4 _ _ _ _) in *. pose proof (sc_prod_le _ _ _ B1). pose proof (sc_prod_le _ _ _ B2). pose proof (sc_prod_le _ _ _ B3). pose proof (sc_prod_le _ _ _ B4).
    assert (- sc (cdiv M P2) <= - x * y); [|lra].
    apply itv_lo with (- sc b) (- sc a) (sc c) (sc d); lra.
Qed.
Lemma imul_slope a b c d u y k : 0 <= k -> sc a * k <= u <= sc b * k -> sc c <= y <= sc d ->
  sc (imul_lo a b c d) * k <= u * y <= sc (imul_hi a b c d) * k.
Proof.
  intros Hk Hu Hy. destruct (Req_dec k 0) as [->|N].
  - assert (u = 0) by lra. subst u. lra.
  - assert (0 < k) by lra. assert (V : sc a <= u / k <= sc b).
    { split; apply Rmult_le_reg_r with k; try assumption; unfold Rdiv; rewrite Rmult_assoc, Rinv_l by lra; lra. }
    destruct (imul_ok _ _ _ _ _ _ V Hy) as [L H']. replace (u * y) with (u / k * y * k) by (field; lra).
    split; apply Rmult_le_compat_r; assumption.
Qed.

(** ** The analysis *)
Record av := mkAv { lo : Z; hi : Z; sl : Z; sh : Z; ee : Z }.
Definition amax (a b : Z) : Z := Z.max (Z.abs a) (Z.abs b).
Definition rnd (m : Z) : Z := (- Z.shiftr (- Z.max m P2) 52)%Z.
Definition cap : Z := Eval vm_compute in (10 ^ 50 * P2)%Z.
Definition trig_max : Z := Eval vm_compute in (2 ^ 23 * P2)%Z.
Definition trig_eps : Z := Eval vm_compute in (2 ^ 20)%Z.
(** a literal, with its bounds *)
Definition lit_av (c : float) : option (Z * Z) :=
  match Prim2SF c with
  | S754_zero _ => Some (0, 0)%Z
  | S754_finite s m e =>
      let n := if s then Zneg m else Zpos m in
      if (0 <=? e + 60)%Z then Some (n * 2 ^ (e + 60), n * 2 ^ (e + 60))%Z
      else Some (n / 2 ^ (- (e + 60)), n / 2 ^ (- (e + 60)) + 1)%Z
  | _ => None
  end.
Section ANALYSIS.
Local Open Scope Z_scope.
Variables xl xh : Z.
Definition an_add (sub : bool) (u v : av) : option av :=
  let l := if sub then lo u - hi v else lo u + lo v in
  let h := if sub then hi u - lo v else hi u + hi v in
  let e := ee u + ee v in
  let m := amax l h + e in
  if (m <=? cap)%Z then
    Some (mkAv l h (if sub then sl u - sh v else sl u + sl v) (if sub then sh u - sl v else sh u + sh v) (e + rnd m))
  else None.
Definition an_mul (u v : av) : option av :=
  let l := imul_lo (lo u) (hi u) (lo v) (hi v) in
  let h := imul_hi (lo u) (hi u) (lo v) (hi v) in
  let e := up (ee u * amax (lo v) (hi v) + ee v * amax (lo u) (hi u) + ee u * ee v) in
  let m := amax l h + e in
  if (m <=? cap)%Z then
    Some (mkAv l h
      (imul_lo (sl u) (sh u) (lo v) (hi v) + imul_lo (sl v) (sh v) (lo u) (hi u))
      (imul_hi (sl u) (sh u) (lo v) (hi v) + imul_hi (sl v) (sh v) (lo u) (hi u)) (e + rnd m))
  else None.
(** division by a positive literal that the scale represents exactly *)
Definition an_div (u : av) (z : Z) : option av :=
  let q a := (a * P2 / z)%Z in
  let q' a := cdiv (a * P2) z in
  let e := q' (ee u) in
  let m := amax (q (lo u)) (q' (hi u)) + e in
  if (0 <? z) && (m <=? cap) then Some (mkAv (q (lo u)) (q' (hi u)) (q (sl u)) (q' (sh u)) (e + rnd m)) else None.
Definition an_trig (is_cos : bool) (u : av) : option av :=
  if (amax (lo u) (hi u) + ee u <=? trig_max)%Z then
    let e := (ee u + trig_eps)%Z in
    if is_cos && (lo u =? 0)%Z && (hi u =? 0)%Z then Some (mkAv P2 P2 0 0 e)
    else let s := amax (sl u) (sh u) in Some (mkAv (- P2) P2 (- s) s e)
  else None.
Definition obind {X Y} (o : option X) (f : X -> option Y) : option Y := match o with Some x => f x | None => None end.
Fixpoint an (e : expr) : option av :=
  match e with
  | EX => if (amax xl xh <=? cap)%Z then Some (mkAv xl xh P2 P2 0) else None
  | EL c => obind (lit_av c) (fun p => Some (mkAv (fst p) (snd p) 0 0 0))
  | EAdd a b => obind (an a) (fun u => obind (an b) (an_add false u))
  | ESub a b => obind (an a) (fun u => obind (an b) (an_add true u))
  | EMul a b => obind (an a) (fun u => obind (an b) (an_mul u))
  | EDiv a (EL c) => obind (an a) (fun u => obind (lit_av c) (fun p => if (fst p =? snd p)%Z then an_div u (fst p) else None))
  | EDiv _ _ => None
  | ESin a => obind (an a) (an_trig false)
  | ECos a => obind (an a) (an_trig true)
  end.
End ANALYSIS.

(** ** Soundness *)
Lemma if_some {X} (c : bool) (a b : X) : (if c then Some a else None) = Some b -> c = true /\ a = b.
Proof. destruct c; intros H; [|discriminate]. now injection H. Qed.
Lemma abs_sin_le x : Rabs (sin x) <= Rabs x.
Proof.
  assert (H : forall y, 0 <= y -> Rabs (sin y) <= y).
  { intros y Hy. destruct (Rle_lt_dec y 1) as [C|C].
    - destruct (Req_dec y 0) as [->|N]; [rewrite sin_0, Rabs_R0; lra|].
      pose proof (sin_lt_x y ltac:(lra)). pose proof (sin_ge_0 y ltac:(lra) ltac:(pose proof PI2_1; unfold PI2 in *; lra)).
      rewrite Rabs_right; lra.
    - pose proof (SIN_bound y) as [A B]. apply Rle_trans with 1; [apply Rabs_le; lra|lra]. }
  destruct (Rle_lt_dec 0 x) as [C|C].
  - rewrite (Rabs_right x) by lra. now apply H.
  - rewrite <- (Rabs_Ropp (sin x)), <- sin_neg, <- (Rabs_Ropp x), (Rabs_right (- x)) by lra. apply H. lra.
Qed.
Lemma cos_lip x y : Rabs (cos x - cos y) <= Rabs (x - y).
Proof.
  rewrite form2. rewrite !Rabs_mult. pose proof (abs_sin_le ((x - y) / 2)) as A. pose proof (SIN_bound ((x + y) / 2)) as [B1 B2].
  assert (B : Rabs (sin ((x + y) / 2)) <= 1) by (apply Rabs_le; lra).
  replace (Rabs ((x - y) / 2)) with (Rabs (x - y) / 2) in A by (unfold Rdiv; rewrite Rabs_mult, (Rabs_right (/ 2)) by lra; reflexivity).
  rewrite (Rabs_left (-2)) by lra. pose proof (Rabs_pos (sin ((x - y) / 2))). pose proof (Rabs_pos (sin ((x + y) / 2))). nra.
Qed.
Lemma sin_lip x y : Rabs (sin x - sin y) <= Rabs (x - y).
Proof.
  rewrite form4. rewrite !Rabs_mult. pose proof (abs_sin_le ((x - y) / 2)) as A. pose proof (COS_bound ((x + y) / 2)) as [B1 B2].
  assert (B : Rabs (cos ((x + y) / 2)) <= 1) by (apply Rabs_le; lra).
  replace (Rabs ((x - y) / 2)) with (Rabs (x - y) / 2) in A by (unfold Rdiv; rewrite Rabs_mult, (Rabs_right (/ 2)) by lra; reflexivity).
  rewrite (Rabs_right 2) by lra. pose proof (Rabs_pos (sin ((x - y) / 2))). pose proof (Rabs_pos (cos ((x + y) / 2))). nra.
Qed.

Lemma amax_ok a b x : sc a <= x <= sc b -> Rabs x <= sc (amax a b).
Proof.
  intros [H1 H2]. assert (A : sc (- amax a b) <= sc a) by (apply sc_le; unfold amax; lia). assert (B : sc b <= sc (amax a b)) by (apply sc_le; unfold amax; lia).
  rewrite sc_opp in A. apply Rabs_le. lra.
Qed.
Lemma sc_cap m : (m <= cap)%Z -> sc m <= IZR (10 ^ 50).
Proof. intros H. rewrite <- (sc_int (10 ^ 50)). now apply sc_le. Qed.
Lemma rnd_ok r m : (m <= cap)%Z -> Rabs r <= sc m -> Rabs r <= big /\ Rabs (RN r - r) <= sc (rnd m).
Proof.
  intros C H. pose proof (sc_cap _ C) as C'. split; [apply le_big; lra|].
  assert (H' : Rabs r <= sc (Z.max m P2)) by (eapply Rle_trans; [exact H|apply sc_le; lia]).
  eapply Rle_trans; [apply (RN_err_le r (sc (Z.max m P2))); [exact H'|rewrite <- sc_one; apply sc_le; lia]|].
  unfold rnd. rewrite Z.shiftr_div_pow2 by lia. fold (cdiv (Z.max m P2) (2 ^ 52)). unfold sc at 1 2. replace (IZR (Z.max m P2) / IZR P2 / 4503599627370496) with (IZR (Z.max m P2) / IZR (2 ^ 52) / IZR P2)
    by (change (2 ^ 52)%Z with 4503599627370496%Z; unfold Rdiv; ring).
  apply Rmult_le_compat_r; [apply Rlt_le, Rinv_0_lt_compat, P2_pos|]. apply cdiv_ge. reflexivity.
Qed.
Lemma FIN_opp_lit s m e c : Prim2SF c = S754_finite s m e -> FIN c /\ FR c = IZR (if s then Zneg m else Zpos m) * bpow radix2 e.
Proof. apply lit_spec. Qed.
Lemma lit_av_ok c p : lit_av c = Some p -> FIN c /\ sc (fst p) <= FR c <= sc (snd p).
Proof.
  unfold lit_av. destruct (Prim2SF c) as [s|s| |s m e] eqn:E; try discriminate.
  - intros [= <-]. cbn [fst snd]. rewrite sc_0. split; [apply FIN_SF; rewrite E; reflexivity|]. rewrite FR_SF, E. cbn. lra.
  - set (n := if s then Zneg m else Zpos m). destruct (lit_spec c s m e E) as [F V]. fold n in V.
    destruct (Z.leb_spec 0 (e + 60)) as [L|L]; intros [= <-]; cbn [fst snd]; (split; [exact F|]).
    + assert (X : sc (n * 2 ^ (e + 60)) = FR c).
      { rewrite V. unfold sc. rewrite mult_IZR. change 2%Z with (radix_val radix2). rewrite IZR_Zpower by lia.
        change (IZR P2) with (IZR (radix2 ^ 60)). rewrite IZR_Zpower by lia. unfold Rdiv. rewrite <- bpow_opp, Rmult_assoc, <- bpow_plus.
        do 2 f_equal. lia. }
      lra.
    + set (k := (- (e + 60))%Z) in *. assert (Hk : (0 < 2 ^ k)%Z) by (apply Z.pow_pos_nonneg; lia).
      assert (X : FR c = IZR n / IZR (2 ^ k) / IZR P2).
      { rewrite V. change (2 ^ k)%Z with (radix2 ^ k)%Z. rewrite IZR_Zpower by lia. change (IZR P2) with (IZR (radix2 ^ 60)). rewrite IZR_Zpower by lia.
        unfold Rdiv. rewrite <- !bpow_opp, Rmult_assoc, <- bpow_plus. do 2 f_equal. lia. }
      assert (Y : IZR (n / 2 ^ k) <= IZR n / IZR (2 ^ k) <= IZR (n / 2 ^ k + 1)).
      { split; [now apply div_le|]. apply Rmult_le_reg_r with (IZR (2 ^ k)); [now apply IZR_lt|].
        unfold Rdiv. rewrite Rmult_assoc, Rinv_l by (apply Rgt_not_eq; now apply IZR_lt). rewrite Rmult_1_r, <- mult_IZR. apply IZR_le.
        pose proof (Z.div_mod n (2 ^ k)) as D. pose proof (Z.mod_pos_bound n (2 ^ k) Hk). nia. }
      rewrite X. unfold sc. split; apply Rmult_le_compat_r; try (apply Rlt_le, Rinv_0_lt_compat, P2_pos); apply Y.
Qed.

Section SOUND.
Variables fsin fcos : float -> float.
Hypothesis lib : libm fsin fcos.
Variables xl xh : Z.
Definition dom (x : R) : Prop := sc xl <= x <= sc xh.
Record sound (e : expr) (u : av) : Prop := mkSound {
  so_val : forall x, dom x -> sc (lo u) <= er x e <= sc (hi u);
  so_slope : forall x y, dom x -> dom y -> x <= y -> sc (sl u) * (y - x) <= er y e - er x e <= sc (sh u) * (y - x);
  so_err : forall xf, FIN xf -> dom (FR xf) -> FIN (ef fsin fcos xf e) /\ Rabs (FR (ef fsin fcos xf e) - er (FR xf) e) <= sc (ee u)
}.
Lemma ee_ge e u xf : sound e u -> FIN xf -> dom (FR xf) -> 0 <= sc (ee u).
Proof. intros S F D. destruct (so_err _ _ S xf F D) as [_ E]. pose proof (Rabs_pos (FR (ef fsin fcos xf e) - er (FR xf) e)). lra. Qed.
Lemma near_abs r x e M : Rabs (x - r) <= e -> Rabs r <= M -> Rabs x <= M + e.
Proof. intros H1 H2. replace x with ((x - r) + r) by ring. eapply Rle_trans; [apply Rabs_triang|]. lra. Qed.

Lemma an_add_ok (sub : bool) a b u v w : sound a u -> sound b v -> an_add sub u v = Some w -> sound (if sub then ESub a b else EAdd a b) w.
Proof.
  intros Sa Sb. unfold an_add. cbv zeta. set (l := if sub then _ else _). set (h := if sub then _ else _). set (m := (amax l h + _)%Z).
  intros Ew. apply if_some in Ew. destruct Ew as [C Ew]. apply Z.leb_le in C. subst w.
  assert (V : forall x, dom x -> sc l <= er x (if sub then ESub a b else EAdd a b) <= sc h).
  { intros x D. pose proof (so_val _ _ Sa x D). pose proof (so_val _ _ Sb x D). unfold l, h. destruct sub; cbn [er]; rewrite ?sc_add, ?sc_sub; lra. }
  split; cbn [lo hi sl sh ee].
  - exact V.
  - intros x y Dx Dy L. pose proof (so_slope _ _ Sa x y Dx Dy L). pose proof (so_slope _ _ Sb x y Dx Dy L).
    destruct sub; cbn [er]; rewrite ?sc_add, ?sc_sub; lra.
  - intros xf F D. destruct (so_err _ _ Sa xf F D) as [Fa Ea]. destruct (so_err _ _ Sb xf F D) as [Fb Eb]. pose proof (V _ D) as B. apply amax_ok in B.
    set (fa := ef fsin fcos xf a) in *. set (fb := ef fsin fcos xf b) in *.
    set (s := if sub then FR fa - FR fb else FR fa + FR fb). set (r := er (FR xf) (if sub then ESub a b else EAdd a b)) in *.
    assert (E : Rabs (s - r) <= sc (ee u + ee v)).
    { rewrite sc_add. unfold s, r. apply Rabs_le_inv in Ea, Eb. destruct sub; cbn [er]; apply Rabs_le; lra. }
    assert (M : Rabs s <= sc m) by (unfold m; rewrite sc_add; eapply near_abs; [exact E|exact B]).
    destruct (rnd_ok _ _ C M) as [Big Rd].
    assert (G : FIN (ef fsin fcos xf (if sub then ESub a b else EAdd a b)) /\ FR (ef fsin fcos xf (if sub then ESub a b else EAdd a b)) = RN s).
    { unfold s in *. destruct sub; cbn [ef]; [apply fsub_spec|apply fadd_spec]; assumption. }
    destruct G as [G1 G2]. split; [exact G1|]. rewrite G2. rewrite sc_add. apply Rabs_le_inv in E, Rd. apply Rabs_le. lra.
Qed.

Lemma an_mul_ok a b u v w : sound a u -> sound b v -> an_mul u v = Some w -> sound (EMul a b) w.
Proof.
  intros Sa Sb. unfold an_mul. cbv zeta. set (l := imul_lo (lo u) _ _ _). set (h := imul_hi (lo u) _ _ _). set (e := up _). set (m := (amax l h + e)%Z).
  intros Ew. apply if_some in Ew. destruct Ew as [C Ew]. apply Z.leb_le in C. subst w.
  assert (V : forall x, dom x -> sc l <= er x (EMul a b) <= sc h).
  { intros x D. apply imul_ok; [apply (so_val _ _ Sa x D)|apply (so_val _ _ Sb x D)]. }
  split; cbn [lo hi sl sh ee].
  - exact V.
  - intros x y Dx Dy L. pose proof (so_slope _ _ Sa x y Dx Dy L) as A. pose proof (so_slope _ _ Sb x y Dx Dy L) as B. cbn [er].
    pose proof (imul_slope _ _ _ _ _ _ (y - x) ltac:(lra) A (so_val _ _ Sb y Dy)) as A'. pose proof (imul_slope _ _ _ _ _ _ (y - x) ltac:(lra) B (so_val _ _ Sa x Dx)) as B'.
    rewrite !sc_add.
    replace (er y a * er y b - er x a * er x b) with ((er y a - er x a) * er y b + (er y b - er x b) * er x a) by ring. lra.
  - intros xf F D. destruct (so_err _ _ Sa xf F D) as [Fa Ea]. destruct (so_err _ _ Sb xf F D) as [Fb Eb]. pose proof (V _ D) as B. apply amax_ok in B.
    pose proof (amax_ok _ _ _ (so_val _ _ Sa _ D)) as Ba. pose proof (amax_ok _ _ _ (so_val _ _ Sb _ D)) as Bb.
    pose proof (ee_ge _ _ _ Sa F D) as Pa. pose proof (ee_ge _ _ _ Sb F D) as Pb.
    cbn [er ef] in *. set (fa := ef fsin fcos xf a) in *. set (fb := ef fsin fcos xf b) in *. set (ra := er (FR xf) a) in *. set (rb := er (FR xf) b) in *.
    assert (E : Rabs (FR fa * FR fb - ra * rb) <= sc e).
    { replace (FR fa * FR fb - ra * rb) with ((FR fa - ra) * rb + (FR fb - rb) * ra + (FR fa - ra) * (FR fb - rb)) by ring.
      eapply Rle_trans; [apply Rabs_triang|]. eapply Rle_trans; [apply Rplus_le_compat_r, Rabs_triang|]. rewrite !Rabs_mult.
      assert (X : sc (ee u) * sc (amax (lo v) (hi v)) + sc (ee v) * sc (amax (lo u) (hi u)) + sc (ee u) * sc (ee v) <= sc e).
      { unfold e. rewrite up_cdiv. set (z := (_ + _ + _)%Z).
        replace (sc (ee u) * sc (amax (lo v) (hi v)) + sc (ee v) * sc (amax (lo u) (hi u)) + sc (ee u) * sc (ee v)) with (IZR z / IZR P2 / IZR P2)
          by (unfold z, sc; rewrite !plus_IZR, !mult_IZR; unfold Rdiv; ring).
        unfold sc. apply Rmult_le_compat_r; [apply Rlt_le, Rinv_0_lt_compat, P2_pos|]. apply cdiv_ge. reflexivity. }
      eapply Rle_trans; [|exact X]. apply Rplus_le_compat; [apply Rplus_le_compat|]; apply Rmult_le_compat; try apply Rabs_pos; assumption. }
    assert (M : Rabs (FR fa * FR fb) <= sc m) by (unfold m; rewrite sc_add; eapply near_abs; [exact E|exact B]).
    destruct (rnd_ok _ _ C M) as [Big Rd]. destruct (fmul_spec fa fb Fa Fb Big) as [G1 G2].
    split; [exact G1|]. rewrite G2, sc_add. apply Rabs_le_inv in E, Rd. apply Rabs_le. lra.
Qed.

Lemma sc_quot_lo a z : (0 < z)%Z -> sc (a * P2 / z) <= sc a / sc z.
Proof.
  intros H. assert (0 < IZR z) by now apply IZR_lt. pose proof P2_pos.
  replace (sc a / sc z) with (IZR (a * P2) / IZR z / IZR P2) by (unfold sc; rewrite mult_IZR; field; lra).
  unfold sc. apply Rmult_le_compat_r; [apply Rlt_le, Rinv_0_lt_compat, P2_pos|]. now apply div_le.
Qed.
Lemma sc_quot_hi a z : (0 < z)%Z -> sc a / sc z <= sc (cdiv (a * P2) z).
Proof.
  intros H. assert (0 < IZR z) by now apply IZR_lt. pose proof P2_pos.
  replace (sc a / sc z) with (IZR (a * P2) / IZR z / IZR P2) by (unfold sc; rewrite mult_IZR; field; lra).
  unfold sc. apply Rmult_le_compat_r; [apply Rlt_le, Rinv_0_lt_compat, P2_pos|]. now apply cdiv_ge.
Qed.
Lemma sc_pos z : (0 < z)%Z -> 0 < sc z.
Proof. intros H. unfold sc. apply Rmult_lt_0_compat; [now apply IZR_lt|apply Rinv_0_lt_compat, P2_pos]. Qed.
Lemma an_div_ok a c u z w : sound a u -> lit_av c = Some (z, z) -> an_div u z = Some w -> sound (EDiv a (EL c)) w.
Proof.
  intros Sa Lc. unfold an_div. cbv zeta. destruct (lit_av_ok _ _ Lc) as [Fc Vc]. cbn [fst snd] in Vc. assert (Ec : FR c = sc z) by lra.
  set (m := (amax _ _ + _)%Z). intros Ew. apply if_some in Ew. destruct Ew as [C Ew]. apply andb_true_iff in C. destruct C as [Z0 C]. apply Z.leb_le in C. apply Z.ltb_lt in Z0. subst w.
  pose proof (sc_pos z Z0) as Pz.
  assert (Q : forall r A B, sc A <= r <= sc B -> sc (A * P2 / z) <= r / sc z <= sc (cdiv (B * P2) z)).
  { intros r A B H. pose proof (sc_quot_lo A z Z0). pose proof (sc_quot_hi B z Z0).
    assert (sc A / sc z <= r / sc z <= sc B / sc z) by (split; apply Rmult_le_compat_r; try (apply Rlt_le, Rinv_0_lt_compat; exact Pz); lra). lra. }
  assert (V : forall x, dom x -> sc (lo u * P2 / z) <= er x (EDiv a (EL c)) <= sc (cdiv (hi u * P2) z)).
  { intros x D. cbn [er]. rewrite Ec. apply Q. apply (so_val _ _ Sa x D). }
  split; cbn [lo hi sl sh ee].
  - exact V.
  - intros x y Dx Dy L. pose proof (so_slope _ _ Sa x y Dx Dy L) as A. cbn [er]. rewrite Ec.
    replace (er y a / sc z - er x a / sc z) with ((er y a - er x a) / sc z) by (field; lra).
    pose proof (sc_quot_lo (sl u) z Z0) as A1. pose proof (sc_quot_hi (sh u) z Z0) as A2.
    assert (sc (sl u) / sc z * (y - x) <= (er y a - er x a) / sc z <= sc (sh u) / sc z * (y - x)).
    { split; apply Rmult_le_reg_r with (sc z); try exact Pz; field_simplify; lra. }
    split; nra.
  - intros xf F D. destruct (so_err _ _ Sa xf F D) as [Fa Ea]. pose proof (V _ D) as B. apply amax_ok in B. cbn [er ef] in *. rewrite Ec in *.
    set (fa := ef fsin fcos xf a) in *. set (ra := er (FR xf) a) in *.
    assert (E : Rabs (FR fa / FR c - ra / sc z) <= sc (cdiv (ee u * P2) z)).
    { rewrite Ec. replace (FR fa / sc z - ra / sc z) with ((FR fa - ra) / sc z) by (field; lra). unfold Rdiv. rewrite Rabs_mult, (Rabs_right (/ sc z)) by (apply Rle_ge, Rlt_le, Rinv_0_lt_compat; exact Pz).
      eapply Rle_trans; [|apply sc_quot_hi; exact Z0]. apply Rmult_le_compat_r; [apply Rlt_le, Rinv_0_lt_compat; exact Pz|exact Ea]. }
    assert (M : Rabs (FR fa / FR c) <= sc m) by (unfold m; rewrite sc_add; eapply near_abs; [exact E|exact B]).
    destruct (rnd_ok _ _ C M) as [Big Rd]. destruct (fdiv_spec fa c Fa ltac:(rewrite Ec; lra) Big) as [G1 G2].
    split; [exact G1|]. rewrite G2, sc_add. apply Rabs_le_inv in E, Rd. apply Rabs_le. lra.
Qed.

Lemma an_trig_ok (is_cos : bool) a u w : sound a u -> an_trig is_cos u = Some w -> sound (if is_cos then ECos a else ESin a) w.
Proof.
  intros Sa. unfold an_trig. cbv zeta. destruct (Z.leb_spec (amax (lo u) (hi u) + ee u) trig_max) as [C|C]; [|discriminate]. intros Ew.
  assert (Err : forall xf, FIN xf -> dom (FR xf) -> FIN (ef fsin fcos xf (if is_cos then ECos a else ESin a)) /\
    Rabs (FR (ef fsin fcos xf (if is_cos then ECos a else ESin a)) - er (FR xf) (if is_cos then ECos a else ESin a)) <= sc (ee u + trig_eps)).
  { intros xf F D. destruct (so_err _ _ Sa xf F D) as [Fa Ea]. pose proof (amax_ok _ _ _ (so_val _ _ Sa _ D)) as Ba.
    assert (M : Rabs (FR (ef fsin fcos xf a)) <= IZR (2 ^ 23)).
    { eapply Rle_trans; [eapply near_abs; [exact Ea|exact Ba]|]. rewrite <- sc_add, <- (sc_int (2 ^ 23)). apply sc_le. exact C. }
    destruct (lib _ Fa M) as [[Fs Es] [Fc Ec]]. assert (T : sc trig_eps = / IZR (2 ^ 40)).
    { change trig_eps with (2 ^ 20)%Z. unfold sc. change P2 with (2 ^ 60)%Z. replace (2 ^ 60)%Z with (2 ^ 20 * 2 ^ 40)%Z by reflexivity. rewrite mult_IZR. field. split; apply Rgt_not_eq, IZR_lt; reflexivity. }
    rewrite sc_add, T. set (fa := ef fsin fcos xf a) in *. set (ra := er (FR xf) a) in *.
    destruct is_cos; cbn [ef er]; fold fa; fold ra; (split; [assumption|]).
    - pose proof (cos_lip (FR fa) ra). replace (FR (fcos fa) - cos ra) with ((FR (fcos fa) - cos (FR fa)) + (cos (FR fa) - cos ra)) by ring.
      eapply Rle_trans; [apply Rabs_triang|]. lra.
    - pose proof (sin_lip (FR fa) ra). replace (FR (fsin fa) - sin ra) with ((FR (fsin fa) - sin (FR fa)) + (sin (FR fa) - sin ra)) by ring.
      eapply Rle_trans; [apply Rabs_triang|]. lra. }
  destruct (is_cos && (lo u =? 0)%Z && (hi u =? 0)%Z) eqn:Ez.
  - injection Ew as <-. apply andb_true_iff in Ez. destruct Ez as [Ez E2]. apply andb_true_iff in Ez. destruct Ez as [-> E1].
    apply Z.eqb_eq in E1, E2. assert (Zr : forall x, dom x -> er x a = 0).
    { intros x D. pose proof (so_val _ _ Sa x D) as V. rewrite E1, E2, sc_0 in V. lra. }
    split; cbn [lo hi sl sh ee]; [| |exact Err].
    + intros x D. cbn [er]. rewrite (Zr x D), cos_0, sc_one. lra.
    + intros x y Dx Dy L. cbn [er]. rewrite (Zr x Dx), (Zr y Dy), sc_0. lra.
  - injection Ew as <-. split; cbn [lo hi sl sh ee]; [| |exact Err].
    + intros x D. match goal with |- sc ?a <= _ <= _ => change a with (- P2)%Z end. rewrite sc_opp, sc_one. destruct is_cos; cbn [er]; [apply COS_bound|apply SIN_bound].
    + intros x y Dx Dy L. rewrite sc_opp. pose proof (so_slope _ _ Sa x y Dx Dy L) as [S1 S2].
      assert (A1 : sc (- amax (sl u) (sh u)) <= sc (sl u)) by (apply sc_le; unfold amax; lia). assert (A2 : sc (sh u) <= sc (amax (sl u) (sh u))) by (apply sc_le; unfold amax; lia).
      rewrite sc_opp in A1. assert (X : Rabs (er y a - er x a) <= sc (amax (sl u) (sh u)) * (y - x)) by (apply Rabs_le; nra).
      destruct is_cos; cbn [er]; [pose proof (cos_lip (er y a) (er x a)) as Y|pose proof (sin_lip (er y a) (er x a)) as Y];
        pose proof (Rle_trans _ _ _ Y X) as W; apply Rabs_le_inv in W; lra.
Qed.

Lemma obind_some {X Y} (o : option X) (f : X -> option Y) y : obind o f = Some y -> exists x, o = Some x /\ f x = Some y.
Proof. destruct o as [x|]; [|discriminate]. exists x. auto. Qed.
Lemma an_ok e : forall u, an xl xh e = Some u -> sound e u.
Proof.
  induction e as [|c|a IHa b IHb|a IHa b IHb|a IHa b IHb|a IHa b IHb|a IHa|a IHa]; intros u E; cbn [an] in E.
  - destruct (Z.leb_spec (amax xl xh) cap); [|discriminate]. injection E as <-. split; cbn [lo hi sl sh ee er ef].
    + intros x D. exact D.
    + intros x y _ _ _. rewrite sc_one. lra.
    + intros xf F D. split; [exact F|]. rewrite Rminus_diag_eq, Rabs_R0, sc_0 by reflexivity. lra.
  - apply obind_some in E. destruct E as (p & L & E). injection E as <-. destruct (lit_av_ok _ _ L) as [F V]. split; cbn [lo hi sl sh ee er ef].
    + intros x _. exact V.
    + intros x y _ _ _. rewrite sc_0. lra.
    + intros xf _ _. split; [exact F|]. rewrite Rminus_diag_eq, Rabs_R0, sc_0 by reflexivity. lra.
  - apply obind_some in E. destruct E as (v & E1 & E). apply obind_some in E. destruct E as (w & E2 & E). exact (an_add_ok false _ _ _ _ _ (IHa _ E1) (IHb _ E2) E).
  - apply obind_some in E. destruct E as (v & E1 & E). apply obind_some in E. destruct E as (w & E2 & E). exact (an_add_ok true _ _ _ _ _ (IHa _ E1) (IHb _ E2) E).
  - apply obind_some in E. destruct E as (v & E1 & E). apply obind_some in E. destruct E as (w & E2 & E). exact (an_mul_ok _ _ _ _ _ (IHa _ E1) (IHb _ E2) E).
  - destruct b as [|c| | | | | | ]; try discriminate. apply obind_some in E. destruct E as (v & E1 & E). apply obind_some in E. destruct E as ([z z'] & E2 & E).
    cbn [fst snd] in E. destruct (Z.eqb_spec z z') as [->|]; [|discriminate]. exact (an_div_ok _ _ _ _ _ (IHa _ E1) E2 E).
  - apply obind_some in E. destruct E as (v & E1 & E). exact (an_trig_ok false _ _ _ (IHa _ E1) E).
  - apply obind_some in E. destruct E as (v & E1 & E). exact (an_trig_ok true _ _ _ (IHa _ E1) E).
Qed.
End SOUND.

(** ** The difference of two sums of like shape, term by term *)
Definition sf_eqb (a b : spec_float) : bool :=
  match a, b with
  | S754_zero _, S754_zero _ => true
  | S754_finite s m e, S754_finite s' m' e' => Bool.eqb s s' && Pos.eqb m m' && Z.eqb e e'
  | _, _ => false
  end.
Definition lit_eqb (c d : float) : bool := sf_eqb (Prim2SF c) (Prim2SF d).
Lemma lit_eqb_ok c d : lit_eqb c d = true -> FR c = FR d.
Proof.
  unfold lit_eqb. rewrite !FR_SF. destruct (Prim2SF c) as [s|s| |s m e], (Prim2SF d) as [s'|s'| |s' m' e']; try discriminate; [reflexivity|].
  cbn [sf_eqb]. intros H. apply andb_true_iff in H. destruct H as [H H3]. apply andb_true_iff in H. destruct H as [H1 H2].
  apply Bool.eqb_prop in H1. apply Pos.eqb_eq in H2. apply Z.eqb_eq in H3. now subst.
Qed.
Fixpoint expr_eqb (e f : expr) : bool :=
  match e, f with
  | EX, EX => true
  | EL c, EL d => lit_eqb c d
  | EAdd a b, EAdd c d | ESub a b, ESub c d | EMul a b, EMul c d | EDiv a b, EDiv c d => if expr_eqb b d then expr_eqb a c else false
  | ESin a, ESin c | ECos a, ECos c => expr_eqb a c
  | _, _ => false
  end.
Lemma expr_eqb_ok x e : forall f, expr_eqb e f = true -> er x e = er x f.
Proof.
  induction e as [|c|a IHa b IHb|a IHa b IHb|a IHa b IHb|a IHa b IHb|a IHa|a IHa]; intros f H; destruct f; cbn [expr_eqb] in H; try discriminate; cbn [er];
    try (destruct (expr_eqb b f2) eqn:E2; [|discriminate]; rewrite (IHa _ H), (IHb _ E2); reflexivity); try (rewrite (IHa _ H); reflexivity).
  - reflexivity.
  - now apply lit_eqb_ok.
Qed.
Fixpoint ediff (e f : expr) : expr :=
  match e with
  | EAdd a b =>
      match f with
      | EAdd a' b' =>
          if expr_eqb b b' then ediff a a'
          else match b with
               | EMul c s =>
                   match b' with
                   | EMul c' s' => if expr_eqb s s' then EAdd (ediff a a') (EMul (ediff c c') s) else EAdd (ediff a f) b
                   | _ => EAdd (ediff a f) b
                   end
               | _ => EAdd (ediff a f) b
               end
      | _ => EAdd (ediff a f) b
      end
  | EDiv a h =>
      match f with
      | EDiv a' h' => if expr_eqb h h' then EDiv (ediff a a') h else ESub e f
      | _ => ESub e f
      end
  | _ => if expr_eqb e f then EL 0%float else ESub e f
  end.
Lemma FR_zero : FR 0%float = 0. Proof. rewrite FR_SF. reflexivity. Qed.
Lemma ediff_ok x e : forall f, er x (ediff e f) = er x e - er x f.
Proof.
  assert (Dft : forall e f, er x (if expr_eqb e f then EL 0%float else ESub e f) = er x e - er x f).
  { intros e0 f0. destruct (expr_eqb e0 f0) eqn:E; cbn [er]; [rewrite (expr_eqb_ok x _ _ E), FR_zero; ring|reflexivity]. }
  assert (G : (forall f, er x (ediff e f) = er x e - er x f) /\ match e with EMul c s => forall f, er x (ediff c f) = er x c - er x f | _ => True end).
  2:{ apply G. }
  induction e as [|c|a IHa b IHb|a IHa b IHb|a IHa b IHb|a IHa b IHb|a IHa|a IHa]; cbn [ediff]; try (split; [apply Dft|exact I]).
  - split; [|exact I]. intros f. destruct f as [|d|a' b'|a' b'|a' b'|a' b'|a'|a']; try (cbn [er]; rewrite (proj1 IHa); cbn [er]; ring).
    destruct (expr_eqb b b') eqn:E; [cbn [er]; rewrite (proj1 IHa), (expr_eqb_ok x _ _ E); ring|].
    destruct b as [|?|? ?|? ?|c s|? ?|?|?]; try (cbn [er]; rewrite (proj1 IHa); cbn [er]; ring).
    destruct b' as [|?|? ?|? ?|c' s'|? ?|?|?]; try (cbn [er]; rewrite (proj1 IHa); cbn [er]; ring).
    destruct (expr_eqb s s') eqn:E'; cbn [er]; rewrite (proj1 IHa); cbn [er]; [|ring].
    rewrite (proj2 IHb), (expr_eqb_ok x _ _ E'). ring.
  - split; [apply Dft|apply IHa].
  - split; [|exact I]. intros f. destruct f as [|d|a' b'|a' b'|a' b'|a' b'|a'|a']; try reflexivity. destruct (expr_eqb b b') eqn:E; cbn [er]; [|reflexivity].
    rewrite (proj1 IHa), (expr_eqb_ok x _ _ E). unfold Rdiv. ring.
Qed.
