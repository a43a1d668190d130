(** A proof device: floats with a bound on their distance from what any C library with [libm] makes of the same formula.
    [cert_arith] is an instance of [Arith]; where it decides a comparison or a floor, every such library decides it alike. *)
From Coq Require Import ZArith Lia Reals Lra Psatz.
From Flocq Require Import Core BinarySingleNaN PrimFloat.
From Coq Require Import Bool List Floats.
From Verif Require Import Py PyFloat FloatFacts FloatTac ShouXing FloatExpr Trig.
Import ListNotations.
Open Scope R_scope.
Local Set Warnings "-inexact-float".

(** ** A quick cosine *)
Definition MAGIC : float := 6755399441055744.
Definition INV_2PI : float := 0.15915494309189535.
Definition TWO_PI : float := 6.283185307179586.
Definition qturns (x : float) : float := (x * INV_2PI + MAGIC - MAGIC)%float.
Definition qcos (x : float) : float := (let r := (x - qturns x * TWO_PI) * 0.5 in let c := cos_poly r in c * c * 2 - 1)%float.
Definition qsin (x : float) : float := qcos (x - 1.5707963267948966)%float.


Lemma int_of_float m : FIN m -> IZR (2 ^ 52) <= FR m < IZR (2 ^ 53) -> exists k, FR m = IZR k.
Proof.
  intros F [L H]. destruct (FR_format m F) as (n & e & E & Bn & Be). destruct (Z_le_gt_dec 0 e) as [C|C].
  - exists (n * 2 ^ e)%Z. rewrite E, mult_IZR. f_equal. change 2%Z with (radix_val radix2). rewrite IZR_Zpower by lia. reflexivity.
  - exfalso. assert (B : bpow radix2 e <= / 2).
    { change (/ 2) with (bpow radix2 (-1)). apply bpow_le. lia. }
    pose proof (bpow_gt_0 radix2 e) as P. assert (Hn : IZR n < IZR (2 ^ 53)) by (apply IZR_lt; lia). rewrite E in L.
    change (IZR (2 ^ 52)) with 4503599627370496 in L. change (IZR (2 ^ 53)) with 9007199254740992 in *.
    assert (IZR n * bpow radix2 e <= 9007199254740991 * / 2); [|lra].
    assert (IZR n <= 9007199254740991) by (apply IZR_le; lia). destruct (Rle_lt_dec (IZR n) 0); nra.
Qed.

Lemma lit_eq (c : float) z : lit_av c = Some (z, z) -> FIN c /\ FR c = IZR z / 1152921504606846976.
Proof. intros H. destruct (lit_val c z z H) as [F V]. split; [exact F|]. unfold sc in V. change (IZR P2) with 1152921504606846976 in V. lra. Qed.
Ltac flx c F E :=
  let v := eval vm_compute in (lit_av c) in
  match v with Some (?z, _) =>
    assert (F : FIN c) by exact (proj1 (lit_eq c z ltac:(vm_compute; reflexivity)));
    assert (E : FR c = IZR z / 1152921504606846976) by exact (proj2 (lit_eq c z ltac:(vm_compute; reflexivity)))
  end.
Lemma RN_half r : Rabs r <= IZR (2 ^ 53 - 1) -> Rabs (RN r - r) <= / 2.
Proof.
  intros B. pose proof (round_N_pt radix2 (FLT_exp (-1074) 53) (fun x => negb (Z.even x)) r) as [_ N].
  assert (Bn : (Z.abs (ZnearestE r) <= 2 ^ 53)%Z).
  { apply Rabs_le_inv in B. pose proof (ZnearestE_bnd r) as H. apply Rabs_le_inv in H. set (n := ZnearestE r) in *. rewrite minus_IZR in B.
    assert (-(2 ^ 53) < n < 2 ^ 53)%Z; [|lia]. split; apply lt_IZR; rewrite ?opp_IZR; change (IZR (2 ^ 53)) with 9007199254740992 in *; lra. }
  assert (F : generic_format radix2 (FLT_exp (-1074) 53) (IZR (ZnearestE r))).
  { rewrite <- (RN_int _ Bn). apply generic_format_round; auto with typeclass_instances. }
  eapply Rle_trans; [apply (N _ F)|]. rewrite Rabs_minus_sym. apply ZnearestE_bnd.
Qed.
Lemma le_big50 r : -(10 ^ 50) <= r <= 10 ^ 50 -> Rabs r <= big.
Proof. intros H. apply le_big. change (IZR (10 ^ 50)) with 100000000000000000000000000000000000000000000000000. apply Rabs_le. lra. Qed.
Lemma qturns_ok x : FIN x -> Rabs (FR x) <= 5000000 ->
  FIN (qturns x) /\ exists k, FR (qturns x) = IZR k /\ Rabs (FR x * FR INV_2PI - IZR k) <= 5001 / 10000 /\ Rabs (IZR k) <= 800000.
Proof.
  intros Fx Bx. apply Rabs_le_inv in Bx. unfold qturns. flx INV_2PI F1 V1. flx MAGIC F2 V2.
  destruct (fmul_b x INV_2PI 800000 Fx F1 ltac:(rewrite V1; lra) ltac:(lra)) as (F3 & _ & N3). set (y := (x * INV_2PI)%float) in *. unfold near, eps52 in N3.
  assert (By : -795780 <= FR y <= 795780) by (rewrite V1 in N3; lra).
  assert (M : FR MAGIC = 6755399441055744) by lra.
  destruct (fadd_spec y MAGIC F3 F2 ltac:(apply le_big50; rewrite M; lra)) as [F4 V4].
  set (m := (y + MAGIC)%float) in *. rewrite M in V4.
  assert (R0 : Rabs (FR m - (FR y + 6755399441055744)) <= / 2).
  { rewrite V4. apply RN_half. apply Rabs_le. rewrite minus_IZR. change (IZR (2 ^ 53)) with 9007199254740992. lra. }
  apply Rabs_le_inv in R0.
  destruct (int_of_float m F4 ltac:(change (IZR (2 ^ 52)) with 4503599627370496; change (IZR (2 ^ 53)) with 9007199254740992; lra)) as [j Ej].
  assert (Bj : (Z.abs (j - 6755399441055744) <= 800000)%Z).
  { rewrite Ej in R0. assert (6755399441055744 - 800000 <= j <= 6755399441055744 + 800000)%Z; [|lia]. split; apply le_IZR; rewrite ?minus_IZR, ?plus_IZR; lra. }
  destruct (fsub_spec m MAGIC F4 F2 ltac:(apply le_big50; rewrite M; lra)) as [F5 V5]. split; [exact F5|]. exists (j - 6755399441055744)%Z.
  assert (V6 : FR (m - MAGIC)%float = IZR (j - 6755399441055744)).
  { rewrite V5, M, Ej, <- minus_IZR. apply RN_int. lia. }
  split; [exact V6|]. rewrite <- abs_IZR. split; [|apply IZR_le; exact Bj]. rewrite minus_IZR, <- Ej. apply Rabs_le. lra.
Qed.

(** the polynomial on half of a turn *)
Lemma horner3 s c c' h h' d e : 0 <= s <= 3 -> Rabs (c - c') <= d -> Rabs (h - h') <= e -> Rabs ((c + s * h) - (c' + s * h')) <= d + 3 * e.
Proof.
  intros Hs Hc Hh. replace (c + s * h - (c' + s * h')) with ((c - c') + s * (h - h')) by ring. eapply Rle_trans; [apply Rabs_triang|].
  rewrite Rabs_mult, (Rabs_right s) by lra. pose proof (Rabs_pos (h - h')). nra.
Qed.
Lemma cos_near2 r : -16 / 10 <= r <= 16 / 10 -> Rabs (er r cos_expr - cos r) <= 1 / 10000000000.
Proof.
  intros Hr. destruct (pre_cos_bound r 3 ltac:(lra) ltac:(lra)) as [L U]. change (2 * 3 + 1)%nat with 7%nat in L. change (2 * (3 + 1))%nat with 8%nat in U.
  rewrite cos_series in L, U. rewrite tech5 in U. set (p := sum_f_R0 _ 7) in *. assert (Hs : 0 <= r * r <= 256 / 100) by nra.
  assert (Q : 0 <= (r * r) ^ 8 <= 1850) by (split; [apply pow_le; lra|apply Rle_trans with ((256 / 100) ^ 8); [apply pow_incr; lra|lra]]).
  change (zf (2 * 8)) with 20922789888000%Z in U. cbn [Nat.even] in U.
  assert (E : Rabs (er r cos_expr - p) <= 3280 * tiny).
  { unfold p. cbn [sum_f_R0 Nat.even]. change (zf (2 * 0)) with 1%Z. change (zf (2 * 1)) with 2%Z. change (zf (2 * 2)) with 24%Z. change (zf (2 * 3)) with 720%Z.
    change (zf (2 * 4)) with 40320%Z. change (zf (2 * 5)) with 3628800%Z. change (zf (2 * 6)) with 479001600%Z. change (zf (2 * 7)) with 87178291200%Z.
    unfold cos_expr, SQ. cbn [er]. set (s := r * r) in *.
    replace (1 * (s ^ 0 / 1) + -1 * (s ^ 1 / 2) + 1 * (s ^ 2 / 24) + -1 * (s ^ 3 / 720) + 1 * (s ^ 4 / 40320) + -1 * (s ^ 5 / 3628800) + 1 * (s ^ 6 / 479001600) + -1 * (s ^ 7 / 87178291200))
      with (1 + s * (-1 / 2 + s * (1 / 24 + s * (-1 / 720 + s * (1 / 40320 + s * (-1 / 3628800 + s * (1 / 479001600 + s * (-1 / 87178291200)))))))) by field.
    replace (3280 * tiny) with (tiny + 3 * (tiny + 3 * (tiny + 3 * (tiny + 3 * (tiny + 3 * (tiny + 3 * (tiny + 3 * tiny))))))) by ring.
    repeat (apply horner3; [lra|coef|]). coef. }
  unfold tiny in E. change (2 ^ 55)%Z with 36028797018963968%Z in E. apply Rabs_le_inv in E. apply Rabs_le.
  lra.
Qed.
Definition q_expr : expr := ESub (EMul (EMul cos_expr cos_expr) (EL 2)) (EL 1).
Lemma q_poly r : FIN r -> -16 / 10 <= FR r <= 16 / 10 -> let c := cos_poly r in
  FIN (c * c * 2 - 1)%float /\ Rabs (FR (c * c * 2 - 1)%float - cos (2 * FR r)) <= 5 / 10000000000.
Proof.
  intros Fr Br. cbv zeta. set (lo := (-16 * P2 / 10)%Z). set (hi := (16 * P2 / 10)%Z).
  assert (D : dom (lo - 1) (hi + 1) (FR r)).
  { unfold dom, sc. change (lo - 1)%Z with (-1844674407370955163)%Z. change (hi + 1)%Z with 1844674407370955162%Z. change (IZR P2) with 1152921504606846976. lra. }
  destruct (an (lo - 1) (hi + 1) q_expr) as [u|] eqn:Eu; [|vm_compute in Eu; discriminate].
  pose proof (so_err _ _ _ _ _ _ (an_ok _ _ wit_libm _ _ _ _ Eu) r Fr D) as [Fc Ec].
  change (ef (wit sin) (wit cos) r q_expr) with (cos_poly r * cos_poly r * 2 - 1)%float in *.
  assert (Bu : sc (ee u) <= / 100000000000) by (vm_compute in Eu; injection Eu as <-; unfold sc; cbn [ee]; change (IZR P2) with 1152921504606846976; lra).
  split; [exact Fc|]. pose proof (cos_near2 (FR r) Br) as N. unfold q_expr in Ec. cbn [er] in Ec. flx 2%float F2 V2. flx 1%float F1 V1. rewrite V2, V1 in Ec.
  rewrite cos_2a_cos. pose proof (COS_bound (FR r)) as B. set (p := er (FR r) cos_expr) in *. set (q := cos (FR r)) in *. apply Rabs_le_inv in Ec, N.
  assert (-4 * 1.01 / 10000000000 <= 2 * (p * p) - 2 * q * q <= 4 * 1.01 / 10000000000).
  { replace (2 * (p * p) - 2 * q * q) with ((p - q) * (2 * (p + q))) by ring. assert (-4.01 <= 2 * (p + q) <= 4.01) by lra. nra. }
  apply Rabs_le. lra.
Qed.
Lemma qcos_ok x : FIN x -> Rabs (FR x) <= 5000000 -> FIN (qcos x) /\ Rabs (FR (qcos x) - cos (FR x)) <= 2 / 1000000000.
Proof.
  intros Fx Bx. destruct (qturns_ok x Fx Bx) as (Fn & k & En & Nk & Bk). apply Rabs_le_inv in Bx, Nk, Bk. flx INV_2PI F1 V1. flx TWO_PI F2 V2. flx 0.5%float F3 V3.
  pose proof pi_bounds as PB. unfold pi2z in PB. change (IZR (2 ^ 80)) with 1208925819614629174706176 in PB.
  change (1898976236818169290393996 + 1)%Z with 1898976236818169290393997%Z in PB. set (h := Rtrigo1.PI / 2) in *. set (X := FR x) in *.
  unfold qcos. cbv zeta. set (n := qturns x) in *. rewrite V1 in Nk.
  assert (H1 : 1570796326 / 1000000000 <= h <= 1570796327 / 1000000000) by lra.
  assert (Dk : -2 / 1000000000 <= IZR k * (4 * h - FR TWO_PI) <= 2 / 1000000000).
  { assert (-1 / 1000000000000000 <= 4 * h - FR TWO_PI <= 1 / 1000000000000000) as G by (rewrite V2; lra). revert G. generalize (4 * h - FR TWO_PI). intros d G. clear - G Bk. nra. }
  match type of Nk with _ <= X * ?t - _ <= _ => set (T := t) in * end.
  assert (T2 : -1 / 1000000000000000 <= 1 - T * (4 * h) <= 1 / 1000000000000000) by (unfold T; lra).
  assert (Rd : -31425 / 10000 <= X - IZR k * (4 * h) <= 31425 / 10000).
  { replace (X - IZR k * (4 * h)) with (4 * h * (X * T - IZR k) + X * (1 - T * (4 * h))) by ring.
    assert (-1 / 100000000 <= X * (1 - T * (4 * h)) <= 1 / 100000000) by (revert T2; generalize (1 - T * (4 * h)); intros d G; clear - G Bx; nra).
    assert (-31424 / 10000 <= 4 * h * (X * T - IZR k) <= 31424 / 10000) by nra. lra. }
  assert (Dk' : -2 / 10000000000 * 10 <= IZR k * (4 * h) - IZR k * FR TWO_PI <= 2 / 10000000000 * 10) by lra.
  assert (Dk2 : -3 / 10000000000 <= IZR k * (4 * h - FR TWO_PI) <= 3 / 10000000000).
  { assert (-26 / 100000000000000000 <= 4 * h - FR TWO_PI <= 26 / 100000000000000000) as G by (rewrite V2; lra). revert G. generalize (4 * h - FR TWO_PI). intros d G. clear - G Bk. nra. }
  destruct (fmul_b n TWO_PI 5200000 Fn F2 ltac:(rewrite En, V2; lra) ltac:(lra)) as (F4 & _ & N4). rewrite En in N4. unfold near, eps52 in N4. set (m := (n * TWO_PI)%float) in *.
  destruct (fsub_b x m 4 Fx F4 ltac:(fold X; lra) ltac:(lra)) as (F5 & _ & N5). fold X in N5. unfold near, eps52 in N5. set (d := (x - m)%float) in *.
  destruct (fmul_b d 0.5 2 F5 F3 ltac:(rewrite V3; lra) ltac:(lra)) as (F6 & _ & N6). rewrite V3 in N6. unfold near, eps52 in N6. set (r := (d * 0.5)%float) in *.
  destruct (q_poly r F6 ltac:(lra)) as [F7 N7]. cbv zeta in *. split; [exact F7|].
  assert (E : Rabs (cos (2 * FR r) - cos X) <= 15 / 10000000000).
  { replace (cos X) with (cos (X - IZR k * (4 * h))).
    - eapply Rle_trans; [apply cos_lip|]. apply Rabs_le. lra.
    - rewrite <- (cos_turns _ k). f_equal. unfold h. field. }
  apply Rabs_le_inv in E, N7. apply Rabs_le. lra.
Qed.
Lemma qsin_ok x : FIN x -> Rabs (FR x) <= 4999990 -> FIN (qsin x) /\ Rabs (FR (qsin x) - sin (FR x)) <= 4 / 1000000000.
Proof.
  intros Fx Bx. apply Rabs_le_inv in Bx. unfold qsin. flx 1.5707963267948966%float F1 V1.
  destruct (fsub_b x 1.5707963267948966 5000000 Fx F1 ltac:(rewrite V1; lra) ltac:(lra)) as (F2 & _ & N2). set (y := (x - 1.5707963267948966)%float) in *. unfold near, eps52 in N2. rewrite V1 in N2.
  destruct (qcos_ok y F2 ltac:(apply Rabs_le; lra)) as [F3 N3]. split; [exact F3|].
  pose proof pi_bounds as PB. unfold pi2z in PB. change (IZR (2 ^ 80)) with 1208925819614629174706176 in PB.
  change (1898976236818169290393996 + 1)%Z with 1898976236818169290393997%Z in PB.
  assert (E : Rabs (cos (FR y) - sin (FR x)) <= 2 / 1000000000).
  { rewrite <- cos_shift. replace (cos (Rtrigo1.PI / 2 - FR x)) with (cos (FR x - Rtrigo1.PI / 2)) by (rewrite <- cos_neg; f_equal; ring).
    eapply Rle_trans; [apply cos_lip|]. apply Rabs_le. lra. }
  apply Rabs_le_inv in E, N3. apply Rabs_le. lra.
Qed.

(** ** Floats with error bounds *)
Definition CU : float := 4.440892098500626e-16.
Definition CK : float := 1.000000000931322574615478515625.
Definition CT : float := 7.888609052210118e-31.
Inductive cert := Bad | C (v e : float).
Definition CMAX : float := 10000000000000000.
Definition mk (v e : float) : cert := if PrimFloat.ltb (PrimFloat.abs v + e) CMAX then C v e else Bad.
Definition cerr (q r : float) : float := (q * CK + PrimFloat.abs r * CU + CT)%float.
Definition cc_lit (x : float) : cert := if (PrimFloat.ltb (-10000000000000000)%float x && PrimFloat.ltb x CMAX)%bool then mk x 0%float else Bad.
Definition cc_add (a b : cert) : cert :=
  match a, b with C v e, C w f => let r := (v + w)%float in mk r (cerr (e + f)%float r) | _, _ => Bad end.
Definition cc_sub (a b : cert) : cert :=
  match a, b with C v e, C w f => let r := (v - w)%float in mk r (cerr (e + f)%float r) | _, _ => Bad end.
Definition cc_mul (a b : cert) : cert :=
  match a, b with C v e, C w f => let r := (v * w)%float in mk r (cerr (PrimFloat.abs v * f + (PrimFloat.abs w + f) * e)%float r) | _, _ => Bad end.
Definition cc_div (a b : cert) : cert :=
  match a, b with
  | C v e, C w f =>
      let d := (PrimFloat.abs w - f)%float in
      if PrimFloat.ltb 0.001%float d then let r := (v / w)%float in mk r (cerr ((PrimFloat.abs r * f + e) / d)%float r) else Bad
  | _, _ => Bad
  end.
Definition trig_dom (v e : float) : bool := (PrimFloat.ltb (PrimFloat.abs v) 4900000%float && PrimFloat.ltb e 1%float)%bool.
(** the secular terms of the series are written as a multiple of cos(0 + 0 t) *)
Definition cc_cos (a : cert) : cert :=
  match a with
  | C v e =>
      if (PrimFloat.ltb (PrimFloat.abs v) 1e-13 && PrimFloat.ltb e 1e-13)%bool then C 1%float 1.5e-12%float
      else if trig_dom v e then mk (qcos v) (e + 5e-9)%float else Bad
  | Bad => Bad
  end.
Definition cc_sin (a : cert) : cert := match a with C v e => if trig_dom v e then mk (qsin v) (e + 5e-9)%float else Bad | Bad => Bad end.
Definition cc_floor (a : cert) : res Z :=
  match a with
  | C v e =>
      if trig_dom v e then
        let! k := py_floor v in
        let g := (e + 1e-8)%float in
        if (PrimFloat.ltb (float_of_Z k) (v - g)%float && PrimFloat.ltb (v + g)%float (float_of_Z (k + 1)))%bool then Ok k else Raise ExcType
      else Raise ExcType
  | Bad => Raise ExcType
  end.
Definition cc_ltb (a b : cert) : res bool :=
  match a, b with
  | C v e, C w f =>
      let m := cerr (e + f)%float (PrimFloat.abs v + PrimFloat.abs w)%float in
      if PrimFloat.ltb m (w - v)%float then Ok true else if PrimFloat.ltb m (v - w)%float then Ok false else Raise ExcType
  | _, _ => Raise ExcType
  end.
Definition cert_arith : Arith := mkArith cert cc_lit cc_add cc_sub cc_mul cc_div cc_sin cc_cos cc_floor cc_ltb.

Inductive rel : cert -> float -> Prop :=
  | rel_bad x : rel Bad x
  | rel_c v e x : FIN v -> FIN e -> FIN x -> 0 <= FR e -> Rabs (FR v) + FR e <= 10000000000000010 -> Rabs (FR x - FR v) <= FR e -> rel (C v e) x.

(** *** Rounding, in a form for linear arithmetic *)
Definition u53 : R := / 9007199254740992.
Definition eta : R := / 1606938044258990275541962092341162602522202993782792835301376.
Definition M50 : R := 100000000000000000000000000000000000000000000000000.
Lemma eta_ok : bpow radix2 (-1075) <= eta.
Proof. unfold eta. change (/ 1606938044258990275541962092341162602522202993782792835301376) with (bpow radix2 (-200)). apply bpow_le. lia. Qed.
Lemma RN_u r : Rabs (RN r - r) <= u53 * Rabs r + eta.
Proof. pose proof (RN_err r). pose proof eta_ok. unfold u53. lra. Qed.
Lemma RN_p r : 0 <= r -> 0 <= RN r /\ r - (u53 * r + eta) <= RN r <= r + (u53 * r + eta).
Proof.
  intros H. split; [rewrite <- RN_0; now apply RN_mono|]. pose proof (RN_u r) as E. rewrite (Rabs_right r) in E by lra. apply Rabs_le_inv in E. lra.
Qed.
Lemma M50_big r : Rabs r <= M50 -> Rabs r <= big.
Proof. intros H. apply le_big. exact H. Qed.
Lemma fadd_p x y : FIN x -> FIN y -> 0 <= FR x -> 0 <= FR y -> FR x + FR y <= M50 ->
  FIN (x + y)%float /\ 0 <= FR (x + y)%float /\ FR x + FR y - (u53 * (FR x + FR y) + eta) <= FR (x + y)%float <= FR x + FR y + (u53 * (FR x + FR y) + eta).
Proof.
  intros Fx Fy Px Py B. destruct (fadd_spec x y Fx Fy ltac:(apply M50_big; rewrite Rabs_right; lra)) as [F E]. rewrite E. split; [exact F|]. apply RN_p. lra.
Qed.
Lemma fmul_p x y : FIN x -> FIN y -> 0 <= FR x -> 0 <= FR y -> FR x * FR y <= M50 ->
  FIN (x * y)%float /\ 0 <= FR (x * y)%float /\ FR x * FR y - (u53 * (FR x * FR y) + eta) <= FR (x * y)%float <= FR x * FR y + (u53 * (FR x * FR y) + eta).
Proof.
  intros Fx Fy Px Py B. assert (0 <= FR x * FR y) by now apply Rmult_le_pos.
  destruct (fmul_spec x y Fx Fy ltac:(apply M50_big; rewrite Rabs_right; lra)) as [F E]. rewrite E. split; [exact F|]. now apply RN_p.
Qed.
Lemma fdiv_p x y : FIN x -> 0 <= FR x -> 0 < FR y -> FR x / FR y <= M50 ->
  FIN (x / y)%float /\ 0 <= FR (x / y)%float /\ FR x / FR y - (u53 * (FR x / FR y) + eta) <= FR (x / y)%float <= FR x / FR y + (u53 * (FR x / FR y) + eta).
Proof.
  intros Fx Px Py B. assert (0 <= FR x / FR y) by (apply Rmult_le_pos; [lra|apply Rlt_le, Rinv_0_lt_compat; lra]).
  destruct (fdiv_spec x y Fx ltac:(lra) ltac:(apply M50_big; rewrite Rabs_right; lra)) as [F E]. rewrite E. split; [exact F|]. now apply RN_p.
Qed.
Lemma fabs_spec x : FIN x -> FIN (PrimFloat.abs x) /\ FR (PrimFloat.abs x) = Rabs (FR x).
Proof. intros H. unfold FIN, FR in *. rewrite abs_equiv, is_finite_Babs, B2R_Babs. auto. Qed.
Lemma CU_ok : FIN CU /\ FR CU = / 2251799813685248.
Proof.
  destruct (lit_spec CU false 4503599627370496 (-103) ltac:(vm_compute; reflexivity)) as [F E]. split; [exact F|]. rewrite E.
  change (bpow radix2 (-103)) with (/ 10141204801825835211973625643008). lra.
Qed.
Lemma CT_ok : FIN CT /\ FR CT = / 1267650600228229401496703205376.
Proof.
  destruct (lit_spec CT false 4503599627370496 (-152) ltac:(vm_compute; reflexivity)) as [F E]. split; [exact F|]. rewrite E.
  change (bpow radix2 (-152)) with (/ 5708990770823839524233143877797980545530986496). lra.
Qed.
Lemma cerr_ok q r : FIN q -> FIN r -> 0 <= FR q <= M50 / 10000 -> Rabs (FR r) <= M50 / 10000 ->
  FIN (cerr q r) /\ FR q * (1 + / 2147483648) + Rabs (FR r) * (3 * u53) + / 2535301200456458802993406410752 <= FR (cerr q r) <= M50 / 1000.
Proof.
  intros Fq Fr [Pq Bq] Br. unfold cerr. flx CK Fk Ek. destruct CU_ok as [Fu Eu]. destruct CT_ok as [Ft Et]. destruct (fabs_spec r Fr) as [Fa Ea].
  pose proof (Rabs_pos (FR r)) as Pr. unfold M50, u53 in *.
  destruct (fmul_p q CK Fq Fk Pq ltac:(lra) ltac:(rewrite Ek; unfold M50; lra)) as (F1 & P1 & L1). rewrite Ek in L1.
  destruct (fmul_p (PrimFloat.abs r) CU Fa Fu ltac:(lra) ltac:(lra) ltac:(rewrite Ea, Eu; unfold M50; lra)) as (F2 & P2 & L2). rewrite Ea, Eu in L2.
  unfold u53, eta in *.
  destruct (fadd_p (q * CK) (PrimFloat.abs r * CU) F1 F2 P1 P2 ltac:(unfold M50; lra)) as (F3 & P3 & L3). unfold u53, eta in *.
  destruct (fadd_p (q * CK + PrimFloat.abs r * CU) CT F3 Ft P3 ltac:(lra) ltac:(unfold M50; lra)) as (F4 & P4 & L4). unfold u53, eta in *. rewrite Et in L4.
  split; [exact F4|]. lra.
Qed.
Lemma mk_ok v e x : FIN v -> FIN e -> FIN x -> 0 <= FR e <= M50 / 100 -> Rabs (FR v) <= M50 / 100 -> Rabs (FR x - FR v) <= FR e -> rel (mk v e) x.
Proof.
  intros Fv Fe Fx [Pe Be] Bv H. unfold mk. destruct (PrimFloat.ltb _ _) eqn:L; [|apply rel_bad]. flx CMAX Fm Em. destruct (fabs_spec v Fv) as [Fa Ea].
  pose proof (Rabs_pos (FR v)). destruct (fadd_p (PrimFloat.abs v) e Fa Fe ltac:(lra) Pe ltac:(unfold M50 in *; lra)) as (F1 & P1 & L1).
  apply fltb_spec in L; [|assumption..]. rewrite Em in L. rewrite Ea in L1. unfold u53, eta in L1. apply rel_c; try assumption. lra.
Qed.
Lemma ltb_fin x a b : PrimFloat.ltb a x = true -> PrimFloat.ltb x b = true -> FIN x.
Proof.
  rewrite !ltb_equiv. unfold FIN. destruct (Prim2B x) as [s|s| |s m e B]; try reflexivity.
  - destruct s; destruct (Prim2B a) as [[]|[]| |[]]; destruct (Prim2B b) as [[]|[]| |[]]; cbn; discriminate.
  - destruct (Prim2B a) as [[]|[]| |[]]; cbn; discriminate.
Qed.
Lemma lit_ok x : rel (cc_lit x) x.
Proof.
  unfold cc_lit. destruct (PrimFloat.ltb _ x) eqn:L1; [|apply rel_bad]. destruct (PrimFloat.ltb x CMAX) eqn:L2; [|apply rel_bad]. cbn [andb].
  pose proof (ltb_fin _ _ _ L1 L2) as F. flx CMAX Fm Em. flx (-10000000000000000)%float Fn En. flx 0%float F0 V0. apply fltb_spec in L1, L2; try assumption. rewrite Em in L2. rewrite En in L1.
  apply mk_ok; try assumption; unfold M50; try lra.
  - apply Rabs_le. lra.
  - rewrite Rminus_diag_eq, Rabs_R0 by reflexivity. lra.
Qed.

(** *** Soundness of the operations *)
Lemma add_abs a b M N : Rabs a <= M -> Rabs b <= N -> Rabs (a + b) <= M + N.
Proof. intros. eapply Rle_trans; [apply Rabs_triang|]. lra. Qed.
Lemma sub_abs a b M N : Rabs a <= M -> Rabs b <= N -> Rabs (a - b) <= M + N.
Proof. intros. unfold Rminus. apply add_abs; [assumption|now rewrite Rabs_Ropp]. Qed.
Lemma rel_inv v e x : rel (C v e) x -> FIN v /\ FIN e /\ FIN x /\ 0 <= FR e /\ Rabs (FR v) + FR e <= 10000000000000010 /\ Rabs (FR x - FR v) <= FR e /\ Rabs (FR x) <= Rabs (FR v) + FR e /\ 0 <= Rabs (FR v).
Proof.
  intros H. inversion H; subst. repeat split; try assumption; [|apply Rabs_pos]. replace (FR x) with ((FR x - FR v) + FR v) by ring. rewrite Rplus_comm. eapply Rle_trans; [apply Rabs_triang|]. lra.
Qed.
(** two roundings of numbers at most [d] apart *)
Lemma two_round s t r z d : r = RN s -> z = RN t -> Rabs (t - s) <= d -> Rabs r <= Rabs s * (1 + u53) + eta /\ Rabs (z - r) <= d * (1 + 2 * u53) + Rabs r * (5 / 2 * u53) + 4 * eta.
Proof.
  intros -> -> D. pose proof (RN_u s) as A. pose proof (RN_u t) as B. pose proof (Rabs_pos s).
  assert (T : Rabs t <= Rabs s + d) by (replace t with (s + (t - s)) by ring; apply add_abs; lra).
  assert (S1 : Rabs (RN s) <= Rabs s + (u53 * Rabs s + eta)) by (replace (RN s) with (s + (RN s - s)) by ring; apply add_abs; lra).
  assert (S2 : Rabs s <= Rabs (RN s) + (u53 * Rabs s + eta)) by (replace s with (RN s - (RN s - s)) at 1 by ring; apply sub_abs; lra).
  split; [unfold u53 in *; lra|].
  replace (RN t - RN s) with ((t - s) + ((RN t - t) - (RN s - s))) by ring. pose proof (add_abs _ _ _ _ D (sub_abs _ _ _ _ B A)) as G.
  eapply Rle_trans; [exact G|]. pose proof (Rabs_pos (t - s)). unfold u53, eta in *. lra.
Qed.
Ltac inv2 H1 H2 :=
  apply rel_inv in H1; apply rel_inv in H2; destruct H1 as (Fv & Fe & Fx & Pe & Bv & Dx & Bx & Av); destruct H2 as (Fw & Ff & Fy & Pf & Bw & Dy & By & Aw).
Ltac bads H1 H2 :=
  match type of H1 with rel ?a _ => match type of H2 with rel ?b _ => destruct a as [|v e]; [apply rel_bad|]; destruct b as [|w f]; [apply rel_bad|] end end.
Lemma cc_add_ok a b x y : rel a x -> rel b y -> rel (cc_add a b) (x + y)%float.
Proof.
  intros H1 H2. bads H1 H2. inv2 H1 H2. cbn [cc_add]. cbv zeta. pose proof (add_abs _ _ _ _ (Rle_refl (Rabs (FR v))) (Rle_refl (Rabs (FR w)))) as S.
  pose proof (add_abs _ _ _ _ Bx By) as S'.
  destruct (fadd_spec v w Fv Fw ltac:(apply M50_big; unfold M50; lra)) as [Fr Er]. destruct (fadd_spec x y Fx Fy ltac:(apply M50_big; unfold M50; lra)) as [Fz Ez].
  destruct (fadd_p e f Fe Ff Pe Pf ltac:(unfold M50; lra)) as (Fq & Pq & Lq).
  assert (D : Rabs ((FR x + FR y) - (FR v + FR w)) <= FR e + FR f) by (replace (FR x + FR y - (FR v + FR w)) with ((FR x - FR v) + (FR y - FR w)) by ring; now apply add_abs).
  destruct (two_round _ _ _ _ _ Er Ez D) as [B E]. set (r := (v + w)%float) in *. unfold u53, eta in *.
  destruct (cerr_ok (e + f)%float r Fq Fr ltac:(unfold M50; lra) ltac:(unfold M50; lra)) as (Fc & Lc & Uc). unfold u53 in *.
  pose proof (Rabs_pos (FR r)). apply mk_ok; try assumption; unfold M50 in *; lra.
Qed.
Lemma cc_sub_ok a b x y : rel a x -> rel b y -> rel (cc_sub a b) (x - y)%float.
Proof.
  intros H1 H2. bads H1 H2. inv2 H1 H2. cbn [cc_sub]. cbv zeta. pose proof (sub_abs _ _ _ _ (Rle_refl (Rabs (FR v))) (Rle_refl (Rabs (FR w)))) as S.
  pose proof (sub_abs _ _ _ _ Bx By) as S'.
  destruct (fsub_spec v w Fv Fw ltac:(apply M50_big; unfold M50; lra)) as [Fr Er]. destruct (fsub_spec x y Fx Fy ltac:(apply M50_big; unfold M50; lra)) as [Fz Ez].
  destruct (fadd_p e f Fe Ff Pe Pf ltac:(unfold M50; lra)) as (Fq & Pq & Lq).
  assert (D : Rabs ((FR x - FR y) - (FR v - FR w)) <= FR e + FR f) by (replace (FR x - FR y - (FR v - FR w)) with ((FR x - FR v) - (FR y - FR w)) by ring; now apply sub_abs).
  destruct (two_round _ _ _ _ _ Er Ez D) as [B E]. set (r := (v - w)%float) in *. unfold u53, eta in *.
  destruct (cerr_ok (e + f)%float r Fq Fr ltac:(unfold M50; lra) ltac:(unfold M50; lra)) as (Fc & Lc & Uc). unfold u53 in *.
  pose proof (Rabs_pos (FR r)). apply mk_ok; try assumption; unfold M50 in *; lra.
Qed.
Lemma mul_le_M a b M N : 0 <= a <= M -> 0 <= b <= N -> 0 <= a * b <= M * N.
Proof. intros [A1 A2] [B1 B2]. split; [now apply Rmult_le_pos|now apply Rmult_le_compat]. Qed.
Lemma cc_mul_ok a b x y : rel a x -> rel b y -> rel (cc_mul a b) (x * y)%float.
Proof.
  intros H1 H2. bads H1 H2. inv2 H1 H2. cbn [cc_mul]. cbv zeta. set (B0 := 10000000000000010) in *.
  assert (S : Rabs (FR v * FR w) <= B0 * B0) by (rewrite Rabs_mult; apply mul_le_M; lra).
  assert (S' : Rabs (FR x * FR y) <= B0 * B0) by (rewrite Rabs_mult; apply mul_le_M; (split; [apply Rabs_pos|lra])).
  assert (BB : B0 * B0 <= M50 / 1000000) by (unfold B0, M50; lra).
  destruct (fmul_spec v w Fv Fw ltac:(apply M50_big; unfold M50 in *; lra)) as [Fr Er]. destruct (fmul_spec x y Fx Fy ltac:(apply M50_big; unfold M50 in *; lra)) as [Fz Ez].
  assert (D : Rabs ((FR x * FR y) - (FR v * FR w)) <= Rabs (FR v) * FR f + (Rabs (FR w) + FR f) * FR e).
  { replace (FR x * FR y - FR v * FR w) with (FR v * (FR y - FR w) + (FR w + (FR y - FR w)) * (FR x - FR v)) by ring. apply add_abs; rewrite Rabs_mult; apply Rmult_le_compat; try apply Rabs_pos; try lra.
    apply add_abs; lra. }
  destruct (two_round _ _ _ _ _ Er Ez D) as [B E]. set (r := (v * w)%float) in *.
  destruct (fabs_spec v Fv) as [Fav Eav]. destruct (fabs_spec w Fw) as [Faw Eaw].
  pose proof (mul_le_M (Rabs (FR v)) (FR f) B0 B0 ltac:(lra) ltac:(lra)) as P1.
  destruct (fmul_p (PrimFloat.abs v) f Fav Ff ltac:(lra) Pf ltac:(rewrite Eav; unfold M50 in *; lra)) as (F1 & Q1 & L1). rewrite Eav in L1.
  destruct (fadd_p (PrimFloat.abs w) f Faw Ff ltac:(lra) Pf ltac:(rewrite Eaw; unfold B0, M50 in *; lra)) as (F2 & Q2 & L2). rewrite Eaw in L2.
  set (wf := (PrimFloat.abs w + f)%float) in *. pose proof (mul_le_M (Rabs (FR w) + FR f) (FR e) (2 * B0) B0 ltac:(lra) ltac:(lra)) as P2.
  assert (L2' : (Rabs (FR w) + FR f) * FR e * (1 - u53) - eta * FR e <= FR wf * FR e <= (Rabs (FR w) + FR f) * FR e * (1 + u53) + eta * FR e).
  { split; [apply Rle_trans with ((Rabs (FR w) + FR f - (u53 * (Rabs (FR w) + FR f) + eta)) * FR e)|apply Rle_trans with ((Rabs (FR w) + FR f + (u53 * (Rabs (FR w) + FR f) + eta)) * FR e)];
      [lra|apply Rmult_le_compat_r; lra|apply Rmult_le_compat_r; lra|lra]. }
  set (T2 := (Rabs (FR w) + FR f) * FR e) in *. set (T1 := Rabs (FR v) * FR f) in *. unfold u53, eta in *.
  assert (P3 : 0 <= FR wf * FR e) by now apply Rmult_le_pos.
  destruct (fmul_p wf e F2 Fe Q2 Pe ltac:(unfold M50, B0 in *; lra)) as (F3 & Q3 & L3). unfold u53, eta in *.
  destruct (fadd_p (PrimFloat.abs v * f) (wf * e) F1 F3 Q1 Q3 ltac:(unfold M50, B0 in *; lra)) as (F4 & Q4 & L4). unfold u53, eta in *.
  set (q := (PrimFloat.abs v * f + wf * e)%float) in *.
  destruct (cerr_ok q r F4 Fr ltac:(unfold M50, B0 in *; lra) ltac:(unfold M50, B0 in *; lra)) as (Fc & Lc & Uc). unfold u53 in *.
  pose proof (Rabs_pos (FR r)). apply mk_ok; try assumption; unfold M50, B0 in *; lra.
Qed.
Ltac fli c F L :=
  let v := eval vm_compute in (lit_av c) in
  match v with Some (?a, ?b) =>
    assert (F : FIN c) by exact (proj1 (lit_val c a b ltac:(vm_compute; reflexivity)));
    assert (L : sc a <= FR c <= sc b) by exact (proj2 (lit_val c a b ltac:(vm_compute; reflexivity))); unfold sc in L; change (IZR P2) with 1152921504606846976 in L
  end.
Lemma quot_ge n dd N delta k : 0 <= N -> 0 <= n -> 9 / 10000 <= delta -> 0 < dd -> dd <= delta * (1 + 2 * u53) -> 0 <= k -> N * (1 - 5 * u53) - k <= n ->
  N / delta * (1 - 5 * u53) - 1200 * k <= n / dd * (1 + 2 * u53).
Proof.
  intros PN Pn Hd Hdd Hle Hk Hn. set (g := n / dd). set (Q := N / delta).
  assert (G : g * dd = n) by (unfold g; field; lra). assert (QD : Q * delta = N) by (unfold Q; field; lra).
  assert (Pg : 0 <= g) by (unfold g; apply Rmult_le_pos; [lra|apply Rlt_le, Rinv_0_lt_compat; lra]).
  assert (A : g * dd <= g * (delta * (1 + 2 * u53))) by (apply Rmult_le_compat_l; lra).
  rewrite G in A. rewrite <- QD in Hn. assert (H : - k <= (g * (1 + 2 * u53) - Q * (1 - 5 * u53)) * delta) by lra.
  destruct (Rle_lt_dec (- (1200 * k)) (g * (1 + 2 * u53) - Q * (1 - 5 * u53))) as [?|Lt]; [lra|]. exfalso. nra.
Qed.
Lemma abs_div a b : b <> 0 -> Rabs (a / b) = Rabs a / Rabs b.
Proof. intros H. unfold Rdiv. rewrite Rabs_mult, Rabs_inv. reflexivity. Qed.
Lemma div_le_M a b M d : 0 <= a <= M -> 0 < d -> d <= b -> 0 <= a / b <= M / d.
Proof.
  intros [A1 A2] Hd Hb. unfold Rdiv. apply mul_le_M; [lra|]. split; [apply Rlt_le, Rinv_0_lt_compat; lra|apply Rinv_le; lra].
Qed.
Lemma cc_div_ok a b x y : rel a x -> rel b y -> rel (cc_div a b) (x / y)%float.
Proof.
  intros H1 H2. bads H1 H2. inv2 H1 H2. cbn [cc_div]. cbv zeta. set (B0 := 10000000000000010) in *. destruct (PrimFloat.ltb _ _) eqn:L0; [|apply rel_bad].
  destruct (fabs_spec w Fw) as [Faw Eaw]. fli 0.001%float Fm Lm.
  destruct (fsub_spec (PrimFloat.abs w) f Faw Ff ltac:(apply M50_big; rewrite Eaw; apply Rabs_le; unfold M50, B0 in *; lra)) as [Fd Ed]. rewrite Eaw in Ed.
  set (d := (PrimFloat.abs w - f)%float) in *. apply fltb_spec in L0; [|assumption..]. set (delta := Rabs (FR w) - FR f) in *.
  pose proof (RN_u delta) as Rd. rewrite <- Ed in Rd. apply Rabs_le_inv in Rd.
  assert (Hdelta : 9 / 10000 <= delta).
  { destruct (Rle_lt_dec 0 delta) as [P|N]; [rewrite (Rabs_right delta) in Rd by lra|rewrite (Rabs_left delta) in Rd by lra]; unfold u53, eta in Rd; lra. }
  rewrite (Rabs_right delta) in Rd by lra. assert (Bdelta : delta <= B0) by (unfold delta; lra).
  assert (Yd : delta <= Rabs (FR y)) by (unfold delta; replace (FR y) with (FR w + (FR y - FR w)) by ring; pose proof (Rabs_triang_inv (FR w) (- (FR y - FR w))) as Q; rewrite Rabs_Ropp in Q; replace (FR w - - (FR y - FR w)) with (FR w + (FR y - FR w)) in Q by ring; lra).
  assert (Wd : delta <= Rabs (FR w)) by (unfold delta; lra).
  assert (Ny : FR y <> 0) by (intros Z; rewrite Z, Rabs_R0 in Yd; lra). assert (Nw : FR w <> 0) by (intros Z; rewrite Z, Rabs_R0 in Wd; lra).
  pose proof (Rabs_pos (FR x)) as Px.
  assert (S : 0 <= Rabs (FR v / FR w) <= B0 / (9 / 10000)) by (rewrite abs_div by exact Nw; apply div_le_M; lra).
  assert (S' : Rabs (FR x / FR y) <= B0 / (9 / 10000)) by (rewrite abs_div by exact Ny; apply div_le_M; lra).
  assert (BB : B0 / (9 / 10000) <= 12000000000000000000) by (unfold B0; lra). set (B1 := 12000000000000000000) in *.
  destruct (fdiv_spec v w Fv Nw ltac:(apply M50_big; unfold M50, B1 in *; lra)) as [Fr Er]. destruct (fdiv_spec x y Fx Ny ltac:(apply M50_big; unfold M50, B1 in *; lra)) as [Fz Ez].
  set (s := FR v / FR w) in *. pose proof (mul_le_M (Rabs s) (FR f) B1 B0 ltac:(lra) ltac:(lra)) as Psf. set (N := Rabs s * FR f + FR e) in *.
  assert (D : Rabs (FR x / FR y - s) <= N / delta).
  { replace (FR x / FR y - s) with (((FR x - FR v) - s * (FR y - FR w)) / FR y) by (unfold s; field; auto). rewrite abs_div by exact Ny.
    assert (T : Rabs (FR x - FR v - s * (FR y - FR w)) <= N).
    { unfold N. rewrite Rplus_comm. apply sub_abs; [assumption|]. rewrite Rabs_mult. apply Rmult_le_compat_l; [apply Rabs_pos|assumption]. }
    unfold Rdiv. apply Rmult_le_compat; [apply Rabs_pos|apply Rlt_le, Rinv_0_lt_compat; lra|exact T|apply Rinv_le; lra]. }
  destruct (two_round _ _ _ _ _ Er Ez D) as [B E]. set (r := (v / w)%float) in *.
  assert (Rl : Rabs s * (1 - u53) - eta <= Rabs (FR r)).
  { pose proof (RN_u s) as Q. rewrite <- Er in Q. pose proof (sub_abs _ _ _ _ (Rle_refl (Rabs (FR r))) Q) as Q2. replace (FR r - (FR r - s)) with s in Q2 by ring. lra. }
  destruct (fabs_spec r Fr) as [Far Ear]. pose proof (Rabs_pos (FR r)) as Pr. unfold u53, eta in *. set (B2 := 13000000000000000000) in *.
  assert (Br : Rabs (FR r) <= B2) by (unfold B2, B1 in *; lra).
  pose proof (mul_le_M (Rabs (FR r)) (FR f) B2 B0 ltac:(lra) ltac:(lra)) as Prf.
  assert (Rlf : (Rabs s * FR f) * (1 - / 9007199254740992) - / 1606938044258990275541962092341162602522202993782792835301376 * FR f <= Rabs (FR r) * FR f).
  { eapply Rle_trans; [|apply Rmult_le_compat_r; [exact Pf|exact Rl]]. lra. }
  destruct (fmul_p (PrimFloat.abs r) f Far Ff ltac:(lra) Pf ltac:(rewrite Ear; unfold M50, B2, B0 in *; lra)) as (F2 & Q2 & L2). rewrite Ear in L2. unfold u53, eta in *.
  set (T := Rabs (FR r) * FR f) in *.
  destruct (fadd_p (PrimFloat.abs r * f) e F2 Fe Q2 Pe ltac:(unfold M50, B2, B0 in *; lra)) as (F3 & Q3 & L3). unfold u53, eta in *.
  set (n := (PrimFloat.abs r * f + e)%float) in *. set (T0 := Rabs s * FR f) in *.
  assert (Bn : FR n <= 200000000000000000000000000000000000) by (unfold B2, B0, M50 in *; lra).
  pose proof (div_le_M (FR n) (FR d) _ (9 / 10000) ltac:(split; [exact Q3|exact Bn]) ltac:(lra) ltac:(lra)) as Pq.
  destruct (fdiv_p n d F3 Q3 ltac:(lra) ltac:(unfold M50; lra)) as (F4 & Q4 & L4).
  assert (G : N / delta * (1 - 5 * u53) - 1200 * / 10000000000000000000000000000000000000000 <= FR n / FR d * (1 + 2 * u53)).
  { apply quot_ge; try assumption; unfold u53, eta in *; try lra; unfold N, B0 in *; lra. }
  assert (PN : 0 <= N / delta) by (apply Rmult_le_pos; [unfold N; lra|apply Rlt_le, Rinv_0_lt_compat; lra]).
  unfold u53, eta in *. set (q := (n / d)%float) in *. set (Nd := N / delta) in *. set (nd := FR n / FR d) in *.
  destruct (cerr_ok q r F4 Fr ltac:(unfold M50 in *; lra) ltac:(unfold M50, B2 in *; lra)) as (Fc & Lc & Uc). unfold u53 in *.
  apply mk_ok; try assumption; unfold M50, B2, B0 in *; lra.
Qed.

Section TRIG.
Variables fsin fcos : float -> float.
Hypothesis lib : libm fsin fcos.
Lemma trig_dom_ok v e : FIN v -> FIN e -> trig_dom v e = true -> Rabs (FR v) < 4900000 /\ FR e < 1.
Proof.
  intros Fv Fe H. unfold trig_dom in H. apply andb_true_iff in H. destruct H as [H1 H2]. destruct (fabs_spec v Fv) as [Fa Ea]. flx 4900000%float F4 V4. flx 1%float F1 V1.
  apply fltb_spec in H1, H2; try assumption. lra.
Qed.
Lemma cc_cos_ok a x : rel a x -> rel (cc_cos a) (fcos x).
Proof.
  intros H. destruct a as [|v e]; [apply rel_bad|]. apply rel_inv in H. destruct H as (Fv & Fe & Fx & Pe & Bv & Dx & Bx & Av). cbn [cc_cos].
  destruct (_ && _)%bool eqn:T0.
  { apply andb_true_iff in T0. destruct T0 as [T1 T2]. destruct (fabs_spec v Fv) as [Fa Ea]. fli 1e-13%float F3 L3. fli 1.5e-12%float F4 L4. flx 1%float F1 V1.
    apply fltb_spec in T1, T2; try assumption. destruct (lib x Fx ltac:(change (IZR (2 ^ 23)) with 8388608; lra)) as [_ [F8 E8]]. change (IZR (2 ^ 40)) with 1099511627776 in E8.
    pose proof (cos_lip (FR x) 0) as Lip. rewrite cos_0, Rminus_0_r in Lip. assert (Rabs (cos (FR x) - 1) <= 3 / 10000000000000) as G by lra. apply Rabs_le_inv in G, E8.
    apply rel_c; try assumption; rewrite ?V1; try lra; [rewrite Rabs_right; lra|apply Rabs_le; lra]. }
  destruct (trig_dom v e) eqn:T; [|apply rel_bad]. destruct (trig_dom_ok v e Fv Fe T) as [T1 T2]. fli 5e-9%float F5 L5.
  destruct (fadd_p e 5e-9 Fe F5 Pe ltac:(lra) ltac:(unfold M50; lra)) as (F6 & Q6 & L6). unfold u53, eta in *.
  destruct (qcos_ok v Fv ltac:(lra)) as [F7 E7]. destruct (lib x Fx ltac:(change (IZR (2 ^ 23)) with 8388608; lra)) as [_ [F8 E8]]. change (IZR (2 ^ 40)) with 1099511627776 in E8.
  pose proof (cos_lip (FR x) (FR v)) as Lip. pose proof (COS_bound (FR v)) as Cb.
  apply mk_ok; try assumption; unfold M50; try lra.
  - apply Rabs_le_inv in E7. apply Rabs_le. lra.
  - apply Rabs_le_inv in E7, E8. assert (Rabs (cos (FR x) - cos (FR v)) <= FR e) as G by lra. apply Rabs_le_inv in G. apply Rabs_le. lra.
Qed.
Lemma cc_sin_ok a x : rel a x -> rel (cc_sin a) (fsin x).
Proof.
  intros H. destruct a as [|v e]; [apply rel_bad|]. apply rel_inv in H. destruct H as (Fv & Fe & Fx & Pe & Bv & Dx & Bx & Av). cbn [cc_sin].
  destruct (trig_dom v e) eqn:T; [|apply rel_bad]. destruct (trig_dom_ok v e Fv Fe T) as [T1 T2]. fli 5e-9%float F5 L5.
  destruct (fadd_p e 5e-9 Fe F5 Pe ltac:(lra) ltac:(unfold M50; lra)) as (F6 & Q6 & L6). unfold u53, eta in *.
  destruct (qsin_ok v Fv ltac:(lra)) as [F7 E7]. destruct (lib x Fx ltac:(change (IZR (2 ^ 23)) with 8388608; lra)) as [[F8 E8] _]. change (IZR (2 ^ 40)) with 1099511627776 in E8.
  pose proof (sin_lip (FR x) (FR v)) as Lip. pose proof (SIN_bound (FR v)) as Cb.
  apply mk_ok; try assumption; unfold M50; try lra.
  - apply Rabs_le_inv in E7. apply Rabs_le. lra.
  - apply Rabs_le_inv in E7, E8. assert (Rabs (sin (FR x) - sin (FR v)) <= FR e) as G by lra. apply Rabs_le_inv in G. apply Rabs_le. lra.
Qed.
End TRIG.
Lemma cc_floor_ok a x k : rel a x -> cc_floor a = Ok k -> py_floor x = Ok k.
Proof.
  intros H E. destruct a as [|v e]; [discriminate|]. apply rel_inv in H. destruct H as (Fv & Fe & Fx & Pe & Bv & Dx & Bx & Av). cbn [cc_floor] in E.
  destruct (trig_dom v e) eqn:T; [|discriminate]. destruct (trig_dom_ok v e Fv Fe T) as [T1 T2]. rewrite (py_floor_spec v Fv) in E. cbn [bind] in E. cbv zeta in E.
  set (j := Zfloor (FR v)) in *. destruct (_ && _)%bool eqn:L; [|discriminate]. injection E as <-. apply andb_true_iff in L. destruct L as [L1 L2].
  fli 1e-8%float F8 L8. destruct (fadd_p e 1e-8 Fe F8 Pe ltac:(lra) ltac:(unfold M50; lra)) as (F6 & Q6 & L6). unfold u53, eta in L6. set (g := (e + 1e-8)%float) in *.
  pose proof (Zfloor_lb (FR v)) as Lb. pose proof (Zfloor_ub (FR v)) as Ub. fold j in Lb, Ub. apply Rabs_le_inv in Dx. pose proof (Rabs_le_inv _ _ (Rlt_le _ _ T1)) as T3.
  assert (Bj : (-4900001 <= j <= 4900001)%Z) by (split; apply le_IZR; lra).
  destruct (float_of_Z_spec j ltac:(lia)) as [Fj Ej]. destruct (float_of_Z_spec (j + 1) ltac:(lia)) as [Fj1 Ej1]. rewrite plus_IZR in Ej1.
  destruct (fsub_b v g 4900010 Fv F6 ltac:(lra) ltac:(lra)) as (Fs & _ & Ns). destruct (fadd_b v g 4900010 Fv F6 ltac:(lra) ltac:(lra)) as (Fp & _ & Np). unfold near, eps52 in Ns, Np.
  apply fltb_spec in L1, L2; try assumption. rewrite (py_floor_spec x Fx). f_equal. apply Zfloor_imp. rewrite plus_IZR. lra.
Qed.
Lemma cc_ltb_ok a b x y t : rel a x -> rel b y -> cc_ltb a b = Ok t -> PrimFloat.ltb x y = t.
Proof.
  intros H1 H2 E. destruct a as [|v e]; [discriminate|]. destruct b as [|w f]; [discriminate|]. inv2 H1 H2. cbn [cc_ltb] in E. cbv zeta in E.
  destruct (fabs_spec v Fv) as [Fav Eav]. destruct (fabs_spec w Fw) as [Faw Eaw].
  destruct (fadd_p e f Fe Ff Pe Pf ltac:(unfold M50; lra)) as (F1 & Q1 & L1). destruct (fadd_p _ _ Fav Faw ltac:(lra) ltac:(lra) ltac:(rewrite Eav, Eaw; unfold M50; lra)) as (F2 & Q2 & L2). rewrite Eav, Eaw in L2.
  unfold u53, eta in *. set (s := (PrimFloat.abs v + PrimFloat.abs w)%float) in *.
  destruct (cerr_ok (e + f)%float s F1 F2 ltac:(unfold M50; lra) ltac:(rewrite Rabs_right; unfold M50; lra)) as (Fc & Lc & Uc). rewrite (Rabs_right (FR s)) in Lc by lra. unfold u53 in *.
  set (m := cerr _ _) in *.
  pose proof (sub_abs _ _ _ _ (Rle_refl (Rabs (FR w))) (Rle_refl (Rabs (FR v)))) as S1. pose proof (sub_abs _ _ _ _ (Rle_refl (Rabs (FR v))) (Rle_refl (Rabs (FR w)))) as S2.
  destruct (fsub_spec w v Fw Fv ltac:(apply M50_big; unfold M50; lra)) as [F3 V3]. destruct (fsub_spec v w Fv Fw ltac:(apply M50_big; unfold M50; lra)) as [F4 V4].
  pose proof (RN_u (FR w - FR v)) as R3. pose proof (RN_u (FR v - FR w)) as R4. rewrite <- V3 in R3. rewrite <- V4 in R4. apply Rabs_le_inv in R3, R4, Dx, Dy. unfold u53, eta in *.
  destruct (PrimFloat.ltb m (w - v)%float) eqn:G1.
  - injection E as <-. apply fltb_spec in G1; [|assumption..]. apply fltb_spec; try assumption. lra.
  - destruct (PrimFloat.ltb m (v - w)%float) eqn:G2; [|discriminate]. injection E as <-. apply fltb_spec in G2; [|assumption..].
    apply not_true_is_false. intros N. apply fltb_spec in N; try assumption. lra.
Qed.
