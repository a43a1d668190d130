(** The instants of the solar terms in plain floats: a quick evaluation of the longitude of the sun whose distance from the
    value of the code is bounded beforehand, for every C library that meets [libm]. *)
From Coq Require Import ZArith Lia Reals Lra Psatz.
From Flocq Require Import Core BinarySingleNaN PrimFloat.
From Coq Require Import Bool List Floats.
From Verif Require Import Py PyFloat FloatFacts FloatTac JulianDay T_ShouXing ShouXing FloatExpr Trig SunLon SunDt SunTerm SunQi SunLate Cert CertSky MoonLite.
Import ListNotations.
Open Scope R_scope.
Local Set Warnings "-inexact-float".

(** ** The series with its largest terms only *)
Definition larger (th : list float) : list terms := map (fun '(h, l) => filter (fun '(a, _, _) => PrimFloat.ltb h a) l) (combine th S_all).
(** without the cosines of 0 *)
Fixpoint simp (e : expr) : expr :=
  match e with
  | EMul (EL a) (ECos (EAdd (EL b) (EMul EX (EL c)))) => if lit_eqb b 0 && lit_eqb c 0 then EL a else e
  | EAdd a b => EAdd (simp a) (simp b)
  | ESub a b => ESub (simp a) (simp b)
  | EMul a b => EMul (simp a) (simp b)
  | EDiv a b => EDiv (simp a) (simp b)
  | _ => e
  end.
Lemma simp_mul a b : simp (EMul a b) = EMul (simp a) (simp b) \/
  exists f c d, a = EL f /\ b = ECos (EAdd (EL c) (EMul EX (EL d))) /\ lit_eqb c 0 && lit_eqb d 0 = true /\ simp (EMul a b) = EL f.
Proof.
  destruct a as [|f| | | | | | ]; try (left; reflexivity). destruct b as [| | | | | | |b]; try (left; reflexivity). destruct b as [| |b1 b2| | | | | ]; try (left; reflexivity).
  destruct b1 as [|c| | | | | | ]; try (left; reflexivity). destruct b2 as [| | | |m1 m2| | | ]; try (left; reflexivity). destruct m1; try (left; reflexivity). destruct m2 as [|d| | | | | | ]; try (left; reflexivity).
  cbn [simp]. destruct (lit_eqb c 0 && lit_eqb d 0) eqn:E; [right; exists f, c, d; auto|left; reflexivity].
Qed.
Lemma simp_ok x e : er x (simp e) = er x e.
Proof.
  induction e as [|c|a IHa b IHb|a IHa b IHb|a IHa b IHb|a IHa b IHb|a IHa|a IHa]; try reflexivity; try (cbn [simp er]; rewrite IHa, IHb; reflexivity).
  destruct (simp_mul a b) as [->|(f & c & d & -> & -> & E & ->)]; [cbn [er]; rewrite IHa, IHb; reflexivity|]. apply andb_true_iff in E. destruct E as [E1 E2]. apply lit_eqb_ok in E1, E2.
  cbn [er]. rewrite E1, E2, FR_zero. replace (0 + x * 0) with 0 by ring. rewrite cos_0. ring.
Qed.
Definition X_a : expr := Eval vm_compute in lon_expr (larger [1.4e7; 1.7e6; 2.1e5; 2.6e4; 3.3e3]%float).
Definition X_b : expr := Eval vm_compute in lon_expr (larger [3.1e5; 3.8e4; 4.7e3; 590; 73; 9]%float).
Definition E_0 : expr := Eval vm_compute in simp (lon_expr (larger [3e8; 2e7; 5e6]%float)).
Definition E_a : expr := Eval vm_compute in simp X_a.
Definition E_b : expr := Eval vm_compute in simp X_b.
Lemma t_a : chk 65 (ediff E_all X_a) (-25230000) 25230000 (-10000000000000) 10000000000000 10000000000000 = true. Proof. vm_cast_no_check (eq_refl true). Qed.
Lemma t_as : chk 17 (ediff E_all X_a) (-8010000) 8010000 (-10000000000000) 10000000000000 10000000000000 = true. Proof. vm_cast_no_check (eq_refl true). Qed.
Lemma t_b : chk 65 (ediff E_all X_b) (-4660000) 4660000 (-10000000000000) 10000000000000 10000000000000 = true. Proof. vm_cast_no_check (eq_refl true). Qed.
Lemma t_bs : chk 17 (ediff E_all X_b) (-2290000) 2290000 (-10000000000000) 10000000000000 10000000000000 = true. Proof. vm_cast_no_check (eq_refl true). Qed.
(** in units of 10^-14: the error of the quick sines *)
Definition qerr (e : expr) (d : Z) : bool :=
  match qan (- 65 * Q8) (65 * Q8) e with
  | Some u => (- 51060 * P2 <=? lo u) && (hi u <=? 51060 * P2) && (amax (sl u) (sh u) <=? 6700 * P2) && (ee u * 10 ^ 14 <=? d * P2)
  | None => false
  end%Z.
Lemma q_a : qerr E_a 1000000 = true. Proof. vm_cast_no_check (eq_refl true). Qed.
Lemma q_b : qerr E_b 1000000 = true. Proof. vm_cast_no_check (eq_refl true). Qed.

(** ** One step of the quick evaluation *)
Definition qlon (E : expr) (t : float) : float := (ef qsin qcos (t / 10) E + 3.1414926535897933)%float.
Definition est (E : expr) (tb lim : float) (k : Z) (t : float) : option float :=
  (if (-tb <? t) && (t <? tb) then
     let r := float_of_Z k * (PI / 12) - qlon E t in
     if (-lim <? r) && (r <? lim) then Some (t + r / 628.33196674749) else None
   else None)%float.
Lemma qlon_ok E d t : qerr E d = true -> (0 <= d <= 1000000)%Z -> FIN t -> Rabs (FR t) <= 81 ->
  FIN (qlon E t) /\ Rabs (FR (qlon E t) - (er (FR t / 10) E + FR PI - / 10000)) <= 2 / 100000000 /\ Rabs (FR (qlon E t)) <= 51064.
Proof.
  unfold qerr. destruct (qan _ _ E) as [u|] eqn:EQ; [|discriminate]. intros C Hd F B. apply andb_true_iff in C. destruct C as [C C4]. apply andb_true_iff in C. destruct C as [C C3]. apply andb_true_iff in C. destruct C as [C1 C2].
  apply Z.leb_le in C1, C2, C3, C4. pose proof (qan_ok qsin qcos q_q _ _ E u EQ) as S. destruct (tenth t F B) as (F1 & N1 & B1).
  pose proof (dom_8 65 _ B1) as D1. assert (B2 : Rabs (FR t / 10) <= IZR 65 / 8) by (apply Rabs_le_inv in B; apply Rabs_le; lra). pose proof (dom_8 65 _ B2) as D2.
  destruct (so_err _ _ _ _ _ _ S _ F1 D1) as [F2 E2]. pose proof (so_val _ _ _ _ _ _ S _ D2) as V.
  apply sc_le in C1, C2, C3. rewrite !sc_int in C1, C2, C3. 
  assert (P : 0 < IZR P2) by (change (IZR P2) with 1152921504606846976; lra).
  assert (C4' : sc (ee u) <= IZR d / 100000000000000).
  { apply IZR_le in C4. rewrite !mult_IZR in C4. change (IZR (10 ^ 14)) with 100000000000000 in C4. unfold sc. apply Rmult_le_reg_r with (IZR P2); [exact P|]. unfold Rdiv. rewrite !Rmult_assoc, Rinv_l by lra. lra. }
  assert (Hd' : 0 <= IZR d <= 1000000) by (split; apply IZR_le; lia).
  assert (A1 : sc (- amax (sl u) (sh u)) <= sc (sl u)) by (apply sc_le; unfold amax; lia). assert (A2 : sc (sh u) <= sc (amax (sl u) (sh u))) by (apply sc_le; unfold amax; lia). rewrite sc_opp in A1.
  assert (G : Rabs (er (FR (t / 10)%float) E - er (FR t / 10) E) <= 6700 * / 100000000000000).
  { apply Rabs_le_inv in N1. destruct (Rle_lt_dec (FR (t / 10)%float) (FR t / 10)) as [L|L].
    - pose proof (so_slope _ _ _ _ _ _ S _ _ D1 D2 L) as W. apply Rabs_le. nra.
    - pose proof (so_slope _ _ _ _ _ _ S _ _ D2 D1 ltac:(lra)) as W. apply Rabs_le. nra. }
  unfold qlon. flit 3.1414926535897933%float F3 V3. pose proof PI_val as PV. apply Rabs_le_inv in E2, G.
  destruct (fadd_b _ 3.1414926535897933%float 52000 F2 F3 ltac:(lra) ltac:(lra)) as (F4 & _ & N4). nea. split; [exact F4|]. split; apply Rabs_le; lra.
Qed.
Section LIB.
Context {fsin fcos : float -> float} (lib : libm fsin fcos).
Notation is_term := (@SunTerm.is_term fsin fcos).
Lemma est_ok E d tb lim k t0 u t Bt s1 s2 eE eL Lm : qerr E d = true -> (0 <= d <= 1000000)%Z -> k_ok k -> FIN tb -> FIN lim -> FR tb <= Bt -> Bt <= 81 -> FR lim <= Lm -> Lm <= 1 ->
  (forall t u, Rabs t <= Bt -> Rabs u <= Bt -> t <= u -> s1 * (u - t) <= La u - La t <= s2 * (u - t)) -> 590.138 <= s1 -> s2 <= 666.5251 ->
  (forall t, Rabs t <= Bt -> Rabs (er (t / 10) E_all - er (t / 10) E) <= eE) -> Rabs (La t - theta k) <= eL -> Rabs t <= Bt ->
  est E tb lim k t0 = Some u -> FIN u /\ Rabs (36525 * (FR u - t)) <= (Lm + eE + eL) * 3.763 + (eE + eL) * 58.131 + / 10000.
Proof.
  intros Q Hd K Ft Fl Htb HB Hl HL S H1 H2 D HE Ht. unfold est. destruct ((- tb <? t0) && (t0 <? tb))%float eqn:C1; [|discriminate]. cbv zeta.
  set (r := (float_of_Z k * (PI / 12) - qlon E t0)%float). destruct ((- lim <? r) && (r <? lim))%float eqn:C2; [|discriminate]. intros Eu. injection Eu as <-.
  apply andb_true_iff in C1, C2. destruct C1 as [C1 C1'], C2 as [C2 C2']. pose proof (ltb_fin _ _ _ C1 C1') as F0. pose proof (ltb_fin _ _ _ C2 C2') as Fr.
  destruct (fopp_spec tb Ft) as [Fot Eot]. destruct (fopp_spec lim Fl) as [Fol Eol].
  apply fltb_spec in C1, C1', C2, C2'; try assumption. rewrite Eot in C1. rewrite Eol in C2.
  assert (B0 : Rabs (FR t0) <= Bt) by (apply Rabs_le; lra). destruct (qlon_ok E d t0 Q Hd F0 ltac:(lra)) as (Fq & Nq & Bq). destruct (w_err k K) as [Fw Nw]. pose proof (theta_bnd k K) as TB.
  apply Rabs_le_inv in Nq, Bq, Nw. destruct (fsub_b _ _ 110000 Fw Fq ltac:(lra) ltac:(lra)) as (_ & _ & Nr). fold r in Nr. nea.
  pose proof (D (FR t0) B0) as D0. apply Rabs_le_inv in D0, HE. set (e := eE + eL) in *.
  (* the difference of the longitudes *)
  assert (X : FR r - e - / 10000000 <= La t - La (FR t0) <= FR r + e + / 10000000) by (unfold La in *; unfold e; lra).
  flit 628.33196674749%float F6 V6. apply Rabs_le_inv in B0.
  assert (Q6 : -1 <= FR r / FR 628.33196674749%float <= 1) by (split; apply Rmult_le_reg_r with (FR 628.33196674749%float); try lra; unfold Rdiv; rewrite Rmult_assoc, Rinv_l by lra; lra).
  destruct (fdiv_b r 628.33196674749%float 1 Fr ltac:(lra) Q6 ltac:(lra)) as (F7 & _ & N7). nea. destruct (fadd_b t0 (r / 628.33196674749)%float 83 F0 F7 ltac:(lra) ltac:(lra)) as (F8 & _ & N8). nea. split; [exact F8|].
  set (v := FR 628.33196674749%float) in *. set (q := FR r / v) in *. assert (Eq : q * v = FR r) by (unfold q; field; lra).
  assert (E0 : 0 <= e) by (unfold e; lra).
  assert (G : Rabs (36525 * (q - (t - FR t0))) <= (Lm + e) * 3.7629 + e * 58.1303 + / 20000).
  { set (z := t - FR t0) in *. set (dl := La t - La (FR t0)) in *.
    assert (Z1 : Rabs (dl - v * z) <= Rabs z * 38.194).
    { destruct (Rle_lt_dec (FR t0) t) as [L|L].
      - pose proof (S (FR t0) t ltac:(apply Rabs_le; lra) Ht L) as W. fold z dl in W. assert (0 <= z) by (unfold z; lra). rewrite (Rabs_pos_eq z) by lra. apply Rabs_le. clearbody v z dl. clear - W H1 H2 V6 H. nra.
      - pose proof (S t (FR t0) Ht ltac:(apply Rabs_le; lra) ltac:(lra)) as W. replace (FR t0 - t) with (- z) in W by (unfold z; ring). replace (La (FR t0) - La t) with (- dl) in W by (unfold dl; ring).
        assert (z <= 0) by (unfold z; lra). rewrite (Rabs_left1 z) by lra. apply Rabs_le. clearbody v z dl. clear - W H1 H2 V6 H. nra. }
    assert (Z2 : Rabs dl <= Lm + e + / 10000000) by (apply Rabs_le; lra).
    assert (Z3 : Rabs z * 590.137 <= Rabs dl).
    { assert (Y : Rabs (v * z) - Rabs (dl - v * z) <= Rabs dl) by (pose proof (Rabs_triang dl (- (dl - v * z))) as W; replace (dl + - (dl - v * z)) with (v * z) in W by ring; rewrite Rabs_Ropp in W; lra).
      rewrite Rabs_mult, (Rabs_pos_eq v) in Y by lra. pose proof (Rabs_pos z). clear - Y Z1 V6 H. nra. }
    assert (Z4 : Rabs ((q - z) * v) <= Rabs z * 38.194 + e + / 10000000).
    { replace ((q - z) * v) with ((FR r - dl) + (dl - v * z)) by (rewrite <- Eq; ring). eapply Rle_trans; [apply Rabs_triang|]. assert (Rabs (FR r - dl) <= e + / 10000000) by (apply Rabs_le; lra). lra. }
    rewrite Rabs_mult, (Rabs_pos_eq v) in Z4 by lra. rewrite Rabs_mult, (Rabs_pos_eq 36525) by lra.
    assert (Z5 : Rabs (q - z) * 628.3319667 <= Rabs (q - z) * v) by (apply Rmult_le_compat_l; [apply Rabs_pos|lra]). lra. }
  apply Rabs_le_inv in G. apply Rabs_le. fold e. replace (Lm + eE + eL) with (Lm + e) by (unfold e; ring). lra.
Qed.

(** ** The day *)
Definition E_y : expr := EAdd (EMul (EL 100.00205343025524) EX) (EL 2000).
Definition E_late : expr :=
  let dy := EDiv (ESub E_y (EL 1820)) (EL 100) in
  ESub (EAdd (EMul EX (EL 36525)) (EL ONE_THIRD)) (EDiv (EAdd (EL (-20)) (EMul (EMul (EL 31) dy) dy)) (EL 86400)).
Definition E_early : expr := EAdd (EMul EX (EL 36525)) (EL 0.26453333333333334).
Lemma b_late : chk 648 E_late (-30000000000000000) 30000000000000000 (-1000000000000000) 1000000000000000 1000 = true. Proof. vm_cast_no_check (eq_refl true). Qed.
Lemma b_early : chk 648 E_early (-30000000000000000) 30000000000000000 (-1000000000000000) 1000000000000000 1000 = true. Proof. vm_cast_no_check (eq_refl true). Qed.
Definition early (k : Z) : bool := (k <? 0)%Z.
Definition day (k : Z) (u : float) : float := ef qsin qcos u (if early k then E_early else E_late).
Lemma no_trig f g u : ef qsin qcos u E_late = ef f g u E_late /\ ef qsin qcos u E_early = ef f g u E_early. Proof. split; reflexivity. Qed.
Lemma day_late u : FIN u -> 19 <= FR u <= 80.75 -> FIN (ef qsin qcos u E_late) /\ Rabs (FR (ef qsin qcos u E_late) - (36525 * FR u + / 3 - V (yr (36525 * FR u)) / 86400)) <= / 100000.
Proof.
  intros F B. rewrite (proj1 (no_trig fsin fcos u)). destruct (proj2 (proj2 (chk_ok fsin fcos lib _ _ _ _ _ _ _ b_late)) u F ltac:(apply Rabs_le; lra)) as [F1 E1]. split; [exact F1|].
  unfold dd in E1. change (IZR DD) with 10000000000 in E1. set (val := FR (ef fsin fcos u E_late)) in *. clearbody val. unfold E_late, E_y in E1. cbn [er] in E1. set (x := FR u) in *. clearbody x.
  fval 36525%float 36525 e1. flit ONE_THIRD F2 V2. fval (-20)%float (-20) e2. fval 31%float 31 e3'. fval 1820%float 1820 e4. fval 100%float 100 e5. fval 86400%float 86400 e6. fval 2000%float 2000 e7. flit 100.00205343025524%float F3 V3.
  rewrite e1, e2, e3', e4, e5, e6, e7 in E1. set (c := FR 100.00205343025524%float) in *.
  assert (Y : - / 10000000000 <= c * x + 2000 - yr (36525 * x) <= / 10000000000).
  { unfold yr. replace (c * x + 2000 - (36525 * x / 365.2425 + 2000)) with ((c - 36525 / 365.2425) * x) by lra. assert (P : Rabs ((c - 36525 / 365.2425) * x) <= / 1000000000000 * 81) by (apply Rmul_abs; apply Rabs_le; lra). apply Rabs_le_inv in P. lra. }
  assert (Y2 : 3899 <= yr (36525 * x) <= 10080) by (unfold yr; lra). pose proof (V_lip (c * x + 2000) (yr (36525 * x)) ltac:(lra) ltac:(lra)) as VL.
  assert (W : Rabs (c * x + 2000 - yr (36525 * x)) <= / 10000000000) by (apply Rabs_le; lra). assert (VL' : Rabs (V (c * x + 2000) - V (yr (36525 * x))) <= 52 * / 10000000000) by lra.
  replace (-20 + 31 * ((c * x + 2000 - 1820) / 100) * ((c * x + 2000 - 1820) / 100)) with (V (c * x + 2000)) in E1 by reflexivity.
  apply Rabs_le_inv in E1, VL'. apply Rabs_le. lra.
Qed.
Lemma day_early u : FIN u -> Rabs (FR u) <= 80.75 -> FIN (ef qsin qcos u E_early) /\ Rabs (FR (ef qsin qcos u E_early) - (36525 * FR u + / 3 - 0.0688)) <= / 100000.
Proof.
  intros F B. rewrite (proj2 (no_trig fsin fcos u)). destruct (proj2 (proj2 (chk_ok fsin fcos lib _ _ _ _ _ _ _ b_early)) u F ltac:(lra)) as [F1 E1]. split; [exact F1|].
  unfold dd in E1. change (IZR DD) with 10000000000 in E1. set (val := FR (ef fsin fcos u E_early)) in *. clearbody val. unfold E_early in E1. cbn [er] in E1. fval 36525%float 36525 e1. flit 0.26453333333333334%float F2 V2. rewrite e1 in E1. apply Rabs_le_inv in E1. apply Rabs_le. lra.
Qed.

(** ** The estimate from the 8 and from the 21 largest terms *)
Definition tb (k : Z) : float := if early k then 20.9 else 80.7.
Definition est_a (k : Z) (t : float) : option float := est E_a (tb k) 0.013 k t.
Definition est_b (k : Z) (t : float) : option float := est E_b (tb k) 0.0045 k t.
Definition start (k : Z) : float := (let w := float_of_Z k * (PI / 12) in let t := (w - 4.8949630) / 628.33196674749 in t + (w - qlon E_0 t) / 628.33196674749)%float.
Definition k_quick (k : Z) : Prop := k_ok k /\ (k < 0 \/ k_late k)%Z.
Lemma tail E X B e : chk B (ediff E_all X) (- e) e (-10000000000000) 10000000000000 10000000000000 = true -> simp X = E -> forall t, Rabs t <= 10 * IZR B / 8 -> Rabs (er (t / 10) E_all - er (t / 10) E) <= dd e.
Proof.
  intros H <- t Ht. rewrite simp_ok. destruct (proj1 (chk_ok fsin fcos lib _ _ _ _ _ _ _ H) (t / 10)) as [A1 A2]; [apply Rabs_le_inv in Ht; apply Rabs_le; lra|].
  rewrite ediff_ok in A1, A2. assert (dd (- e) = - dd e) by (unfold dd; rewrite opp_IZR; field; change (IZR DD) with 10000000000; lra). apply Rabs_le. lra.
Qed.
Lemma quick_ok E lim Lm eS eB k T t0 u : (E = E_a /\ eS = 0.000801 /\ eB = 0.002523 \/ E = E_b /\ eS = 0.000229 /\ eB = 0.000466) -> FIN lim -> FR lim <= Lm -> Lm <= 0.0131 ->
  k_quick k -> is_term k T -> est E (tb k) lim k t0 = Some u -> FIN (day k u) /\
  Rabs (FR T - FR (day k u)) <= if early k then (Lm + eS + 0.000431) * 3.763 + (eS + 0.000431) * 58.131 + 0.0795 else (Lm + eB + 0.00183) * 3.763 + (eB + 0.00183) * 58.131 + 0.0023.
Proof.
  intros HE Fl Hl HL [K KQ] I Eu. destruct (is_term_at lib k T I K) as (_ & t & d & H). pose proof (at_T _ _ _ _ H) as ET. pose proof (at_d _ _ _ _ H) as [D1 D2]. pose proof (mean_lin k K) as ML. destruct (mean_at lib _ _ _ _ H) as [M _].
  assert (QE : qerr E 1000000 = true) by (destruct HE as [(-> & _)|(-> & _)]; [exact q_a|exact q_b]). apply Rabs_le_inv in ET, M. unfold day, tb, early in *.
  destruct (Z.ltb_spec k 0) as [C|C].
  - assert (O : k_old k) by (unfold k_ok, k_old in *; lia). destruct (at_old _ _ _ _ H O) as [Bt L]. assert (Hk : IZR k <= -1) by (apply (IZR_le k (-1)); lia).
    assert (F2 : FIN 20.9%float /\ FR 20.9%float <= 21) by (flit 20.9%float F2 V2; split; [exact F2|lra]). destruct F2 as [F2 V2].
    assert (D : forall t, Rabs t <= 21 -> Rabs (er (t / 10) E_all - er (t / 10) E) <= eS).
    { intros x Hx. destruct HE as [(-> & -> & _)|(-> & -> & _)]; [pose proof (tail E_a X_a 17 8010000 t_as eq_refl x ltac:(lra)) as W|pose proof (tail E_b X_b 17 2290000 t_bs eq_refl x ltac:(lra)) as W]; unfold dd in W; change (IZR DD) with 10000000000 in W; lra. }
    destruct (est_ok E 1000000 20.9%float lim k t0 u t 21 603.332 653.332 eS 0.000431 Lm QE ltac:(lia) K F2 Fl V2 ltac:(lra) Hl ltac:(lra) (La_slopes lib) ltac:(lra) ltac:(lra) D L ltac:(lra) Eu) as [Fu Bu].
    assert (BS : 0 <= eS <= 0.001) by (destruct HE as [(_ & -> & _)|(_ & -> & _)]; lra). apply Rabs_le_inv in Bu, Bt.
    destruct (day_early u Fu ltac:(apply Rabs_le; lra)) as [Fd Bd]. split; [exact Fd|]. apply Rabs_le_inv in Bd.
    assert (Y : yr (36525 * t) <= 2026) by (unfold yr; lra). specialize (D1 Y). apply Rabs_le. lra.
  - assert (KL : k_late k) by (destruct KQ; [lia|assumption]). pose proof (at_t _ _ _ _ H) as Bt. pose proof (at_La _ _ _ _ H) as L. assert (HK : 48000 <= IZR k <= 192300) by (split; apply IZR_le; unfold k_late in KL; lia).
    assert (F2 : FIN 80.7%float /\ FR 80.7%float <= 81) by (flit 80.7%float F2 V2; split; [exact F2|lra]). destruct F2 as [F2 V2].
    assert (D : forall t, Rabs t <= 81 -> Rabs (er (t / 10) E_all - er (t / 10) E) <= eB).
    { intros x Hx. destruct HE as [(-> & _ & ->)|(-> & _ & ->)]; [pose proof (tail E_a X_a 65 25230000 t_a eq_refl x ltac:(lra)) as W|pose proof (tail E_b X_b 65 4660000 t_b eq_refl x ltac:(lra)) as W]; unfold dd in W; change (IZR DD) with 10000000000 in W; lra. }
    destruct (est_ok E 1000000 80.7%float lim k t0 u t 81 590.138 666.5251 eB 0.00183 Lm QE ltac:(lia) K F2 Fl V2 ltac:(lra) Hl ltac:(lra) (La_slope lib) ltac:(lra) ltac:(lra) D L ltac:(lra) Eu) as [Fu Bu].
    assert (BS : 0 <= eB <= 0.0026) by (destruct HE as [(_ & _ & ->)|(_ & _ & ->)]; lra). apply Rabs_le_inv in Bu, Bt.
    assert (Bu' : 19.5 <= FR u <= 80.75) by lra.
    destruct (day_late u Fu ltac:(lra)) as [Fd Bd]. split; [exact Fd|]. apply Rabs_le_inv in Bd.
    assert (Y : 3900 <= yr (36525 * t) <= 10080) by (unfold yr; lra). specialize (D2 ltac:(lra)).
    assert (Yu : 3900 <= yr (36525 * FR u) <= 10080) by (unfold yr; lra). pose proof (V_lip (yr (36525 * FR u)) (yr (36525 * t)) ltac:(lra) ltac:(lra)) as VL.
    assert (W : Rabs (yr (36525 * FR u) - yr (36525 * t)) <= 0.002) by (unfold yr; apply Rabs_le; lra). assert (VL' : Rabs (V (yr (36525 * FR u)) - V (yr (36525 * t))) <= 0.11) by lra.
    apply Rabs_le_inv in D2, VL'. apply Rabs_le. lra.
Qed.
Lemma est_a_ok k T t0 u : k_quick k -> is_term k T -> est_a k t0 = Some u -> FIN (day k u) /\ Rabs (FR T - FR (day k u)) <= if early k then 0.205 else 0.321.
Proof.
  intros K I E. assert (F : FIN 0.013%float /\ FR 0.013%float <= 0.0130001) by (flit 0.013%float F Vl; split; [exact F|lra]). destruct F as [F B].
  destruct (quick_ok E_a 0.013%float 0.0130001 0.000801 0.002523 k T t0 u ltac:(left; auto) F B ltac:(lra) K I E) as [F1 N]. split; [exact F1|]. destruct (early k); lra.
Qed.
Lemma est_b_ok k T t0 u : k_quick k -> is_term k T -> est_b k t0 = Some u -> FIN (day k u) /\ Rabs (FR T - FR (day k u)) <= if early k then 0.139 else 0.163.
Proof.
  intros K I E. assert (F : FIN 0.0045%float /\ FR 0.0045%float <= 0.0045001) by (flit 0.0045%float F Vl; split; [exact F|lra]). destruct F as [F B].
  destruct (quick_ok E_b 0.0045%float 0.0045001 0.000229 0.000466 k T t0 u ltac:(right; auto) F B ltac:(lra) K I E) as [F1 N]. split; [exact F1|]. destruct (early k); lra.
Qed.
End LIB.
