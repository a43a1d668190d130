(** The solar terms of a year (LunarYear.py:65-82) in binary64: the days found by calcQi, the instants found from them. *)
From Coq Require Import ZArith Lia Reals Lra Psatz.
From Flocq Require Import Core BinarySingleNaN PrimFloat.
From Coq Require Import Bool List Floats.
From Verif Require Import Py PyFloat FloatFacts FloatTac JulianDay T_ShouXing ShouXing FloatExpr Trig SunLon SunDt SunTerm SunQi SunLate SunKb LunarYear T_LunarUtil T_Misc.
Import ListNotations.
Open Scope R_scope.
Local Set Warnings "-inexact-float".
Lemma kb_all' : forallb kb_check' (zrange 0 1647) = true. Proof. vm_cast_no_check (eq_refl true). Qed.
Lemma kb_all : forallb kb_check (zrange 0 1647) = true.
Proof. apply forallb_forall. intros y Iy. pose proof kb_all' as H. rewrite forallb_forall in H. specialize (H y Iy). apply in_zrange in Iy. apply kb_check_old; [lia|exact H]. Qed.

Lemma fleb_spec x y : FIN x -> FIN y -> (PrimFloat.leb x y = true <-> FR x <= FR y).
Proof.
  intros Hx Hy. rewrite leb_equiv. unfold FIN, FR in *. rewrite Bleb_correct by assumption.
  destruct (Rle_bool_spec (B2R (Prim2B x)) (B2R (Prim2B y))); split; intros; try easy; lra.
Qed.
Lemma leb_ltb x y : FIN x -> FIN y -> PrimFloat.leb x y = negb (PrimFloat.ltb y x).
Proof.
  intros Hx Hy. destruct (PrimFloat.leb x y) eqn:E.
  - apply fleb_spec in E; [|assumption..]. destruct (PrimFloat.ltb y x) eqn:G; [apply fltb_spec in G; [lra|assumption..]|reflexivity].
  - destruct (PrimFloat.ltb y x) eqn:G; [reflexivity|]. exfalso. destruct (Rle_lt_dec (FR x) (FR y)) as [C|C].
    + apply fleb_spec in C; [congruence|assumption..].
    + apply fltb_spec in C; [congruence|assumption..].
Qed.
(** until 1646 the solstice at the end of the year comes after its middle *)
Definition start_check (y : Z) : bool :=
  let J := (X0 y + 2451545)%float in
  if PrimFloat.ltb J f2 then
    PrimFloat.leb f1 J && negb (PrimFloat.ltb J f1) && negb (PrimFloat.leb 2436935 J) &&
    match kb_day (J + 7)%float QI_ROWS QI_END with Ok q => (3652422 * (y - 2000) + 1810000 <? 10000 * q)%Z | Raise _ => false end
  else true.
Lemma start_all : forallb start_check (zrange 0 1647) = true. Proof. vm_cast_no_check (eq_refl true). Qed.

Lemma mapM_ex {X Y} (f : X -> res Y) (P : X -> Y -> Prop) l : (forall a, In a l -> exists b, f a = Ok b /\ P a b) -> exists r, mapM f l = Ok r /\ Forall2 P l r.
Proof.
  induction l as [|a l IH]; intros H; [exists []; split; [reflexivity|constructor]|]. destruct (H a (or_introl eq_refl)) as (b & E & Q). destruct (IH (fun c Hc => H c (or_intror Hc))) as (r & Er & Fr).
  exists (b :: r). split; [cbn; now rewrite E, Er|now constructor].
Qed.
Lemma zr_length a b : List.length (zrange a b) = Z.to_nat (b - a).
Proof. apply zseq_length. Qed.
Lemma zr_nth a b i d : (i < Z.to_nat (b - a))%nat -> nth i (zrange a b) d = (a + Z.of_nat i)%Z.
Proof.
  unfold zrange. generalize (Z.to_nat (b - a)). intros n. revert a i. induction n as [|n IH]; intros a i H; [lia|]. destruct i as [|i]; cbn [zseq nth]; [lia|]. rewrite IH by lia. lia.
Qed.
Lemma Forall2_zrange {Y} (P : Z -> Y -> Prop) n r : Forall2 P (zrange 0 (Z.of_nat n)) r -> List.length r = n /\ forall i, (0 <= i < Z.of_nat n)%Z -> exists b, py_index r i = Ok b /\ P i b.
Proof.
  intros F. assert (L : List.length (zrange 0 (Z.of_nat n)) = List.length r) by (clear -F; induction F; cbn; congruence). rewrite zr_length in L. split; [lia|]. intros i Hi.
  assert (G : forall l r j, Forall2 P l r -> forall a, nth_error l j = Some a -> exists b, nth_error r j = Some b /\ P a b).
  { intros l r' j Fl. revert j. induction Fl as [|x z l1 l2 Hxz Fl IH]; intros [|j'] a Ha; try discriminate; [injection Ha as <-; exists z; split; [reflexivity|exact Hxz]|exact (IH j' a Ha)]. }
  destruct (G _ _ (Z.to_nat i) F i) as (b & E & Q).
  { rewrite (nth_error_nth' _ 0%Z) by (rewrite zr_length; lia). f_equal. rewrite zr_nth by lia. lia. }
  exists b. split; [|exact Q]. unfold py_index. replace (i <? 0)%Z with false by lia. replace ((i <? 0) || (Z.of_nat (Datatypes.length r) <=? i))%Z with false by lia. now rewrite E.
Qed.
Section LIB.
Context {fsin fcos : float -> float} (lib : libm fsin fcos).
Notation A := (float_arith fsin fcos).
Notation is_term := (@SunTerm.is_term fsin fcos).
Notation fits := (@SunKb.fits fsin fcos).
Notation all_fit := (@SunKb.all_fit fsin fcos).

(** from 1645 on the day is near the instant *)
Lemma calcQi_series X k : at_k X k -> (-8600 <= k <= 192300)%Z -> PrimFloat.ltb (X + 2451545)%float f2 = false ->
  exists q, calcQi A X = Ok q /\ forall T, is_term k T -> Rabs (IZR q - FR T) <= 2.051 /\ ((-900 < k)%Z -> Rabs (IZR q - FR T) <= 0.7501).
Proof.
  intros H K C. assert (K' : k_ok k) by (unfold k_ok; lia). destruct (jd_of X k H K') as (F & N & B). flit f2 Ff Vf. flit 2436935%float F3 V3. flit (1640650.479938 - 7)%float F1 V1.
  pose proof (leb_ltb f2 _ Ff F) as L2. rewrite C in L2. apply Rabs_le_inv in N. destruct H as [FX H].
  destruct (PrimFloat.leb 2436935 (X + 2451545)%float) eqn:G.
  - pose proof G as G'. apply fleb_spec in G'; [|assumption..]. assert (K1 : -1100 < IZR k) by lra. apply lt_IZR in K1.
    destruct (calcQi_high lib X k (conj FX H) ltac:(unfold k_new; lia) G) as (q & E & Q). exists q. split; [exact E|]. intros T I. specialize (Q T I). split; [lra|intros _; exact Q].
  - pose proof (leb_ltb 2436935%float _ F3 F) as L3. rewrite G in L3. symmetry in L3. apply negb_false_iff in L3. pose proof L3 as L3'. apply fltb_spec in L3'; [|assumption..].
    assert (K1 : IZR k < -900) by lra. apply lt_IZR in K1.
    assert (L1 : PrimFloat.ltb (X + 2451545)%float (1640650.479938 - 7)%float = false).
    { destruct (PrimFloat.ltb (X + 2451545)%float (1640650.479938 - 7)%float) eqn:L; [|reflexivity]. apply fltb_spec in L; [|assumption..]. cbn [negb] in L2. apply fleb_spec in L2; [|assumption..]. lra. }
    destruct (calcQi_low lib X k (conj FX H) ltac:(unfold k_low; lia) L1 G C L2 L3) as (q & E & Q). exists q. split; [exact E|]. intros T I. specialize (Q T I). split; [exact Q|]. lia.
Qed.
Lemma gap_T k n T T' : is_term k T -> is_term (k + n) T' -> (1 <= n <= 4)%Z -> k_ok k -> k_ok (k + n) ->
  (14.346 * IZR n - 0.21 <= FR T' - FR T <= 16.2034 * IZR n + 0.235) /\ (k_old (k + n) -> 14.6358 * IZR n - 0.21 <= FR T' - FR T <= 15.8491 * IZR n + 0.215).
Proof.
  intros I I' Hn K K'. destruct (is_term_at lib k T I K) as (_ & t & d & H). destruct (is_term_at lib _ T' I' K') as (_ & t' & d' & H'). exact (gap lib _ _ _ _ _ _ _ _ H H' Hn K K').
Qed.
Lemma series_fit k i q : (-8600 <= k <= 192280)%Z -> (forall T, is_term k T -> Rabs (IZR q - FR T) <= 2.051 /\ ((-900 < k)%Z -> Rabs (IZR q - FR T) <= 0.7501)) -> all_fit k i q.
Proof.
  intros K Q. assert (K0 : k_ok k) by (unfold k_ok; lia). destruct (term_of lib k K0) as (T & _ & _ & I & _ & _). destruct (Q T I) as [Q1 Q2].
  assert (Q3 : (k <= -900)%Z \/ Rabs (IZR q - FR T) <= 0.7501) by (destruct (Z_lt_ge_dec (-900) k); [right; apply Q2; assumption|left; lia]).
  split; [|split].
  - intros T' I'. destruct (Q T' I') as [Q' _]. apply Rabs_le_inv in Q'. rewrite mult_IZR. apply Rabs_le. lra.
  - intros _ T' I'. assert (Km : k_ok (k - 1)) by (unfold k_ok; lia). rewrite minus_IZR, mult_IZR. destruct (gap_T (k - 1) 1 T' T I' ltac:(replace (k - 1 + 1)%Z with k by lia; exact I) ltac:(lia) Km ltac:(replace (k - 1 + 1)%Z with k by lia; exact K0)) as [G _].
    apply Rabs_le_inv in Q1. apply Rabs_le. lra.
  - intros _ m Hm T' I'. assert (Kp : k_ok (k + m)) by (unfold k_ok; lia). rewrite plus_IZR, !mult_IZR. destruct (gap_T k m T T' I I' Hm K0 Kp) as [G1 G2]. assert (Bm : 1 <= IZR m <= 4) by (split; apply IZR_le; lia).
    destruct Q3 as [C|C].
    + specialize (G2 ltac:(unfold k_old; lia)). apply Rabs_le_inv in Q1. apply Rabs_le. lra.
    + apply Rabs_le_inv in C. apply Rabs_le. lra.
Qed.
Lemma term_old k T : is_term k T -> k_old k -> mean k - 2.29 <= FR T <= mean k + 2.786.
Proof.
  intros I O. pose proof (old_ok k O) as K. destruct (is_term_at lib k T I K) as (F & t & d & H). destruct (mean_at lib _ _ _ _ H) as [_ M]. specialize (M O). pose proof (at_T _ _ _ _ H) as E.
  pose proof (d_bnd lib _ _ _ _ H K) as D. destruct (at_d _ _ _ _ H) as [D1 D2]. pose proof (mean_lin k K) as ML. assert (HK : -49000 <= IZR k <= 49000) by (split; apply IZR_le; unfold k_old in O; lia).
  apply Rabs_le_inv in M, E. assert (Y : -43 <= yr (36525 * t) <= 4045) by (unfold yr; lra).
  assert (d <= 0.18) by (destruct (Rle_lt_dec (yr (36525 * t)) 2026) as [C|C]; [specialize (D1 C); lra|specialize (D2 ltac:(lra)); apply Rabs_le_inv in D2; assert (V (yr (36525 * t)) <= 15330) by (unfold V; nra); lra]). lra.
Qed.
(** the day found is so near the mean position that [qiAccurate2] tries the right multiple of 15 degrees first *)
Definition near_mean (k q : Z) : Prop := -8.181 <= IZR q - mean k <= 6.521.
Lemma jq_ok y i : (0 <= y <= 10000)%Z -> (0 <= i <= 25)%Z -> exists q, calcQi A (Xi y i) = Ok q /\ all_fit (24 * (y - 2000) + 18 + i) i q /\ near_mean (24 * (y - 2000) + 18 + i) q.
Proof.
  intros Hy Hi. destruct (Xi_k y i ltac:(lia) ltac:(lia)) as [K E]. set (k := (24 * (y - 2000) + 18 + i)%Z) in *. set (X := Xi y i) in *.
  assert (K0 : k_ok k) by (unfold k_ok, k; lia). destruct (jd_of X k K K0) as (F & N & B). flit f2 Ff Vf. apply Rabs_le_inv in N.
  destruct (PrimFloat.ltb (X + 2451545)%float f2) eqn:C.
  - pose proof C as C'. apply fltb_spec in C'; [|assumption..]. assert (Hk : (k < -8470)%Z) by (apply lt_IZR; destruct K as [_ K]; lra).
    pose proof (forallb_zrange _ _ _ kb_all y ltac:(unfold k in Hk; lia)) as G. unfold kb_check in G. pose proof (forallb_zrange _ _ _ G i ltac:(lia)) as G'. cbv zeta beta in G'. fold X in G'. rewrite C in G'.
    apply andb_true_iff in G'. destruct G' as [G1 G2]. apply andb_true_iff in G1. destruct G1 as [G1 G3]. apply andb_true_iff in G1. destruct G1 as [G1 G4]. apply negb_true_iff in G3, G4.
    destruct (kb_day _ _ _) as [q|] eqn:Eq; [|discriminate]. apply andb_true_iff in G2. destruct G2 as [G2 G5]. exists q. split; [|split; [apply (kb_fits_ok lib y); [unfold k in Hk; lia|lia|exact G2]|]].
    2: { pose proof (kb_near_ok k q ltac:(unfold k_old, k in *; lia) G5). unfold near_mean. lra. }
    unfold calcQi. cbv zeta. change (1640650.479938 - 7)%float with f1. change (QI_END - 7)%float with f2. rewrite G3, G4, G1, C. exact Eq.
  - assert (Hk : (-8600 <= k <= 192280)%Z).
    { unfold k in *. split; [|lia]. assert (C' : ~ FR (X + 2451545)%float < FR f2) by (rewrite <- fltb_spec by assumption; congruence). apply le_IZR. destruct K as [_ K]. lra. }
    destruct (calcQi_series X k K ltac:(lia) C) as (q & Eq & Q). exists q. split; [exact Eq|]. split; [now apply series_fit|].
    destruct (term_of lib k K0) as (T & _ & _ & I & _ & _). destruct (Q T I) as [Q1 Q2]. unfold near_mean. destruct (Z_le_gt_dec k 48900) as [C1|C1].
    + pose proof (term_old k T I ltac:(unfold k_old; lia)). apply Rabs_le_inv in Q1. lra.
    + specialize (Q2 ltac:(lia)). pose proof (term_late lib k T I ltac:(unfold k_late; lia)). apply Rabs_le_inv in Q2. lra.
Qed.

(** ** LunarYear.py:65-72 *)
Lemma solstice_after y : (0 <= y <= 9999)%Z -> exists q, calcQi A (X0 y) = Ok q /\ 365.2422 * IZR (y - 2000) + 181 <= IZR q.
Proof.
  intros Hy. pose proof (X0_k y ltac:(lia)) as K. set (k := (24 * (y - 2000) + 42)%Z) in *. set (X := X0 y) in *.
  assert (K0 : k_ok k) by (unfold k_ok, k; lia). destruct (jd_of X k K K0) as (F & N & B). flit f2 Ff Vf. apply Rabs_le_inv in N.
  destruct (PrimFloat.ltb (X + 2451545)%float f2) eqn:C.
  - pose proof C as C'. apply fltb_spec in C'; [|assumption..]. assert (Hk : (k < -8470)%Z) by (apply lt_IZR; destruct K as [_ K]; lra).
    pose proof (forallb_zrange _ _ _ start_all y ltac:(unfold k in Hk; lia)) as G'. unfold start_check in G'. cbv zeta in G'. fold X in G'. rewrite C in G'.
    apply andb_true_iff in G'. destruct G' as [G1 G2]. apply andb_true_iff in G1. destruct G1 as [G1 G3]. apply andb_true_iff in G1. destruct G1 as [G1 G4]. apply negb_true_iff in G3, G4.
    destruct (kb_day _ _ _) as [q|] eqn:Eq; [|discriminate]. exists q. split.
    + unfold calcQi. cbv zeta. change (1640650.479938 - 7)%float with f1. change (QI_END - 7)%float with f2. rewrite G3, G4, G1, C. exact Eq.
    + apply Z.ltb_lt in G2. apply IZR_lt in G2. rewrite plus_IZR, !mult_IZR in G2. lra.
  - assert (Hk : (-8600 <= k <= 192300)%Z).
    { unfold k in *. split; [|lia]. assert (C' : ~ FR (X + 2451545)%float < FR f2) by (rewrite <- fltb_spec by assumption; congruence). apply le_IZR. destruct K as [_ K]. lra. }
    destruct (calcQi_series X k K Hk C) as (q & Eq & Q). exists q. split; [exact Eq|].
    destruct (term_of lib k K0) as (T & _ & _ & I & _ & _). destruct (Q T I) as [Q1 _]. pose proof (term_bnd lib k T I K0) as TB. pose proof (mean_lin k K0) as ML. apply Rabs_le_inv in Q1, TB.
    assert (Bk : IZR k = 24 * IZR (y - 2000) + 42) by (unfold k; rewrite plus_IZR, mult_IZR; reflexivity). assert (By : -2000 <= IZR (y - 2000) <= 7999) by (split; apply IZR_le; lia). lra.
Qed.
Lemma start_ok y : (0 <= y <= 9999)%Z -> compute_start (shouxing fsin fcos) y = Ok (X0 y - 365.2422)%float.
Proof.
  intros Hy. destruct (solstice_after y Hy) as (q & Eq & Q). assert (By : -2000 <= IZR (y - 2000) <= 7999) by (split; apply IZR_le; lia).
  unfold compute_start, py_float. replace (Z.abs (y - 2000) <? 2 ^ 62)%Z with true by (symmetry; apply Z.ltb_lt; lia). cbn [bind].
  destruct (float_of_Z_spec (y - 2000) ltac:(lia)) as [F E].
  flit 365.2422%float F1 V1. set (c := FR 365.2422%float) in *. assert (Vc : -/ 10000000000000 <= c - 365.2422 <= / 10000000000000) by lra. clear V1. fval 180%float 180 e5. flit 180%float F5 V5.
  assert (P : Rabs (IZR (y - 2000) * (c - 365.2422)) <= 8000 * / 10000000000000) by (apply Rmul_abs; apply Rabs_le; lra). apply Rabs_le_inv in P.
  destruct (fmul_b (float_of_Z (y - 2000)) 365.2422%float 4000000 F F1 ltac:(rewrite E; fold c; lra) ltac:(lra)) as (F2 & _ & N2). rewrite E in N2. fold c in N2. nea.
  destruct (fadd_b _ 180%float 4000000 F2 F5 ltac:(lra) ltac:(lra)) as (F3 & _ & N3). rewrite e5 in N3. nea.
  rewrite (py_floor_spec _ F3). cbn [bind]. set (r := FR (float_of_Z (y - 2000) * 365.2422 + 180)%float) in *. set (jd := Zfloor r).
  assert (Bj : r - 1 < IZR jd <= r) by (pose proof (Zfloor_lb r); pose proof (Zfloor_ub r); unfold jd; lra).
  assert (Lj : (Z.abs (jd - 355 + 183) <= 2 ^ 53)%Z).
  { assert (-4000000 <= IZR jd <= 4000000) as [W1 W2] by lra. apply le_IZR in W1, W2. lia. }
  destruct (float_of_Z_spec _ Lj) as [Fj Ej]. rewrite plus_IZR, minus_IZR in Ej. set (fj := float_of_Z (jd - 355 + 183)) in *.
  assert (Vq : Rabs (c - 365.2422) <= / 10000000000000) by (apply Rabs_le; lra).
  assert (Qb : Rabs (FR fj / c) <= 11000) by (apply quot_b; lra). pose proof (quot (FR fj) c 365.2422 _ _ Qb ltac:(lra) ltac:(lra) Vq) as R. apply Rabs_le_inv in Qb, R.
  destruct (fdiv_b fj 365.2422%float 11000 Fj ltac:(fold c; lra) ltac:(fold c; lra) ltac:(lra)) as (F6 & _ & N6). fold c in N6. nea.
  rewrite (py_floor_spec _ F6). cbn [bind].
  assert (Ek : Zfloor (FR (fj / 365.2422)%float) = (y - 2000)%Z) by (apply Zfloor_imp; rewrite plus_IZR; lra). rewrite Ek.
  change (float_of_Z (y - 2000) * 365.2422 + 355)%float with (X0 y). cbn [sky_qi shouxing]. rewrite Eq. cbn [bind].
  assert (L : (jd < q)%Z) by (apply lt_IZR; lra). apply Z.ltb_lt in L. rewrite L. reflexivity.
Qed.

Lemma compute_jq_ok y : (0 <= y <= 9999)%Z -> exists qs, compute_jq (shouxing fsin fcos) y = Ok qs /\ List.length qs = 26%nat /\
  forall i, (0 <= i < 26)%Z -> exists q, py_index qs i = Ok q /\ all_fit (24 * (y - 2000) + 18 + i) i q /\ near_mean (24 * (y - 2000) + 18 + i) q.
Proof.
  intros Hy. unfold compute_jq. rewrite (start_ok y Hy). cbn [bind].
  destruct (mapM_ex (fun i => sky_qi (shouxing fsin fcos) (X0 y - 365.2422 + 15.2184 * float_of_Z i)%float) (fun i q => all_fit (24 * (y - 2000) + 18 + i) i q /\ near_mean (24 * (y - 2000) + 18 + i) q) (zrange 0 26)) as (qs & E & F).
  { intros i Hi. apply in_zrange in Hi. exact (jq_ok y i ltac:(lia) ltac:(lia)). }
  exists qs. split; [exact E|]. exact (Forall2_zrange _ 26 qs F).
Qed.

(** ** LunarYear.py:75-82 *)
Lemma all_fit_bnd k i q : all_fit k i q -> k_ok k -> (Z.abs q <= 3000000)%Z.
Proof.
  intros [H _] K. destruct (term_of lib k K) as (T & _ & _ & I & _ & _). pose proof (H T I) as Q. pose proof (term_bnd lib k T I K) as TB. pose proof (mean_bnd k K) as MB. rewrite mult_IZR in Q. apply Rabs_le_inv in Q, TB.
  assert (-3000000 <= IZR q <= 3000000) as [W1 W2] by lra. apply le_IZR in W1, W2. lia.
Qed.
Lemma term_from X k N : FIN X -> k_in k -> fits k N -> Rabs (FR X - IZR N / 10000) <= 0.0003 -> exists T, qiAccurate2 A X = Ok T /\ is_term k T /\
  (-8.19 <= IZR N / 10000 - mean k <= 6.53 -> qiAccurate A (float_of_Z k * (PI / 12))%float = Ok T).
Proof.
  intros F K H N0. destruct (qiAccurate2_ok lib X k F K) as (T & E & I & C). { intros T I. specialize (H T I). apply Rabs_le_inv in H, N0. apply Rabs_le. lra. }
  exists T. split; [exact E|]. split; [exact I|]. intros M. apply C. pose proof (mean_lin k ltac:(unfold k_in, k_ok in *; lia)) as ML. assert (HK : -48990 <= IZR k <= 192290) by (split; apply IZR_le; unfold k_in in K; lia). apply Rabs_le_inv in N0. lra.
Qed.
Lemma compute_terms_ok y qs : (0 <= y <= 9999)%Z -> compute_jq (shouxing fsin fcos) y = Ok qs -> exists Ts, compute_terms (shouxing fsin fcos) qs = Ok Ts /\ List.length Ts = 31%nat /\
  forall j, (0 <= j < 31)%Z -> exists T, py_index Ts j = Ok (T + 2451545)%float /\ is_term (24 * (y - 2000) + 17 + j) T /\
    qiAccurate A (float_of_Z (24 * (y - 2000) + 17 + j) * (PI / 12))%float = Ok T.
Proof.
  intros Hy Eq. destruct (compute_jq_ok y Hy) as (qs' & Eq' & _ & H). rewrite Eq in Eq'. injection Eq' as <-. unfold compute_terms. change (Z.of_nat (Datatypes.length Lunar_JIE_QI_IN_USE)) with 31%Z.
  match goal with |- context[mapM ?f _] => destruct (mapM_ex f (fun j b => exists T, b = (T + 2451545)%float /\ is_term (24 * (y - 2000) + 17 + j) T /\ qiAccurate A (float_of_Z (24 * (y - 2000) + 17 + j) * (PI / 12))%float = Ok T) (zrange 0 31)) as (Ts & E & F) end.
  - intros j Hj. apply in_zrange in Hj. flit 15.2184%float F2 V2. set (c := FR 15.2184%float) in *.
    assert (G : forall X, (exists T, qiAccurate2 A X = Ok T /\ is_term (24 * (y - 2000) + 17 + j) T /\ qiAccurate A (float_of_Z (24 * (y - 2000) + 17 + j) * (PI / 12))%float = Ok T) -> exists b, (let! jd := sky_term (shouxing fsin fcos) X in Ok (jd + 2451545)%float) = Ok b /\ exists T, b = (T + 2451545)%float /\ is_term (24 * (y - 2000) + 17 + j) T /\ qiAccurate A (float_of_Z (24 * (y - 2000) + 17 + j) * (PI / 12))%float = Ok T).
    { intros X (T & ET & I). cbn [sky_term shouxing]. rewrite ET. cbn [bind]. eauto. }
    assert (Kj : k_in (24 * (y - 2000) + 17 + j)) by (unfold k_in; lia).
    destruct (j =? 0)%Z eqn:J0; [|destruct (j <=? 26)%Z eqn:J1].
    + destruct (H 0%Z ltac:(lia)) as (q & Hq & FT & NM). rewrite Hq. cbn [bind]. apply G. pose proof (all_fit_bnd _ _ _ FT ltac:(unfold k_ok; lia)) as B. destruct FT as (_ & FT & _). specialize (FT eq_refl).
      replace (24 * (y - 2000) + 18 + 0 - 1)%Z with (24 * (y - 2000) + 17 + j)%Z in FT by lia. destruct (float_of_Z_spec q ltac:(lia)) as [Fq Vq]. assert (Bq : -3000000 <= IZR q <= 3000000) by (split; apply IZR_le; lia).
      destruct (fsub_b (float_of_Z q) 15.2184%float 4000000 Fq F2 ltac:(rewrite Vq; fold c; lra) ltac:(lra)) as (F3 & _ & N3). rewrite Vq in N3. fold c in N3. nea.
      destruct (term_from _ _ _ F3 Kj FT) as (T & ET & IT & CT); [rewrite minus_IZR, mult_IZR; apply Rabs_le; lra|]. exists T. split; [exact ET|]. split; [exact IT|].
      apply CT. unfold near_mean in NM. pose proof (mean_lin (24 * (y - 2000) + 17 + j) ltac:(unfold k_ok; lia)) as M1. pose proof (mean_lin (24 * (y - 2000) + 18 + 0) ltac:(unfold k_ok; lia)) as M2. rewrite minus_IZR, mult_IZR. rewrite !plus_IZR in M1, M2. replace (IZR j) with 0 in M1 by (replace j with 0%Z by lia; reflexivity). lra.
    + destruct (H (j - 1)%Z ltac:(lia)) as (q & Hq & FT & NM). rewrite Hq. cbn [bind]. apply G. pose proof (all_fit_bnd _ _ _ FT ltac:(unfold k_ok; lia)) as B. destruct FT as (FT & _ & _).
      replace (24 * (y - 2000) + 18 + (j - 1))%Z with (24 * (y - 2000) + 17 + j)%Z in FT by lia. destruct (float_of_Z_spec q ltac:(lia)) as [Fq Vq].
      destruct (term_from _ _ _ Fq Kj FT) as (T & ET & IT & CT); [rewrite Vq, mult_IZR; apply Rabs_le; lra|]. exists T. split; [exact ET|]. split; [exact IT|].
      apply CT. unfold near_mean in NM. replace (24 * (y - 2000) + 18 + (j - 1))%Z with (24 * (y - 2000) + 17 + j)%Z in NM by lia. rewrite mult_IZR. lra.
    + destruct (H 25%Z ltac:(lia)) as (q & Hq & FT & NM). rewrite Hq. cbn [bind]. apply G. pose proof (all_fit_bnd _ _ _ FT ltac:(unfold k_ok; lia)) as B. destruct FT as (_ & _ & FT). specialize (FT eq_refl (j - 26)%Z ltac:(lia)).
      replace (24 * (y - 2000) + 18 + 25 + (j - 26))%Z with (24 * (y - 2000) + 17 + j)%Z in FT by lia. destruct (float_of_Z_spec q ltac:(lia)) as [Fq Vq]. assert (Bq : -3000000 <= IZR q <= 3000000) by (split; apply IZR_le; lia).
      destruct (float_of_Z_spec (j - 26) ltac:(lia)) as [Fm Vm]. assert (Bm : 1 <= IZR (j - 26) <= 4) by (split; apply IZR_le; lia).
      assert (P : Rabs (IZR (j - 26) * (c - 15.2184)) <= 4 * / 10000000000000) by (apply Rmul_abs; apply Rabs_le; lra). apply Rabs_le_inv in P.
      destruct (fmul_b 15.2184%float (float_of_Z (j - 26)) 1000 F2 Fm ltac:(rewrite Vm; fold c; lra) ltac:(lra)) as (F4 & _ & N4). rewrite Vm in N4. fold c in N4. nea.
      destruct (fadd_b (float_of_Z q) _ 4000000 Fq F4 ltac:(rewrite Vq; lra) ltac:(lra)) as (F3 & _ & N3). rewrite Vq in N3. nea.
      destruct (term_from _ _ _ F3 Kj FT) as (T & ET & IT & CT); [rewrite plus_IZR, !mult_IZR; apply Rabs_le; lra|]. exists T. split; [exact ET|]. split; [exact IT|].
      apply CT. unfold near_mean in NM. pose proof (mean_lin (24 * (y - 2000) + 17 + j) ltac:(unfold k_ok; lia)) as M1. pose proof (mean_lin (24 * (y - 2000) + 18 + 25) ltac:(unfold k_ok; lia)) as M2. rewrite plus_IZR, !mult_IZR, minus_IZR. rewrite minus_IZR in Bm. rewrite !plus_IZR in M1, M2. lra.
  - exists Ts. split; [exact E|]. destruct (Forall2_zrange _ 31 Ts F) as [L P]. split; [exact L|]. intros j Hj. destruct (P j Hj) as (b & Eb & T & -> & I & C). eauto.
Qed.
End LIB.
