(** The longitude of the sun (util/ShouXingUtil.py eLon, saLon, saLonT) in binary64, for every C library with [libm]: how far the computed
    values are from a real function of the time, and how fast that function grows. *)
From Coq Require Import ZArith Lia Reals Lra Psatz.
From Flocq Require Import Core BinarySingleNaN PrimFloat.
From Coq Require Import Bool List Floats.
From Verif Require Import Py PyFloat FloatFacts FloatTac T_ShouXing ShouXing FloatExpr.
Import ListNotations.
Open Scope R_scope.
Local Set Warnings "-inexact-float".

(** ** The series as an expression of the time in millennia *)
Definition terms := list (float * float * float).
Definition sum_expr (l : terms) : expr :=
  fold_left (fun c '(x0, x1, x2) => EAdd c (EMul (EL x0) (ECos (EAdd (EL x1) (EMul EX (EL x2)))))) l (EL 0).
Definition series_expr (ls : list terms) : expr :=
  fst (fold_left (fun '(v, tn) l => (EAdd v (EMul (sum_expr l) tn), EMul tn EX)) ls (EL 0, EL 1)).
Definition lon_expr (ls : list terms) : expr :=
  let t2 := EMul EX EX in let t3 := EMul t2 EX in
  EAdd (EDiv (series_expr ls) (EL XL0_HEAD))
    (EDiv (ESub (ESub (ESub (EL (-0.0728)) (EMul (EL 2.7702) EX)) (EMul (EL 1.1019) t2)) (EMul (EL 0.0996) t3)) (EL SECOND_PER_RAD)).
Definition secs (n : Z) : list terms :=
  let offs := combine (zrange 0 6) (combine ShouXing_XL0_OFFSETS (tl ShouXing_XL0_OFFSETS)) in
  map (fun '(i, (n1, n2)) => match eLon_m n i n1 n2 558 with Ok m => XL0_terms n1 m | Raise _ => [] end) offs.
Definition S_all : list terms := Eval vm_compute in secs (-1).
Definition S_10 : list terms := Eval vm_compute in secs 10.
Definition S_8 : list terms := Eval vm_compute in secs 8.
(** the mean motion alone *)
Definition S_lin : list terms := [[(17534704567.0, 0, 0)]; [(62833196674749.0, 0, 0)]]%float.
(** the larger terms *)
Definition S_main : list terms := Eval vm_compute in map (filter (fun '(a, _, _) => PrimFloat.ltb 300000 a)) (firstn 3 S_all).
Definition E_all : expr := Eval vm_compute in lon_expr S_all.
Definition E_10 : expr := Eval vm_compute in lon_expr S_10.
Definition E_8 : expr := Eval vm_compute in lon_expr S_8.
Definition E_lin : expr := Eval vm_compute in lon_expr S_lin.
Definition E_main : expr := Eval vm_compute in lon_expr S_main.


(** ** Bounds with decimal ends, for arguments within [B/8] of 0 *)
Definition DD : Z := 10000000000.
Definition dd (z : Z) : R := IZR z / IZR DD.
Definition Q8 : Z := Eval vm_compute in (P2 / 8)%Z.
Definition chk (B : Z) (e : expr) (l h s1 s2 er : Z) : bool :=
  match an (- B * Q8) (B * Q8) e with
  | Some u => ((l * P2 <=? lo u * DD) && (hi u * DD <=? h * P2) && (s1 * P2 <=? sl u * DD) && (sh u * DD <=? s2 * P2) && (ee u * DD <=? er * P2))%Z
  | None => false
  end.
Lemma dd_le a z : (a * P2 <= z * DD)%Z -> dd a <= sc z.
Proof.
  intros H. apply IZR_le in H. rewrite !mult_IZR in H. unfold dd, sc. pose proof P2_pos. assert (0 < IZR DD) by (apply IZR_lt; reflexivity).
  apply Rmult_le_reg_r with (IZR DD); [assumption|]. apply Rmult_le_reg_r with (IZR P2); [assumption|].
  replace (IZR a / IZR DD * IZR DD * IZR P2) with (IZR a * IZR P2) by (field; lra). replace (IZR z / IZR P2 * IZR DD * IZR P2) with (IZR z * IZR DD) by (field; lra). exact H.
Qed.
Lemma dd_ge a z : (z * DD <= a * P2)%Z -> sc z <= dd a.
Proof.
  intros H. apply IZR_le in H. rewrite !mult_IZR in H. unfold dd, sc. pose proof P2_pos. assert (0 < IZR DD) by (apply IZR_lt; reflexivity).
  apply Rmult_le_reg_r with (IZR DD); [assumption|]. apply Rmult_le_reg_r with (IZR P2); [assumption|].
  replace (IZR a / IZR DD * IZR DD * IZR P2) with (IZR a * IZR P2) by (field; lra). replace (IZR z / IZR P2 * IZR DD * IZR P2) with (IZR z * IZR DD) by (field; lra). exact H.
Qed.
Lemma dom_8 B x : Rabs x <= IZR B / 8 -> dom (- B * Q8) (B * Q8) x.
Proof.
  intros H. apply Rabs_le_inv in H. assert (E : forall z, sc (z * Q8) = IZR z / 8).
  { intros z. unfold sc. rewrite mult_IZR. change (IZR P2) with (IZR (8 * Q8)). rewrite mult_IZR. field. apply not_0_IZR. discriminate. }
  unfold dom. rewrite !E, opp_IZR. lra.
Qed.
Lemma chk_ok fsin fcos (lib : libm fsin fcos) B e l h s1 s2 er0 : chk B e l h s1 s2 er0 = true ->
  (forall x, Rabs x <= IZR B / 8 -> dd l <= er x e <= dd h) /\
  (forall x y, Rabs x <= IZR B / 8 -> Rabs y <= IZR B / 8 -> x <= y -> dd s1 * (y - x) <= er y e - er x e <= dd s2 * (y - x)) /\
  (forall xf, FIN xf -> Rabs (FR xf) <= IZR B / 8 -> FIN (ef fsin fcos xf e) /\ Rabs (FR (ef fsin fcos xf e) - er (FR xf) e) <= dd er0).
Proof.
  unfold chk. destruct (an _ _ e) as [u|] eqn:E; [|discriminate]. intros H.
  repeat (apply andb_true_iff in H; destruct H as [H ?]). rewrite Z.leb_le in *.
  pose proof (an_ok _ _ lib _ _ e u E) as S. split; [|split].
  - intros x Hx. pose proof (so_val _ _ _ _ _ _ S x (dom_8 _ _ Hx)). pose proof (dd_le _ _ H). pose proof (dd_ge h (hi u) ltac:(assumption)). lra.
  - intros x y Hx Hy L. pose proof (so_slope _ _ _ _ _ _ S x y (dom_8 _ _ Hx) (dom_8 _ _ Hy) L). pose proof (dd_le s1 (sl u) ltac:(assumption)). pose proof (dd_ge s2 (sh u) ltac:(assumption)). nra.
  - intros xf F Hx. pose proof (so_err _ _ _ _ _ _ S xf F (dom_8 _ _ Hx)) as [F' E']. split; [exact F'|]. pose proof (dd_ge er0 (ee u) ltac:(assumption)). lra.
Qed.

(** ** The bounds *)
Definition E_ev : expr := Eval vm_compute in ev expr_arith EX.
Definition E_nut : expr := Eval vm_compute in nutationLon2 expr_arith EX.
Definition E_gxc : expr := Eval vm_compute in gxcSunLon expr_arith EX.

Lemma b_all : chk 65 E_all (-510503200000000) 510538270000000 59013880000000 66652510000000 480 = true. Proof. vm_cast_no_check (eq_refl true). Qed.
Lemma b_10 : chk 65 E_10 (-510503200000000) 510538270000000 59051430000000 66614960000000 480 = true. Proof. vm_cast_no_check (eq_refl true). Qed.
Lemma b_10s : chk 17 E_10 (-133503430000000) 133538500000000 60343340000000 65323050000000 130 = true. Proof. vm_cast_no_check (eq_refl true). Qed.
Lemma b_8 : chk 65 E_8 (-510503200000000) 510538270000000 59051430000000 66614960000000 480 = true. Proof. vm_cast_no_check (eq_refl true). Qed.
Lemma b_lin : chk 65 E_lin (-510503200000000) 510538270000000 62833194700000 62833198370000 480 = true. Proof. vm_cast_no_check (eq_refl true). Qed.
Lemma b_lins : chk 17 E_lin (-133503430000000) 133538500000000 62833196240000 62833196840000 130 = true. Proof. vm_cast_no_check (eq_refl true). Qed.
Lemma b_lin0 : chk 0 E_lin 17534701000 17534701100 (-1000000000000000) 1000000000000000 1 = true. Proof. vm_cast_no_check (eq_refl true). Qed.
Lemma d_lin : chk 65 (ediff E_all E_lin) (-998960000) 998960000 (-3819311000000) 3819311000000 10000000000000 = true. Proof. vm_cast_no_check (eq_refl true). Qed.
Lemma d_lins : chk 17 (ediff E_all E_lin) (-414300000) 414300000 (-2499948000000) 2499948000000 10000000000000 = true. Proof. vm_cast_no_check (eq_refl true). Qed.
Lemma d_10 : chk 65 (ediff E_all E_10) (-4578000) 4578000 (-37549700000) 37549700000 10000000000000 = true. Proof. vm_cast_no_check (eq_refl true). Qed.
Lemma d_10s : chk 17 (ediff E_all E_10) (-1454000) 1454000 (-10097900000) 10097900000 10000000000000 = true. Proof. vm_cast_no_check (eq_refl true). Qed.
Lemma d_8 : chk 65 (ediff E_all E_8) (-5021000) 5021000 (-40575500000) 40575500000 10000000000000 = true. Proof. vm_cast_no_check (eq_refl true). Qed.
Lemma d_8s : chk 17 (ediff E_all E_8) (-1741000) 1741000 (-12063800000) 12063800000 10000000000000 = true. Proof. vm_cast_no_check (eq_refl true). Qed.
Lemma d_mains : chk 17 (ediff E_all E_main) (-3098000) 3098000 (-18728300000) 18728300000 10000000000000 = true. Proof. vm_cast_no_check (eq_refl true). Qed.
Lemma b_ev : chk 648 E_ev 5928340000000 6638300000000 (-300000000000000) 300000000000000 10 = true. Proof. vm_cast_no_check (eq_refl true). Qed.
Lemma b_evs : chk 168 E_ev 6039400000000 6527240000000 (-300000000000000) 300000000000000 10 = true. Proof. vm_cast_no_check (eq_refl true). Qed.
Lemma b_nut : chk 648 E_nut (-1004600) 1004600 (-405800000) 405800000 1 = true. Proof. vm_cast_no_check (eq_refl true). Qed.
Lemma b_gxc : chk 648 E_gxc (-1014500) (-972800) (-13080000) 13080000 1 = true. Proof. vm_cast_no_check (eq_refl true). Qed.

(** the value of a literal, up to 2^-60 *)
Lemma lit_b (c : float) a b : lit_av c = Some (a, b) -> FIN c /\ sc a <= FR c <= sc b.
Proof. intros H. exact (lit_av_ok c (a, b) H). Qed.
Ltac flit c F V :=
  let o := eval vm_compute in (lit_av c) in
  match o with Some (?a, ?b) =>
    destruct (lit_b c a b ltac:(vm_compute; reflexivity)) as [F V]; unfold sc in V; change (IZR P2) with 1152921504606846976 in V
  end.
Ltac nea := unfold near, eps52 in *.

Section LIB.
Context {fsin fcos : float -> float} (lib : libm fsin fcos).
Notation A := (float_arith fsin fcos).
Lemma eLon_all t : eLon A t (-1) = Ok (ef fsin fcos (t / 10)%float E_all). Proof. reflexivity. Qed.
Lemma eLon_10 t : eLon A t 10 = Ok (ef fsin fcos (t / 10)%float E_10). Proof. reflexivity. Qed.
Lemma eLon_8 t : eLon A t 8 = Ok (ef fsin fcos (t / 10)%float E_8). Proof. reflexivity. Qed.

(** the longitude computed by [saLon], less the constant part of the corrections *)
Definition La (t : R) : R := er (t / 10) E_all + FR PI - / 10000.
Definition Lb (t : R) : R := er (t / 10) E_10 + FR PI - / 10000.
Lemma small_big x B : Rabs x <= IZR B / 8 -> (B <= 65)%Z -> Rabs x <= IZR 65 / 8.
Proof. intros H1 H2. apply IZR_le in H2. lra. Qed.
Ltac un := unfold dd, DD in *.
Lemma La_slope t u : Rabs t <= 81 -> Rabs u <= 81 -> t <= u -> 590.138 * (u - t) <= La u - La t <= 666.5251 * (u - t).
Proof.
  intros Ht Hu L. apply Rabs_le_inv in Ht, Hu. destruct (chk_ok _ _ lib _ _ _ _ _ _ _ b_all) as (_ & S & _).
  specialize (S (t / 10) (u / 10) ltac:(apply Rabs_le; lra) ltac:(apply Rabs_le; lra) ltac:(lra)). un. unfold La. lra.
Qed.
Lemma Lb_slope t u : Rabs t <= 81 -> Rabs u <= 81 -> t <= u -> 590.138 * (u - t) <= Lb u - Lb t <= 666.5251 * (u - t).
Proof.
  intros Ht Hu L. apply Rabs_le_inv in Ht, Hu. destruct (chk_ok _ _ lib _ _ _ _ _ _ _ b_10) as (_ & S & _).
  specialize (S (t / 10) (u / 10) ltac:(apply Rabs_le; lra) ltac:(apply Rabs_le; lra) ltac:(lra)). un. unfold Lb. lra.
Qed.
Lemma diff_lin t : Rabs t <= 81 -> Rabs (er (t / 10) E_all - er (t / 10) E_lin) <= 0.099896.
Proof.
  intros H. apply Rabs_le_inv in H. destruct (chk_ok _ _ lib _ _ _ _ _ _ _ d_lin) as (V & _ & _).
  specialize (V (t / 10) ltac:(apply Rabs_le; lra)). rewrite ediff_ok in V. un. apply Rabs_le. lra.
Qed.
Lemma diff_lins t : Rabs t <= 21 -> Rabs (er (t / 10) E_all - er (t / 10) E_lin) <= 0.04143.
Proof.
  intros H. apply Rabs_le_inv in H. destruct (chk_ok _ _ lib _ _ _ _ _ _ _ d_lins) as (V & _ & _).
  specialize (V (t / 10) ltac:(apply Rabs_le; lra)). rewrite ediff_ok in V. un. apply Rabs_le. lra.
Qed.
Lemma lin_lin t : Rabs t <= 81 -> Rabs (er (t / 10) E_lin - (1.753470456 + 628.33196674749 * t)) <= 0.0017.
Proof.
  intros H. apply Rabs_le_inv in H. destruct (chk_ok _ _ lib _ _ _ _ _ _ _ b_lin) as (_ & S & _).
  destruct (chk_ok _ _ lib _ _ _ _ _ _ _ b_lin0) as (V & _ & _). specialize (V 0 ltac:(rewrite Rabs_R0; lra)). apply Rabs_le.
  destruct (Rle_lt_dec 0 t).
  - specialize (S 0 (t / 10) ltac:(apply Rabs_le; lra) ltac:(apply Rabs_le; lra) ltac:(lra)). un. lra.
  - specialize (S (t / 10) 0 ltac:(apply Rabs_le; lra) ltac:(apply Rabs_le; lra) ltac:(lra)). un. lra.
Qed.
Lemma lin_lins t : Rabs t <= 21 -> Rabs (er (t / 10) E_lin - (1.753470456 + 628.33196674749 * t)) <= 0.0001.
Proof.
  intros H. apply Rabs_le_inv in H. destruct (chk_ok _ _ lib _ _ _ _ _ _ _ b_lins) as (_ & S & _).
  destruct (chk_ok _ _ lib _ _ _ _ _ _ _ b_lin0) as (V & _ & _). specialize (V 0 ltac:(rewrite Rabs_R0; lra)). apply Rabs_le.
  destruct (Rle_lt_dec 0 t).
  - specialize (S 0 (t / 10) ltac:(apply Rabs_le; lra) ltac:(apply Rabs_le; lra) ltac:(lra)). un. lra.
  - specialize (S (t / 10) 0 ltac:(apply Rabs_le; lra) ltac:(apply Rabs_le; lra) ltac:(lra)). un. lra.
Qed.
Lemma La_slopes t u : Rabs t <= 21 -> Rabs u <= 21 -> t <= u -> 603.332 * (u - t) <= La u - La t <= 653.332 * (u - t).
Proof.
  intros Ht Hu L. apply Rabs_le_inv in Ht, Hu. destruct (chk_ok _ _ lib _ _ _ _ _ _ _ b_lins) as (_ & S & _).
  destruct (chk_ok _ _ lib _ _ _ _ _ _ _ d_lins) as (_ & D & _).
  specialize (S (t / 10) (u / 10) ltac:(apply Rabs_le; lra) ltac:(apply Rabs_le; lra) ltac:(lra)).
  specialize (D (t / 10) (u / 10) ltac:(apply Rabs_le; lra) ltac:(apply Rabs_le; lra) ltac:(lra)). rewrite !ediff_ok in D. un. unfold La. lra.
Qed.
Lemma Lb_slopes t u : Rabs t <= 21 -> Rabs u <= 21 -> t <= u -> 603.332 * (u - t) <= Lb u - Lb t <= 653.332 * (u - t).
Proof.
  intros Ht Hu L. apply Rabs_le_inv in Ht, Hu. destruct (chk_ok _ _ lib _ _ _ _ _ _ _ b_10s) as (_ & S & _).
  specialize (S (t / 10) (u / 10) ltac:(apply Rabs_le; lra) ltac:(apply Rabs_le; lra) ltac:(lra)). un. unfold Lb. lra.
Qed.
Lemma LaLb t : Rabs t <= 81 -> Rabs (La t - Lb t) <= 0.0004578.
Proof.
  intros H. apply Rabs_le_inv in H. destruct (chk_ok _ _ lib _ _ _ _ _ _ _ d_10) as (V & _ & _).
  specialize (V (t / 10) ltac:(apply Rabs_le; lra)). rewrite ediff_ok in V. un. unfold La, Lb. apply Rabs_le. lra.
Qed.
Lemma LaLbs t : Rabs t <= 21 -> Rabs (La t - Lb t) <= 0.0001454.
Proof.
  intros H. apply Rabs_le_inv in H. destruct (chk_ok _ _ lib _ _ _ _ _ _ _ d_10s) as (V & _ & _).
  specialize (V (t / 10) ltac:(apply Rabs_le; lra)). rewrite ediff_ok in V. un. unfold La, Lb. apply Rabs_le. lra.
Qed.
(** the mean longitude *)
Lemma La_mean t : Rabs t <= 81 -> Rabs (La t - (1.753370456 + FR PI + 628.33196674749 * t)) <= 0.101596.
Proof. intros H. pose proof (diff_lin t H) as D. pose proof (lin_lin t H) as E. apply Rabs_le_inv in D, E. unfold La. apply Rabs_le. lra. Qed.
Lemma La_means t : Rabs t <= 21 -> Rabs (La t - (1.753370456 + FR PI + 628.33196674749 * t)) <= 0.04153.
Proof. intros H. pose proof (diff_lins t H) as D. pose proof (lin_lins t H) as E. apply Rabs_le_inv in D, E. unfold La. apply Rabs_le. lra. Qed.

(** ** The longitude in binary64 *)
Lemma tenth t : FIN t -> Rabs (FR t) <= 81 -> FIN (t / 10)%float /\ Rabs (FR (t / 10)%float - FR t / 10) <= / 100000000000000 /\ Rabs (FR (t / 10)%float) <= IZR 65 / 8.
Proof.
  intros F H. apply Rabs_le_inv in H. flit 10%float F10 V10. assert (E10 : FR 10%float = 10) by lra.
  destruct (fdiv_b t 10 9 F ltac:(lra) ltac:(rewrite E10; lra) ltac:(lra)) as (F' & _ & N). rewrite E10 in N. nea.
  split; [exact F'|]. split; apply Rabs_le; lra.
Qed.
Lemma saLon_sum (e t : float) v : FIN t -> Rabs (FR t) <= 81 -> FIN e -> Rabs v <= 51055 -> Rabs (FR e - v) <= 0.00000005 ->
  FIN (e + nutationLon2 A t + gxcSunLon A t + PI)%float /\ Rabs (FR (e + nutationLon2 A t + gxcSunLon A t + PI)%float - (v + FR PI - / 10000)) <= 0.000104.
Proof.
  intros F H Fe Hv He.
  destruct (chk_ok _ _ lib _ _ _ _ _ _ _ b_nut) as (V1 & _ & R1). destruct (chk_ok _ _ lib _ _ _ _ _ _ _ b_gxc) as (V2 & _ & R2).
  assert (H8 : Rabs (FR t) <= 648 / 8) by lra.
  specialize (V1 _ H8). specialize (V2 _ H8). specialize (R1 _ F H8). specialize (R2 _ F H8). destruct R1 as [F1 R1], R2 as [F2 R2].
  change (ef fsin fcos t E_nut) with (nutationLon2 A t) in *. change (ef fsin fcos t E_gxc) with (gxcSunLon A t) in *.
  un. apply Rabs_le_inv in R1, R2, He, Hv. flit PI FP VP.
  destruct (fadd_b e (nutationLon2 A t) 52000 Fe F1 ltac:(lra) ltac:(lra)) as (F3 & _ & N3). nea.
  destruct (fadd_b _ (gxcSunLon A t) 52000 F3 F2 ltac:(lra) ltac:(lra)) as (F4 & _ & N4). nea.
  destruct (fadd_b _ PI 52000 F4 FP ltac:(lra) ltac:(lra)) as (F5 & _ & N5). nea.
  split; [exact F5|]. apply Rabs_le. lra.
Qed.
Lemma saLon_all t : FIN t -> Rabs (FR t) <= 81 -> exists x, saLon A t (-1) = Ok x /\ FIN x /\ Rabs (FR x - La (FR t)) <= 0.000104.
Proof.
  intros F H. unfold saLon. rewrite eLon_all. cbn [bind]. eexists. split; [reflexivity|].
  destruct (tenth t F H) as (F10 & N10 & B10). destruct (chk_ok _ _ lib _ _ _ _ _ _ _ b_all) as (V & S & R).
  destruct (R _ F10 B10) as [Fe He]. apply saLon_sum; try assumption.
  - specialize (V (FR t / 10) ltac:(apply Rabs_le_inv in H; apply Rabs_le; lra)). un. apply Rabs_le. lra.
  - assert (B : Rabs (FR t / 10) <= IZR 65 / 8) by (apply Rabs_le_inv in H; apply Rabs_le; lra). un. apply Rabs_le_inv in He, N10. apply Rabs_le.
    destruct (Rle_lt_dec (FR t / 10) (FR (t / 10)%float)) as [C|C].
    + specialize (S _ _ B B10 C). lra.
    + apply Rlt_le in C. specialize (S _ _ B10 B C). lra.
Qed.
Lemma saLon_10 t : FIN t -> Rabs (FR t) <= 81 -> exists x, saLon A t 10 = Ok x /\ FIN x /\ Rabs (FR x - Lb (FR t)) <= 0.000104.
Proof.
  intros F H. unfold saLon. rewrite eLon_10. cbn [bind]. eexists. split; [reflexivity|].
  destruct (tenth t F H) as (F10 & N10 & B10). destruct (chk_ok _ _ lib _ _ _ _ _ _ _ b_10) as (V & S & R).
  destruct (R _ F10 B10) as [Fe He]. apply saLon_sum; try assumption.
  - specialize (V (FR t / 10) ltac:(apply Rabs_le_inv in H; apply Rabs_le; lra)). un. apply Rabs_le. lra.
  - assert (B : Rabs (FR t / 10) <= IZR 65 / 8) by (apply Rabs_le_inv in H; apply Rabs_le; lra). un. apply Rabs_le_inv in He, N10. apply Rabs_le.
    destruct (Rle_lt_dec (FR t / 10) (FR (t / 10)%float)) as [C|C].
    + specialize (S _ _ B B10 C). lra.
    + apply Rlt_le in C. specialize (S _ _ B10 B C). lra.
Qed.
Lemma ev_b t : FIN t -> Rabs (FR t) <= 81 -> FIN (ev A t) /\ 592.833 <= FR (ev A t) <= 663.831.
Proof.
  intros F H. destruct (chk_ok _ _ lib _ _ _ _ _ _ _ b_ev) as (V & _ & R).
  assert (H8 : Rabs (FR t) <= 648 / 8) by lra. specialize (V _ H8). destruct (R _ F H8) as [F' R'].
  change (ef fsin fcos t E_ev) with (ev A t) in *. un. apply Rabs_le_inv in R'. split; [exact F'|lra].
Qed.
Lemma ev_bs t : FIN t -> Rabs (FR t) <= 21 -> FIN (ev A t) /\ 603.939 <= FR (ev A t) <= 652.725.
Proof.
  intros F H. destruct (chk_ok _ _ lib _ _ _ _ _ _ _ b_evs) as (V & _ & R).
  assert (H8 : Rabs (FR t) <= 168 / 8) by lra. specialize (V _ H8). destruct (R _ F H8) as [F' R'].
  change (ef fsin fcos t E_ev) with (ev A t) in *. un. apply Rabs_le_inv in R'. split; [exact F'|lra].
Qed.

(** ** A step of Newton's method *)
Lemma newton_u (L : R -> R) (T s1 s2 v1 v2 k : R) (t u v : float) W eta d : FIN t -> FIN u -> FIN v ->
  (forall a b, Rabs a <= T -> Rabs b <= T -> a <= b -> s1 * (b - a) <= L b - L a <= s2 * (b - a)) ->
  T <= 81 -> Rabs (FR t) <= T - / 100 -> v1 <= FR v <= v2 -> 590 <= v1 -> v2 <= 670 -> 590 <= s1 <= s2 -> s2 <= 670 ->
  (1 - k) * v2 <= s1 -> s2 <= (1 + k) * v1 -> 0 <= k <= 1 ->
  Rabs (FR u - (W - L (FR t))) <= eta -> Rabs (L (FR t) - W) <= d -> eta <= / 1000 -> d <= 1 ->
  let t' := (t + u / v)%float in
  FIN t' /\ Rabs (FR t' - FR t) <= / 100 /\ Rabs (L (FR t') - W) <= k * d + 1.15 * eta + / 10000000.
Proof.
  intros Ft Fu Fv S T0 Ht Hv V1 V2 S1 S2 K1 K2 K0 Hx Hd E0 D0 t'.
  apply Rabs_le_inv in Ht, Hx, Hd. set (l := L (FR t)) in *.
  assert (Q : - (1 / 500) <= FR u / FR v <= 1 / 500).
  { assert (- (1.0015) <= FR u <= 1.0015) by lra. split; apply Rmult_le_reg_r with (FR v); try lra; unfold Rdiv; rewrite (Rmult_assoc _ (/ FR v)), Rinv_l by lra; lra. }
  destruct (fdiv_b u v 1 Fu ltac:(lra) ltac:(lra) ltac:(lra)) as (F2 & _ & N2). nea.
  destruct (fadd_b t (u / v) 100 Ft F2 ltac:(lra) ltac:(lra)) as (F3 & _ & N3). nea. fold t' in F3, N3.
  assert (B : - / 100 <= FR t' - FR t <= / 100) by lra.
  split; [exact F3|]. split; [apply Rabs_le; exact B|].
  assert (HA : Rabs (FR t) <= T) by (apply Rabs_le; lra). assert (HB : Rabs (FR t') <= T) by (apply Rabs_le; lra).
  (* slope between the two *)
  assert (SG : exists g, s1 <= g <= s2 /\ L (FR t') - l = g * (FR t' - FR t)).
  { destruct (Rtotal_order (FR t) (FR t')) as [C|[C|C]].
    - exists ((L (FR t') - l) / (FR t' - FR t)). pose proof (S _ _ HA HB ltac:(lra)) as P. fold l in P. split; [|field; lra].
      split; apply Rmult_le_reg_r with (FR t' - FR t); try lra; unfold Rdiv; rewrite Rmult_assoc, Rinv_l by lra; lra.
    - exists s1. split; [lra|]. unfold l. rewrite C. ring.
    - exists ((L (FR t') - l) / (FR t' - FR t)). pose proof (S _ _ HB HA ltac:(lra)) as P. fold l in P. split; [|field; lra].
      assert (G : (L (FR t') - l) / (FR t' - FR t) = (l - L (FR t')) / (FR t - FR t')) by (field; lra). rewrite G.
      split; apply Rmult_le_reg_r with (FR t - FR t'); try lra; unfold Rdiv; rewrite Rmult_assoc, Rinv_l by lra; lra. }
  destruct SG as (g & Hg & G).
  set (r := FR t' - FR t - FR u / FR v).
  assert (Hr : - / 10000000000 <= r <= / 10000000000) by (unfold r; lra).
  assert (Q2 : 1 - k <= g / FR v <= 1 + k).
  { assert (P1 : (1 - k) * FR v <= (1 - k) * v2) by (apply Rmult_le_compat_l; lra). assert (P2 : (1 + k) * v1 <= (1 + k) * FR v) by (apply Rmult_le_compat_l; lra).
    split; apply Rmult_le_reg_r with (FR v); try lra; unfold Rdiv; rewrite Rmult_assoc, Rinv_l by lra; rewrite Rmult_1_r; lra. }
  assert (Q3 : 0 <= g / FR v <= 1.15).
  { split; apply Rmult_le_reg_r with (FR v); try lra; unfold Rdiv; rewrite ?(Rmult_assoc g), Rinv_l by lra; lra. }
  set (h := FR u - (W - l)) in *.
  replace (L (FR t') - W) with ((l - W) * (1 - g / FR v) + h * (g / FR v) + g * r)
    by (replace (L (FR t')) with (l + g * (FR t' - FR t)) by lra; unfold r, h; field; lra).
  assert (A1 : Rabs ((l - W) * (1 - g / FR v)) <= k * d).
  { rewrite Rabs_mult, Rmult_comm. apply Rmult_le_compat; try apply Rabs_pos; apply Rabs_le; lra. }
  assert (A2 : Rabs (h * (g / FR v)) <= 1.15 * eta).
  { rewrite Rabs_mult, Rmult_comm. apply Rmult_le_compat; try apply Rabs_pos; apply Rabs_le; lra. }
  assert (A3 : Rabs (g * r) <= / 10000000).
  { rewrite Rabs_mult. replace (/ 10000000) with (1000 * / 10000000000) by lra. apply Rmult_le_compat; try apply Rabs_pos; apply Rabs_le; lra. }
  apply Rabs_le_inv in A1, A2, A3. apply Rabs_le. lra.
Qed.
Lemma newton (L : R -> R) (T s1 s2 v1 v2 k : R) (t x v w : float) eta d : FIN t -> FIN x -> FIN v -> FIN w ->
  (forall a b, Rabs a <= T -> Rabs b <= T -> a <= b -> s1 * (b - a) <= L b - L a <= s2 * (b - a)) ->
  T <= 81 -> Rabs (FR t) <= T - / 100 -> Rabs (FR w) <= 60000 -> v1 <= FR v <= v2 -> 590 <= v1 -> v2 <= 670 -> 590 <= s1 <= s2 -> s2 <= 670 ->
  (1 - k) * v2 <= s1 -> s2 <= (1 + k) * v1 -> 0 <= k <= 1 ->
  Rabs (FR x - L (FR t)) <= eta -> Rabs (L (FR t) - FR w) <= d -> eta + / 10000000000 <= / 1000 -> d <= 1 ->
  let t' := (t + (w - x) / v)%float in
  FIN t' /\ Rabs (FR t' - FR t) <= / 100 /\ Rabs (L (FR t') - FR w) <= k * d + 1.15 * eta + / 5000000.
Proof.
  intros Ft Fx Fv Fw S T0 Ht Hw Hv V1 V2 S1 S2 K1 K2 K0 Hx Hd E0 D0 t'.
  pose proof Hw as Hw'. pose proof Hx as Hx'. pose proof Hd as Hd'. apply Rabs_le_inv in Hw', Hx', Hd'.
  destruct (fsub_b w x 60002 Fw Fx ltac:(lra) ltac:(lra)) as (F1 & _ & N1). nea.
  destruct (newton_u L T s1 s2 v1 v2 k t (w - x)%float v (FR w) (eta + / 10000000000) d) as (F2 & B2 & D2); try assumption; try lra; [apply Rabs_le; lra|].
  fold t' in F2, B2, D2. split; [exact F2|]. split; [exact B2|lra].
Qed.

(** ** The time at which the longitude is [w] *)
Lemma saLonT_start w : FIN w -> Rabs (FR w) <= 50500 ->
  let t := ((w - 1.75347 - PI) / 628.3319653318)%float in
  FIN t /\ Rabs (FR t - (FR w - 1.75347 - FR PI) / 628.3319653318) <= / 10000000000 /\ Rabs (FR t) <= 80.4.
Proof.
  intros F H. cbv zeta. apply Rabs_le_inv in H. flit 1.75347%float F1 V1. flit PI FP VP. flit 628.3319653318%float F2 V2.
  destruct (fsub_b w 1.75347 60000 F F1 ltac:(lra) ltac:(lra)) as (F3 & _ & N3). nea.
  destruct (fsub_b _ PI 60000 F3 FP ltac:(lra) ltac:(lra)) as (F4 & _ & N4). nea.
  set (a := (w - 1.75347 - PI)%float) in *. set (v := FR 628.3319653318%float) in *. set (u := FR a) in *. set (u' := FR w - 1.75347 - FR PI) in *.
  assert (Hu : - / 10000000000 <= u - u' <= / 10000000000) by (unfold u'; lra). assert (Bu : -50505 <= u <= 50505) by lra. clear N3 N4.
  assert (Vq : - / 1000000000000 <= v - 628.3319653318 <= / 1000000000000) by lra.
  assert (Q : - 80.39 <= u / v <= 80.39) by (split; apply Rmult_le_reg_r with v; try lra; unfold Rdiv; rewrite Rmult_assoc, Rinv_l by lra; lra).
  destruct (fdiv_b a 628.3319653318%float 81 F4 ltac:(fold v; lra) ltac:(fold v u; lra) ltac:(lra)) as (F5 & _ & N5). fold v u in N5. nea.
  assert (D : - / 50000000000 <= u / v - u' / 628.3319653318 <= / 50000000000).
  { replace (u / v - u' / 628.3319653318) with (((u - u') - (u / v) * (v - 628.3319653318)) / 628.3319653318) by (field; lra).
    assert (- / 10000000000 <= u / v * (v - 628.3319653318) <= / 10000000000).
    { apply Rabs_le_inv. rewrite Rabs_mult. replace (/ 10000000000) with (100 * / 1000000000000) by lra. apply Rmult_le_compat; try apply Rabs_pos; apply Rabs_le; lra. }
    lra. }
  split; [exact F5|]. split; apply Rabs_le; lra.
Qed.
Theorem saLonT_ok w : FIN w -> Rabs (FR w) <= 50500 ->
  exists t, saLonT A w = Ok t /\ FIN t /\ Rabs (FR t) <= 80.6 /\ Rabs (La (FR t) - FR w) <= 0.00182.
Proof.
  intros F H. unfold saLonT. cbv zeta. destruct (saLonT_start w F H) as (F0 & N0 & B0). cbn [n_sub n_div n_lit n_add n_mul float_arith] in *.
  set (t := ((w - 1.75347 - PI) / 628.3319653318)%float) in *.
  assert (H81 : Rabs (FR t) <= 81) by lra.
  destruct (ev_b t F0 H81) as [Fv Vv]. destruct (saLon_10 t F0 H81) as (x & -> & Fx & Vx). cbn [bind].
  pose proof (La_mean _ H81) as M. pose proof (LaLb _ H81) as Mb.
  assert (D0 : Rabs (Lb (FR t) - FR w) <= 0.1025).
  { flit PI FP VP. apply Rabs_le_inv in N0, M, Mb, B0, H. apply Rabs_le. lra. }
  destruct (newton Lb 81 590.138 666.5251 592.833 663.831 0.1244 t x (ev A t) w 0.000104 0.1025) as (F1 & B1 & D1); try assumption; try lra; [exact Lb_slope|].
  cbv zeta in F1, B1, D1. set (t1 := (t + (w - x) / ev A t)%float) in *.
  assert (B1' : Rabs (FR t1) <= 80.45) by (apply Rabs_le_inv in B0, B1; apply Rabs_le; lra).
  assert (H81' : Rabs (FR t1) <= 81) by lra.
  destruct (ev_b t1 F1 H81') as [Fv1 Vv1]. destruct (saLon_all t1 F1 H81') as (x1 & -> & Fx1 & Vx1). cbn [bind].
  pose proof (LaLb _ H81') as Mb1.
  assert (D1' : Rabs (La (FR t1) - FR w) <= 0.0134) by (apply Rabs_le_inv in D1, Mb1; apply Rabs_le; lra).
  destruct (newton La 81 590.138 666.5251 592.833 663.831 0.1244 t1 x1 (ev A t1) w 0.000104 0.0134) as (F2 & B2 & D2); try assumption; try lra; [exact La_slope|].
  cbv zeta in F2, B2, D2. eexists. split; [reflexivity|]. split; [exact F2|]. split; [|lra].
  apply Rabs_le_inv in B1', B2. apply Rabs_le. lra.
Qed.
(** ... and more sharply within 21 centuries *)
Theorem saLonT_oks w : FIN w -> Rabs (FR w) <= 13000 ->
  exists t, saLonT A w = Ok t /\ FIN t /\ Rabs (FR t) <= 20.9 /\ Rabs (La (FR t) - FR w) <= 0.00043.
Proof.
  intros F H. unfold saLonT. cbv zeta. destruct (saLonT_start w F ltac:(lra)) as (F0 & N0 & _). cbn [n_sub n_div n_lit n_add n_mul float_arith] in *.
  set (t := ((w - 1.75347 - PI) / 628.3319653318)%float) in *.
  assert (B0 : Rabs (FR t) <= 20.7) by (flit PI FP VP; apply Rabs_le_inv in H, N0; apply Rabs_le; lra).
  assert (H21 : Rabs (FR t) <= 21) by lra. assert (H81 : Rabs (FR t) <= 81) by lra.
  destruct (ev_bs t F0 H21) as [Fv Vv]. destruct (saLon_10 t F0 H81) as (x & -> & Fx & Vx). cbn [bind].
  pose proof (La_means _ H21) as M. pose proof (LaLbs _ H21) as Mb.
  assert (D0 : Rabs (Lb (FR t) - FR w) <= 0.0419).
  { flit PI FP VP. apply Rabs_le_inv in N0, M, Mb, B0, H. apply Rabs_le. lra. }
  destruct (newton Lb 21 603.332 653.332 603.939 652.725 0.082 t x (ev A t) w 0.000104 0.0419) as (F1 & B1 & D1); try assumption; try lra; [exact Lb_slopes|].
  cbv zeta in F1, B1, D1. set (t1 := (t + (w - x) / ev A t)%float) in *.
  assert (B1' : Rabs (FR t1) <= 20.75) by (apply Rabs_le_inv in B0, B1; apply Rabs_le; lra).
  assert (H21' : Rabs (FR t1) <= 21) by lra. assert (H81' : Rabs (FR t1) <= 81) by lra.
  destruct (ev_bs t1 F1 H21') as [Fv1 Vv1]. destruct (saLon_all t1 F1 H81') as (x1 & -> & Fx1 & Vx1). cbn [bind].
  pose proof (LaLbs _ H21') as Mb1.
  assert (D1' : Rabs (La (FR t1) - FR w) <= 0.00372) by (apply Rabs_le_inv in D1, Mb1; apply Rabs_le; lra).
  destruct (newton La 21 603.332 653.332 603.939 652.725 0.082 t1 x1 (ev A t1) w 0.000104 0.00372) as (F2 & B2 & D2); try assumption; try lra; [exact La_slopes|].
  cbv zeta in F2, B2, D2. eexists. split; [reflexivity|]. split; [exact F2|]. split; [|lra].
  apply Rabs_le_inv in B1', B2. apply Rabs_le. lra.
Qed.
End LIB.
