(** The solar terms of the years 524 to 1582, when the months of the Julian calendar drift against them, and of 4040 to 9998,
    when ΔT and the terms of the series in powers of time have grown: none falls on the midnight between two months, so all have
    existing dates. Most are told by their mean position or by the estimates of [TermEst]; the instants near such a midnight are
    computed in [cert_arith]. *)
From Coq Require Import ZArith Lia ZifyBool Reals Lra Psatz.
From Flocq Require Import Core BinarySingleNaN PrimFloat.
From Coq Require Import Bool List Floats.
From Verif Require Import Py PyFloat PyStr FloatFacts FloatTac CalSpec DayNo Solar SolarProofs JulianDay FromJulianDay CalProofs TermProofs T_ShouXing ShouXing FloatExpr Trig
  SunLon SunDt SunTerm SunQi SunKb SunYear SunDate LunarYear Lunar T_LunarUtil T_Misc Cert CertSky SunLate TermEst.
Import ListNotations.
Open Scope Z_scope.
Local Set Warnings "-inexact-float".

(** ** The instant of term [k] *)
Definition qiF (w : cert) : res cert :=
  let x := saTF cert_arith cert_tabs w in
  let t := cc_mul x (cc_lit 36525) in
  let! d := dtT cert_arith t in
  Ok (cc_add (cc_sub t d) (cc_lit ONE_THIRD)).
Definition cT (k : Z) : res cert := qiF (C (float_of_Z k * (PI / 12)) 3e-9).

(** ** The months it may fall in, counted from January of the year [y] *)
Definition month_of (y i : Z) : Z * Z := if i <? 1 then (y - 1, 12 + i) else (y, i).
(** the days of a month; of October 1582 those after the gap *)
Definition month_lo (a b : Z) : Z := if (a =? 1582) && (b =? 10) then 2299161 else dayno (a, b, 1).
Definition month_hi (a b : Z) : Z := dayno (a, b, 1) + mlen a b.
(** by its mean position, or by its instant *)
Definition inside (m lo hi : Z) : bool := (10000000000 * lo + 23200000000 <=? m) && (m + 28000000000 <=? 10000000000 * hi).
Definition insideF (v : float) (lo hi : Z) : bool :=
  (PrimFloat.ltb (float_of_Z lo - 2451545.5 + 0.00004) v && PrimFloat.ltb v (float_of_Z hi - 2451545.5 - 0.00004))%float.
Definition month_ok (f : Z -> Z -> bool) (y i : Z) : bool := let '(a, b) := month_of y i in f (month_lo a b) (month_hi a b).
Definition k_month (k : Z) : bool :=
  let y := 2000 + (k - 17) / 24 in let i := (k - 17) mod 24 / 2 in let m := mean_day k in
  if month_ok (inside m) y i then true else if month_ok (inside m) y (i - 1) then true else
  match cT k with
  | Ok (C v e) => if PrimFloat.ltb e 0.00001 then if month_ok (insideF v) y i then true else month_ok (insideF v) y (i - 1) else false
  | _ => false
  end.
Lemma k_month_1582 : forallb k_month (zrange (24 * (1582 - 2000) + 17) (24 * (1582 - 2000) + 17 + 24)) = true.
Proof. vm_cast_no_check (eq_refl true). Qed.

(** ** The other years, month by month: [a], [b] and [c] are the first midnights of three months, [v] an estimate with errors
    [- p] and [q] *)
Definition away (p q v a b c : float) : bool :=
  (if PrimFloat.ltb v (b - q) then PrimFloat.ltb (a + p) v else PrimFloat.ltb (b + p) v && PrimFloat.ltb v (c - q))%float.
Definition meanF (k : Z) : float := (float_of_Z k * 15.2184245676 - 284.5447)%float.
Definition certT (k : Z) (a b c : float) : bool :=
  match cT k with Ok (C v e) => if PrimFloat.ltb e 0.001 then let r := (e + 0.0000131)%float in away r r v a b c else false | _ => false end.
Definition k_term (k : Z) (a b c : float) : bool := let e := early k in
  if away (if e then 2.33 else 7.44) (if e then 2.8 else 3.97) (meanF k) a b c then true else
  match est_a k (start k) with
  | Some u => if (let r := if e then 0.206 else 0.322 in away r r (day k u) a b c)%float then true else
    match est_b k u with
    | Some u' => if (let r := if e then 0.14 else 0.164 in away r r (day k u') a b c)%float then true else certT k a b c
    | None => certT k a b c
    end
  | None => certT k a b c
  end.
(** the two terms of each of twelve months *)
Fixpoint terms_ok (k : Z) (es : list float) : bool :=
  match es with
  | a :: (b :: c :: _) as t => if k_term k a b c then if k_term (k + 1) a b c then terms_ok (k + 2) t else false else false
  | _ => true
  end.
(** the first days of the months from November of the year before to December *)
Definition starts (y : Z) : list Z := let j := jan1 y in let l := if leap y then 1 else 0 in
  [j - 61; j - 31; j; j + 31; j + 59 + l; j + 90 + l; j + 120 + l; j + 151 + l; j + 181 + l; j + 212 + l; j + 243 + l; j + 273 + l; j + 304 + l; j + 334 + l].
Definition edgeF (n : Z) : float := (float_of_Z n - 2451545.5)%float.
Definition year_ok (y : Z) : bool := terms_ok (24 * (y - 2000) + 17) (map edgeF (starts y)).
Lemma years_524 : forallb year_ok (zrange 524 1582) = true.
Proof. vm_cast_no_check (eq_refl true). Qed.
Lemma years_1583 : year_ok 1583 = true.
Proof. vm_cast_no_check (eq_refl true). Qed.
Lemma years_4040 : forallb year_ok (zrange 4040 10000) = true.
Proof. vm_cast_no_check (eq_refl true). Qed.
Definition mid (y : Z) : Prop := 524 <= y <= 1582 \/ 4040 <= y <= 9998.
Definition k_mid (k : Z) : Prop := 24 * (524 - 2000) + 17 <= k < 24 * (1582 - 2000) + 17 + 31 \/ 24 * (4040 - 2000) + 17 <= k < 24 * (9998 - 2000) + 17 + 31.

Section LIB.
Context {fsin fcos : float -> float} (lib : libm fsin fcos).
Notation A := (float_arith fsin fcos).
Notation is_term := (@SunTerm.is_term fsin fcos).
Open Scope R_scope.

Lemma l_qiF w x : rel w x -> rr rel (qiF w) (qiAccurate A x).
Proof.
  intros Q0. unfold qiF, qiAccurate. destruct (l_saTF _ _ _ (cert_rel _ _ lib) _ (cert_tabs_ok _ _ lib) _ _ Q0) as (r & -> & Qr). cbn [bind]. cbv zeta.
  pose proof (cc_mul_ok _ _ _ _ Qr (lit_ok 36525)) as Qt. apply (rr_bind rel); [exact (l_dtT _ _ _ (cert_rel _ _ lib) _ _ Qt)|]. intros d d' Qd. apply rr_ok.
  exact (cc_add_ok _ _ _ _ (cc_sub_ok _ _ _ _ Qt Qd) (lit_ok _)).
Qed.
Lemma cT_ok k T v e : is_term k T -> k_ok k -> cT k = Ok (C v e) -> FIN v /\ FIN e /\ FIN T /\ Rabs (FR T - FR v) <= FR e.
Proof.
  intros (w & (Fw & Bw) & ET) K E. destruct (w_of_k k K) as [Fk Bk].
  assert (Q : rel (C (float_of_Z k * (PI / 12)) 3e-9) w).
  { assert (F9 : FIN 3e-9%float /\ 25 / 10000000000 <= FR 3e-9%float <= 35 / 10000000000) by (flit 3e-9%float F1 V1; split; [exact F1|lra]).
    destruct F9 as [F9 V9]. pose proof (theta_bnd k K) as TB. apply Rabs_le_inv in Bw, Bk. constructor; try assumption; try lra.
    - unfold Rabs. destruct (Rcase_abs _); lra.
    - apply Rabs_le. lra. }
  destruct (l_qiF _ _ Q _ E) as (T' & ET' & QT). rewrite ET in ET'. apply Ok_inj in ET'. subst T'. apply rel_inv in QT. tauto.
Qed.
Lemma edge n : (0 <= n <= 6000000)%Z -> FIN (float_of_Z n - 2451545.5)%float /\ Rabs (FR (float_of_Z n - 2451545.5)%float - (IZR n - 2451545.5)) <= / 100000000.
Proof.
  intros H. destruct (float_of_Z_spec n ltac:(lia)) as [F V]. fval 2451545.5%float 2451545.5 e1. flit 2451545.5%float F1 V1. assert (Hn : 0 <= IZR n <= 6000000) by (split; apply IZR_le; lia).
  destruct (fsub_b (float_of_Z n) 2451545.5%float 6000000 F F1 ltac:(lra) ltac:(lra)) as (F2 & _ & N). rewrite e1, V in N. nea. split; [exact F2|]. apply Rabs_le. lra.
Qed.
Lemma insideF_ok v lo hi : FIN v -> (0 <= lo <= 6000000)%Z -> (0 <= hi <= 6000000)%Z -> insideF v lo hi = true ->
  IZR lo + 0.000039 <= FR v + 2451545.5 <= IZR hi - 0.000039.
Proof.
  intros Fv Hl Hh E. unfold insideF in E. apply andb_true_iff in E. destruct E as [E1 E2]. destruct (edge lo Hl) as [F1 B1], (edge hi Hh) as [F2 B2].
  assert (F4 : FIN 0.00004%float /\ 0.0000399999 <= FR 0.00004%float <= 0.0000400001) by (flit 0.00004%float F1' V1; split; [exact F1'|lra]). destruct F4 as [F4 V4].
  assert (Nl : 0 <= IZR lo <= 6000000) by (split; apply IZR_le; lia). assert (Nh : 0 <= IZR hi <= 6000000) by (split; apply IZR_le; lia). apply Rabs_le_inv in B1, B2.
  destruct (fadd_b _ _ 6000000 F1 F4 ltac:(lra) ltac:(lra)) as (F5 & _ & N5). destruct (fsub_b _ _ 6000000 F2 F4 ltac:(lra) ltac:(lra)) as (F6 & _ & N6). nea.
  apply fltb_spec in E1; [|assumption..]. apply fltb_spec in E2; [|assumption..]. lra.
Qed.

(** every term falls within a month, away from its first and last midnight *)
Definition falls (k i : Z) (T : float) : Prop := let '(a, b) := month_of (2000 + (k - 17) / 24) i in
  IZR (month_lo a b) + 0.000012 <= FR T + 2451545.5 <= IZR (month_hi a b) - 0.000012.
Lemma month_bounds a b : (400 <= a <= 9999)%Z -> (1 <= b <= 12)%Z -> (0 <= month_lo a b <= 6000000)%Z /\ (0 <= month_hi a b <= 6000000)%Z.
Proof.
  intros Ha Hb. pose proof (mlen_bounds a b) as M. assert (V : valid_date (a, b, 1%Z)) by (unfold valid_date; pose proof (last_day_bounds a b); lia).
  assert (B : (1800000 <= dayno (a, b, 1) <= 5400000)%Z).
  { assert (E1 : (1800000 <= dayno (400, 1, 1))%Z) by (vm_compute; discriminate). assert (E2 : (dayno (9999, 12, 31) <= 5400000)%Z) by (vm_compute; discriminate). split.
    - destruct (lex_total (400, 1, 1)%Z (a, b, 1%Z)) as [E|[L|L]]; [rewrite <- E; lia|apply lex_lt_dayno in L; [lia|unfold valid_date; cbn; lia|exact V]|unfold lex_lt in L; lia].
    - destruct (lex_total (a, b, 1%Z) (9999, 12, 31)%Z) as [E|[L|L]]; [rewrite E; lia|apply lex_lt_dayno in L; [lia|exact V|unfold valid_date; cbn; lia]|unfold lex_lt in L; lia]. }
  unfold month_lo, month_hi. destruct ((a =? 1582)%Z && (b =? 10)%Z); lia.
Qed.

(** in 1582 *)
Lemma falls_1582 k T : (24 * (1582 - 2000) + 17 <= k < 24 * (1582 - 2000) + 17 + 24)%Z -> is_term k T -> falls k ((k - 17) mod 24 / 2) T \/ falls k ((k - 17) mod 24 / 2 - 1) T.
Proof.
  intros H I. assert (K : k_ok k) by (unfold k_ok; lia). assert (O : k_old k) by (unfold k_old; lia).
  pose proof (forallb_zrange _ _ _ k_month_1582 k H) as E. unfold k_month in E. cbv zeta in E.
  assert (Y : (523 <= 2000 + (k - 17) / 24 <= 1584)%Z) by (pose proof (Z.div_mod (k - 17) 24 ltac:(lia)); pose proof (Z.mod_pos_bound (k - 17) 24 ltac:(lia)); lia).
  assert (J : (0 <= (k - 17) mod 24 / 2 <= 11)%Z) by (pose proof (Z.mod_pos_bound (k - 17) 24 ltac:(lia)); split; [apply Z.div_pos; lia|apply Z.lt_succ_r, Z.div_lt_upper_bound; lia]).
  unfold falls. set (y := (2000 + (k - 17) / 24)%Z) in *. set (i := ((k - 17) mod 24 / 2)%Z) in *. clearbody y i.
  assert (MB : forall n, (-1 <= n <= 11)%Z -> let '(a, b) := month_of y n in (0 <= month_lo a b <= 6000000)%Z /\ (0 <= month_hi a b <= 6000000)%Z).
  { intros n Hn. unfold month_of. destruct (n <? 1)%Z eqn:En; apply month_bounds; lia. }
  assert (G1 : forall n, month_ok (inside (mean_day k)) y n = true -> let '(a, b) := month_of y n in IZR (month_lo a b) + 0.000012 <= FR T + 2451545.5 <= IZR (month_hi a b) - 0.000012).
  { intros n En. unfold month_ok in En. destruct (month_of y n) as [a b]. unfold inside, mean_day in En. apply andb_true_iff in En. destruct En as [E1 E2]. apply Z.leb_le, IZR_le in E1, E2.
    rewrite ?plus_IZR, ?mult_IZR in E1, E2. pose proof (term_old lib k T I O) as B. pose proof (mean_lin k K) as ML. lra. }
  destruct (month_ok (inside (mean_day k)) y i) eqn:E1; [left; exact (G1 _ E1)|]. destruct (month_ok (inside (mean_day k)) y (i - 1)) eqn:E2; [right; exact (G1 _ E2)|].
  destruct (cT k) as [[|v e]|] eqn:EC; try discriminate. destruct (cT_ok k T v e I K EC) as (Fv & Fe & _ & B). destruct (PrimFloat.ltb e 0.00001%float) eqn:Ee; [|discriminate].
  assert (F5 : FIN 0.00001%float /\ FR 0.00001%float <= 0.0000100001) by (flit 0.00001%float F1' V1; split; [exact F1'|lra]). apply fltb_spec in Ee; [|tauto..]. apply Rabs_le_inv in B.
  assert (G2 : forall n, (-1 <= n <= 11)%Z -> month_ok (insideF v) y n = true -> let '(a, b) := month_of y n in IZR (month_lo a b) + 0.000012 <= FR T + 2451545.5 <= IZR (month_hi a b) - 0.000012).
  { intros n Hn En. specialize (MB n Hn). unfold month_ok in En. destruct (month_of y n) as [a b]. destruct MB as [M1 M2]. pose proof (insideF_ok v _ _ Fv M1 M2 En). lra. }
  destruct (month_ok (insideF v) y i) eqn:E3; [left; exact (G2 i ltac:(lia) E3)|]. right. exact (G2 (i - 1)%Z ltac:(lia) E).
Qed.

(** in the other years *)
Lemma away_ok p q v a b c : FIN p -> FIN q -> FIN v -> FIN a -> FIN b -> FIN c -> 0 <= FR p <= 10 -> 0 <= FR q <= 10 -> Rabs (FR a) <= 6000000 -> Rabs (FR b) <= 6000000 -> Rabs (FR c) <= 6000000 -> away p q v a b c = true ->
  FR a + FR p - / 100000000 <= FR v <= FR b - FR q + / 100000000 \/ FR b + FR p - / 100000000 <= FR v <= FR c - FR q + / 100000000.
Proof.
  intros Fp Fq Fv Fa Fb Fc Bp Bq Ba Bb Bc E. apply Rabs_le_inv in Ba, Bb, Bc. unfold away in E.
  destruct (fadd_b a p 6000010 Fa Fp ltac:(lra) ltac:(lra)) as (F1 & _ & N1). destruct (fadd_b b p 6000010 Fb Fp ltac:(lra) ltac:(lra)) as (F2 & _ & N2).
  destruct (fsub_b b q 6000010 Fb Fq ltac:(lra) ltac:(lra)) as (F3 & _ & N3). destruct (fsub_b c q 6000010 Fc Fq ltac:(lra) ltac:(lra)) as (F4 & _ & N4). nea.
  destruct (PrimFloat.ltb v (b - q)) eqn:E1.
  - apply fltb_spec in E1; [|assumption..]. apply fltb_spec in E; [|assumption..]. left. lra.
  - apply andb_true_iff in E. destruct E as [E2 E3]. apply fltb_spec in E2; [|assumption..]. apply fltb_spec in E3; [|assumption..]. right. lra.
Qed.
Lemma meanF_ok k : k_ok k -> FIN (meanF k) /\ Rabs (FR (meanF k) - mean k) <= 0.0011.
Proof.
  intros K. unfold meanF. pose proof (mean_lin k K) as ML. destruct (float_of_Z_spec k ltac:(unfold k_ok in K; lia)) as [F V0]. assert (HK : -50000 <= IZR k <= 192400) by (split; apply IZR_le; unfold k_ok in K; lia).
  assert (G1 : FIN 15.2184245676%float /\ 15.21842456759 <= FR 15.2184245676%float <= 15.21842456761) by (flit 15.2184245676%float F1 V1; split; [exact F1|lra]). destruct G1 as [F1 V1].
  assert (G2 : FIN 284.5447%float /\ 284.54469 <= FR 284.5447%float <= 284.54471) by (flit 284.5447%float F2 V2; split; [exact F2|lra]). destruct G2 as [F2 V2].
  assert (X : Rabs (FR (float_of_Z k) * FR 15.2184245676%float - 15.2184245676 * IZR k) <= 0.000003) by (rewrite V0; replace (IZR k * FR 15.2184245676%float - 15.2184245676 * IZR k) with (IZR k * (FR 15.2184245676%float - 15.2184245676)) by ring; rewrite Rabs_mult; assert (Rabs (IZR k) <= 192400) by (apply Rabs_le; lra); assert (Rabs (FR 15.2184245676%float - 15.2184245676) <= / 100000000000) by (apply Rabs_le; lra); pose proof (Rabs_pos (IZR k)); pose proof (Rabs_pos (FR 15.2184245676%float - 15.2184245676)); nra).
  apply Rabs_le_inv in X.
  destruct (fmul_b (float_of_Z k) 15.2184245676%float 3000000 F F1 ltac:(lra) ltac:(lra)) as (F3 & _ & N3). nea.
  destruct (fsub_b _ 284.5447%float 3000300 F3 F2 ltac:(lra) ltac:(lra)) as (F4 & _ & N4). nea. split; [exact F4|]. apply Rabs_le. lra.
Qed.
Lemma certT_ok k T a b c : is_term k T -> k_ok k -> FIN a -> FIN b -> FIN c -> Rabs (FR a) <= 6000000 -> Rabs (FR b) <= 6000000 -> Rabs (FR c) <= 6000000 -> certT k a b c = true ->
  FR a + 0.000013 <= FR T <= FR b - 0.000013 \/ FR b + 0.000013 <= FR T <= FR c - 0.000013.
Proof.
  intros I K Fa Fb Fc Ba Bb Bc E. unfold certT in E. destruct (cT k) as [[|v e]|] eqn:EC; try discriminate. destruct (cT_ok k T v e I K EC) as (Fv & Fe & _ & B). destruct (PrimFloat.ltb e 0.001%float) eqn:Ee; [|discriminate]. cbv zeta in E.
  assert (F5 : FIN 0.001%float /\ FR 0.001%float <= 0.0010001) by (flit 0.001%float F1' V1; split; [exact F1'|lra]). apply fltb_spec in Ee; [|tauto..]. pose proof (Rabs_pos (FR T - FR v)) as P. apply Rabs_le_inv in B.
  assert (F6 : FIN 0.0000131%float /\ 0.00001309999 <= FR 0.0000131%float <= 0.00001310001) by (flit 0.0000131%float F1' V1; split; [exact F1'|lra]). destruct F6 as [F6 V6].
  destruct (fadd_b e 0.0000131%float 1 Fe F6 ltac:(lra) ltac:(lra)) as (F7 & _ & N7). nea.
  destruct (away_ok _ _ v a b c F7 F7 Fv Fa Fb Fc ltac:(lra) ltac:(lra) Ba Bb Bc E) as [W|W]; [left|right]; lra.
Qed.
Lemma k_term_ok k T a b c : is_term k T -> k_quick k -> FIN a -> FIN b -> FIN c -> Rabs (FR a) <= 6000000 -> Rabs (FR b) <= 6000000 -> Rabs (FR c) <= 6000000 -> k_term k a b c = true ->
  FR a + 0.000013 <= FR T <= FR b - 0.000013 \/ FR b + 0.000013 <= FR T <= FR c - 0.000013.
Proof.
  intros I Q Fa Fb Fc Ba Bb Bc E. pose proof (proj1 Q) as K. pose proof (fun H => certT_ok k T a b c I K Fa Fb Fc Ba Bb Bc H) as CT. unfold k_term in E. cbv zeta in E.
  destruct (away (if early k then 2.33%float else 7.44%float) _ _ a b c) eqn:E1.
  { clear CT E. destruct (meanF_ok k K) as [Fm Bm]. apply Rabs_le_inv in Bm. destruct Q as [_ Q]. unfold early in E1. destruct (Z.ltb_spec k 0) as [C|C].
    - pose proof (term_old lib k T I ltac:(unfold k_old, k_ok in *; lia)) as B. flit 2.33%float F1 V1. flit 2.8%float F2 V2. destruct (away_ok _ _ _ a b c F1 F2 Fm Fa Fb Fc ltac:(lra) ltac:(lra) Ba Bb Bc E1) as [W|W]; [left|right]; lra.
    - pose proof (term_late lib k T I ltac:(destruct Q; [lia|assumption])) as B. flit 7.44%float F1 V1. flit 3.97%float F2 V2. destruct (away_ok _ _ _ a b c F1 F2 Fm Fa Fb Fc ltac:(lra) ltac:(lra) Ba Bb Bc E1) as [W|W]; [left|right]; lra. }
  destruct (est_a k (start k)) as [u|] eqn:Ea; [|exact (CT E)]. destruct (away (if early k then 0.206%float else 0.322%float) _ _ a b c) eqn:E2.
  { clear CT E. destruct (est_a_ok lib k T _ u Q I Ea) as [Fu B]. destruct (early k).
    - flit 0.206%float F1 V1. apply Rabs_le_inv in B. destruct (away_ok _ _ _ a b c F1 F1 Fu Fa Fb Fc ltac:(lra) ltac:(lra) Ba Bb Bc E2) as [W|W]; [left|right]; lra.
    - flit 0.322%float F1 V1. apply Rabs_le_inv in B. destruct (away_ok _ _ _ a b c F1 F1 Fu Fa Fb Fc ltac:(lra) ltac:(lra) Ba Bb Bc E2) as [W|W]; [left|right]; lra. }
  destruct (est_b k u) as [u'|] eqn:Eb; [|exact (CT E)]. destruct (away (if early k then 0.14%float else 0.164%float) _ _ a b c) eqn:E3; [|exact (CT E)].
  clear CT E. destruct (est_b_ok lib k T _ u' Q I Eb) as [Fu B]. destruct (early k).
  - flit 0.14%float F1 V1. apply Rabs_le_inv in B. destruct (away_ok _ _ _ a b c F1 F1 Fu Fa Fb Fc ltac:(lra) ltac:(lra) Ba Bb Bc E3) as [W|W]; [left|right]; lra.
  - flit 0.164%float F1 V1. apply Rabs_le_inv in B. destruct (away_ok _ _ _ a b c F1 F1 Fu Fa Fb Fc ltac:(lra) ltac:(lra) Ba Bb Bc E3) as [W|W]; [left|right]; lra.
Qed.
Lemma terms_nth es : forall k n j, terms_ok k es = true -> (n + 2 < length es)%nat -> (0 <= j < 2)%Z -> k_term (k + 2 * Z.of_nat n + j) (nth n es 0%float) (nth (n + 1) es 0%float) (nth (n + 2) es 0%float) = true.
Proof.
  induction es as [|a es IH]; intros k n j E Hn Hj; [cbn in Hn; lia|]. destruct es as [|b [|c es]]; [cbn in Hn; lia..|].
  cbn [terms_ok] in E. destruct (k_term k a b c) eqn:E1; [|discriminate]. destruct (k_term (k + 1) a b c) eqn:E2; [|discriminate]. destruct n as [|n].
  - cbn [nth Nat.add]. assert (j = 0 \/ j = 1)%Z as [-> | ->] by lia; [replace (k + 2 * Z.of_nat 0 + 0)%Z with k by lia; exact E1|replace (k + 2 * Z.of_nat 0 + 1)%Z with (k + 1)%Z by lia; exact E2].
  - replace (k + 2 * Z.of_nat (S n) + j)%Z with (k + 2 + 2 * Z.of_nat n + j)%Z by lia. cbn [nth Nat.add]. apply (IH (k + 2)%Z n j E); [cbn [length] in *; lia|exact Hj].
Qed.
Ltac to_nats := repeat match goal with |- context [Pos.to_nat ?p] => let v := eval vm_compute in (Pos.to_nat p) in change (Pos.to_nat p) with v end.
Lemma starts_ok y i : y <> 1582%Z -> (-1 <= i <= 11)%Z -> let '(a, b) := month_of y i in month_lo a b = nth (Z.to_nat (i + 1)) (starts y) 0%Z /\ month_hi a b = nth (Z.to_nat (i + 2)) (starts y) 0%Z.
Proof.
  intros H Hi. assert (i < 1 \/ 1 <= i <= 11)%Z as [C|C] by lia.
  - destruct (Z.eq_dec y 1583) as [-> |N]; [assert (i = -1 \/ i = 0)%Z as [-> | ->] by lia; vm_compute; split; reflexivity|].
    unfold month_of. replace (i <? 1)%Z with true by lia. pose proof (jan1_next (y - 1) ltac:(lia)) as J. replace (y - 1 + 1)%Z with y in J by lia.
    destruct (month_in (y - 1) (12 + i) ltac:(lia) ltac:(intros e; injection e; lia) ltac:(lia)) as [M1 M2]. unfold month_lo, month_hi. replace (y - 1 =? 1582)%Z with false by lia. cbn [andb]. rewrite M2, M1. unfold starts. rewrite J.
    generalize (jan1 (y - 1)), (leap (y - 1)), (leap y). clear - C Hi. intros j l l'. assert (i = -1 \/ i = 0)%Z as [-> | ->] by lia; destruct l; cbn; to_nats; cbn; lia.
  - unfold month_of. replace (i <? 1)%Z with false by lia. destruct (month_in y i ltac:(lia) ltac:(intros e; injection e; lia) H) as [M1 M2]. unfold month_lo, month_hi. replace ((y =? 1582)%Z && (i =? 10)%Z) with false by (destruct (y =? 1582)%Z eqn:E; [lia|reflexivity]).
    rewrite M2, M1. unfold starts. generalize (jan1 y), (leap y). clear - C. intros j l. assert (i = 1 \/ i = 2 \/ i = 3 \/ i = 4 \/ i = 5 \/ i = 6 \/ i = 7 \/ i = 8 \/ i = 9 \/ i = 10 \/ i = 11)%Z as [-> | [-> | [-> | [-> | [-> | [-> | [-> | [-> | [-> | [-> | ->]]]]]]]]]] by lia;
      destruct l; cbn; to_nats; cbn; lia.
Qed.
Lemma mid_quick k : k_mid k -> k_quick k.
Proof. unfold k_mid, k_quick, k_ok, k_late. lia. Qed.
Lemma year_all y : (524 <= y < 1582 \/ y = 1583 \/ 4040 <= y <= 9999)%Z -> year_ok y = true.
Proof.
  intros [H|[-> |H]]; [exact (forallb_zrange _ _ _ years_524 y H)|exact years_1583|exact (forallb_zrange _ _ _ years_4040 y ltac:(lia))].
Qed.
Lemma falls_ok k T : k_mid k -> is_term k T -> falls k ((k - 17) mod 24 / 2) T \/ falls k ((k - 17) mod 24 / 2 - 1) T.
Proof.
  intros H I. pose proof (Z.div_mod (k - 17) 24 ltac:(lia)) as DM. pose proof (Z.mod_pos_bound (k - 17) 24 ltac:(lia)) as MB.
  destruct (Z.eq_dec ((k - 17) / 24) (1582 - 2000)) as [E|NE]; [apply falls_1582; [lia|exact I]|].
  pose proof (mid_quick k H) as Q.
  assert (Y : (524 <= 2000 + (k - 17) / 24 < 1582 \/ 2000 + (k - 17) / 24 = 1583 \/ 4040 <= 2000 + (k - 17) / 24 <= 9999)%Z) by (unfold k_mid in H; lia).
  pose proof (year_all _ Y) as E. unfold year_ok in E. unfold falls. set (y := (2000 + (k - 17) / 24)%Z) in *. set (r := ((k - 17) mod 24)%Z) in *.
  assert (Hk : k = (24 * (y - 2000) + 17 + r)%Z) by (unfold y; lia). assert (Ny : y <> 1582%Z) by (unfold y; lia). clearbody y r. clear DM NE.
  pose proof (Z.div_mod r 2 ltac:(lia)) as D2. pose proof (Z.mod_pos_bound r 2 ltac:(lia)) as M2. set (i := (r / 2)%Z) in *. clearbody i.
  pose proof (terms_nth _ _ (Z.to_nat i) (r mod 2) E ltac:(rewrite map_length; change (length (starts y)) with 14%nat; lia) ltac:(lia)) as W. replace (24 * (y - 2000) + 17 + 2 * Z.of_nat (Z.to_nat i) + r mod 2)%Z with k in W by lia.
  pose proof (starts_ok y i Ny ltac:(lia)) as S1. pose proof (starts_ok y (i - 1) Ny ltac:(lia)) as S2.
  assert (B1 : forall n, (-1 <= n <= 11)%Z -> let '(a, b) := month_of y n in (0 <= month_lo a b <= 6000000)%Z /\ (0 <= month_hi a b <= 6000000)%Z).
  { intros n Hn. unfold month_of. destruct (n <? 1)%Z eqn:En; apply month_bounds; lia. }
  pose proof (B1 i ltac:(lia)) as Bi. pose proof (B1 (i - 1)%Z ltac:(lia)) as Bj. destruct (month_of y i) as [a b], (month_of y (i - 1)) as [a' b']. destruct S1 as [S1 S1'], S2 as [S2 S2']. rewrite S1, S1' in *. rewrite S2, S2' in *.
  replace (i - 1 + 1)%Z with i in * by lia. replace (i - 1 + 2)%Z with (i + 1)%Z in * by lia.
  replace (Z.to_nat (i + 1)) with (Z.to_nat i + 1)%nat in * by lia. replace (Z.to_nat (i + 2)) with (Z.to_nat i + 2)%nat in * by lia. set (n := Z.to_nat i) in *. assert (Hn : (n <= 11)%nat) by (unfold n; lia). clearbody n.
  assert (NE : forall m, (m < 14)%nat -> nth m (map edgeF (starts y)) 0%float = edgeF (nth m (starts y) 0%Z)).
  { intros m Hm. rewrite (nth_indep _ 0%float (edgeF 0%Z)) by (rewrite map_length; exact Hm). apply map_nth. }
  rewrite !NE in W by lia. set (A0 := nth n (starts y) 0%Z) in *. set (A1 := nth (n + 1) (starts y) 0%Z) in *. set (A2 := nth (n + 2) (starts y) 0%Z) in *. clearbody A0 A1 A2.
  destruct Bi as [Bi1 Bi2], Bj as [Bj1 Bj2].
  assert (ED : forall z, (0 <= z <= 6000000)%Z -> FIN (edgeF z) /\ Rabs (FR (edgeF z)) <= 6000000 /\ Rabs (FR (edgeF z) - (IZR z - 2451545.5)) <= / 100000000).
  { intros z Hz. destruct (edge z Hz) as [Fz Nz]. fold (edgeF z) in Fz, Nz. split; [exact Fz|]. split; [|exact Nz]. assert (0 <= IZR z <= 6000000) by (split; apply IZR_le; lia). apply Rabs_le_inv in Nz. apply Rabs_le. lra. }
  destruct (ED A0 Bj1) as (F0 & G0 & N0). destruct (ED A1 Bj2) as (F1 & G1 & N1). destruct (ED A2 Bi2) as (F2 & G2 & N2).
  apply Rabs_le_inv in N0, N1, N2. destruct (k_term_ok k T _ _ _ I Q F0 F1 F2 G0 G1 G2 W) as [X|X]; [right|left]; lra.
Qed.
Lemma falls_date k i T : k_mid k -> is_term k T -> (-1 <= i <= 11)%Z -> falls k i T -> exists s, fromJulianDay (T + 2451545)%float = Ok s /\
  valid_solar s /\ (sy s, sm s) = month_of (2000 + (k - 17) / 24) i /\ Rabs (IZR (instant s) - 86400 * (FR T + 2451545.5)) <= 0.52.
Proof.
  intros H I Hi F. pose proof (proj1 (mid_quick k H)) as K. unfold falls in F. set (y := (2000 + (k - 17) / 24)%Z) in *. clearbody y.
  assert (Hb : (1 <= snd (month_of y i) <= 12)%Z) by (unfold month_of; destruct (i <? 1)%Z eqn:E; cbn [snd]; lia). destruct (month_of y i) as [a b]. cbn [snd] in Hb.
  destruct (term_jd lib k T I K) as [Fj Nj]. apply Rabs_le_inv in Nj. unfold month_lo, month_hi in F.
  destruct ((a =? 1582)%Z && (b =? 10)%Z) eqn:EO.
  - assert (a = 1582 /\ b = 10)%Z as [-> ->] by lia. change (dayno (1582, 10, 1)%Z + mlen 1582 10)%Z with 2299178%Z in F. destruct (conv_oct _ Fj ltac:(lra)) as (s & Es & V & S1 & S2 & S3).
    exists s. split; [exact Es|]. split; [exact V|]. split; [congruence|]. apply Rabs_le_inv in S3. apply Rabs_le. lra.
  - destruct (term_conv lib k T I K) as (s & Es & _ & M). exists s. split; [exact Es|]. destruct (M a b Hb F ltac:(intros e; injection e; lia)) as (V & S1 & S2 & S3). split; [exact V|]. split; [congruence|exact S3].
Qed.
Lemma mid_terms y Ts jq : mid y -> terms_are (fsin := fsin) (fcos := fcos) y Ts -> computeJieQi Ts = Ok jq -> forall j, (0 <= j < 31)%Z ->
  exists T, is_term (24 * (y - 2000) + 17 + j) T /\ valid_solar (term_at jq j) /\ Rabs (IZR (instant (term_at jq j)) - 86400 * (FR T + 2451545.5)) <= 0.52 /\
    ((sy (term_at jq j), sm (term_at jq j)) = month_of (y + j / 24) (j mod 24 / 2) \/ (sy (term_at jq j), sm (term_at jq j)) = month_of (y + j / 24) (j mod 24 / 2 - 1)).
Proof.
  intros Hy H E j Hj. unfold mid in Hy. destruct (jieqi_ok lib y Ts ltac:(lia) H) as (jq' & E' & P). rewrite E in E'. apply Ok_inj in E'. subst jq'. destruct (P j Hj) as (T & _ & I & Es & _).
  exists T. split; [exact I|]. set (k := (24 * (y - 2000) + 17 + j)%Z) in *. assert (K : k_mid k) by (unfold k_mid, k; lia).
  assert (D1 : ((k - 17) / 24 = y - 2000 + j / 24)%Z) by (unfold k; replace (24 * (y - 2000) + 17 + j - 17)%Z with (j + (y - 2000) * 24)%Z by lia; rewrite Z.div_add by lia; lia).
  assert (D2 : ((k - 17) mod 24 = j mod 24)%Z) by (unfold k; replace (24 * (y - 2000) + 17 + j - 17)%Z with (j + (y - 2000) * 24)%Z by lia; now rewrite Z.mod_add by lia).
  assert (J : (0 <= j mod 24 / 2 <= 11)%Z) by (pose proof (Z.mod_pos_bound j 24 ltac:(lia)); split; [apply Z.div_pos; lia|apply Z.lt_succ_r, Z.div_lt_upper_bound; lia]).
  pose proof (falls_ok k T K I) as F. rewrite D2 in F.
  assert (G : forall i, (-1 <= i <= 11)%Z -> falls k i T -> valid_solar (term_at jq j) /\ Rabs (IZR (instant (term_at jq j)) - 86400 * (FR T + 2451545.5)) <= 0.52 /\ (sy (term_at jq j), sm (term_at jq j)) = month_of (y + j / 24) i).
  { intros i Hi Fi. destruct (falls_date k i T K I Hi Fi) as (s & Es' & V & S1 & S2). rewrite Es in Es'. apply Ok_inj in Es'. subst s. rewrite D1 in S1. replace (2000 + (y - 2000 + j / 24))%Z with (y + j / 24)%Z in S1 by lia. auto. }
  destruct F as [F|F]; [destruct (G (j mod 24 / 2)%Z ltac:(lia) F) as (V & S1 & S2)|destruct (G (j mod 24 / 2 - 1)%Z ltac:(lia) F) as (V & S1 & S2)]; auto.
Qed.
Lemma mid_gap y Ts jq : mid y -> terms_are (fsin := fsin) (fcos := fcos) y Ts -> computeJieQi Ts = Ok jq -> forall j, (0 <= j < 30)%Z ->
  (14 <= dayno (sdate (term_at jq (j + 1))) - dayno (sdate (term_at jq j)) <= 17)%Z.
Proof.
  intros Hy H E j Hj. destruct (mid_terms y Ts jq Hy H E j ltac:(lia)) as (T & I & V & B & _). destruct (mid_terms y Ts jq Hy H E (j + 1)%Z ltac:(lia)) as (T' & I' & V' & B' & _).
  replace (24 * (y - 2000) + 17 + (j + 1))%Z with (24 * (y - 2000) + 17 + j + 1)%Z in I' by lia.
  unfold mid in Hy. destruct (gap_T lib _ 1 T T' I I' ltac:(lia) ltac:(unfold k_ok; lia) ltac:(unfold k_ok; lia)) as [G _]. apply Rabs_le_inv in B, B'.
  assert (X1 : IZR (instant (term_at jq j)) + 86400 * 14 < IZR (instant (term_at jq (j + 1)))) by lra. assert (X2 : IZR (instant (term_at jq (j + 1))) < IZR (instant (term_at jq j)) + 86400 * 17) by lra.
  rewrite <- mult_IZR, <- plus_IZR in X1, X2. apply lt_IZR in X1, X2. pose proof (sod_bounds _ V). pose proof (sod_bounds _ V'). unfold instant in X1, X2. lia.
Qed.
Lemma good_mid y Ts jq : mid y -> terms_are (fsin := fsin) (fcos := fcos) y Ts -> computeJieQi Ts = Ok jq -> good_terms y jq.
Proof.
  intros Hy H E. pose proof (mid_terms y Ts jq Hy H E) as Q. pose proof (mid_gap y Ts jq Hy H E) as SS.
  assert (Y : forall j, (0 <= j < 31)%Z -> (y + j / 24 - 1 <= sy (term_at jq j) <= y + j / 24)%Z).
  { intros j Hj. destruct (Q j Hj) as (_ & _ & _ & _ & [M|M]); unfold month_of in M; destruct (_ <? 1)%Z in M; injection M; lia. }
  constructor.
  - intros i Hi. destruct (Q i Hi) as (_ & _ & V & _). exact V.
  - intros i Hi. specialize (Y i Hi). unfold mid in Hy. assert (0 <= i / 24 <= 1)%Z by (split; [apply Z.div_pos; lia|apply Z.lt_succ_r, Z.div_lt_upper_bound; lia]). lia.
  - intros i j Hi Hj. assert (G : forall n : nat, (i + 1 + Z.of_nat n < 31)%Z -> (dayno (sdate (term_at jq i)) < dayno (sdate (term_at jq (i + 1 + Z.of_nat n))))%Z).
    { induction n as [|n IH]; intros Hn; [pose proof (SS i ltac:(lia)); replace (i + 1 + Z.of_nat 0)%Z with (i + 1)%Z by lia; lia|]. specialize (IH ltac:(lia)). pose proof (SS (i + 1 + Z.of_nat n)%Z ltac:(lia)) as X. replace (i + 1 + Z.of_nat (S n))%Z with (i + 1 + Z.of_nat n + 1)%Z by lia. lia. }
    replace j with (i + 1 + Z.of_nat (Z.to_nat (j - i - 1)))%Z by lia. apply G. lia.
  - destruct (Q 1%Z ltac:(lia)) as (_ & _ & _ & _ & M). cbn in M. destruct M as [M|M]; injection M; lia.
  - destruct (Q 4%Z ltac:(lia)) as (_ & _ & _ & _ & M). cbn in M. destruct M as [M|M]; injection M; lia.
  - destruct (Q 28%Z ltac:(lia)) as (_ & _ & _ & _ & M). cbn in M. destruct M as [M|M]; injection M; lia.
Qed.
End LIB.
