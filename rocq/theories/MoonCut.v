(** The accurate new moon from the leading terms of its series: the terms left out are bounded by their amplitudes.  Where that already
    decides the day, it is the day the code finds with the whole series. *)
From Coq Require Import ZArith Lia Reals Lra Psatz.
From Flocq Require Import Core BinarySingleNaN PrimFloat.
From Coq Require Import Bool ZifyBool List Floats.
From Verif Require Import Py PyFloat FloatFacts FloatTac T_ShouXing ShouXing FloatExpr Trig SunLon SunTerm SunQi SunKb SunYear Cert CertSky MoonLite.
From Verif Require LunarProofs Py.
Import ListNotations.
Open Scope R_scope.
Local Set Warnings "-inexact-float".

(** ** The rest of a section *)
Definition small (x b : float) : bool := PrimFloat.ltb (- b) x && PrimFloat.ltb x b.
Definition row_chk (r : row6) : bool :=
  let '(f0, f1, f2, f3, f4, f5) := r in small f0 1000%float && small f1 10%float && small f2 60000%float && small f3 10%float && small f4 130%float && small f5 2%float.
(** is the sum of the amplitudes of the rows, above [acc], at most [b]? *)
Fixpoint tail_le (l : list row6) (acc b : float) : bool :=
  match l with
  | [] => PrimFloat.leb acc b
  | r :: l => let '(f0, _, _, _, _, _) := r in
      row_chk r && PrimFloat.ltb acc 1000%float && tail_le l (acc + (PrimFloat.abs f0 * 1.01 + 1e-9))%float b
  end.
Lemma small_ok x b : FIN b -> small x b = true -> FIN x /\ - FR b < FR x < FR b.
Proof.
  intros Fb H. unfold small in H. apply andb_true_iff in H. destruct H as [H1 H2]. pose proof (ltb_fin _ _ _ H1 H2) as F.
  assert (Fo : FIN (- b)%float /\ FR (- b)%float = - FR b) by (unfold FIN, FR in *; rewrite opp_equiv, is_finite_Bopp, B2R_Bopp; auto). destruct Fo as [Fo Eo].
  apply fltb_spec in H1, H2; try assumption. rewrite Eo in H1. split; [exact F|lra].
Qed.
Section TAIL.
Variables fsin fcos : float -> float.
Hypothesis lib : libm fsin fcos.
Variables t t2 t3 t4 : float.
Hypothesis Ft : FIN t. Hypothesis Ft2 : FIN t2. Hypothesis Ft3 : FIN t3. Hypothesis Ft4 : FIN t4.
Hypothesis Bt : -83 <= FR t <= 83. Hypothesis Bt2 : -1 <= FR t2 <= 1. Hypothesis Bt3 : -1 <= FR t3 <= 1. Hypothesis Bt4 : -1 <= FR t4 <= 1.
Definition row_arg (f1 f2 f3 f4 f5 : float) : float := (f1 + t * f2 + t2 * f3 + t3 * f4 + t4 * f5)%float.
Lemma mul_step a b Ma Mb : FIN a -> FIN b -> - Ma <= FR a <= Ma -> - Mb <= FR b <= Mb -> 1 <= Ma * Mb <= 10000000 -> FIN (a * b)%float /\ - (Ma * Mb + 0.01) <= FR (a * b)%float <= Ma * Mb + 0.01.
Proof.
  intros Fa Fb Ha Hb M. assert (P : Rabs (FR a * FR b) <= Ma * Mb) by (apply Rmul_abs; apply Rabs_le; lra). apply Rabs_le_inv in P.
  destruct (fmul_b a b 10000000 Fa Fb ltac:(lra) ltac:(lra)) as (F & _ & N). nea. split; [exact F|]. lra.
Qed.
Lemma add_step a b Ma Mb : FIN a -> FIN b -> - Ma <= FR a <= Ma -> - Mb <= FR b <= Mb -> 1 <= Ma + Mb <= 10000000 -> FIN (a + b)%float /\ - (Ma + Mb + 0.01) <= FR (a + b)%float <= Ma + Mb + 0.01.
Proof.
  intros Fa Fb Ha Hb M. destruct (fadd_b a b 10000000 Fa Fb ltac:(lra) ltac:(lra)) as (F & _ & N). nea. split; [exact F|]. lra.
Qed.
Lemma row_cos f0 f1 f2 f3 f4 f5 : row_chk (f0, f1, f2, f3, f4, f5) = true -> FIN f0 /\ -1000 < FR f0 < 1000 /\ FIN (fcos (row_arg f1 f2 f3 f4 f5)) /\ Rabs (FR (fcos (row_arg f1 f2 f3 f4 f5))) <= 1.001.
Proof.
  intros H. unfold row_chk in H. rewrite !andb_true_iff in H. destruct H as (((((H0 & H1) & H2) & H3) & H4) & H5).
  flx 1000%float Fa Ea. flx 10%float Fb Eb. flx 60000%float Fc Ec. flx 130%float Fd Ed. flx 2%float Fe Ee.
  apply small_ok in H0, H1, H2, H3, H4, H5; try assumption. rewrite Ea in H0. rewrite Eb in H1, H3. rewrite Ec in H2. rewrite Ed in H4. rewrite Ee in H5.
  destruct H0 as [F0 B0], H1 as [F1 B1], H2 as [F2 B2], H3 as [F3 B3], H4 as [F4 B4], H5 as [F5 B5].
  split; [exact F0|]. split; [lra|]. unfold row_arg.
  destruct (mul_step t f2 83 60000 Ft F2 ltac:(lra) ltac:(lra) ltac:(lra)) as [G2 C2]. destruct (mul_step t2 f3 1 10 Ft2 F3 ltac:(lra) ltac:(lra) ltac:(lra)) as [G3 C3].
  destruct (mul_step t3 f4 1 130 Ft3 F4 ltac:(lra) ltac:(lra) ltac:(lra)) as [G4 C4]. destruct (mul_step t4 f5 1 2 Ft4 F5 ltac:(lra) ltac:(lra) ltac:(lra)) as [G5 C5].
  destruct (add_step f1 (t * f2)%float 10 (83 * 60000 + 0.01) F1 G2 ltac:(lra) ltac:(lra) ltac:(lra)) as [A1 D1].
  destruct (add_step _ (t2 * f3)%float 4980011 11 A1 G3 ltac:(lra) ltac:(lra) ltac:(lra)) as [A2 D2].
  destruct (add_step _ (t3 * f4)%float 4980023 131 A2 G4 ltac:(lra) ltac:(lra) ltac:(lra)) as [A3 D3].
  destruct (add_step _ (t4 * f5)%float 4980155 3 A3 G5 ltac:(lra) ltac:(lra) ltac:(lra)) as [A4 D4].
  set (a := (f1 + t * f2 + t2 * f3 + t3 * f4 + t4 * f5)%float) in *. destruct (lib a A4) as [_ [Fc' Ec']].
  { change (IZR (2 ^ 23)) with 8388608. apply Rabs_le. lra. }
  split; [exact Fc'|]. change (/ IZR (2 ^ 40)) with (/ 1099511627776) in Ec'. apply Rabs_le_inv in Ec'. pose proof (COS_bound (FR a)). apply Rabs_le. lra.
Qed.
Definition row_sum (l : list row6) (c : float) : float :=
  fold_left (fun c '(f0, f1, f2, f3, f4, f5) => (c + f0 * fcos (f1 + t * f2 + t2 * f3 + t3 * f4 + t4 * f5))%float) l c.
Lemma tail_ok b : FIN b -> forall l acc c, tail_le l acc b = true -> FIN acc -> 0 <= FR acc -> FIN c -> Rabs (FR c) <= 40000 + FR acc -> FIN (row_sum l c) /\ Rabs (FR (row_sum l c) - FR c) <= FR b - FR acc.
Proof.
  intros Fb. induction l as [|[[[[[f0 f1] f2] f3] f4] f5] l IH]; intros acc c H Fa Pa Fc Bc; cbn [tail_le] in H.
  - apply fleb_spec in H; [|assumption..]. cbn. split; [exact Fc|]. replace (FR c - FR c) with 0 by ring. rewrite Rabs_R0. lra.
  - rewrite !andb_true_iff in H. destruct H as ((H1 & H2) & H3). flx 1000%float Fq Eq1. apply fltb_spec in H2; [|assumption..]. rewrite Eq1 in H2.
    destruct (row_cos _ _ _ _ _ _ H1) as (G0 & B0 & Gc & Bcos). set (x := fcos (row_arg f1 f2 f3 f4 f5)) in *.
    destruct (fabs_spec f0 G0) as [Gf Ef]. pose proof (Rabs_pos (FR f0)) as P0. assert (B0' : Rabs (FR f0) <= 1000) by (apply Rabs_le; lra).
    flit 1.01%float F2 V2. flit 1e-9%float F3 V3.
    assert (Pm : Rabs (FR f0) * 1.009 <= Rabs (FR f0) * FR 1.01%float <= Rabs (FR f0) * 1.011) by (split; apply Rmult_le_compat_l; lra).
    destruct (fmul_p (PrimFloat.abs f0) 1.01%float Gf F2 ltac:(lra) ltac:(lra)) as (K1 & K2 & K3). { rewrite Ef. unfold M50. lra. } rewrite Ef in K3. unfold u53, eta in K3.
    destruct (fadd_p (PrimFloat.abs f0 * 1.01)%float 1e-9%float K1 F3 K2 ltac:(lra)) as (K4 & K5 & K6). { unfold M50. lra. } unfold u53, eta in K6.
    destruct (fadd_p acc (PrimFloat.abs f0 * 1.01 + 1e-9)%float Fa K4 Pa K5) as (K7 & K8 & K9). { unfold M50. lra. } unfold u53, eta in K9.
    set (acc' := (acc + (PrimFloat.abs f0 * 1.01 + 1e-9))%float) in *.
    assert (G : FR acc + 1.0085 * Rabs (FR f0) + / 2000000000 <= FR acc') by lra.
    assert (Pp : Rabs (FR f0 * FR x) <= Rabs (FR f0) * 1.001) by (rewrite Rabs_mult; apply Rmult_le_compat_l; assumption). apply Rabs_le_inv in Pp.
    destruct (fmul_b f0 x 1010 G0 Gc ltac:(lra) ltac:(lra)) as (Q1 & _ & Q2). nea. apply Rabs_le_inv in Bc.
    destruct (fadd_b c (f0 * x)%float 100000 Fc Q1 ltac:(lra) ltac:(lra)) as (Q3 & _ & Q4). nea.
    cbn [row_sum fold_left]. fold (row_arg f1 f2 f3 f4 f5). fold x. set (c' := (c + f0 * x)%float) in *. fold (row_sum l c').
    destruct (IH acc' c' H3 K7 K8 Q3) as [R1 R2]. { apply Rabs_le. lra. } split; [exact R1|]. apply Rabs_le_inv in R2. apply Rabs_le. lra.
Qed.
End TAIL.

(** ** The series from its leading rows *)
Definition widen (b : float) (a : cert) : cert :=
  match a with C v e => if PrimFloat.ltb (PrimFloat.abs v + e) 39999%float then Cert.mk v (cerr (e + b)%float v) else Bad | Bad => Bad end.
Lemma widen_ok b a x x' : FIN b -> 0 <= FR b <= 1000 -> rel a x -> (FIN x -> Rabs (FR x) <= 40000 -> FIN x' /\ Rabs (FR x' - FR x) <= FR b) -> rel (widen b a) x'.
Proof.
  intros Fb Bb Q H. destruct a as [|v e]; [apply rel_bad|]. unfold widen. destruct (PrimFloat.ltb _ _) eqn:L; [|apply rel_bad]. destruct (rel_inv _ _ _ Q) as (Fv & Fe & Fx & Pe & B & D & Bx & Pv).
  flx 39999%float Fl El. destruct (fabs_spec v Fv) as [Fa Ea]. destruct (fadd_p (PrimFloat.abs v) e Fa Fe ltac:(lra) Pe ltac:(unfold M50; lra)) as (F1 & P1 & L1). rewrite Ea in L1. unfold u53, eta in L1.
  apply fltb_spec in L; [|assumption..]. rewrite El in L. destruct (H Fx ltac:(lra)) as [Fx' H'].
  destruct (fadd_p e b Fe Fb Pe ltac:(lra) ltac:(unfold M50; lra)) as (F2 & P2 & L2). unfold u53, eta in L2.
  destruct (cerr_ok (e + b)%float v F2 Fv ltac:(unfold M50; lra) ltac:(unfold M50; lra)) as [F3 L3]. unfold u53 in L3.
  apply mk_ok; try assumption; [unfold M50 in *; lra|unfold M50; lra|]. apply Rabs_le_inv in H', D. apply Rabs_le. lra.
Qed.
Definition cut : Type := list (nrow6 cert_arith) * float.
Fixpoint msum_cut (cs : list cut) (t t2 t3 t4 v tn : cert) : cert :=
  match cs with
  | [] => v
  | (l, b) :: cs =>
      let c := fold_left (fun c '(f0, f1, f2, f3, f4, f5) => cc_add c (cc_mul f0 (cc_cos (cc_add (cc_add (cc_add (cc_add f1 (cc_mul t f2)) (cc_mul t2 f3)) (cc_mul t3 f4)) (cc_mul t4 f5))))) l (cc_lit 0%float) in
      msum_cut cs t t2 t3 t4 (cc_add v (cc_mul (widen b c) tn)) (cc_mul tn t)
  end.
Local Infix "+!" := cc_add (at level 50, left associativity).
Local Infix "-!" := cc_sub (at level 50, left associativity).
Local Infix "*!" := cc_mul (at level 40, left associativity).
Local Infix "/!" := cc_div (at level 40, left associativity).
Local Notation "# x" := (cc_lit x%float) (at level 5).
(** [mF] with the rows of [cs], for 9 < t < 82 *)
Definition mF_cut (cs : list cut) (t : cert) : res cert :=
  let! lo := cc_ltb #9 t in
  let! hi := cc_ltb t #82 in
  if negb (lo && hi) then Raise ExcType else
  let t2 := t *! t in
  let t3 := t2 *! t in
  let t4 := t3 *! t in
  let t5 := t4 *! t in
  let tx := t -! #10 in
  let v := #0 +! (#3.81034409 +! #8399.684730072 *! t -! #3.319e-05 *! t2 +! #3.11e-08 *! t3 -! #2.033e-10 *! t4) *! cc_lit SECOND_PER_RAD in
  let v := v +! (#5028.792262 *! t +! #1.1124406 *! t2 +! #0.00007699 *! t3 -! #0.000023479 *! t4 -! #0.0000000178 *! t5) in
  let! late := cc_ltb #0 tx in
  let v := (if late : bool then v +! (#(-0.866) +! #1.43 *! tx +! #0.054 *! tx *! tx) else v) in
  let t2 := t2 /! #1e4 in
  let t3 := t3 /! #1e8 in
  let t4 := t4 /! #1e8 in
  Ok (msum_cut cs t t2 t3 t4 v #1 /! cc_lit SECOND_PER_RAD).
(** [msaTF], [shuoHighF] *)
Definition msaT_cut (cs : list cut) (w : cert) : res cert :=
  let T := cert_tabs in
  let v := #7771.37714500204 in
  let t := (w +! #1.08472) /! v in
  let! x := msaF cert_arith t (m3 cert_arith T) (e3 cert_arith T) in
  let t := t +! (w -! x) /! v in
  let v := mv cert_arith t -! ev cert_arith t in
  let! x := msaF cert_arith t (m20 cert_arith T) (e10 cert_arith T) in
  let t := t +! (w -! x) /! v in
  let! m := mF_cut cs t in
  let e := eF cert_arith (e60 cert_arith T) t in
  let x := m +! #(-3.4E-6) -! (e +! gxcSunLon cert_arith t +! cc_lit PI) in
  Ok (t +! (w -! x) /! v).
Definition shuo_cut (cs : list cut) (w : cert) : res cert :=
  let! t := msaT2F cert_arith cert_tabs w in
  let t := t *! #36525 in
  let! d := dtT cert_arith t in
  let t := t -! d +! cc_lit ONE_THIRD in
  let! near := near_midnight cert_arith t 1800%float in
  if near : bool then
    let! x := msaT_cut cs w in
    let! d := dtT cert_arith t in
    Ok (x *! #36525 -! d +! cc_lit ONE_THIRD)
  else Ok t.
(** how many rows are kept in each section, and a bound for the rest *)
Definition kept : list (nat * float) := [(60%nat, 47%float); (20%nat, 0.23%float); (10%nat, 0.0016%float); (2%nat, 0.000001%float)].
Definition cut1 (x : nat * float * list row6) : cut := let '(n, b, m) := x in (map (lit6 cert_arith) (firstn n m), b).
Definition cert_cuts : list cut := Eval vm_compute in map cut1 (combine kept MALL).
Definition cut_chk (x : nat * float * list row6) : bool := let '(n, b, m) := x in tail_le (skipn n m) 0%float b && PrimFloat.ltb (-1)%float b && PrimFloat.leb 0%float b && PrimFloat.ltb b 1000%float.
Lemma cert_cuts_eq : map cut1 (combine kept MALL) = cert_cuts. Proof. vm_cast_no_check (eq_refl cert_cuts). Qed.
Lemma cuts_chk : forallb cut_chk (combine kept MALL) = true. Proof. vm_cast_no_check (eq_refl true). Qed.
Section CUT.
Variables fsin fcos : float -> float.
Hypothesis lib : libm fsin fcos.
Local Notation FA := (float_arith fsin fcos).
Local Notation H := (cert_rel fsin fcos lib).
Local Notation R := rel.
Ltac ops := first [assumption | apply lit_ok | apply (r_lit _ _ _ H) | apply (r_add _ _ _ H) | apply (r_sub _ _ _ H) | apply (r_mul _ _ _ H) | apply (r_div _ _ _ H) | apply (r_sin _ _ _ H) | apply (r_cos _ _ _ H)].
Ltac go := repeat ops.
Definition cut_of (c : cut) (ts : list row6) : Prop :=
  exists pre rest, ts = pre ++ rest /\ Forall2 (R6 cert_arith FA rel) (fst c) pre /\ tail_le rest 0%float (snd c) = true /\ FIN (snd c) /\ 0 <= FR (snd c) <= 1000.
Lemma cut_sec n obl ob : forall i cs ts t t2 t3 t4 v tn x x2 x3 x4 v' tn', mterms n i obl ob = Ok ts -> Forall2 cut_of cs ts ->
  FIN x -> FIN x2 -> FIN x3 -> FIN x4 -> -83 <= FR x <= 83 -> -1 <= FR x2 <= 1 -> -1 <= FR x3 <= 1 -> -1 <= FR x4 <= 1 ->
  rel t x -> rel t2 x2 -> rel t3 x3 -> rel t4 x4 -> rel v v' -> rel tn tn' ->
  exists r, mLon_sections FA n i obl ob x x2 x3 x4 v' tn' = Ok r /\ rel (msum_cut cs t t2 t3 t4 v tn) r.
Proof.
  induction ob as [|f ob IH]; intros i cs ts t t2 t3 t4 v tn x x2 x3 x4 v' tn' E F X1 X2 X3 X4 B1 B2 B3 B4 Q1 Q2 Q3 Q4 Q5 Q6; cbn [mterms mLon_sections] in *.
  - apply Py.Ok_inj in E. subst ts. inversion F; subst. cbn [msum_cut]. eauto.
  - apply LunarProofs.bind_ok in E. destruct E as (m & -> & E). apply LunarProofs.bind_ok in E. destruct E as (r & Er & E). apply Py.Ok_inj in E. subst ts. cbn [bind]. match goal with |- context [groups6 ?a] => set (g := groups6 a) in * end. clearbody g. inversion F as [|[l b] ? cs' ? Fl Fr]; subst. cbn [msum_cut]. cbv zeta.
    apply (IH _ _ r); try assumption; [|go]. apply (r_add _ _ _ H); [assumption|]. apply (r_mul _ _ _ H); [|assumption].
    destruct Fl as (pre & rest & -> & F6 & Tl & Fb & Bb). cbn [fst snd] in *. rewrite fold_left_app.
    pose proof (l_mrow _ _ _ H l pre t t2 t3 t4 x x2 x3 x4 F6 Q1 Q2 Q3 Q4 _ _ (lit_ok 0%float)) as Qc.
    match type of Qc with rel ?a ?b => set (c := a) in *; set (c' := b) in * end.
    change (rel (widen b c) (row_sum fcos x x2 x3 x4 rest c')). apply (widen_ok b c c'); [exact Fb|exact Bb|exact Qc|]. intros Fc' Bc'. flx 0%float F0 E0.
    destruct (tail_ok fsin fcos lib x x2 x3 x4 X1 X2 X3 X4 B1 B2 B3 B4 b Fb rest 0%float c' Tl F0 ltac:(lra) Fc' ltac:(lra)) as [R1 R2]. split; [exact R1|]. rewrite E0 in R2. lra.
Qed.
Lemma x_powers x : FIN x -> 9 <= FR x <= 82 -> FIN (x * x)%float /\ FIN (x * x * x)%float /\ FIN (x * x * x * x)%float /\
  (FIN (x * x / 1e4)%float /\ -1 <= FR (x * x / 1e4)%float <= 1) /\ (FIN (x * x * x / 1e8)%float /\ -1 <= FR (x * x * x / 1e8)%float <= 1) /\ (FIN (x * x * x * x / 1e8)%float /\ -1 <= FR (x * x * x * x / 1e8)%float <= 1).
Proof.
  intros F B. destruct (mul_step x x 82 82 F F ltac:(lra) ltac:(lra) ltac:(lra)) as [F2 B2]. destruct (mul_step _ x (82 * 82 + 0.01) 82 F2 F ltac:(lra) ltac:(lra) ltac:(lra)) as [F3 B3].
  assert (B4 : Rabs (FR (x * x * x)%float * FR x) <= 551500 * 82) by (apply Rmul_abs; apply Rabs_le; lra). apply Rabs_le_inv in B4. destruct (fmul_b (x * x * x)%float x 100000000 F3 F ltac:(lra) ltac:(lra)) as (F4 & _ & N4). nea.
  flx 1e4%float G1 E1'. flx 1e8%float G2 E2'.
  destruct (fdiv_b (x * x)%float 1e4%float 1 F2 ltac:(lra) ltac:(rewrite E1'; lra) ltac:(lra)) as (F5 & _ & N5). rewrite E1' in N5.
  destruct (fdiv_b (x * x * x)%float 1e8%float 1 F3 ltac:(lra) ltac:(rewrite E2'; lra) ltac:(lra)) as (F6 & _ & N6). rewrite E2' in N6.
  destruct (fdiv_b (x * x * x * x)%float 1e8%float 1 F4 ltac:(lra) ltac:(rewrite E2'; lra) ltac:(lra)) as (F7 & _ & N7). rewrite E2' in N7. nea.
  repeat split; try assumption; lra.
Qed.
Lemma mF_cut_ok cs ts t x : mterms 2652 0 2652 ShouXing_XL1 = Ok ts -> Forall2 cut_of cs ts -> rel t x -> rr rel (mF_cut cs t) (mLon FA x (-1)).
Proof.
  intros E F Q0 u Eu. unfold mF_cut in Eu. apply LunarProofs.bind_ok in Eu. destruct Eu as (lo & El & Eu). apply LunarProofs.bind_ok in Eu. destruct Eu as (hi & Eh & Eu). destruct (lo && hi) eqn:Eb; [|discriminate Eu]. apply andb_true_iff in Eb. destruct Eb; subst lo hi. cbn [negb] in Eu.
  pose proof (r_ltb _ _ _ H _ _ _ _ _ (lit_ok 9%float) Q0 El) as L1. pose proof (r_ltb _ _ _ H _ _ _ _ _ Q0 (lit_ok 82%float) Eh) as L2. cbn [n_ltb float_arith] in L1, L2. apply Py.Ok_inj in L1, L2.
  pose proof (ltb_fin _ _ _ L1 L2) as Fx. flx 9%float F9 E9. flx 82%float F82 E82. apply fltb_spec in L1, L2; [|assumption..]. rewrite E9 in L1. rewrite E82 in L2.
  destruct (x_powers x Fx ltac:(lra)) as (P2 & P3 & P4 & (P5 & B5) & (P6 & B6) & (P7 & B7)).
  revert u Eu. match goal with |- forall u, ?a = Ok u -> _ => change (rr rel a (mLon FA x (-1))) end. unfold mLon. cbv zeta. change ((if (-1 * 6 <? 0)%Z then 2652%Z else (-1 * 6)%Z)) with 2652%Z.
  apply (rr_bind eq); [apply (rr_ltb _ _ _ H); go|]. intros b b' <-.
  match goal with |- rr _ (Ok (cc_div (msum_cut cs t ?t2 ?t3 ?t4 ?v ?tn) _)) (let! _ := mLon_sections FA _ _ _ _ _ ?x2 ?x3 ?x4 ?w ?tn' in _) =>
    destruct (cut_sec _ _ _ _ cs ts t t2 t3 t4 v tn x x2 x3 x4 w tn' E F) as (r & -> & Qr); [exact Fx|exact P5|exact P6|exact P7|lra|exact B5|exact B6|exact B7|go..| | |]; [destruct b; go|go|] end.
  cbn [bind]. apply rr_ok. go.
Qed.
Lemma cuts_ok : Forall2 cut_of cert_cuts MALL.
Proof.
  rewrite <- cert_cuts_eq. pose proof cuts_chk as C. assert (L : List.length kept = List.length MALL) by reflexivity. revert C L. generalize kept MALL. intros l ts. revert ts.
  induction l as [|[n b] l IH]; intros [|m ts] E L; try discriminate L; [constructor|]. cbn [combine forallb map] in *. apply andb_true_iff in E. destruct E as [E1 E2]. constructor; [|apply IH; [exact E2|now injection L]].
  unfold cut_chk in E1. rewrite !andb_true_iff in E1. destruct E1 as (((T1 & T4) & T2) & T3). exists (firstn n m), (skipn n m). cbn [fst snd cut1].
  pose proof (ltb_fin _ _ _ T4 T3) as Fb. flx 0%float F0 E0'. flx 1000%float F1 E1'. apply fleb_spec in T2; [|assumption..]. apply fltb_spec in T3; [|assumption..]. rewrite E0' in T2. rewrite E1' in T3.
  split; [symmetry; apply firstn_skipn|]. split; [|split; [exact T1|split; [exact Fb|lra]]].
  pose proof (R6_lit _ _ _ H [firstn n m]) as F6. cbn [map] in F6. now inversion F6.
Qed.
Lemma mall_rows : mterms 2652 0 2652 ShouXing_XL1 = Ok MALL. Proof. vm_cast_no_check (eq_refl (Ok MALL)). Qed.
Lemma msaT_cut_ok w x : rel w x -> rr rel (msaT_cut cert_cuts w) (msaLonT FA x).
Proof.
  intros Q0. pose proof (cert_tabs_ok fsin fcos lib) as HT. unfold msaT_cut, msaLonT. cbv zeta. set (t := cc_div (cc_add _ _) _). set (t' := n_div FA (n_add FA _ _) _). assert (Qt : rel t t') by (subst t t'; go).
  apply (rr_bind rel); [apply (l_msaF _ _ _ H); [apply (t_m3 _ _ _ _ HT)|apply (t_e3 _ _ _ _ HT)|exact Qt]|]. intros u u' Qu. cbv zeta.
  match goal with |- rr _ (let! _ := msaF _ ?a _ _ in _) (let! _ := msaLon FA ?b _ _ in _) => set (s := a); set (s' := b) end. assert (Qs : rel s s') by (subst s s'; go).
  apply (rr_bind rel); [apply (l_msaF _ _ _ H); [apply (t_m20 _ _ _ _ HT)|apply (t_e10 _ _ _ _ HT)|exact Qs]|]. intros y y' Qy. cbv zeta. pose proof (l_mv _ _ _ H _ _ Qs) as Qm. pose proof (l_ev _ _ _ H _ _ Qs) as Qe.
  match goal with |- rr _ (let! _ := mF_cut _ ?a in _) (let! _ := msaLon FA ?b _ _ in _) => set (z := a); set (z' := b) end. assert (Qz : rel z z') by (subst z z'; go).
  unfold msaLon. intros r Er. apply LunarProofs.bind_ok in Er. destruct Er as (m & Em & Er). destruct (mF_cut_ok cert_cuts MALL z z' mall_rows cuts_ok Qz m Em) as (m' & -> & Qm'). cbn [bind].
  destruct (l_eF' _ _ _ H _ _ _ _ (t_e60 _ _ _ _ HT) Qz) as (e' & -> & Qe'). cbn [bind]. apply Py.Ok_inj in Er. subst r. eexists. split; [reflexivity|]. pose proof (l_gxc _ _ _ H _ _ Qz). go.
Qed.
Theorem shuo_cut_ok w x : rel w x -> rr rel (shuo_cut cert_cuts w) (shuoHigh FA x).
Proof.
  intros Q0. pose proof (cert_tabs_ok fsin fcos lib) as HT. unfold shuo_cut, shuoHigh. apply (rr_bind rel); [now apply (l_msaT2F _ _ _ H _ HT)|]. intros r r' Qr. cbv zeta. set (t := cc_mul r _). set (t' := n_mul FA r' _). assert (Qt : rel t t') by (subst t t'; go).
  apply (rr_bind rel); [now apply (l_dtT _ _ _ H)|]. intros d d' Qd. cbv zeta. set (s := cc_add (cc_sub t d) _). set (s' := n_add FA (n_sub FA t' d') _). assert (Qs : rel s s') by (subst s s'; go).
  apply (rr_bind eq); [now apply (l_near _ _ _ H)|]. intros b b' <-. destruct b; [|now apply rr_ok]. apply (rr_bind rel); [now apply msaT_cut_ok|]. intros q q' Qq.
  apply (rr_bind rel); [now apply (l_dtT _ _ _ H)|]. intros d2 d2' Qd2. apply rr_ok. go.
Qed.
End CUT.
