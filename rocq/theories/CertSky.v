(** A proof device: the formulas of ShouXing.v agree in any two arithmetics related operation by operation; applied to [cert_arith]
    this computes days of new moons and solar terms which hold for every C library with [libm]. *)
From Coq Require Import ZArith Lia Bool List String Floats.
From Verif Require Import Py PyFloat PyStr FloatExpr T_ShouXing ShouXing LunarProofs Cert LunarYear.
Import ListNotations.
Open Scope Z_scope.
Local Set Warnings "-inexact-float".

(** ** The series with their tables cut in advance *)
Definition row6 : Type := float * float * float * float * float * float.
Definition row3 : Type := float * float * float.
Fixpoint mterms (n i obl : Z) (ob : list (list float)) : res (list (list row6)) :=
  match ob with
  | [] => Ok []
  | f :: ob =>
      let! m := mLon_m n i (Z.of_nat (List.length f)) obl in
      let! r := mterms n (i + 1) obl ob in
      Ok (groups6 (firstn (Z.to_nat (6 * ((m + 5) / 6))) f) :: r)
  end.
Fixpoint eterms (n i m0 : Z) (offs : list Z) : res (list (list row3)) :=
  match offs with
  | n1 :: (n2 :: _) as rest =>
      if i =? 6 then Ok []
      else if n2 - n1 =? 0 then eterms n (i + 1) m0 rest
      else
        let! m := eLon_m n i n1 n2 m0 in
        let! r := eterms n (i + 1) m0 rest in
        Ok (XL0_terms n1 m :: r)
  | _ => Ok []
  end.
Definition okl {X} (r : res (list X)) : list X := match r with Ok l => l | Raise _ => [] end.
Definition M3 : list (list row6) := Eval vm_compute in okl (mterms (3 * 6) 0 2652 ShouXing_XL1).
Definition M20 : list (list row6) := Eval vm_compute in okl (mterms (20 * 6) 0 2652 ShouXing_XL1).
Definition MALL : list (list row6) := Eval vm_compute in okl (mterms 2652 0 2652 ShouXing_XL1).
Definition EL3 : list (list row3) := Eval vm_compute in okl (eterms 3 0 (578 - 20) ShouXing_XL0_OFFSETS).
Definition EL8 : list (list row3) := Eval vm_compute in okl (eterms 8 0 (578 - 20) ShouXing_XL0_OFFSETS).
Definition EL10 : list (list row3) := Eval vm_compute in okl (eterms 10 0 (578 - 20) ShouXing_XL0_OFFSETS).
Definition EL60 : list (list row3) := Eval vm_compute in okl (eterms 60 0 (578 - 20) ShouXing_XL0_OFFSETS).
Definition ELALL : list (list row3) := Eval vm_compute in okl (eterms (-1) 0 (578 - 20) ShouXing_XL0_OFFSETS).

Section FAST.
Variable A : Arith.
Declare Scope num_scope.
Delimit Scope num_scope with N.
Local Infix "+" := (n_add A) : num_scope.
Local Infix "-" := (n_sub A) : num_scope.
Local Infix "*" := (n_mul A) : num_scope.
Local Infix "/" := (n_div A) : num_scope.
Local Notation "# x" := (n_lit A x%float) (at level 1, x at level 0, format "# x").
Local Notation sin := (n_sin A).
Local Notation cos := (n_cos A).
Local Notation num := (num A).
Definition nrow6 : Type := num * num * num * num * num * num.
Definition nrow3 : Type := num * num * num.
Definition lit6 (r : row6) : nrow6 := let '(a, b, c, d, e, f) := r in (n_lit A a, n_lit A b, n_lit A c, n_lit A d, n_lit A e, n_lit A f).
Definition lit3 (r : row3) : nrow3 := let '(a, b, c) := r in (n_lit A a, n_lit A b, n_lit A c).
Fixpoint msum (ts : list (list nrow6)) (t t2 t3 t4 v tn : num) : num :=
  match ts with
  | [] => v
  | l :: ts =>
      let c := fold_left (fun c '(f0, f1, f2, f3, f4, f5) => c + f0 * cos (f1 + t * f2 + t2 * f3 + t3 * f4 + t4 * f5))%N l #0 in
      msum ts t t2 t3 t4 (v + c * tn)%N (tn * t)%N
  end.
Fixpoint esum (ts : list (list nrow3)) (t v tn : num) : num :=
  match ts with
  | [] => v
  | l :: ts =>
      let c := fold_left (fun c '(x0, x1, x2) => c + x0 * cos (x1 + t * x2))%N l #0 in
      esum ts t (v + c * tn)%N (tn * t)%N
  end.
Definition mF (ts : list (list nrow6)) (t : num) : res num :=
  let t2 := (t * t)%N in
  let t3 := (t2 * t)%N in
  let t4 := (t3 * t)%N in
  let t5 := (t4 * t)%N in
  let tx := (t - #10)%N in
  let v := (#0 + (#3.81034409 + #8399.684730072 * t - #3.319e-05 * t2 + #3.11e-08 * t3 - #2.033e-10 * t4) * n_lit A SECOND_PER_RAD)%N in
  let v := (v + (#5028.792262 * t + #1.1124406 * t2 + #0.00007699 * t3 - #0.000023479 * t4 - #0.0000000178 * t5))%N in
  let! late := n_ltb A #0 tx in
  let v := (if late : bool then (v + (#(-0.866) + #1.43 * tx + #0.054 * tx * tx))%N else v) in
  let t2 := (t2 / #1e4)%N in
  let t3 := (t3 / #1e8)%N in
  let t4 := (t4 / #1e8)%N in
  Ok (msum ts t t2 t3 t4 v #1 / n_lit A SECOND_PER_RAD)%N.
Definition eF (ts : list (list nrow3)) (t : num) : num :=
  let t := (t / #10)%N in
  let v := esum ts t #0 #1 in
  let v := (v / n_lit A XL0_HEAD)%N in
  let t2 := (t * t)%N in
  let t3 := (t2 * t)%N in
  (v + (#(-0.0728) - #2.7702 * t - #1.1019 * t2 - #0.0996 * t3) / n_lit A SECOND_PER_RAD)%N.
Record tabs := mkTabs { m3 : list (list nrow6); m20 : list (list nrow6); mall : list (list nrow6);
  e3 : list (list nrow3); e8 : list (list nrow3); e10 : list (list nrow3); e60 : list (list nrow3); eall : list (list nrow3) }.
Definition all_tabs : tabs :=
  let f6 := map (map lit6) in let f3 := map (map lit3) in mkTabs (f6 M3) (f6 M20) (f6 MALL) (f3 EL3) (f3 EL8) (f3 EL10) (f3 EL60) (f3 ELALL).
Variable T : tabs.
Definition saF (t : num) (e : list (list nrow3)) : num := (eF e t + nutationLon2 A t + gxcSunLon A t + n_lit A PI)%N.
Definition saTF (w : num) : num :=
  let v := #628.3319653318%float in
  let t := ((w - #1.75347 - n_lit A PI) / v)%N in
  let v := ev A t in
  let x := saF t (e10 T) in
  let t := (t + (w - x) / v)%N in
  let v := ev A t in
  let x := saF t (eall T) in
  (t + (w - x) / v)%N.
Definition msaF (t : num) (m : list (list nrow6)) (e : list (list nrow3)) : res num :=
  let! m := mF m t in
  let e := eF e t in
  Ok (m + #(-3.4E-6) - (e + gxcSunLon A t + n_lit A PI))%N.
Definition msaTF (w : num) : res num :=
  let v := #7771.37714500204%float in
  let t := ((w + #1.08472) / v)%N in
  let! x := msaF t (m3 T) (e3 T) in
  let t := (t + (w - x) / v)%N in
  let v := (mv A t - ev A t)%N in
  let! x := msaF t (m20 T) (e10 T) in
  let t := (t + (w - x) / v)%N in
  let! x := msaF t (mall T) (e60 T) in
  Ok (t + (w - x) / v)%N.
Definition saT2F (w : num) : num :=
  let v := #628.3319653318%float in
  let t := ((w - #1.75347 - n_lit A PI) / v)%N in
  let t := (t - (#0.000005297 * t * t + #0.0334166 * cos (#4.669257 + #628.307585 * t) + #0.0002061 * cos (#2.67823 + #628.307585 * t) * t) / v)%N in
  let e := eF (e8 T) t in
  (t + (w - e - n_lit A PI + (#20.5 + #17.2 * sin (#2.1824 - #33.75705 * t)) / n_lit A SECOND_PER_RAD) / v)%N.
Definition msaT2F (w : num) : res num :=
  let v := #7771.37714500204%float in
  let t := ((w + #1.08472) / v)%N in
  let t2 := (t * t)%N in
  let t := (t - (#(-0.00003309) * t2 + #0.10976 * cos (#0.784758 + #8328.6914246 * t + #0.000152292 * t2)
                 + #0.02224 * cos (#0.18740 + #7214.0628654 * t - #0.00021848 * t2) - #0.03342 * cos (#4.669257 + #628.307585 * t)) / v)%N in
  let t2 := (t * t)%N in
  let! m := mF (m20 T) t in
  let n := (m - (#4.8950632 + #628.3319653318 * t + #0.000005297 * t2 + #0.0334166 * cos (#4.669257 + #628.307585 * t)
                 + #0.0002061 * cos (#2.67823 + #628.307585 * t) * t + #0.000349 * cos (#4.6261 + #1256.61517 * t) - #20.5 / n_lit A SECOND_PER_RAD))%N in
  let v := (#7771.38 - #914 * sin (#0.7848 + #8328.691425 * t + #0.0001523 * t2) - #179 * sin (#2.543 + #15542.7543 * t) - #160 * sin (#0.1874 + #7214.0629 * t))%N in
  Ok (t + (w - n) / v)%N.
Definition qiHighF (w : num) : res num :=
  let t := saT2F w in
  let t := (t * #36525)%N in
  let! d := dtT A t in
  let t := (t - d + n_lit A ONE_THIRD)%N in
  let! near := near_midnight A t 1200%float in
  if near : bool then
    let x := saTF w in
    let! d := dtT A t in
    Ok (x * #36525 - d + n_lit A ONE_THIRD)%N
  else Ok t.
Definition shuoHighF (w : num) : res num :=
  let! t := msaT2F w in
  let t := (t * #36525)%N in
  let! d := dtT A t in
  let t := (t - d + n_lit A ONE_THIRD)%N in
  let! near := near_midnight A t 1800%float in
  if near : bool then
    let! x := msaTF w in
    let! d := dtT A t in
    Ok (x * #36525 - d + n_lit A ONE_THIRD)%N
  else Ok t.
End FAST.

(** ** Related arithmetics *)
Section LIFT.
Variables A B : Arith.
Variable R : num A -> num B -> Prop.
Record arel : Prop := mkArel {
  r_lit : forall c, R (n_lit A c) (n_lit B c);
  r_add : forall a b x y, R a x -> R b y -> R (n_add A a b) (n_add B x y);
  r_sub : forall a b x y, R a x -> R b y -> R (n_sub A a b) (n_sub B x y);
  r_mul : forall a b x y, R a x -> R b y -> R (n_mul A a b) (n_mul B x y);
  r_div : forall a b x y, R a x -> R b y -> R (n_div A a b) (n_div B x y);
  r_sin : forall a x, R a x -> R (n_sin A a) (n_sin B x);
  r_cos : forall a x, R a x -> R (n_cos A a) (n_cos B x);
  r_floor : forall a x k, R a x -> n_floor A a = Ok k -> n_floor B x = Ok k;
  r_ltb : forall a b x y k, R a x -> R b y -> n_ltb A a b = Ok k -> n_ltb B x y = Ok k
}.
Hypothesis H : arel.
Definition rr {X Y} (S : X -> Y -> Prop) (a : res X) (b : res Y) : Prop := forall u, a = Ok u -> exists w, b = Ok w /\ S u w.
Lemma rr_ok {X Y} (S : X -> Y -> Prop) u w : S u w -> rr S (Ok u) (Ok w).
Proof. intros Q u' E. injection E as <-. eauto. Qed.
Lemma rr_bind {X Y X' Y'} (S : X -> Y -> Prop) (S' : X' -> Y' -> Prop) a b f g :
  rr S a b -> (forall u w, S u w -> rr S' (f u) (g w)) -> rr S' (bind a f) (bind b g).
Proof. intros Q1 Q2 u E. apply bind_ok in E. destruct E as (x & E1 & E2). destruct (Q1 x E1) as (w & -> & Sw). cbn [bind]. exact (Q2 x w Sw u E2). Qed.
Lemma rr_floor a x : R a x -> rr eq (n_floor A a) (n_floor B x).
Proof. intros Q k E. exists k. split; [exact (r_floor H _ _ _ Q E)|reflexivity]. Qed.
Lemma rr_ltb a b x y : R a x -> R b y -> rr eq (n_ltb A a b) (n_ltb B x y).
Proof. intros Q1 Q2 k E. exists k. split; [exact (r_ltb H _ _ _ _ _ Q1 Q2 E)|reflexivity]. Qed.
Ltac ops := first [assumption | apply (r_lit H) | apply (r_add H) | apply (r_sub H) | apply (r_mul H) | apply (r_div H) | apply (r_sin H) | apply (r_cos H)].
Ltac go := repeat ops.
Lemma l_nZ z : R (n_Z A z) (n_Z B z). Proof. apply (r_lit H). Qed.
Lemma l_ev a x : R a x -> R (ev A a) (ev B x). Proof. intros Q0. unfold ev. go. Qed.
Lemma l_mv a x : R a x -> R (mv A a) (mv B x). Proof. intros Q0. unfold mv. go. Qed.
Lemma l_gxc a x : R a x -> R (gxcSunLon A a) (gxcSunLon B x). Proof. intros Q0. unfold gxcSunLon. go. Qed.
Lemma l_dtExt a x j : R a x -> R (dtExt A a j) (dtExt B x j). Proof. intros Q0. unfold dtExt. pose proof (l_nZ j). go. Qed.
Lemma l_qiLow a x : R a x -> R (qiLow A a) (qiLow B x). Proof. intros Q0. unfold qiLow. go. Qed.
Lemma l_shuoLow a x : R a x -> R (shuoLow A a) (shuoLow B x). Proof. intros Q0. unfold shuoLow. go. Qed.
Lemma l_nut a x : R a x -> R (nutationLon2 A a) (nutationLon2 B x).
Proof.
  intros Q0. unfold nutationLon2. cbv zeta. apply (r_div H); [|apply (r_lit H)]. apply (r_div H); [|apply (r_lit H)].
  assert (G : forall l first u w, R u w ->
    R (snd (fold_left (fun '(first, dl) '(c0, c1, c2, c3, _) => let a0 := if first : bool then n_mul A (n_lit A (-1.742)%float) a else n_lit A 0%float in
      (false, n_add A dl (n_mul A (n_add A (n_lit A c3) a0) (n_sin A (n_add A (n_add A (n_lit A c0) (n_mul A (n_lit A c1) a)) (n_mul A (n_lit A c2) (n_mul A a a))))))) l (first, u)))
      (snd (fold_left (fun '(first, dl) '(c0, c1, c2, c3, _) => let a0 := if first : bool then n_mul B (n_lit B (-1.742)%float) x else n_lit B 0%float in
      (false, n_add B dl (n_mul B (n_add B (n_lit B c3) a0) (n_sin B (n_add B (n_add B (n_lit B c0) (n_mul B (n_lit B c1) x)) (n_mul B (n_lit B c2) (n_mul B x x))))))) (l : list (float * float * float * float * float)) (first, w)))).
  { induction l as [|[[[[c0 c1] c2] c3] c4] l IH]; intros first u w Q2; cbn [fold_left]; [exact Q2|]. apply IH. cbv zeta. destruct first; go. }
  apply G. apply (r_lit H).
Qed.
Lemma l_row a x rows y_end : R a x -> rr R (dtCalc_row A a rows y_end) (dtCalc_row B x rows y_end).
Proof.
  intros Q0. induction rows as [|[[[[r0 r1] r2] r3] r4] rows IH]; cbn [dtCalc_row]; [intros ? E; discriminate|].
  apply (rr_bind eq); [apply rr_ltb; go|]. intros b b' <-. destruct b; [|exact IH]. apply rr_ok. go.
Qed.
Lemma l_dtCalc a x : R a x -> rr R (dtCalc A a) (dtCalc B x).
Proof.
  intros Q0. unfold dtCalc. cbv zeta. apply (rr_bind eq); [apply rr_ltb; go|]. intros b b' <-. destruct b; cbn [negb]; [now apply l_row|].
  apply (rr_bind eq); [apply rr_ltb; go|]. intros c c' <-. destruct c; apply rr_ok; [now apply l_dtExt|].
  pose proof (l_dtExt _ _ 31 Q0). pose proof (l_dtExt _ _ 31 (r_lit H 2028%float)). go.
Qed.
Lemma l_dtT a x : R a x -> rr R (dtT A a) (dtT B x).
Proof. intros Q0. unfold dtT. apply (rr_bind R); [apply l_dtCalc; go|]. intros u w Q. apply rr_ok. go. Qed.
Lemma l_near a x s : R a x -> rr eq (near_midnight A a s) (near_midnight B x s).
Proof.
  intros Q0. unfold near_midnight. apply (rr_bind R).
  - unfold n_mod1. apply (rr_bind eq); [apply rr_floor; go|]. intros k k' <-. apply rr_ok. pose proof (l_nZ k). go.
  - intros f f' Q1. cbv zeta. apply (rr_bind eq); [apply rr_ltb; go|]. intros b b' <-. destruct b; [now apply rr_ok|]. apply rr_ltb; go.
Qed.
(** *** The series *)
Definition R6 (r : nrow6 A) (s : row6) : Prop :=
  let '(a, b, c, d, e, f) := r in let '(x, y, z, t, u, v) := s in R a (n_lit B x) /\ R b (n_lit B y) /\ R c (n_lit B z) /\ R d (n_lit B t) /\ R e (n_lit B u) /\ R f (n_lit B v).
Definition R3 (r : nrow3 A) (s : row3) : Prop := let '(a, b, c) := r in let '(x, y, z) := s in R a (n_lit B x) /\ R b (n_lit B y) /\ R c (n_lit B z).
Lemma R6_lit l : Forall2 (Forall2 R6) (map (map (lit6 A)) l) l.
Proof.
  induction l as [|r l IH]; cbn [map]; constructor; [|exact IH]. clear IH. induction r as [|[[[[[a b] c] d] e] f] r IH]; cbn [map]; constructor; [|exact IH]. cbn. repeat split; apply (r_lit H).
Qed.
Lemma R3_lit l : Forall2 (Forall2 R3) (map (map (lit3 A)) l) l.
Proof.
  induction l as [|r l IH]; cbn [map]; constructor; [|exact IH]. clear IH. induction r as [|[[a b] c] r IH]; cbn [map]; constructor; [|exact IH]. cbn. repeat split; apply (r_lit H).
Qed.
Lemma l_mrow l l' t t2 t3 t4 x x2 x3 x4 : Forall2 R6 l l' -> R t x -> R t2 x2 -> R t3 x3 -> R t4 x4 -> forall c c', R c c' ->
  R (fold_left (fun c '(f0, f1, f2, f3, f4, f5) => n_add A c (n_mul A f0 (n_cos A (n_add A (n_add A (n_add A (n_add A f1 (n_mul A t f2)) (n_mul A t2 f3)) (n_mul A t3 f4)) (n_mul A t4 f5))))) l c)
    (fold_left (fun c '(f0, f1, f2, f3, f4, f5) => n_add B c (n_mul B (n_lit B f0) (n_cos B (n_add B (n_add B (n_add B (n_add B (n_lit B f1) (n_mul B x (n_lit B f2))) (n_mul B x2 (n_lit B f3))) (n_mul B x3 (n_lit B f4))) (n_mul B x4 (n_lit B f5)))))) l' c').
Proof.
  intros F Q1 Q2 Q3 Q4. induction F as [|[[[[[a b] c] d] e] f] [[[[[a' b'] c'] d'] e'] f'] l l' P F IH]; intros u w Q; cbn [fold_left]; [exact Q|].
  apply IH. cbn in P. destruct P as (? & ? & ? & ? & ? & ?). go.
Qed.
Lemma l_erow l l' t x : Forall2 R3 l l' -> R t x -> forall c c', R c c' ->
  R (fold_left (fun c '(x0, x1, x2) => n_add A c (n_mul A x0 (n_cos A (n_add A x1 (n_mul A t x2))))) l c)
    (fold_left (fun c '(x0, x1, x2) => n_add B c (n_mul B (n_lit B x0) (n_cos B (n_add B (n_lit B x1) (n_mul B x (n_lit B x2)))))) l' c').
Proof.
  intros F Q1. induction F as [|[[a b] c] [[a' b'] c'] l l' P F IH]; intros u w Q; cbn [fold_left]; [exact Q|].
  apply IH. cbn in P. destruct P as (? & ? & ?). go.
Qed.
Lemma l_msec n obl ob : forall i rows ts t t2 t3 t4 v tn x x2 x3 x4 v' tn', mterms n i obl ob = Ok ts -> Forall2 (Forall2 R6) rows ts ->
  R t x -> R t2 x2 -> R t3 x3 -> R t4 x4 -> R v v' -> R tn tn' ->
  exists r, mLon_sections B n i obl ob x x2 x3 x4 v' tn' = Ok r /\ R (msum A rows t t2 t3 t4 v tn) r.
Proof.
  induction ob as [|f ob IH]; intros i rows ts t t2 t3 t4 v tn x x2 x3 x4 v' tn' E F Q1 Q2 Q3 Q4 Q5 Q6; cbn [mterms mLon_sections] in *.
  - apply Ok_inj in E. subst ts. inversion F; subst. cbn [msum]. eauto.
  - apply bind_ok in E. destruct E as (m & -> & E). apply bind_ok in E. destruct E as (r & Er & E). apply Ok_inj in E. subst ts. cbn [bind]. inversion F as [|l ? rows' ? Fl Fr]; subst. cbn [msum]. cbv zeta.
    eapply IH; try eassumption; [|go]. apply (r_add H); [assumption|]. apply (r_mul H); [|assumption]. apply l_mrow; try assumption. apply (r_lit H).
Qed.
Lemma l_esec n m0 offs : forall i rows ts t v tn x v' tn', eterms n i m0 offs = Ok ts -> Forall2 (Forall2 R3) rows ts -> R t x -> R v v' -> R tn tn' ->
  exists r, eLon_sections B n i m0 offs x v' tn' = Ok r /\ R (esum A rows t v tn) r.
Proof.
  induction offs as [|n1 offs IH]; intros i rows ts t v tn x v' tn' E F Q1 Q2 Q3.
  - cbn in *. apply Ok_inj in E. subst ts. inversion F; subst. cbn [esum]. eauto.
  - destruct offs as [|n2 offs]; [cbn in *; apply Ok_inj in E; subst ts; inversion F; subst; cbn [esum]; eauto|].
    remember (n2 :: offs) as rest eqn:Er. assert (E' : (if i =? 6 then Ok [] else if n2 - n1 =? 0 then eterms n (i + 1) m0 rest else
      let! m := eLon_m n i n1 n2 m0 in let! r := eterms n (i + 1) m0 rest in Ok (XL0_terms n1 m :: r)) = Ok ts) by (rewrite <- E, Er; reflexivity).
    assert (G : eLon_sections B n i m0 (n1 :: rest) x v' tn' = (if i =? 6 then Ok v' else if n2 - n1 =? 0 then eLon_sections B n (i + 1) m0 rest x v' tn' else
      let! m := eLon_m n i n1 n2 m0 in
      let c := fold_left (fun c '(x0, x1, x2) => n_add B c (n_mul B (n_lit B x0) (n_cos B (n_add B (n_lit B x1) (n_mul B x (n_lit B x2)))))) (XL0_terms n1 m) (n_lit B 0%float) in
      eLon_sections B n (i + 1) m0 rest x (n_add B v' (n_mul B c tn')) (n_mul B tn' x))) by (rewrite Er; reflexivity).
    rewrite G. clear G E. destruct (i =? 6); [apply Ok_inj in E'; subst ts; inversion F; subst; cbn [esum]; eauto|].
    destruct (n2 - n1 =? 0); [exact (IH _ _ _ _ _ _ _ _ _ E' F Q1 Q2 Q3)|].
    apply bind_ok in E'. destruct E' as (m & -> & E'). apply bind_ok in E'. destruct E' as (r & Er' & E'). apply Ok_inj in E'. subst ts. cbn [bind]. cbv zeta.
    inversion F as [|l ? rows' ? Fl Fr]; subst. cbn [esum]. cbv zeta.
    eapply IH; try eassumption; [|go]. apply (r_add H); [assumption|]. apply (r_mul H); [|assumption]. apply l_erow; try assumption. apply (r_lit H).
Qed.
Lemma l_mF n rows ts t x : mterms (if n * 6 <? 0 then 2652 else n * 6) 0 2652 ShouXing_XL1 = Ok ts -> Forall2 (Forall2 R6) rows ts -> R t x -> rr R (mF A rows t) (mLon B x n).
Proof.
  intros E F Q0. unfold mF, mLon. cbv zeta. apply (rr_bind eq); [apply rr_ltb; go|]. intros b b' <-.
  match goal with |- rr R (Ok (n_div A (msum A rows t ?t2 ?t3 ?t4 ?v ?tn) _)) (let! _ := mLon_sections B _ _ _ _ _ ?x2 ?x3 ?x4 ?w ?tn' in _) =>
    destruct (l_msec _ _ _ _ _ _ t t2 t3 t4 v tn x x2 x3 x4 w tn' E F) as (r & -> & Qr); [go..| | |]; [destruct b; go|go|] end.
  cbn [bind]. apply rr_ok. go.
Qed.
Lemma l_eF n rows ts t x : eterms n 0 (578 - 20) ShouXing_XL0_OFFSETS = Ok ts -> Forall2 (Forall2 R3) rows ts -> R t x ->
  exists r, eLon B x n = Ok r /\ R (eF A rows t) r.
Proof.
  intros E F Q0. unfold eF, eLon. cbv zeta. assert (Q1 : R (n_div A t (n_lit A 10%float)) (n_div B x (n_lit B 10%float))) by go.
  destruct (l_esec _ _ _ _ _ _ _ _ _ _ _ _ E F Q1 (r_lit H 0%float) (r_lit H 1%float)) as (r & -> & Qr). cbn [bind]. eexists. split; [reflexivity|]. go.
Qed.
(** *** The new moon and the solar term *)
Definition RT6 (n : Z) (rows : list (list (nrow6 A))) : Prop := exists ts, mterms (if n * 6 <? 0 then 2652 else n * 6) 0 2652 ShouXing_XL1 = Ok ts /\ Forall2 (Forall2 R6) rows ts.
Definition RT3 (n : Z) (rows : list (list (nrow3 A))) : Prop := exists ts, eterms n 0 (578 - 20) ShouXing_XL0_OFFSETS = Ok ts /\ Forall2 (Forall2 R3) rows ts.
Record tabs_ok (T : tabs A) : Prop := mkTabsOk {
  t_m3 : RT6 3 (m3 A T); t_m20 : RT6 20 (m20 A T); t_mall : RT6 (-1) (mall A T);
  t_e3 : RT3 3 (e3 A T); t_e8 : RT3 8 (e8 A T); t_e10 : RT3 10 (e10 A T); t_e60 : RT3 60 (e60 A T); t_eall : RT3 (-1) (eall A T) }.
Lemma all_tabs_ok : tabs_ok (all_tabs A).
Proof.
  constructor; cbn [all_tabs m3 m20 mall e3 e8 e10 e60 eall]; (eexists; split; [|first [apply R6_lit|apply R3_lit]]); vm_compute; reflexivity.
Qed.
Lemma l_mF' n rows t x : RT6 n rows -> R t x -> rr R (mF A rows t) (mLon B x n).
Proof. intros (ts & E & F). now apply l_mF with ts. Qed.
Lemma l_eF' n rows t x : RT3 n rows -> R t x -> exists r, eLon B x n = Ok r /\ R (eF A rows t) r.
Proof. intros (ts & E & F). now apply l_eF with ts. Qed.
Variable T : tabs A.
Hypothesis HT : tabs_ok T.
Lemma l_saF n rows t x : RT3 n rows -> R t x -> exists r, saLon B x n = Ok r /\ R (saF A t rows) r.
Proof.
  intros F Q0. unfold saLon, saF. destruct (l_eF' _ _ _ _ F Q0) as (r & -> & Qr). cbn [bind]. eexists. split; [reflexivity|]. pose proof (l_nut _ _ Q0). pose proof (l_gxc _ _ Q0). go.
Qed.
Lemma l_saTF w x : R w x -> exists r, saLonT B x = Ok r /\ R (saTF A T w) r.
Proof.
  intros Q0. unfold saLonT, saTF. cbv zeta. set (t := n_div A _ _). set (t' := n_div B (n_sub B _ _) _). assert (Qt : R t t') by (subst t t'; go).
  destruct (l_saF _ _ _ _ (t_e10 T HT) Qt) as (r & -> & Qr). cbn [bind]. pose proof (l_ev _ _ Qt) as Qe.
  set (s := n_add A t _). set (s' := n_add B t' _). assert (Qs : R s s') by (subst s s'; go).
  destruct (l_saF _ _ _ _ (t_eall T HT) Qs) as (r2 & -> & Qr2). cbn [bind]. pose proof (l_ev _ _ Qs) as Qe2. eexists. split; [reflexivity|]. go.
Qed.
Lemma l_msaF n k m e t x : RT6 n m -> RT3 k e -> R t x -> rr R (msaF A t m e) (msaLon B x n k).
Proof.
  intros F1 F2 Q0. unfold msaF, msaLon. apply (rr_bind R); [now apply l_mF'|]. intros u w Qu. destruct (l_eF' _ _ _ _ F2 Q0) as (r & -> & Qr). cbn [bind]. cbv zeta. apply rr_ok. pose proof (l_gxc _ _ Q0). go.
Qed.
Lemma l_msaTF w x : R w x -> rr R (msaTF A T w) (msaLonT B x).
Proof.
  intros Q0. unfold msaTF, msaLonT. cbv zeta. set (t := n_div A (n_add A _ _) _). set (t' := n_div B (n_add B _ _) _). assert (Qt : R t t') by (subst t t'; go).
  apply (rr_bind R); [apply l_msaF; [apply (t_m3 T HT)|apply (t_e3 T HT)|exact Qt]|]. intros u u' Qu. cbv zeta.
  match goal with |- rr R (let! _ := msaF A ?a _ _ in _) (let! _ := msaLon B ?b _ _ in _) => set (s := a); set (s' := b) end. assert (Qs : R s s') by (subst s s'; go).
  apply (rr_bind R); [apply l_msaF; [apply (t_m20 T HT)|apply (t_e10 T HT)|exact Qs]|]. intros y y' Qy. cbv zeta. pose proof (l_mv _ _ Qs) as Qm. pose proof (l_ev _ _ Qs) as Qe.
  match goal with |- rr R (let! _ := msaF A ?a _ _ in _) (let! _ := msaLon B ?b _ _ in _) => set (z := a); set (z' := b) end. assert (Qz : R z z') by (subst z z'; go).
  apply (rr_bind R); [apply l_msaF; [apply (t_mall T HT)|apply (t_e60 T HT)|exact Qz]|]. intros q q' Qq. apply rr_ok. go.
Qed.
Lemma l_saT2F w x : R w x -> exists r, saLonT2 B x = Ok r /\ R (saT2F A T w) r.
Proof.
  intros Q0. unfold saLonT2, saT2F. cbv zeta. set (t := n_div A (n_sub A (n_sub A _ _) _) _). set (t' := n_div B (n_sub B (n_sub B _ _) _) _). assert (Qt : R t t') by (subst t t'; go).
  match goal with |- exists r, (let! _ := eLon B ?b _ in _) = _ /\ R (n_add A ?a _) _ => set (s := a); set (s' := b) end. assert (Qs : R s s') by (subst s s'; go).
  destruct (l_eF' _ _ _ _ (t_e8 T HT) Qs) as (r & -> & Qr). cbn [bind]. eexists. split; [reflexivity|]. go.
Qed.
Lemma l_msaT2F w x : R w x -> rr R (msaT2F A T w) (msaLonT2 B x).
Proof.
  intros Q0. unfold msaT2F, msaLonT2. cbv zeta. set (t := n_div A (n_add A _ _) _). set (t' := n_div B (n_add B _ _) _). assert (Qt : R t t') by (subst t t'; go).
  match goal with |- rr R (let! _ := mF A _ ?a in _) (let! _ := mLon B ?b _ in _) => set (s := a); set (s' := b) end. assert (Qs : R s s') by (subst s s'; go).
  apply (rr_bind R); [apply l_mF'; [apply (t_m20 T HT)|exact Qs]|]. intros m m' Qm. apply rr_ok. go.
Qed.
Lemma l_qiHigh w x : R w x -> rr R (qiHighF A T w) (qiHigh B x).
Proof.
  intros Q0. unfold qiHighF, qiHigh. destruct (l_saT2F _ _ Q0) as (r & -> & Qr). cbn [bind]. cbv zeta. set (t := n_mul A (saT2F A T w) _). set (t' := n_mul B r _). assert (Qt : R t t') by (subst t t'; go).
  apply (rr_bind R); [now apply l_dtT|]. intros d d' Qd. cbv zeta. set (s := n_add A (n_sub A t d) _). set (s' := n_add B (n_sub B t' d') _). assert (Qs : R s s') by (subst s s'; go).
  apply (rr_bind eq); [now apply l_near|]. intros b b' <-. destruct b; [|now apply rr_ok]. destruct (l_saTF _ _ Q0) as (q & -> & Qq). cbn [bind].
  apply (rr_bind R); [now apply l_dtT|]. intros d2 d2' Qd2. apply rr_ok. go.
Qed.
Lemma l_shuoHigh w x : R w x -> rr R (shuoHighF A T w) (shuoHigh B x).
Proof.
  intros Q0. unfold shuoHighF, shuoHigh. apply (rr_bind R); [now apply l_msaT2F|]. intros r r' Qr. cbv zeta. set (t := n_mul A r _). set (t' := n_mul B r' _). assert (Qt : R t t') by (subst t t'; go).
  apply (rr_bind R); [now apply l_dtT|]. intros d d' Qd. cbv zeta. set (s := n_add A (n_sub A t d) _). set (s' := n_add B (n_sub B t' d') _). assert (Qs : R s s') by (subst s s'; go).
  apply (rr_bind eq); [now apply l_near|]. intros b b' <-. destruct b; [|now apply rr_ok]. apply (rr_bind R); [now apply l_msaTF|]. intros q q' Qq.
  apply (rr_bind R); [now apply l_dtT|]. intros d2 d2' Qd2. apply rr_ok. go.
Qed.
Lemma l_half a x : R a x -> rr eq (half_floor A a) (half_floor B x).
Proof. intros Q. unfold half_floor. apply rr_floor. go. Qed.
End LIFT.

(** ** The tables of corrections, as trees *)
Inductive trie := Leaf | Node (x : option Z) (l r : trie).
Fixpoint tput (p : positive) (c : Z) (t : trie) : trie :=
  match p with
  | xH => match t with Leaf => Node (Some c) Leaf Leaf | Node _ l r => Node (Some c) l r end
  | xO q => match t with Leaf => Node None (tput q c Leaf) Leaf | Node x l r => Node x (tput q c l) r end
  | xI q => match t with Leaf => Node None Leaf (tput q c Leaf) | Node x l r => Node x l (tput q c r) end
  end.
Fixpoint tget (p : positive) (t : trie) : option Z :=
  match p, t with
  | _, Leaf => None
  | xH, Node x _ _ => x
  | xO q, Node _ l _ => tget q l
  | xI q, Node _ _ r => tget q r
  end.
Definition tfind (z : Z) (t : trie) : option Z := match (z + 1)%Z with Zpos p => tget p t | _ => None end.
(** the change made by one character of the table *)
Definition delta (c : Z) : Z := if str_eqb (lit "1") [c] then 1 else if str_eqb (lit "2") [c] then -1 else 0.
Fixpoint tbuild (p : positive) (s : str) : trie := match s with [] => Leaf | c :: s => tput p (delta c) (tbuild (Pos.succ p) s) end.
Lemma tget_put q p c t : tget q (tput p c t) = if Pos.eqb q p then Some c else tget q t.
Proof.
  revert q t. induction p as [p IH|p IH|]; intros [q|q|] [|x l r]; cbn [tput tget Pos.eqb]; try reflexivity; try (rewrite IH; destruct (Pos.eqb q p); destruct q; reflexivity); try (destruct q; reflexivity); apply IH.
Qed.
Lemma tbuild_ok s : forall p q d, tget q (tbuild p s) = Some d -> exists n c, nth_error s n = Some c /\ d = delta c /\ Zpos q = Zpos p + Z.of_nat n.
Proof.
  induction s as [|c s IH]; intros p q d E; [destruct q; discriminate|]. cbn [tbuild] in E. rewrite tget_put in E. destruct (Pos.eqb_spec q p) as [->|N].
  - injection E as <-. exists 0%nat, c. repeat split.
  - destruct (IH _ _ _ E) as (n & c' & En & Ed & Eq). exists (S n), c'. repeat split; [exact En|exact Ed|lia].
Qed.
Definition SBT : trie := Eval vm_compute in tbuild 1 SB.
Definition QBT : trie := Eval vm_compute in tbuild 1 QB.
Lemma SBT_eq : SBT = tbuild 1 SB. Proof. vm_compute. reflexivity. Qed.
Lemma QBT_eq : QBT = tbuild 1 QB. Proof. vm_compute. reflexivity. Qed.
Lemma skipn_cons {X} (l : list X) n c : nth_error l n = Some c -> exists l', skipn n l = c :: l'.
Proof. revert l. induction n as [|n IH]; intros [|a l] E; try discriminate; cbn in *; [injection E as <-; eauto|now apply IH]. Qed.
Lemma correct_trie d s z k : tfind z (tbuild 1 s) = Some k -> correct d s z = d + k.
Proof.
  unfold tfind. destruct (z + 1) as [|p|p] eqn:Ez; try discriminate. intros E. destruct (tbuild_ok _ _ _ _ E) as (n & c & En & -> & Eq).
  assert (z = Z.of_nat n) as -> by lia. assert (L : (n < List.length s)%nat) by (apply nth_error_Some; congruence).
  destruct (skipn_cons _ _ _ En) as (l' & El). unfold correct, slice, clamp. cbv zeta.
  replace (Z.of_nat n <? 0) with false by lia. replace (Z.of_nat n + 1 <? 0) with false by lia.
  rewrite !Z.min_l by lia. rewrite Nat2Z.id, El. replace (Z.to_nat (Z.of_nat n + 1 - Z.of_nat n)) with 1%nat by lia. cbn [firstn]. unfold delta.
  destruct (str_eqb _ _); [lia|]. destruct (str_eqb _ _); lia.
Qed.

(** ** Certified days *)
Definition crow6 : Type := cert * cert * cert * cert * cert * cert.
Definition crow3 : Type := cert * cert * cert.
Definition c6 (r : row6) : crow6 := let '(a, b, c, d, e, f) := r in (cc_lit a, cc_lit b, cc_lit c, cc_lit d, cc_lit e, cc_lit f).
Definition c3 (r : row3) : crow3 := let '(a, b, c) := r in (cc_lit a, cc_lit b, cc_lit c).
Definition M3c : list (list crow6) := Eval vm_compute in map (map c6) M3.
Definition M20c : list (list crow6) := Eval vm_compute in map (map c6) M20.
Definition MALLc : list (list crow6) := Eval vm_compute in map (map c6) MALL.
Definition EL3c : list (list crow3) := Eval vm_compute in map (map c3) EL3.
Definition EL8c : list (list crow3) := Eval vm_compute in map (map c3) EL8.
Definition EL10c : list (list crow3) := Eval vm_compute in map (map c3) EL10.
Definition EL60c : list (list crow3) := Eval vm_compute in map (map c3) EL60.
Definition ELALLc : list (list crow3) := Eval vm_compute in map (map c3) ELALL.
Lemma M3c_eq : map (map c6) M3 = M3c. Proof. vm_cast_no_check (eq_refl M3c). Qed.
Lemma M20c_eq : map (map c6) M20 = M20c. Proof. vm_cast_no_check (eq_refl M20c). Qed.
Lemma MALLc_eq : map (map c6) MALL = MALLc. Proof. vm_cast_no_check (eq_refl MALLc). Qed.
Lemma EL3c_eq : map (map c3) EL3 = EL3c. Proof. vm_cast_no_check (eq_refl EL3c). Qed.
Lemma EL8c_eq : map (map c3) EL8 = EL8c. Proof. vm_cast_no_check (eq_refl EL8c). Qed.
Lemma EL10c_eq : map (map c3) EL10 = EL10c. Proof. vm_cast_no_check (eq_refl EL10c). Qed.
Lemma EL60c_eq : map (map c3) EL60 = EL60c. Proof. vm_cast_no_check (eq_refl EL60c). Qed.
Lemma ELALLc_eq : map (map c3) ELALL = ELALLc. Proof. vm_cast_no_check (eq_refl ELALLc). Qed.
Definition cert_tabs : tabs cert_arith := mkTabs cert_arith M3c M20c MALLc EL3c EL8c EL10c EL60c ELALLc.
Lemma cert_tabs_eq : cert_tabs = all_tabs cert_arith.
Proof.
  unfold cert_tabs. rewrite <- M3c_eq, <- M20c_eq, <- MALLc_eq, <- EL3c_eq, <- EL8c_eq, <- EL10c_eq, <- EL60c_eq, <- ELALLc_eq.
  unfold all_tabs. change (lit6 cert_arith) with c6. change (lit3 cert_arith) with c3. reflexivity.
Qed.
Definition of_opt {X} (o : option X) : res X := match o with Some x => Ok x | None => Raise ExcType end.
Definition cShuo (jd : float) : res Z :=
  (let pc := 14 in
  let jd := jd + 2451545 in
  let f1 := 1457698.231017 - pc in
  let f2 := SHUO_END - pc in
  let f3 := 2436935 in
  if (jd <? f1) || (f3 <=? jd) then
    let! w := shuo_w jd in
    let! t := shuoHighF cert_arith cert_tabs (cc_lit w) in
    half_floor cert_arith t
  else if (f1 <=? jd) && (jd <? f2) then kb_day (jd + pc) SHUO_ROWS SHUO_END
  else if (f2 <=? jd) && (jd <? f3) then
    let! w := shuo_w jd in
    let! d := half_floor cert_arith (shuoLow cert_arith (cc_lit w)) in
    let! index := py_floor ((jd - f2) / 29.5306) in
    let! k := of_opt (tfind index SBT) in
    Ok (d + k)%Z
  else Ok 0%Z)%float.
Definition cQi (jd : float) : res Z :=
  (let pc := 7 in
  let jd := jd + 2451545 in
  let f1 := 1640650.479938 - pc in
  let f2 := QI_END - pc in
  let f3 := 2436935 in
  if (jd <? f1) || (f3 <=? jd) then
    let! w := qi_w jd in
    let! t := qiHighF cert_arith cert_tabs (cc_lit w) in
    half_floor cert_arith t
  else if (f1 <=? jd) && (jd <? f2) then kb_day (jd + pc) QI_ROWS QI_END
  else if (f2 <=? jd) && (jd <? f3) then
    let! w := qi_w jd in
    let! d := half_floor cert_arith (qiLow cert_arith (cc_lit w)) in
    let! index := py_floor ((jd - f2) / 365.2422 * 24) in
    let! k := of_opt (tfind index QBT) in
    Ok (d + k)%Z
  else Ok 0%Z)%float.
Definition cert_sky : Sky := mkSky cQi cShuo (fun _ => Raise ExcType).

Section LIB.
Variables fsin fcos : float -> float.
Hypothesis lib : libm fsin fcos.
Local Notation FA := (float_arith fsin fcos).
Lemma cert_rel : arel cert_arith FA rel.
Proof.
  constructor; cbn.
  - exact lit_ok.
  - exact cc_add_ok.
  - exact cc_sub_ok.
  - exact cc_mul_ok.
  - exact cc_div_ok.
  - exact (cc_sin_ok fsin fcos lib).
  - exact (cc_cos_ok fsin fcos lib).
  - exact cc_floor_ok.
  - intros a b x y k Q1 Q2 E. f_equal. exact (cc_ltb_ok a b x y k Q1 Q2 E).
Qed.
Lemma cert_tabs_ok : tabs_ok cert_arith FA rel cert_tabs.
Proof. rewrite cert_tabs_eq. apply all_tabs_ok. exact cert_rel. Qed.
Lemma rr_eq {X} (a b : res X) u : rr eq a b -> a = Ok u -> b = Ok u.
Proof. intros Q E. destruct (Q u E) as (w & -> & ->). reflexivity. Qed.
Theorem cShuo_ok jd k : cShuo jd = Ok k -> calcShuo FA jd = Ok k.
Proof.
  apply rr_eq. unfold cShuo, calcShuo. cbv zeta. destruct (_ || _).
  - apply (rr_bind eq); [now intros u ->; eauto|]. intros w w' <-. apply (rr_bind rel).
    + apply (l_shuoHigh _ _ _ cert_rel _ cert_tabs_ok). apply lit_ok.
    + intros u x Q. now apply (l_half _ _ _ cert_rel).
  - destruct (_ && _); [now intros u ->; eauto|]. destruct (_ && _); [|now intros u ->; eauto].
    apply (rr_bind eq); [now intros u ->; eauto|]. intros w w' <-. apply (rr_bind eq).
    + apply (l_half _ _ _ cert_rel). apply (l_shuoLow _ _ _ cert_rel). apply lit_ok.
    + intros d d' <-. apply (rr_bind eq); [now intros u ->; eauto|]. intros z z' <-. intros r E. apply bind_ok in E. destruct E as (k' & E & Er). apply Ok_inj in Er. subst r.
      eexists. split; [reflexivity|]. destruct (tfind z SBT) eqn:Ef; [|discriminate]. apply Ok_inj in E. subst k'. rewrite SBT_eq in Ef. symmetry. now apply correct_trie.
Qed.
Theorem cQi_ok jd k : cQi jd = Ok k -> calcQi FA jd = Ok k.
Proof.
  apply rr_eq. unfold cQi, calcQi. cbv zeta. destruct (_ || _).
  - apply (rr_bind eq); [now intros u ->; eauto|]. intros w w' <-. apply (rr_bind rel).
    + apply (l_qiHigh _ _ _ cert_rel _ cert_tabs_ok). apply lit_ok.
    + intros u x Q. now apply (l_half _ _ _ cert_rel).
  - destruct (_ && _); [now intros u ->; eauto|]. destruct (_ && _); [|now intros u ->; eauto].
    apply (rr_bind eq); [now intros u ->; eauto|]. intros w w' <-. apply (rr_bind eq).
    + apply (l_half _ _ _ cert_rel). apply (l_qiLow _ _ _ cert_rel). apply lit_ok.
    + intros d d' <-. apply (rr_bind eq); [now intros u ->; eauto|]. intros z z' <-. intros r E. apply bind_ok in E. destruct E as (k' & E & Er). apply Ok_inj in Er. subst r.
      eexists. split; [reflexivity|]. destruct (tfind z QBT) eqn:Ef; [|discriminate]. apply Ok_inj in E. subst k'. rewrite QBT_eq in Ef. symmetry. now apply correct_trie.
Qed.
Lemma mapM_mono {X Y} (f g : X -> res Y) l r : (forall x y, f x = Ok y -> g x = Ok y) -> mapM f l = Ok r -> mapM g l = Ok r.
Proof.
  intros Q. revert r. induction l as [|x l IH]; intros r E; cbn [mapM] in *; [exact E|]. apply bind_ok in E. destruct E as (y & E1 & E). apply bind_ok in E. destruct E as (ys & E2 & E).
  rewrite (Q _ _ E1). cbn [bind]. rewrite (IH _ E2). exact E.
Qed.
Theorem cert_jq y jq : compute_jq cert_sky y = Ok jq -> compute_jq (shouxing fsin fcos) y = Ok jq.
Proof.
  unfold compute_jq, compute_start. cbn [sky_qi cert_sky shouxing]. intros E. apply bind_ok in E. destruct E as (w & E1 & E2).
  apply bind_ok in E1. destruct E1 as (a & -> & E1). cbn [bind]. apply bind_ok in E1. destruct E1 as (b & -> & E1). cbn [bind]. apply bind_ok in E1. destruct E1 as (c & -> & E1). cbn [bind].
  apply bind_ok in E1. destruct E1 as (q & Eq & E1). rewrite (cQi_ok _ _ Eq). cbn [bind]. apply Ok_inj in E1. rewrite E1. cbn [bind].
  revert E2. apply mapM_mono. intros x k. apply cQi_ok.
Qed.
Theorem cert_hs jq hs : compute_hs cert_sky jq = Ok hs -> compute_hs (shouxing fsin fcos) jq = Ok hs.
Proof.
  unfold compute_hs. cbn [sky_shuo cert_sky shouxing]. intros E. apply bind_ok in E. destruct E as (q & -> & E). cbn [bind].
  apply bind_ok in E. destruct E as (w & Ew & E). rewrite (cShuo_ok _ _ Ew). cbn [bind]. revert E. apply mapM_mono. intros x k. apply cShuo_ok.
Qed.
End LIB.
Definition cert_months (y : Z) : list LMonth :=
  match (let! jq := compute_jq cert_sky y in let! hs := compute_hs cert_sky jq in compute_months y hs jq) with Ok l => l | Raise _ => [] end.
