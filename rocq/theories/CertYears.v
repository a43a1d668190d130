(** The month tables of the years 19 to 2999, the same for every C library that meets [libm]: those of 0 to 616 do not depend on
    it, those of 615 to 2999 are decided by the error bounds carried along in [cert_months]. *)
From Coq Require Import ZArith Lia Bool ZifyBool List Floats.
From Verif Require Import Py PyFloat CalSpec DayNo Solar SolarProofs ShouXing FloatExpr Trig SunLon SunTerm Cert CertSky CertTerms CertZhong LunarYear Lunar LunarProofs YearProofs CalProofs CalCheck P_LunarYears.
Import ListNotations.
Open Scope Z_scope.

(** [check] year by year *)
Definition checked (f : Z -> list LMonth) (lo hi : Z) : Prop := forall y, lo <= y <= hi ->
  tableb y (f y) = true /\ forallb (fun a => if usual_length a then not_ahead a else false) (f y) = true /\
  (y + 1 <= hi -> alignb (f y) (f (y + 1)) = true /\ ownb y (f y) (f (y + 1)) = true) /\ (y + 2 <= hi -> apart (f y) (f (y + 2)) = true).
Lemma map_nth_z (f : Z -> list LMonth) lo hi y : lo <= y < hi -> nth (Z.to_nat (y - lo)) (map f (zrange lo hi)) [] = f y.
Proof.
  intros H. rewrite (nth_indep _ [] (f 0)) by (rewrite map_length, zrange_length; lia). rewrite map_nth, zrange_nth by lia. f_equal. lia.
Qed.
Lemma check_checked f lo hi : check lo (map f (zrange lo (hi + 1))) = true -> checked f lo hi.
Proof.
  intros H y Hy. pose proof (check_calb _ _ H) as Cb.
  assert (L : List.length (map f (zrange lo (hi + 1))) = Z.to_nat (hi + 1 - lo)) by (rewrite map_length, zrange_length; reflexivity).
  destruct (calb_nth _ _ Cb (Z.to_nat (y - lo)) ltac:(lia)) as (T & A & P). cbv zeta in T, A, P. rewrite map_nth_z in T, A, P by lia.
  replace (lo + Z.of_nat (Z.to_nat (y - lo))) with y in * by lia. split; [exact T|]. split; [|split].
  - unfold check in H. rewrite Cb in H. rewrite forallb_forall in H. apply H. apply in_map.
    replace y with (nth (Z.to_nat (y - lo)) (zrange lo (hi + 1)) 0) by (rewrite zrange_nth; lia). apply nth_In. rewrite zrange_length. lia.
  - intros Hy1. replace (S (Z.to_nat (y - lo))) with (Z.to_nat (y + 1 - lo)) in A by lia. rewrite map_nth_z in A by lia. apply A. lia.
  - intros Hy2. replace (S (S (Z.to_nat (y - lo)))) with (Z.to_nat (y + 2 - lo)) in P by lia. rewrite map_nth_z in P by lia. apply P. lia.
Qed.
Lemma checked_calb f n : forall lo, checked f lo (lo + Z.of_nat n - 1) -> calb lo (map f (zseq lo n)) = true.
Proof.
  induction n as [|n IH]; intros lo H; [reflexivity|]. cbn [zseq map calb]. destruct (H lo ltac:(lia)) as (T & _ & A & P).
  rewrite IH by (intros y Hy; destruct (H y ltac:(lia)) as (T' & U' & A' & P'); repeat split; try assumption; intros; [apply A'|apply A'|apply P']; lia).
  rewrite T. cbn [andb]. rewrite andb_true_r. destruct n as [|[|n]]; [reflexivity| |]; cbn [zseq map].
  - destruct A as [A1 A2]; [lia|]. rewrite A1, A2. reflexivity.
  - destruct A as [A1 A2]; [lia|]. rewrite A1, A2. replace (lo + 1 + 1) with (lo + 2) by lia. rewrite P by lia. reflexivity.
Qed.
Lemma checked_check f lo hi : checked f lo hi -> lo <= hi -> check lo (map f (zrange lo (hi + 1))) = true.
Proof.
  intros H L. unfold check. replace (calb lo (map f (zrange lo (hi + 1)))) with true.
  - apply forallb_forall. intros ms I. apply in_map_iff in I. destruct I as (y & <- & I). apply (In_nth _ _ 0) in I. destruct I as (i & Hi & E).
    rewrite zrange_length in Hi. rewrite zrange_nth in E by exact Hi. destruct (H y ltac:(lia)) as (_ & U & _). exact U.
  - symmetry. unfold zrange. apply checked_calb. replace (lo + Z.of_nat (Z.to_nat (hi + 1 - lo)) - 1) with hi by lia. exact H.
Qed.
Lemma checked_glue f a b c d : checked f a b -> checked f c d -> a <= c -> c + 1 <= b -> checked f a d.
Proof.
  intros H G L1 L2 y Hy. destruct (Z.lt_ge_cases (b - 2) y) as [B|B].
  - destruct (G y ltac:(lia)) as (T & U & A & P). auto.
  - destruct (H y ltac:(lia)) as (T & U & A & P). repeat split; try assumption; intros; [apply A|apply A|apply P]; lia.
Qed.
Lemma checked_ext f g lo hi : (forall y, lo <= y <= hi -> f y <> [] -> g y = f y) -> checked f lo hi -> checked g lo hi.
Proof.
  intros E H.
  assert (E' : forall y, lo <= y <= hi -> g y = f y).
  { intros y Hy. apply E; [exact Hy|]. destruct (H y Hy) as [T _]. destruct (f y); [discriminate T|discriminate]. }
  intros y Hy. destruct (H y Hy) as (T & U & A & P). rewrite E' by exact Hy. repeat split; try assumption; intros; rewrite E' by lia; [apply A|apply A|apply P]; lia.
Qed.

(** from 1646 on also the places of the terms, with the same tables *)
Fixpoint zhongs (y : Z) (l : list (list LMonth)) : bool := match l with
  | [] => true
  | ms :: l' => if (if y <? 1646 then true else zhong_ok y ms) then zhongs (y + 1) l' else false
  end.
Definition both (y : Z) (l : list (list LMonth)) : bool := if check y l then zhongs y l else false.
Lemma both_check y l : both y l = true -> check y l = true.
Proof. unfold both. now destruct (check y l). Qed.
Lemma zhongs_nth f n : forall lo y, zhongs lo (map f (zseq lo n)) = true -> lo <= y < lo + Z.of_nat n -> 1646 <= y -> zhong_ok y (f y) = true.
Proof.
  induction n as [|n IH]; intros lo y H Hy Hm; [lia|]. cbn [zseq map zhongs] in H. destruct (if lo <? 1646 then true else zhong_ok lo (f lo)) eqn:E; [|discriminate].
  destruct (Z.eq_dec y lo) as [->|N]; [|apply (IH (lo + 1)); [exact H|lia|exact Hm]]. replace (lo <? 1646) with false in E by lia. exact E.
Qed.
Lemma both_zhong f lo hi : both lo (map f (zrange lo (hi + 1))) = true -> forall y, lo <= y <= hi -> 1646 <= y -> zhong_ok y (f y) = true.
Proof. unfold both. destruct (check _ _); [|discriminate]. intros H y Hy Hm. apply (zhongs_nth f _ lo y H); [lia|exact Hm]. Qed.

Lemma c615 : check 615 (map cert_months (zrange 615 (1000 + 1))) = true.
Proof. vm_cast_no_check (eq_refl true). Qed.
Lemma c999 : check 999 (map cert_months (zrange 999 (1400 + 1))) = true.
Proof. vm_cast_no_check (eq_refl true). Qed.
Lemma c1399 : both 1399 (map cert_months (zrange 1399 (1700 + 1))) = true.
Proof. vm_cast_no_check (eq_refl true). Qed.
Lemma c1699 : both 1699 (map cert_months (zrange 1699 (1960 + 1))) = true.
Proof. vm_cast_no_check (eq_refl true). Qed.
Lemma c1959 : both 1959 (map cert_months (zrange 1959 (2200 + 1))) = true.
Proof. vm_cast_no_check (eq_refl true). Qed.
Lemma c2199 : both 2199 (map cert_months (zrange 2199 (2500 + 1))) = true.
Proof. vm_cast_no_check (eq_refl true). Qed.
Lemma c2499 : both 2499 (map cert_months (zrange 2499 (2750 + 1))) = true.
Proof. vm_cast_no_check (eq_refl true). Qed.
Lemma c2749 : both 2749 (map cert_months (zrange 2749 (2999 + 1))) = true.
Proof. vm_cast_no_check (eq_refl true). Qed.
Lemma cert_checked : checked cert_months 615 2999.
Proof.
  pose proof (check_checked _ _ _ c615) as H1. pose proof (check_checked _ _ _ c999) as H2. pose proof (check_checked _ _ _ (both_check _ _ c1399)) as H3. pose proof (check_checked _ _ _ (both_check _ _ c1699)) as H4.
  pose proof (check_checked _ _ _ (both_check _ _ c1959)) as H5. pose proof (check_checked _ _ _ (both_check _ _ c2199)) as H6. pose proof (check_checked _ _ _ (both_check _ _ c2499)) as H7. pose proof (check_checked _ _ _ (both_check _ _ c2749)) as H8.
  pose proof (checked_glue _ _ _ _ _ H1 H2 ltac:(lia) ltac:(lia)) as G2. pose proof (checked_glue _ _ _ _ _ G2 H3 ltac:(lia) ltac:(lia)) as G3.
  pose proof (checked_glue _ _ _ _ _ G3 H4 ltac:(lia) ltac:(lia)) as G4. pose proof (checked_glue _ _ _ _ _ G4 H5 ltac:(lia) ltac:(lia)) as G5.
  pose proof (checked_glue _ _ _ _ _ G5 H6 ltac:(lia) ltac:(lia)) as G6. pose proof (checked_glue _ _ _ _ _ G6 H7 ltac:(lia) ltac:(lia)) as G7.
  exact (checked_glue _ _ _ _ _ G7 H8 ltac:(lia) ltac:(lia)).
Qed.
Lemma cert_months_ok fsin fcos y : libm fsin fcos -> cert_months y <> [] -> months_of fsin fcos y = cert_months y.
Proof.
  intros lib. unfold cert_months, months_of. destruct (compute_jq cert_sky y) as [jq|] eqn:Ej; cbn [bind]; [|congruence].
  destruct (compute_hs cert_sky jq) as [hs|] eqn:Eh; cbn [bind]; [|congruence]. intros _. rewrite (cert_jq fsin fcos lib _ _ Ej). cbn [bind]. rewrite (cert_hs fsin fcos lib _ _ Eh). reflexivity.
Qed.
Lemma cert_zhong y : 1646 <= y <= 2999 -> zhong_ok y (cert_months y) = true.
Proof.
  intros Hy. assert (1646 <= y <= 1700 \/ 1699 <= y <= 1960 \/ 1959 <= y <= 2200 \/ 2199 <= y <= 2500 \/ 2499 <= y <= 2750 \/ 2749 <= y <= 2999) as [C|[C|[C|[C|[C|C]]]]] by lia.
  - apply (both_zhong _ _ _ c1399); lia.
  - apply (both_zhong _ _ _ c1699); lia.
  - apply (both_zhong _ _ _ c1959); lia.
  - apply (both_zhong _ _ _ c2199); lia.
  - apply (both_zhong _ _ _ c2499); lia.
  - apply (both_zhong _ _ _ c2749); lia.
Qed.
Lemma cert_nonempty y : 615 <= y <= 2999 -> cert_months y <> [].
Proof. intros Hy E. destruct (cert_checked y Hy) as [T _]. rewrite E in T. discriminate T. Qed.
Theorem check_19_2999 fsin fcos : libm fsin fcos -> check 19 (tables fsin fcos 19 (2999 + 1)) = true.
Proof.
  intros lib. unfold tables. apply checked_check; [|lia]. pose proof (check_19_616 fsin fcos) as H. unfold tables in H. change 617 with (616 + 1) in H.
  apply check_checked in H. apply (checked_glue _ 19 616 615 2999); [exact H| |lia|lia].
  apply (checked_ext cert_months); [|exact cert_checked]. intros y _ N. exact (cert_months_ok _ _ _ lib N).
Qed.
