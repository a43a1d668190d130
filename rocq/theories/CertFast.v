(** The month tables of the years 19 to 9999, the same for every C library that meets [libm]: those up to 3004 by [CertYears], the later
    ones by [MoonFast]. *)
From Coq Require Import ZArith Lia Bool ZifyBool List Floats.
From Verif Require Import Py PyFloat CalSpec DayNo Solar SolarProofs ShouXing FloatExpr Trig SunLon SunTerm Cert CertSky MoonLite MoonCut MoonFast LunarYear Lunar LunarProofs YearProofs CalProofs CalCheck P_LunarYears CertZhong CertYears.
Import ListNotations.
Open Scope Z_scope.

Lemma c2998 : both 2998 (map cert_months (zrange 2998 (3004 + 1))) = true.
Proof. vm_cast_no_check (eq_refl true). Qed.
Lemma s3003 : span 3003 (Z.to_nat 350) 12404 (Z.to_nat 4350) = true. Proof. vm_cast_no_check (eq_refl true). Qed.
Lemma s3351 : span 3351 (Z.to_nat 350) 16709 (Z.to_nat 4350) = true. Proof. vm_cast_no_check (eq_refl true). Qed.
Lemma s3699 : span 3699 (Z.to_nat 350) 21013 (Z.to_nat 4350) = true. Proof. vm_cast_no_check (eq_refl true). Qed.
Lemma s4047 : span 4047 (Z.to_nat 350) 25317 (Z.to_nat 4350) = true. Proof. vm_cast_no_check (eq_refl true). Qed.
Lemma s4395 : span 4395 (Z.to_nat 350) 29621 (Z.to_nat 4350) = true. Proof. vm_cast_no_check (eq_refl true). Qed.
Lemma s4743 : span 4743 (Z.to_nat 350) 33925 (Z.to_nat 4350) = true. Proof. vm_cast_no_check (eq_refl true). Qed.
Lemma s5091 : span 5091 (Z.to_nat 350) 38229 (Z.to_nat 4350) = true. Proof. vm_cast_no_check (eq_refl true). Qed.
Lemma s5439 : span 5439 (Z.to_nat 350) 42533 (Z.to_nat 4350) = true. Proof. vm_cast_no_check (eq_refl true). Qed.
Lemma s5787 : span 5787 (Z.to_nat 350) 46838 (Z.to_nat 4350) = true. Proof. vm_cast_no_check (eq_refl true). Qed.
Lemma s6135 : span 6135 (Z.to_nat 350) 51142 (Z.to_nat 4350) = true. Proof. vm_cast_no_check (eq_refl true). Qed.
Lemma s6483 : span 6483 (Z.to_nat 350) 55446 (Z.to_nat 4350) = true. Proof. vm_cast_no_check (eq_refl true). Qed.
Lemma s6831 : span 6831 (Z.to_nat 350) 59750 (Z.to_nat 4350) = true. Proof. vm_cast_no_check (eq_refl true). Qed.
Lemma s7179 : span 7179 (Z.to_nat 350) 64054 (Z.to_nat 4350) = true. Proof. vm_cast_no_check (eq_refl true). Qed.
Lemma s7527 : span 7527 (Z.to_nat 350) 68358 (Z.to_nat 4350) = true. Proof. vm_cast_no_check (eq_refl true). Qed.
Lemma s7875 : span 7875 (Z.to_nat 350) 72663 (Z.to_nat 4350) = true. Proof. vm_cast_no_check (eq_refl true). Qed.
Lemma s8223 : span 8223 (Z.to_nat 350) 76967 (Z.to_nat 4350) = true. Proof. vm_cast_no_check (eq_refl true). Qed.
Lemma s8571 : span 8571 (Z.to_nat 350) 81271 (Z.to_nat 4350) = true. Proof. vm_cast_no_check (eq_refl true). Qed.
Lemma s8919 : span 8919 (Z.to_nat 350) 85575 (Z.to_nat 4350) = true. Proof. vm_cast_no_check (eq_refl true). Qed.
Lemma s9267 : span 9267 (Z.to_nat 350) 89879 (Z.to_nat 4350) = true. Proof. vm_cast_no_check (eq_refl true). Qed.
Lemma s9615 : span 9615 (Z.to_nat 350) 94183 (Z.to_nat 4350) = true. Proof. vm_cast_no_check (eq_refl true). Qed.
Lemma s9963 : span 9963 (Z.to_nat 37) 98487 (Z.to_nat 480) = true. Proof. vm_cast_no_check (eq_refl true). Qed.

Section LATE.
Variables fsin fcos : float -> float.
Hypothesis lib : libm fsin fcos.
(** well-formed tables whose terms fall where they should *)
Definition placed (lo hi : Z) : Prop := checked (months_of fsin fcos) lo hi /\ forall y, lo <= y <= hi -> 1646 <= y -> zhong_ok y (months_of fsin fcos y) = true.
Lemma placed_glue lo hi lo' hi' : placed lo hi -> placed lo' hi' -> lo <= lo' -> lo' + 1 <= hi -> placed lo hi'.
Proof. intros [C1 Z1] [C2 Z2] L H. split; [exact (checked_glue _ lo hi lo' hi' C1 C2 L H)|]. intros y Hy Hm. destruct (Z_le_gt_dec y hi); [apply Z1|apply Z2]; lia. Qed.
Lemma late_step lo y n k m : placed lo (y + 1) -> lo <= y -> 3000 <= y -> 0 < n -> y + n <= 10000 -> 12000 <= k -> 0 <= m -> k + m <= 99890 -> span y (Z.to_nat n) k (Z.to_nat m) = true ->
  placed lo (y + n - 1).
Proof.
  intros C L Y N1 N2 K M KM S. apply (placed_glue lo (y + 1) y (y + n - 1) C); [|exact L|lia].
  destruct (span_ok fsin fcos lib y (Z.to_nat n) k (Z.to_nat m) Y ltac:(lia) K ltac:(lia) S) as [G H]. rewrite Z2Nat.id in G, H by lia. split; [exact G|]. intros z Hz _. exact (H z Hz).
Qed.
Theorem months_placed : placed 19 9999.
Proof.
  assert (C0 : placed 19 2999).
  { split; [exact (check_checked _ 19 2999 (check_19_2999 fsin fcos lib))|]. intros y Hy Hm. rewrite (cert_months_ok _ _ _ lib) by (apply cert_nonempty; lia). apply cert_zhong. lia. }
  assert (C1 : placed 2998 3004).
  { pose proof (check_checked _ _ _ (both_check _ _ c2998)) as C. assert (E : forall y, 2998 <= y <= 3004 -> cert_months y <> [] -> months_of fsin fcos y = cert_months y) by (intros y _ N; exact (cert_months_ok _ _ _ lib N)).
    split; [exact (checked_ext cert_months _ _ _ E C)|]. intros y Hy Hm. rewrite E; [apply (both_zhong _ _ _ c2998); assumption|exact Hy|]. intros N. destruct (C y Hy) as [T _]. rewrite N in T. discriminate T. }
  pose proof (placed_glue 19 2999 2998 3004 C0 C1 ltac:(lia) ltac:(lia)) as C.
  apply (fun c => late_step 19 3003 350 12404 4350 c ltac:(lia) ltac:(lia) ltac:(lia) ltac:(lia) ltac:(lia) ltac:(lia) ltac:(lia) s3003) in C. change (3003 + 350 - 1) with 3352 in C.
  apply (fun c => late_step 19 3351 350 16709 4350 c ltac:(lia) ltac:(lia) ltac:(lia) ltac:(lia) ltac:(lia) ltac:(lia) ltac:(lia) s3351) in C. change (3351 + 350 - 1) with 3700 in C.
  apply (fun c => late_step 19 3699 350 21013 4350 c ltac:(lia) ltac:(lia) ltac:(lia) ltac:(lia) ltac:(lia) ltac:(lia) ltac:(lia) s3699) in C. change (3699 + 350 - 1) with 4048 in C.
  apply (fun c => late_step 19 4047 350 25317 4350 c ltac:(lia) ltac:(lia) ltac:(lia) ltac:(lia) ltac:(lia) ltac:(lia) ltac:(lia) s4047) in C. change (4047 + 350 - 1) with 4396 in C.
  apply (fun c => late_step 19 4395 350 29621 4350 c ltac:(lia) ltac:(lia) ltac:(lia) ltac:(lia) ltac:(lia) ltac:(lia) ltac:(lia) s4395) in C. change (4395 + 350 - 1) with 4744 in C.
  apply (fun c => late_step 19 4743 350 33925 4350 c ltac:(lia) ltac:(lia) ltac:(lia) ltac:(lia) ltac:(lia) ltac:(lia) ltac:(lia) s4743) in C. change (4743 + 350 - 1) with 5092 in C.
  apply (fun c => late_step 19 5091 350 38229 4350 c ltac:(lia) ltac:(lia) ltac:(lia) ltac:(lia) ltac:(lia) ltac:(lia) ltac:(lia) s5091) in C. change (5091 + 350 - 1) with 5440 in C.
  apply (fun c => late_step 19 5439 350 42533 4350 c ltac:(lia) ltac:(lia) ltac:(lia) ltac:(lia) ltac:(lia) ltac:(lia) ltac:(lia) s5439) in C. change (5439 + 350 - 1) with 5788 in C.
  apply (fun c => late_step 19 5787 350 46838 4350 c ltac:(lia) ltac:(lia) ltac:(lia) ltac:(lia) ltac:(lia) ltac:(lia) ltac:(lia) s5787) in C. change (5787 + 350 - 1) with 6136 in C.
  apply (fun c => late_step 19 6135 350 51142 4350 c ltac:(lia) ltac:(lia) ltac:(lia) ltac:(lia) ltac:(lia) ltac:(lia) ltac:(lia) s6135) in C. change (6135 + 350 - 1) with 6484 in C.
  apply (fun c => late_step 19 6483 350 55446 4350 c ltac:(lia) ltac:(lia) ltac:(lia) ltac:(lia) ltac:(lia) ltac:(lia) ltac:(lia) s6483) in C. change (6483 + 350 - 1) with 6832 in C.
  apply (fun c => late_step 19 6831 350 59750 4350 c ltac:(lia) ltac:(lia) ltac:(lia) ltac:(lia) ltac:(lia) ltac:(lia) ltac:(lia) s6831) in C. change (6831 + 350 - 1) with 7180 in C.
  apply (fun c => late_step 19 7179 350 64054 4350 c ltac:(lia) ltac:(lia) ltac:(lia) ltac:(lia) ltac:(lia) ltac:(lia) ltac:(lia) s7179) in C. change (7179 + 350 - 1) with 7528 in C.
  apply (fun c => late_step 19 7527 350 68358 4350 c ltac:(lia) ltac:(lia) ltac:(lia) ltac:(lia) ltac:(lia) ltac:(lia) ltac:(lia) s7527) in C. change (7527 + 350 - 1) with 7876 in C.
  apply (fun c => late_step 19 7875 350 72663 4350 c ltac:(lia) ltac:(lia) ltac:(lia) ltac:(lia) ltac:(lia) ltac:(lia) ltac:(lia) s7875) in C. change (7875 + 350 - 1) with 8224 in C.
  apply (fun c => late_step 19 8223 350 76967 4350 c ltac:(lia) ltac:(lia) ltac:(lia) ltac:(lia) ltac:(lia) ltac:(lia) ltac:(lia) s8223) in C. change (8223 + 350 - 1) with 8572 in C.
  apply (fun c => late_step 19 8571 350 81271 4350 c ltac:(lia) ltac:(lia) ltac:(lia) ltac:(lia) ltac:(lia) ltac:(lia) ltac:(lia) s8571) in C. change (8571 + 350 - 1) with 8920 in C.
  apply (fun c => late_step 19 8919 350 85575 4350 c ltac:(lia) ltac:(lia) ltac:(lia) ltac:(lia) ltac:(lia) ltac:(lia) ltac:(lia) s8919) in C. change (8919 + 350 - 1) with 9268 in C.
  apply (fun c => late_step 19 9267 350 89879 4350 c ltac:(lia) ltac:(lia) ltac:(lia) ltac:(lia) ltac:(lia) ltac:(lia) ltac:(lia) s9267) in C. change (9267 + 350 - 1) with 9616 in C.
  apply (fun c => late_step 19 9615 350 94183 4350 c ltac:(lia) ltac:(lia) ltac:(lia) ltac:(lia) ltac:(lia) ltac:(lia) ltac:(lia) s9615) in C. change (9615 + 350 - 1) with 9964 in C.
  apply (fun c => late_step 19 9963 37 98487 480 c ltac:(lia) ltac:(lia) ltac:(lia) ltac:(lia) ltac:(lia) ltac:(lia) ltac:(lia) s9963) in C. change (9963 + 37 - 1) with 9999 in C.
  exact C.
Qed.
Theorem check_19_9999 : check 19 (tables fsin fcos 19 (9999 + 1)) = true.
Proof. unfold tables. apply checked_check; [exact (proj1 months_placed)|lia]. Qed.
End LATE.
