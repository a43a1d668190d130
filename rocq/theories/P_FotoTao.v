(** C68: the years of Foto and Tao. *)
From Coq Require Import ZArith Lia Bool ZifyBool List String Floats.
From Verif Require Import Py PyFloat PyStr CalSpec DayNo Solar SolarProofs JulianDay P_JD P_Solar LunarUtil T_LunarUtil T_Misc T_Festivals
  LunarYear ShouXing Lunar LunarTime LunarProofs TermProofs YearProofs CalProofs P_LunarYears P_LunarCal FotoTao P_NewYear Demo.
Import ListNotations.
Open Scope Z_scope.

Theorem C68_tao : forall fy y m d h mi s l, Tao_fromYmdHms fy y m d h mi s = Ok l -> Tao_getYear l = y /\ l_month l = m /\ l_day l = d.
Proof.
  intros fy y m d h mi s l H. unfold Tao_fromYmdHms in H. destruct (Lunar_new_inv _ _ _ _ _ _ _ _ H) as (t & mo & noon & t2 & _ & _ & _ & _ & _ & _ & _ & CP).
  destruct (cp_ymd _ _ _ _ _ _ _ _ _ CP) as (E1 & E2 & E3). unfold Tao_getYear. split; [lia|split; assumption].
Qed.
(** The Buddhist year is that asked for exactly when the lunar year is not ahead of the solar year. *)
Theorem C68_foto : forall fy y m d h mi s l, Foto_fromYmdHms fy y m d h mi s = Ok l ->
  l_year l = y - 544 /\ l_month l = m /\ l_day l = d /\
  (Foto_getYear l = y <-> l_year l <= sy (l_solar l) <= l_year l + 1) /\
  (sy (l_solar l) = l_year l - 1 -> Foto_getYear l = y - 2).
Proof.
  intros fy y m d h mi s l H. unfold Foto_fromYmdHms in H. destruct (Lunar_new_inv _ _ _ _ _ _ _ _ H) as (t & mo & noon & t2 & _ & _ & _ & _ & _ & _ & _ & CP).
  destruct (cp_ymd _ _ _ _ _ _ _ _ _ CP) as (E1 & E2 & E3). unfold Foto_getYear. change Foto_DEAD_YEAR with (-543) in *.
  split; [lia|]. split; [exact E2|]. split; [exact E3|]. split; destruct (Z.eqb_spec (sy (l_solar l)) (l_year l)); lia.
Qed.
(** So it is for every year of a calendar without reforms ... *)
Theorem C68_foto_year : forall fy lo hi y m d h mi s l, Calendar fy lo hi -> civil fy lo hi -> lo + 1 < y - 544 < hi - 1 ->
  Foto_fromYmdHms fy y m d h mi s = Ok l -> Foto_getYear l = y.
Proof.
  intros fy lo hi y m d h mi s l C Cv Hy H. destruct (C68_foto _ _ _ _ _ _ _ _ H) as (E1 & _ & _ & I & _). apply I.
  unfold Foto_fromYmdHms in H. change Foto_DEAD_YEAR with (-543) in H.
  destruct (Lunar_new_inv _ _ _ _ _ _ _ _ H) as (t & mo & noon & t2 & Et & Em & Hd & En & ES & VT & _ & CP).
  destruct (C48_round_trip fy lo hi (y + -543 - 1) m d h mi s l C ltac:(lia) H) as (l' & E' & Y' & _ & _ & _ & _ & _ & S').
  destruct (getMonth_inv _ _ _ Em) as (Ia & Ya & Ma). pose proof (cal_wf C (y + -543 - 1) t ltac:(lia) Et) as W. rewrite (wf_year _ _ W) in Ya.
  destruct (month_range C (y + -543 - 1) t mo ltac:(lia) Et Ia) as [M0 M1]. unfold mend in M1.
  destruct (whole_day (mfirst mo + d - 1) ltac:(lia)) as (noon' & En' & Vn & Dn). rewrite En in En'. apply Ok_inj in En'. subst noon'.
  assert (Vs : valid_solar (l_solar l)) by (rewrite ES; split; [apply Vn|exact VT]).
  pose proof (wf_bounds W mo Ia) as B. unfold mend in B.
  assert (Hs : lo < sy (l_solar l) < hi).
  { rewrite ES. cbn [sy]. destruct Vn as [Vn _]. unfold sdate in *.
    assert (y - 544 - 1 <= sy noon) by (apply (year_ge _ _ _ _ Vn); replace (y + -543 - 1 - 1) with (y - 544 - 1) in B by lia; lia).
    assert (sy noon <= y - 544 + 1) by (apply (year_le _ _ _ _ Vn); replace (y + -543 - 1 + 2) with (y - 544 + 1 + 1) in B by lia; lia). lia. }
  destruct (civil_year _ _ _ _ _ C Cv Vs Hs E') as [X|X]; rewrite Y' in X; lia.
Qed.
(** ... in particular for 243..614 of the code, whatever the C library computes. *)
Theorem C68_foto_real : forall fsin fcos y m d h mi s l, terms_convert fsin fcos 19 616 -> 243 < y - 544 < 615 ->
  Foto_fromYmdHms (real fsin fcos) y m d h mi s = Ok l -> Foto_getYear l = y.
Proof.
  intros fsin fcos y m d h mi s l T Hy H. destruct (C46_real_civil fsin fcos T) as [C Cv]. apply (C68_foto_year _ _ _ y m d h mi s l C Cv ltac:(lia) H).
Qed.
(** In AD 16 the lunar year began on 30 December 15: the first day of the Buddhist year 560 is said to be in 558. *)
Theorem C68_refuted : forall fsin fcos, terms_convert fsin fcos 0 18 -> exists l,
  Foto_fromYmdHms (real fsin fcos) 560 1 1 0 0 0 = Ok l /\ sdate (l_solar l) = (15, 12, 30) /\ Foto_getYear l = 558.
Proof.
  intros fsin fcos T. pose proof (proj1 (C46_real_calendar fsin fcos) T) as C.
  destruct (cal_ok _ _ _ C 16 ltac:(lia)) as (t & _ & Et & _). destruct (real_inv _ _ _ _ Et) as [Y M].
  pose proof (cal_wf C 16 t ltac:(lia) Et) as W.
  assert (E1 : nthm (months_of fsin fcos 16) 1 = mkLMonth 16 1 29 1726900 1) by (vm_compute; reflexivity).
  rewrite <- M in E1. pose proof (wf_in W 1 ltac:(lia)) as I1. rewrite E1 in I1.
  destruct (new_spec C 16 t _ 1 0 0 0 ltac:(lia) Et I1 eq_refl ltac:(cbn; lia) ltac:(unfold valid_time; lia)) as (l & El & Vl & Dl & L1 & _).
  { apply (year_of_month _ _ _ 16 t _ _ C ltac:(lia) Et I1). cbn. lia. }
  cbn [mm mfirst] in *. exists l. assert (H : Foto_fromYmdHms (real fsin fcos) 560 1 1 0 0 0 = Ok l) by exact El. split; [exact H|].
  assert (Ds : sdate (l_solar l) = (15, 12, 30)).
  { apply dayno_inj; [apply Vl|unfold valid_date; cbn; lia|]. rewrite Dl. vm_compute. reflexivity. }
  split; [exact Ds|]. destruct (C68_foto _ _ _ _ _ _ _ _ H) as (_ & _ & _ & _ & X). apply X. unfold sdate in Ds.
  apply pair_equal_spec in Ds. destruct Ds as [Ds _]. apply pair_equal_spec in Ds. destruct Ds as [-> _]. lia.
Qed.
Example C68_case : (let! l := Foto_fromYmdHms demo 2567 12 20 8 0 0 in Ok (sdate (l_solar l), l_year l, Foto_getYear l)) = Ok ((2024, 1, 30), 2023, 2567) /\
  (let! l := Tao_fromYmdHms demo 4720 12 20 8 0 0 in Ok (sdate (l_solar l), Tao_getYear l)) = Ok ((2024, 1, 30), 4720).
Proof. split; vm_compute; reflexivity. Qed.
