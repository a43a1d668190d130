(** The dates of the solar terms of a year (Lunar.py:47-52): they convert, and for the years named below to existing dates. *)
From Coq Require Import ZArith Lia ZifyBool Reals Lra Psatz.
From Flocq Require Import Core BinarySingleNaN PrimFloat.
From Coq Require Import Bool List Floats.
From Verif Require Import Py PyFloat PyStr FloatFacts FloatTac CalSpec DayNo Solar SolarProofs JulianDay FromJulianDay CalProofs TermProofs T_ShouXing ShouXing FloatExpr Trig
  SunLon SunDt SunTerm SunQi SunKb SunYear LunarYear Lunar T_LunarUtil T_Misc.
Import ListNotations.
Open Scope R_scope.
Local Set Warnings "-inexact-float".

(** ** Converting an instant *)
Lemma conv jd : FIN jd -> 0 <= FR jd <= 6000000 -> FR jd <= 2299160.49 \/ 2299160.51 <= FR jd ->
  exists s, fromJulianDay jd = Ok s /\
    (forall y, IZR (jan1 y) + 0.001 <= FR jd + / 2 <= IZR (jan1 (y + 1)) - 0.001 -> sy s = y) /\
    (forall y m, (1 <= m <= 12)%Z -> IZR (dayno (y, m, 1)%Z) + 0.00001 <= FR jd + / 2 <= IZR (dayno (y, m, 1)%Z + mlen y m) - 0.00001 -> (y, m) <> (1582, 10)%Z ->
       valid_solar s /\ sy s = y /\ sm s = m /\ Rabs (IZR (instant s) - 86400 * (FR jd + / 2)) <= 0.51).
Proof.
  intros Fj Rj G. destruct (fromJulianDay_spec jd Fj) as (Fx & N & S & y & m & d & BN & N0 & Vd & ED & BSS & TS & R); [lra|].
  destruct lit05 as [FL EL]. destruct (fadd_b jd 0.5 6000001 Fj FL) as (_ & _ & Nx); try (rewrite ?EL; lra). rewrite EL in Nx. unfold near, eps52 in Nx.
  set (x := FR (jd + 0.5)%float) in *. clearbody x. pose proof (proj1 BSS) as S0. pose proof (proj2 BSS) as S1. assert (BS : 0 <= IZR S <= 86400) by (split; apply IZR_le; lia).
  assert (Hm : (1 <= m <= 12)%Z) by apply Vd. pose proof (jan1_bounds y m d Vd) as JB. rewrite ED in JB.
  assert (YY : forall y0, IZR (jan1 y0) + 0.001 <= FR jd + / 2 <= IZR (jan1 (y0 + 1)) - 0.001 -> y = y0).
  { intros y0 [H1 H2]. assert (P1 : IZR (jan1 y0) < IZR (N + 1)) by (rewrite plus_IZR; lra). assert (P2 : IZR N < IZR (jan1 (y0 + 1))) by lra. apply lt_IZR in P1, P2.
    pose proof (year_ge y0 y m d Vd ltac:(rewrite ED; lia)). pose proof (year_le y0 y m d Vd ltac:(rewrite ED; lia)). lia. }
  assert (MM : forall y0 m0, (1 <= m0 <= 12)%Z -> IZR (dayno (y0, m0, 1)%Z) + 0.00001 <= FR jd + / 2 <= IZR (dayno (y0, m0, 1)%Z + mlen y0 m0) - 0.00001 -> (y0, m0) <> (1582, 10)%Z ->
     y = y0 /\ m = m0 /\ (S = 86400 -> d < last_day y m)%Z).
  { intros y0 m0 Hm0 [H1 H2] NE. rewrite plus_IZR in H2. assert (P1 : IZR (dayno (y0, m0, 1)%Z) < IZR (N + 1)) by (rewrite plus_IZR; lra).
    assert (P2 : IZR N < IZR (dayno (y0, m0, 1)%Z + mlen y0 m0)) by (rewrite plus_IZR; lra). apply lt_IZR in P1, P2.
    assert (E7 : mlen y0 m0 = last_day y0 m0).
    { unfold mlen. destruct ((y0 =? 1582)%Z && (m0 =? 10)%Z) eqn:E; [|reflexivity]. exfalso. apply NE. f_equal; lia. }
    assert (LD : (28 <= last_day y0 m0)%Z) by (unfold last_day; dmonth m0 Hm0; cbn; try lia; destruct (leap y0); lia).
    assert (Vf : valid_date (y0, m0, 1)%Z) by (unfold valid_date; lia). assert (Vl : valid_date (y0, m0, last_day y0 m0)) by (unfold valid_date; repeat split; try lia; intros (e1 & e2 & _); apply NE; congruence).
    assert (EL' : dayno (y0, m0, last_day y0 m0) = (dayno (y0, m0, 1) + last_day y0 m0 - 1)%Z) by (unfold dayno, dord; destruct ((y0 =? 1582)%Z && (m0 =? 10)%Z) eqn:E; [exfalso; apply NE; f_equal; lia|]; cbn; lia).
    assert (y = y0 /\ m = m0) as [-> ->].
    { destruct (lex_total (y, m, d) (y0, m0, 1%Z)) as [E|[L|L]]; [injection E; auto|apply lex_lt_dayno in L; [lia|assumption..]|].
      destruct (lex_total (y, m, d) (y0, m0, last_day y0 m0)) as [E|[L'|L']]; [injection E; auto| |apply lex_lt_dayno in L'; [lia|assumption..]]. unfold lex_lt in L, L'. lia. }
    split; [reflexivity|]. split; [reflexivity|]. intros ES. subst S.
    assert (P3 : IZR (N + 1) < IZR (dayno (y0, m0, 1)%Z + mlen y0 m0)) by (rewrite !plus_IZR; lra). apply lt_IZR in P3.
    assert (DD : (dayno (y0, m0, d) = dayno (y0, m0, 1) + d - 1)%Z) by (unfold dayno, dord; destruct ((y0 =? 1582)%Z && (m0 =? 10)%Z) eqn:E; [exfalso; apply NE; f_equal; lia|]; cbn; lia). lia. }
  destruct (S <? 86400)%Z eqn:ES.
  - assert (DM : (0 <= S / 3600 <= 23 /\ 0 <= S / 60 mod 60 <= 59 /\ 0 <= S mod 60 <= 59 /\ 3600 * (S / 3600) + 60 * (S / 60 mod 60) + S mod 60 = S)%Z).
    { clear - ES BSS. assert (0 <= S < 86400)%Z by lia. clear ES BSS. pose proof (Z.div_mod S 3600 ltac:(lia)). pose proof (Z.mod_pos_bound S 3600 ltac:(lia)). pose proof (Z.div_mod S 60 ltac:(lia)). pose proof (Z.mod_pos_bound S 60 ltac:(lia)). pose proof (Z.div_mod (S / 60) 60 ltac:(lia)). pose proof (Z.mod_pos_bound (S / 60) 60 ltac:(lia)). rewrite Z.div_div in * by lia. lia. }
    eexists. split; [exact R|]. cbn [sy sm sd]. split; [exact YY|]. intros y0 m0 Hm0 H NE. destruct (MM y0 m0 Hm0 H NE) as (-> & -> & _). destruct DM as (M1 & M2 & M3 & M4). split; [split; [exact Vd|exact (conj M1 (conj M2 M3))]|].
    split; [reflexivity|]. split; [reflexivity|]. unfold instant, sod, sdate. cbn [sy sm sd Solar.sh smi ss]. rewrite ED. replace (S / 3600 * 3600 + S / 60 mod 60 * 60 + S mod 60)%Z with S by (clear - M4; lia).
    rewrite plus_IZR, mult_IZR. apply Rabs_le. lra.
  - assert (S = 86400)%Z by lia. subst S. unfold fromYmdHms in R.
    assert (E : (y =? 1582)%Z && (m =? 10)%Z && ((4 <? d + 1)%Z && (d + 1 <? 15)%Z) = false).
    { destruct ((y =? 1582)%Z && (m =? 10)%Z && ((4 <? d + 1)%Z && (d + 1 <? 15)%Z)) eqn:E; [|reflexivity]. exfalso. assert (y = 1582 /\ m = 10 /\ 4 <= d <= 13)%Z as (-> & -> & Hd) by lia. assert (d = 4)%Z by (unfold valid_date in Vd; lia). subst d.
      change (dayno (1582, 10, 4)%Z) with 2299160%Z in ED. subst N. lra. }
    rewrite E in R. assert (D1 : (1 <= d)%Z) by (unfold valid_date in Vd; lia).
    replace ((m <? 1) || (12 <? m))%Z with false in R by lia. replace ((d + 1 <? 1) || (31 <? m))%Z with false in R by lia. cbn in R. eexists. split; [exact R|]. cbn [sy sm sd]. split; [exact YY|].
    intros y0 m0 Hm0 H NE. destruct (MM y0 m0 Hm0 H NE) as (-> & -> & LL). specialize (LL eq_refl). assert (Vn : valid_date (y0, m0, (d + 1)%Z)) by (unfold valid_date in *; repeat split; try lia; intros (e1 & e2 & _); apply NE; congruence).
    split; [split; [exact Vn|unfold valid_time; cbn [Solar.sh smi ss]; lia]|]. split; [reflexivity|]. split; [reflexivity|]. unfold instant, sod, sdate. cbn [sy sm sd Solar.sh smi ss].
    assert (DD : (dayno (y0, m0, d + 1) = N + 1)%Z) by (rewrite <- ED; unfold dayno, dord; destruct ((y0 =? 1582)%Z && (m0 =? 10)%Z) eqn:E'; [exfalso; apply NE; f_equal; lia|]; cbn; lia).
    replace (0 * 3600 + 0 * 60 + 0)%Z with 0%Z by reflexivity. rewrite DD, plus_IZR, mult_IZR, plus_IZR. apply Rabs_le. lra.
Qed.

(** the days of October 1582 after the gap *)
Lemma conv_oct jd : FIN jd -> 2299161.00001 <= FR jd + / 2 <= 2299177.99999 -> exists s, fromJulianDay jd = Ok s /\
  valid_solar s /\ sy s = 1582%Z /\ sm s = 10%Z /\ Rabs (IZR (instant s) - 86400 * (FR jd + / 2)) <= 0.51.
Proof.
  intros Fj Rj. destruct (fromJulianDay_spec jd Fj) as (Fx & N & S & y & m & d & BN & N0 & Vd & ED & BSS & TS & R); [lra|].
  destruct lit05 as [FL EL]. destruct (fadd_b jd 0.5 6000001 Fj FL) as (_ & _ & Nx); try (rewrite ?EL; lra). rewrite EL in Nx. unfold near, eps52 in Nx.
  set (x := FR (jd + 0.5)%float) in *. clearbody x.
  assert (P1 : IZR 2299161 < IZR (N + 1)) by (rewrite plus_IZR; lra). assert (P2 : IZR N < IZR 2299178) by lra. apply lt_IZR in P1, P2.
  assert (Vn : forall n, (2299161 <= n <= 2299177)%Z -> valid_date (1582, 10, n - 2299146)%Z /\ dayno (1582, 10, n - 2299146)%Z = n).
  { intros n Hn. split; [unfold valid_date; cbn; lia|]. unfold dayno, dord. cbn [Z.eqb Pos.eqb andb]. replace (4 <? n - 2299146)%Z with true by lia. assert (E : (ybase 1582 + cum 1582 10 = 2299156)%Z) by (vm_compute; reflexivity). lia. }
  destruct (Vn N ltac:(lia)) as [V1 D1]. pose proof (dayno_inj _ _ Vd V1 ltac:(congruence)) as E. injection E as -> -> ->. clear Vd ED.
  destruct (S <? 86400)%Z eqn:ES.
  - assert (DM : (0 <= S / 3600 <= 23 /\ 0 <= S / 60 mod 60 <= 59 /\ 0 <= S mod 60 <= 59 /\ 3600 * (S / 3600) + 60 * (S / 60 mod 60) + S mod 60 = S)%Z).
    { clear - ES BSS. assert (0 <= S < 86400)%Z by lia. clear ES BSS. pose proof (Z.div_mod S 3600 ltac:(lia)). pose proof (Z.mod_pos_bound S 3600 ltac:(lia)). pose proof (Z.div_mod S 60 ltac:(lia)). pose proof (Z.mod_pos_bound S 60 ltac:(lia)). pose proof (Z.div_mod (S / 60) 60 ltac:(lia)). pose proof (Z.mod_pos_bound (S / 60) 60 ltac:(lia)). rewrite Z.div_div in * by lia. lia. }
    eexists. split; [exact R|]. cbn [sy sm sd]. destruct DM as (M1 & M2 & M3 & M4). split; [split; [exact V1|exact (conj M1 (conj M2 M3))]|].
    split; [reflexivity|]. split; [reflexivity|]. unfold instant, sod, sdate. cbn [sy sm sd Solar.sh smi ss]. rewrite D1. replace (S / 3600 * 3600 + S / 60 mod 60 * 60 + S mod 60)%Z with S by (clear - M4; lia).
    rewrite plus_IZR, mult_IZR. apply Rabs_le. lra.
  - assert (S = 86400)%Z by lia. subst S. assert (P3 : IZR (N + 1) < IZR 2299178) by (rewrite plus_IZR; lra). apply lt_IZR in P3.
    destruct (Vn (N + 1)%Z ltac:(lia)) as [V2 D2]. replace (N + 1 - 2299146)%Z with (N - 2299146 + 1)%Z in * by lia.
    unfold fromYmdHms in R. replace ((4 <? N - 2299146 + 1) && (N - 2299146 + 1 <? 15))%Z with false in R by lia. rewrite andb_false_r in R. cbn [Z.ltb Z.compare Pos.compare Pos.compare_cont orb] in R.
    replace (N - 2299146 + 1 <? 1)%Z with false in R by lia. cbn in R. eexists. split; [exact R|]. cbn [sy sm sd].
    split; [split; [exact V2|unfold valid_time; cbn [Solar.sh smi ss]; lia]|]. split; [reflexivity|]. split; [reflexivity|]. unfold instant, sod, sdate. cbn [sy sm sd Solar.sh smi ss].
    rewrite D2. replace (0 * 3600 + 0 * 60 + 0)%Z with 0%Z by reflexivity. rewrite plus_IZR, mult_IZR, plus_IZR. apply Rabs_le. lra.
Qed.

(** ** The days of a year against the mean Sun *)
(** [152184245676 * k + 24512605053 0000000] tells the mean instant of the term [k] in days times 10^10, counted from the midnight before the Julian Day 0 *)
Definition mean_day (k : Z) : Z := (152184245676 * k + 24512609553000000)%Z.
Definition lichun_check (y : Z) : bool :=
  let m := mean_day (24 * (y - 2000) + 21) in (10000000000 * jan1 y + 90200000000 <=? m)%Z && (m + 90200000000 <=? 10000000000 * jan1 (y + 1))%Z.
Lemma lichun_all : forallb lichun_check (zrange 0 10000) = true. Proof. vm_cast_no_check (eq_refl true). Qed.
(** the month of the term [j] *)
Definition term_month (y j : Z) : Z * Z := (if j <? 2 then (y - 1, 12) else if j <? 26 then (y, j / 2) else (y + 1, j / 2 - 12))%Z.
(** the first day of the month [i] of a year, counted from its first of January; [l]: a leap year, [l']: the next is one *)
Definition first_of (l l' : bool) (i : Z) : Z :=
  (match i with | 0 => -31 | 1 => 0 | 2 => 31 | 3 => 59 | 4 => 90 | 5 => 120 | 6 => 151 | 7 => 181 | 8 => 212 | 9 => 243 | 10 => 273 | 11 => 304 | 12 => 334 | 13 => 365 | 14 => 396 | 15 => 424 | _ => 455 end
   + (if l && (3 <=? i) then 1 else 0) + (if l' && (15 <=? i) then 1 else 0))%Z.
(** the instant of the first term counted from the first of January that puts all 31 inside their months *)
Definition from_lo (l : bool) : Z := (if l then -267950000000 else -275530000000)%Z.
Definition from_hi : Z := (-202000000000)%Z.
Definition month_check (l l' : bool) : bool :=
  forallb (fun j => (10000000000 * first_of l l' (j / 2) + 23200000000 <=? from_lo l + 152184245676 * j)%Z &&
                    (from_hi + 152184245676 * j + 28000000000 <=? 10000000000 * first_of l l' (j / 2 + 1))%Z) (zrange 0 31).
Lemma month_all l l' : month_check l l' = true. Proof. destruct l, l'; vm_compute; reflexivity. Qed.
Definition dates_check (y : Z) : bool :=
  let d := (mean_day (24 * (y - 2000) + 17) - 10000000000 * jan1 y)%Z in (from_lo (leap y) <=? d)%Z && (d <=? from_hi)%Z.
Lemma dates_early : forallb dates_check (zrange 0 524) = true. Proof. vm_cast_no_check (eq_refl true). Qed.
Lemma dates_late : forallb dates_check (zrange 1583 4040) = true. Proof. vm_cast_no_check (eq_refl true). Qed.
(** the years whose terms are known not to fall on the midnight between two months *)
Definition dated (y : Z) : Prop := (0 <= y <= 523 \/ 1583 <= y <= 4039)%Z.
Lemma dated_check y : dated y -> dates_check y = true.
Proof. intros [H|H]; [apply (forallb_zrange _ _ _ dates_early)|apply (forallb_zrange _ _ _ dates_late)]; lia. Qed.
Lemma jan1_next y : y <> 1582%Z -> jan1 (y + 1) = (jan1 y + 365 + if leap y then 1 else 0)%Z.
Proof. intros H. unfold jan1. rewrite !dayno_jan1, ybase_succ. unfold ylen. replace (y =? 1582)%Z with false by lia. destruct (leap y); lia. Qed.
Lemma month_in y m : (1 <= m <= 12)%Z -> (y, m) <> (1582, 10)%Z -> y <> 1582%Z -> dayno (y, m, 1)%Z = (jan1 y + first_of (leap y) false m)%Z /\ (dayno (y, m, 1) + mlen y m)%Z = (jan1 y + first_of (leap y) false (m + 1))%Z.
Proof.
  intros Hm NE Hy. unfold jan1. rewrite dayno_jan1. unfold dayno, dord, mlen, cum, last_day, first_of. replace (y =? 1582)%Z with false by lia. rewrite !andb_false_l. dmonth m Hm; cbn; destruct (leap y); cbn; lia.
Qed.
Lemma month_next y i : (13 <= i <= 15)%Z -> y <> 1582%Z -> (y + 1 <> 1582)%Z -> (first_of (leap y) (leap (y + 1)) i = jan1 (y + 1) - jan1 y + first_of (leap (y + 1)) false (i - 12))%Z.
Proof. intros Hi H1 H2. rewrite (jan1_next y H1). assert (i = 13 \/ i = 14 \/ i = 15)%Z as [-> | [-> | ->]] by lia; cbn; destruct (leap y), (leap (y + 1)); cbn; lia. Qed.
Lemma month_next' y i : (13 <= i <= 15)%Z -> y <> 1582%Z -> (y + 1 <> 1582)%Z -> (first_of (leap y) (leap (y + 1)) (i + 1) = jan1 (y + 1) - jan1 y + first_of (leap (y + 1)) false (i - 11))%Z.
Proof. intros Hi H1 H2. rewrite (jan1_next y H1). assert (i = 13 \/ i = 14 \/ i = 15)%Z as [-> | [-> | ->]] by lia; cbn; destruct (leap y), (leap (y + 1)); cbn; lia. Qed.
Lemma first_of_in l l' i : (i <= 14)%Z -> first_of l l' i = first_of l false i.
Proof. intros H. unfold first_of. replace (15 <=? i)%Z with false by lia. now rewrite !andb_false_r. Qed.
Lemma term_month_ok y j : dated y -> (0 <= j < 31)%Z -> let '(a, b) := term_month y j in
  (1 <= b <= 12)%Z /\ (a, b) <> (1582, 10)%Z /\ dayno (a, b, 1)%Z = (jan1 y + first_of (leap y) (leap (y + 1)) (j / 2))%Z /\ (dayno (a, b, 1) + mlen a b)%Z = (jan1 y + first_of (leap y) (leap (y + 1)) (j / 2 + 1))%Z.
Proof.
  intros Hy Hj. assert (Y1 : y <> 1582%Z /\ (y + 1 <> 1582)%Z) by (unfold dated in Hy; lia). destruct Y1 as [Y1 Y2]. unfold term_month.
  pose proof (Z.div_mod j 2 ltac:(lia)) as DM. pose proof (Z.mod_pos_bound j 2 ltac:(lia)) as MB. set (i := (j / 2)%Z) in *. clearbody i.
  destruct (j <? 2)%Z eqn:J1; [|destruct (j <? 26)%Z eqn:J2].
  - assert (i = 0)%Z by lia. subst i. split; [lia|]. split; [intros e; injection e; lia|]. assert (F0 : forall l l', first_of l l' 0 = (-31)%Z) by (intros [] []; reflexivity). assert (F1 : forall l l', first_of l l' (0 + 1) = 0%Z) by (intros [] []; reflexivity). rewrite F0, F1.
    pose proof (ybase_succ (y - 1)) as B0. replace (y - 1 + 1)%Z with y in B0 by lia. unfold ylen in B0. unfold jan1. rewrite dayno_jan1. unfold dayno, dord, mlen, cum, last_day.
    destruct (y - 1 =? 1582)%Z eqn:E8; [assert (y = 1583)%Z by lia; subst y; split; vm_compute; reflexivity|]. destruct (leap (y - 1)); cbn [andb Z.ltb Z.compare Z.eqb Pos.eqb Pos.compare Pos.compare_cont]; cbn in B0; lia.
  - destruct (month_in y i ltac:(lia) ltac:(intros e; injection e; lia) Y1) as [M1 M2]. rewrite (first_of_in _ _ i), (first_of_in _ _ (i + 1)) by lia. split; [lia|]. split; [intros e; injection e; lia|]. split; assumption.
  - destruct (month_in (y + 1) (i - 12) ltac:(lia) ltac:(intros e; injection e; lia) Y2) as [M1 M2]. rewrite (month_next y i ltac:(lia) Y1 Y2), (month_next' y i ltac:(lia) Y1 Y2). replace (i - 12 + 1)%Z with (i - 11)%Z in M2 by lia.
    split; [lia|]. split; [intros e; injection e; lia|]. lia.
Qed.

Section LIB.
Context {fsin fcos : float -> float} (lib : libm fsin fcos).
Notation A := (float_arith fsin fcos).
Notation is_term := (@SunTerm.is_term fsin fcos).

Lemma term_jd k T : is_term k T -> k_ok k -> FIN (T + 2451545)%float /\ Rabs (FR (T + 2451545)%float - (FR T + 2451545)) <= / 100000000.
Proof.
  intros I K. destruct (is_term_at lib k T I K) as (F & _). pose proof (term_bnd lib k T I K) as B. pose proof (mean_bnd k K) as MB. apply Rabs_le_inv in B. fval 2451545%float 2451545 e1. flit 2451545%float F1 V1.
  destruct (fadd_b T 2451545%float 6000000 F F1 ltac:(lra) ltac:(lra)) as (F2 & _ & N). rewrite e1 in N. nea. split; [exact F2|]. apply Rabs_le. lra.
Qed.
Lemma term_conv k T : is_term k T -> k_ok k -> exists s, fromJulianDay (T + 2451545)%float = Ok s /\
    (forall y, IZR (jan1 y) + 0.002 <= FR T + 2451545.5 <= IZR (jan1 (y + 1)) - 0.002 -> sy s = y) /\
    (forall y m, (1 <= m <= 12)%Z -> IZR (dayno (y, m, 1)%Z) + 0.000012 <= FR T + 2451545.5 <= IZR (dayno (y, m, 1)%Z + mlen y m) - 0.000012 -> (y, m) <> (1582, 10)%Z ->
       valid_solar s /\ sy s = y /\ sm s = m /\ Rabs (IZR (instant s) - 86400 * (FR T + 2451545.5)) <= 0.52).
Proof.
  intros I K. destruct (term_jd k T I K) as [F N]. pose proof (term_bnd lib k T I K) as B. pose proof (mean_bnd k K) as MB. pose proof (mean_lin k K) as ML. apply Rabs_le_inv in B, N.
  destruct (conv (T + 2451545)%float F ltac:(lra)) as (s & E & Y & M).
  { assert (-9995 >= k \/ k = -9994 \/ -9993 <= k)%Z as [C|[C|C]] by lia.
    - left. destruct (Z_le_gt_dec (-9996) k).
      + destruct (term_old lib k T I ltac:(unfold k_old; lia)). assert (IZR k <= -9995) by (apply IZR_le; lia). lra.
      + assert (IZR k <= -9997) by (apply IZR_le; lia). lra.
    - right. destruct (term_old lib k T I ltac:(unfold k_old; lia)). subst k. lra.
    - right. assert (-9993 <= IZR k) by (apply IZR_le; lia). lra. }
  exists s. split; [exact E|]. split; [intros y H; apply Y; lra|]. intros y m Hm H NE. destruct (M y m Hm ltac:(lra) NE) as (V & S1 & S2 & S3). repeat split; try assumption; try apply V. apply Rabs_le_inv in S3. apply Rabs_le. lra.
Qed.

Lemma lichun_in y T : (0 <= y <= 9999)%Z -> is_term (24 * (y - 2000) + 21) T -> IZR (jan1 y) + 0.01 <= FR T + 2451545.5 <= IZR (jan1 (y + 1)) - 0.01.
Proof.
  intros Hy I. set (k := (24 * (y - 2000) + 21)%Z) in *. assert (K : k_ok k) by (unfold k_ok, k; lia). pose proof (term_bnd lib k T I K) as B. pose proof (mean_lin k K) as ML. apply Rabs_le_inv in B.
  pose proof (forallb_zrange _ _ _ lichun_all y ltac:(lia)) as C. unfold lichun_check in C. cbv zeta in C. fold k in C. unfold mean_day in C. apply andb_true_iff in C. destruct C as [C1 C2]. apply Z.leb_le, IZR_le in C1, C2.
  rewrite ?plus_IZR, ?mult_IZR in C1, C2. lra.
Qed.
Lemma dated_in y j T : dated y -> (0 <= j < 31)%Z -> is_term (24 * (y - 2000) + 17 + j) T -> let '(a, b) := term_month y j in
  (1 <= b <= 12)%Z /\ (a, b) <> (1582, 10)%Z /\ IZR (dayno (a, b, 1)%Z) + 0.002 <= FR T + 2451545.5 <= IZR (dayno (a, b, 1)%Z + mlen a b) - 0.002.
Proof.
  intros Hy Hj I. pose proof (term_month_ok y j Hy Hj) as M. destruct (term_month y j) as [a b]. destruct M as (M1 & M2 & M3 & M4). split; [exact M1|]. split; [exact M2|].
  set (k := (24 * (y - 2000) + 17 + j)%Z) in *. assert (O : k_old k) by (unfold dated in Hy; unfold k_old, k; lia). pose proof (term_old lib k T I O) as B. pose proof (mean_lin k (old_ok k O)) as ML.
  pose proof (dated_check y Hy) as C. unfold dates_check in C. cbv zeta in C. apply andb_true_iff in C. destruct C as [C1 C2]. apply Z.leb_le in C1, C2.
  pose proof (forallb_zrange _ _ _ (month_all (leap y) (leap (y + 1))) j Hj) as D. cbv beta in D. apply andb_true_iff in D. destruct D as [D1 D2]. apply Z.leb_le in D1, D2.
  rewrite M4, M3. set (f := first_of _ _ (j / 2)) in *. set (g := first_of _ _ (j / 2 + 1)) in *. unfold mean_day in C1, C2.
  assert (X1 : (10000000000 * (jan1 y + f) + 23200000000 <= 152184245676 * k + 24512609553000000)%Z) by (unfold k; lia).
  assert (X2 : (152184245676 * k + 24512609553000000 + 28000000000 <= 10000000000 * (jan1 y + g))%Z) by (unfold k; lia).
  apply IZR_le in X1, X2. rewrite ?plus_IZR, ?mult_IZR in X1, X2. rewrite ?plus_IZR in X1, X2. rewrite ?plus_IZR. lra.
Qed.

(** ** The table of a Lunar *)
Definition terms_are (y : Z) (Ts : list float) : Prop :=
  List.length Ts = 31%nat /\ forall j, (0 <= j < 31)%Z -> exists T, py_index Ts j = Ok (T + 2451545)%float /\ is_term (24 * (y - 2000) + 17 + j) T /\
    qiAccurate A (float_of_Z (24 * (y - 2000) + 17 + j) * (PI / 12))%float = Ok T.
Lemma jieqi_ok y Ts : (0 <= y <= 9999)%Z -> terms_are y Ts -> exists jq, computeJieQi Ts = Ok jq /\
  forall j, (0 <= j < 31)%Z -> exists T, py_index Ts j = Ok (T + 2451545)%float /\ is_term (24 * (y - 2000) + 17 + j) T /\ fromJulianDay (T + 2451545)%float = Ok (term_at jq j) /\
    qiAccurate A (float_of_Z (24 * (y - 2000) + 17 + j) * (PI / 12))%float = Ok T.
Proof.
  intros Hy [_ H]. unfold computeJieQi. change (Z.of_nat (Datatypes.length Lunar_JIE_QI_IN_USE)) with 31%Z.
  match goal with |- context[mapM ?f _] => destruct (mapM_ex f (fun j b => exists T, py_index Ts j = Ok (T + 2451545)%float /\ is_term (24 * (y - 2000) + 17 + j) T /\ fromJulianDay (T + 2451545)%float = Ok (snd b) /\
    qiAccurate A (float_of_Z (24 * (y - 2000) + 17 + j) * (PI / 12))%float = Ok T) (zrange 0 31)) as (jq & E & F) end.
  - intros j Hj. apply in_zrange in Hj. destruct (H j Hj) as (T & ET & I & CT). destruct (term_conv _ T I ltac:(unfold k_ok; lia)) as (s & Es & _).
    assert (exists nm, py_index Lunar_JIE_QI_IN_USE j = Ok nm) as (nm & En).
    { unfold py_index. change (Z.of_nat (Datatypes.length Lunar_JIE_QI_IN_USE)) with 31%Z. replace (j <? 0)%Z with false by lia. replace ((j <? 0) || (31 <=? j))%Z with false by lia.
      destruct (nth_error Lunar_JIE_QI_IN_USE (Z.to_nat j)) eqn:En; [eauto|]. apply nth_error_None in En. change (Datatypes.length Lunar_JIE_QI_IN_USE) with 31%nat in En. lia. }
    rewrite En, ET. cbn [bind]. rewrite Es. cbn [bind]. eexists. split; [reflexivity|]. exists T. auto.
  - exists jq. split; [exact E|]. intros j Hj. destruct (Forall2_zrange _ 31 jq F) as [L P]. destruct (P j Hj) as ([nm s] & Eb & T & ET & I & Es & CT). exists T. split; [exact ET|]. split; [exact I|]. split; [|exact CT]. rewrite Es. f_equal.
    unfold py_index in Eb. replace (j <? 0)%Z with false in Eb by lia. rewrite L in Eb. replace ((j <? 0) || (Z.of_nat 31 <=? j))%Z with false in Eb by lia.
    unfold term_at. destruct (nth_error jq (Z.to_nat j)) as [p0|] eqn:En; [|discriminate]. injection Eb as ->. symmetry. apply nth_error_nth. rewrite nth_error_map, En. reflexivity.
Qed.
(** The terms of such a year: each in its month, its date and time within about half a second of the instant. *)
Lemma dated_terms y Ts jq : dated y -> terms_are y Ts -> computeJieQi Ts = Ok jq -> forall j, (0 <= j < 31)%Z ->
  exists T, is_term (24 * (y - 2000) + 17 + j) T /\ valid_solar (term_at jq j) /\ (sy (term_at jq j), sm (term_at jq j)) = term_month y j /\ Rabs (IZR (instant (term_at jq j)) - 86400 * (FR T + 2451545.5)) <= 0.52.
Proof.
  intros Hd H E j Hj. destruct (jieqi_ok y Ts ltac:(unfold dated in Hd; lia) H) as (jq' & E' & P). rewrite E in E'. injection E' as <-.
  destruct (P j Hj) as (T & _ & I & Es & _). exists T. split; [exact I|]. pose proof (dated_in y j T Hd Hj I) as D. destruct (term_month y j) as [a b]. destruct D as (D1 & D2 & D3).
  destruct (term_conv _ T I ltac:(unfold dated in Hd; unfold k_ok; lia)) as (s & Es' & _ & C). rewrite Es in Es'. injection Es' as <-. destruct (C a b D1 ltac:(lra) D2) as (V & S1 & S2 & S3). split; [exact V|]. split; [congruence|exact S3].
Qed.
Lemma good_real y Ts jq : (1 <= y)%Z -> dated y -> terms_are y Ts -> computeJieQi Ts = Ok jq -> good_terms y jq.
Proof.
  intros Hy Hd H E. pose proof (dated_terms y Ts jq Hd H E) as Q.
  assert (Y : forall j, (0 <= j < 31)%Z -> sy (term_at jq j) = fst (term_month y j)) by (intros j Hj; destruct (Q j Hj) as (_ & _ & _ & EE & _); rewrite <- EE; reflexivity).
  assert (SS : forall j, (0 <= j < 30)%Z -> (dayno (sdate (term_at jq j)) < dayno (sdate (term_at jq (j + 1))))%Z).
  { intros j Hj. destruct (Q j ltac:(lia)) as (T & I & V & _ & B). destruct (Q (j + 1)%Z ltac:(lia)) as (T' & I' & V' & _ & B'). replace (24 * (y - 2000) + 17 + (j + 1))%Z with (24 * (y - 2000) + 17 + j + 1)%Z in I' by lia.
    destruct (gap_T lib _ 1 T T' I I' ltac:(lia) ltac:(unfold dated in Hd; unfold k_ok; lia) ltac:(unfold dated in Hd; unfold k_ok; lia)) as [G _]. apply Rabs_le_inv in B, B'.
    assert (X : IZR (instant (term_at jq j)) + 86400 * 2 < IZR (instant (term_at jq (j + 1)))) by lra. rewrite <- mult_IZR, <- plus_IZR in X. apply lt_IZR in X.
    pose proof (sod_bounds _ V). pose proof (sod_bounds _ V'). unfold instant in X. lia. }
  constructor.
  - intros i Hi. destruct (Q i Hi) as (_ & _ & V & _). exact V.
  - intros i Hi. rewrite (Y i Hi). unfold term_month. unfold dated in Hd. destruct (i <? 2)%Z; [cbn; lia|]. destruct (i <? 26)%Z; cbn; lia.
  - intros i j Hi Hj. assert (G : forall n : nat, (i + 1 + Z.of_nat n < 31)%Z -> (dayno (sdate (term_at jq i)) < dayno (sdate (term_at jq (i + 1 + Z.of_nat n))))%Z).
    { induction n as [|n IH]; intros Hn; [replace (i + 1 + Z.of_nat 0)%Z with (i + 1)%Z by lia; apply SS; lia|]. specialize (IH ltac:(lia)). pose proof (SS (i + 1 + Z.of_nat n)%Z ltac:(lia)) as X. replace (i + 1 + Z.of_nat (S n))%Z with (i + 1 + Z.of_nat n + 1)%Z by lia. lia. }
    replace j with (i + 1 + Z.of_nat (Z.to_nat (j - i - 1)))%Z by lia. apply G. lia.
  - rewrite Y by lia. cbn. lia.
  - rewrite Y by lia. reflexivity.
  - rewrite Y by lia. cbn. lia.
Qed.
End LIB.
