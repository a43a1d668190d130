(** Where the terms of a year fall among the lunar months of its table: outside the leap months when their positions are odd
    (中气), and for the solstices inside months 11 and 5.  Instants near the edge of a month are computed in [cert_arith]. *)
From Coq Require Import ZArith Lia ZifyBool Reals Lra Psatz.
From Flocq Require Import Core BinarySingleNaN PrimFloat.
From Coq Require Import Bool List Floats.
From Verif Require Import Py PyStr PyFloat FloatFacts FloatTac CalSpec DayNo Solar SolarProofs TermProofs ShouXing FloatExpr Trig SunLon SunTerm SunYear SunLate SunDate LunarYear LunarProofs YearProofs CalProofs Cert CertSky TermEst CertTerms.
From Verif Require MoonEdge.
Import ListNotations.
Open Scope Z_scope.
Local Set Warnings "-inexact-float".

(** the instant lies after the midnight [lo] begins and before [hi] begins; before [lo]; from [hi] on *)
Definition holds (lo hi : Z) (T : float) : Prop := (IZR lo + 0.00002 <= FR T + 2451545.5 <= IZR hi - 0.00002)%R.
Definition avoids (lo hi : Z) (T : float) : Prop := (FR T + 2451545.5 <= IZR lo - 0.00002 \/ IZR hi + 0.00002 <= FR T + 2451545.5)%R.

(** the float [v] lies between the two midnights; outside of them; both by the margin [m] *)
Definition insideM (m v : float) (lo hi : Z) : bool :=
  if (PrimFloat.ltb (float_of_Z lo - 2451545.5 + m) v)%float then (PrimFloat.ltb v (float_of_Z hi - 2451545.5 - m))%float else false.
Definition outsideM (m v : float) (lo hi : Z) : bool :=
  if (PrimFloat.ltb v (float_of_Z lo - 2451545.5 - m))%float then true else (PrimFloat.ltb (float_of_Z hi - 2451545.5 + m) v)%float.
(** by the mean sun *)
Definition after4020 (k : Z) : bool := 48500 <? k.
Definition sureb (k lo hi : Z) : bool :=
  if after4020 k then if 10000000000 * lo + 74600000000 <=? mean_day k then mean_day k + 39900000000 <=? 10000000000 * hi else false else inside (mean_day k) lo hi.
Definition farb (k lo hi : Z) : bool := let m := mean_day k in
  if after4020 k then if m + 39900000000 <=? 10000000000 * lo then true else 10000000000 * hi + 74600000000 <=? m
  else if m + 28000000000 <=? 10000000000 * lo then true else 10000000000 * hi + 23200000000 <=? m.
(** by the instant in [cert_arith] *)
Definition byT (f : float -> float -> Z -> Z -> bool) (k lo hi : Z) : bool :=
  match cT k with Ok (C v e) => if PrimFloat.ltb e 0.00002 then f 0.00005%float v lo hi else false | _ => false end.
(** by the quick estimate where it decides, or else by the instant *)
Definition byE (f g : float -> float -> Z -> Z -> bool) (k lo hi : Z) : bool :=
  if after4020 k then
    match est_b k (start k) with
    | Some u => let d := day k u in if f 0.164%float d lo hi then true else if g 0.164%float d lo hi then false else byT f k lo hi
    | None => byT f k lo hi
    end
  else byT f k lo hi.
Definition holdsb (k lo hi : Z) : bool := if sureb k lo hi then true else byE insideM outsideM k lo hi.
Definition avoidsb (k lo hi : Z) : bool := if farb k lo hi then true else byE outsideM insideM k lo hi.

(** the three days of leap months on which a 中气 falls all the same: year, position, month and day *)
Definition exceptions : list (Z * Z * Z * Z) := [(1651, 7, -2, 1); (1661, 19, -7, 29); (1727, 9, -3, 1)].
Definition exception (y j m : Z) : option Z :=
  match find (fun '(y', j', m', _) => (y' =? y) && (j' =? j) && (m' =? m)) exceptions with Some (_, _, _, d) => Some d | None => None end.
Definition bounded (a : LMonth) : bool := (0 <=? mfirst a) && (mfirst a <=? 5900000) && (0 <=? mcount a) && (mcount a <=? 40).
Definition free_ok (y : Z) (a : LMonth) (j : Z) : bool := let k := 24 * (y - 2000) + 17 + j in
  match exception y j (mm a) with
  | Some d => if my a =? y then holdsb k (mfirst a + d - 1) (mfirst a + d) else false
  | None => avoidsb k (mfirst a) (mend a)
  end.
Definition zhong : list Z := [1; 3; 5; 7; 9; 11; 13; 15; 17; 19; 21; 23; 25; 27; 29].
Definition solstice_ok (y : Z) (ms : list LMonth) (j m : Z) : bool :=
  let k := 24 * (y - 2000) + 17 + j in
  existsb (fun a => if mm a =? m then if mean_day k / 10000000000 - mfirst a <? 40 then holdsb k (mfirst a) (mend a) else false else false) ms.
(** the months before a leap month, from month 11 on, hold a 中气 each, except these two; month [i] mostly the one at position 2i + 1 *)
Definition exempt (y : Z) (a : LMonth) : bool := (y =? 1651) && (my a =? 1651) && (mm a =? 2) || (y =? 1727) && (my a =? 1727) && (mm a =? 3).
Definition has_zhong (y i : Z) (a : LMonth) : bool :=
  if holdsb (24 * (y - 2000) + 18 + 2 * i) (mfirst a) (mend a) then true else
  if existsb (fun j => sureb (24 * (y - 2000) + 17 + j) (mfirst a) (mend a)) zhong then true else
  existsb (fun j => let k := 24 * (y - 2000) + 17 + j in let n := mean_day k / 10000000000 - mfirst a in
    if n <? -5 then false else if n <? 40 then holdsb k (mfirst a) (mend a) else false) zhong.
Fixpoint before_leap (n : nat) (y : Z) (ms : list LMonth) : bool := match n, ms with
  | S n, a :: r => if existsb (fun b => mm b <? 0) (firstn n r) then if exempt y a then before_leap n y r else if has_zhong y (12 - Z.of_nat n) a then before_leap n y r else false else true
  | _, _ => true
  end.
(** 夏至 leaves month 5 for the first time in 6612; the months after that year are not asked about *)
Definition summer_month (y : Z) : Z := if y =? 6612 then 4 else 5.
(** the day of the month on which the new moon falls: day 1, except in these months *)
Definition moon_days : list (Z * Z * Z) :=
  [(1649, 4, 2); (1662, 1, 2); (1673, 10, 0); (1685, 1, 2); (1687, 2, 2); (1694, -5, 2); (1704, 10, 0); (1708, 2, 2); (1720, 6, 2); (1759, 3, 2); (1763, 8, 2); (1778, 3, 2); (1779, 6, 2);
   (1787, 11, 2); (1789, 6, 2); (1796, 5, 2); (1804, 7, 2); (1831, 3, 2); (1841, 12, 2); (1862, 12, 2); (1880, 10, 0); (1896, 1, 2); (1914, 10, 2); (1916, 1, 2); (1920, 10, 2); (8040, 7, 0)].
Definition moon_day (y m : Z) : Z := match find (fun '(y', m', _) => (y' =? y) && (m' =? m)) moon_days with Some (_, _, d) => d | None => 1 end.
Definition moon_ok (y : Z) (a : LMonth) : bool := if my a =? y then MoonEdge.conjb (mfirst a + moon_day y (mm a) - 1 - 2451545) else true.
Definition zhong_ok (y : Z) (ms : list LMonth) : bool :=
  forallb bounded ms && forallb (fun a => if mm a <? 0 then forallb (free_ok y a) zhong else true) ms &&
  solstice_ok y ms 1 11 && (if y <=? 6612 then solstice_ok y ms 13 (summer_month y) else true) && solstice_ok y ms 25 11 && before_leap 13 y ms && (if (y <=? 5000) || (y =? 8040) then forallb (moon_ok y) ms else true).

Section LIB.
Context {fsin fcos : float -> float} (lib : libm fsin fcos).
Notation is_term := (@SunTerm.is_term fsin fcos).
Open Scope R_scope.
Lemma late_cases k : (-49000 <= k <= 192300)%Z -> if after4020 k then k_late k else k_old k.
Proof. unfold after4020, k_late, k_old. destruct (Z.ltb_spec 48500 k); lia. Qed.
Lemma term_k k : (-49000 <= k <= 192300)%Z -> k_ok k. Proof. unfold k_ok. lia. Qed.
Lemma margins m v lo hi : FIN m -> 0 <= FR m <= 1 -> FIN v -> (0 <= lo <= 6000000)%Z -> (0 <= hi <= 6000000)%Z ->
  (insideM m v lo hi = true -> IZR lo + FR m - 0.000001 <= FR v + 2451545.5 <= IZR hi - FR m + 0.000001) /\
  (outsideM m v lo hi = true -> FR v + 2451545.5 <= IZR lo - FR m + 0.000001 \/ IZR hi + FR m - 0.000001 <= FR v + 2451545.5).
Proof.
  intros F4 V4 Fv Hl Hh. destruct (edge lo Hl) as [F1 B1], (edge hi Hh) as [F2 B2].
  assert (Nl : 0 <= IZR lo <= 6000000) by (split; apply IZR_le; lia). assert (Nh : 0 <= IZR hi <= 6000000) by (split; apply IZR_le; lia). apply Rabs_le_inv in B1, B2.
  destruct (fadd_b _ _ 6000000 F1 F4 ltac:(lra) ltac:(lra)) as (F5 & _ & N5). destruct (fsub_b _ _ 6000000 F2 F4 ltac:(lra) ltac:(lra)) as (F6 & _ & N6).
  destruct (fsub_b _ _ 6000000 F1 F4 ltac:(lra) ltac:(lra)) as (F7 & _ & N7). destruct (fadd_b _ _ 6000000 F2 F4 ltac:(lra) ltac:(lra)) as (F8 & _ & N8). nea. unfold insideM, outsideM. split; intros E.
  - destruct (PrimFloat.ltb _ v) eqn:E1; [|discriminate]. apply fltb_spec in E1; [|assumption..]. apply fltb_spec in E; [|assumption..]. lra.
  - destruct (PrimFloat.ltb v _) eqn:E1; [left; apply fltb_spec in E1; [|assumption..]; lra|right; apply fltb_spec in E; [|assumption..]; lra].
Qed.
Lemma byT_ok f k T lo hi : is_term k T -> k_ok k -> byT f k lo hi = true -> exists v, FIN v /\ Rabs (FR T - FR v) <= 0.0000200001 /\ f 0.00005%float v lo hi = true.
Proof.
  intros I K E. unfold byT in E. destruct (cT k) as [[|v e]|] eqn:EC; try discriminate. destruct (PrimFloat.ltb e 0.00002%float) eqn:Ee; [|discriminate].
  destruct (cT_ok lib k T v e I K EC) as (Fv & Fe & _ & B).
  assert (F5 : FIN 0.00002%float /\ FR 0.00002%float <= 0.0000200001) by (flit 0.00002%float F1' V1; split; [exact F1'|lra]). apply fltb_spec in Ee; [|tauto..]. exists v. split; [exact Fv|]. split; [lra|exact E].
Qed.
(** a float close to the instant, with the margin by which it is judged *)
Lemma byE_ok f g k T lo hi : is_term k T -> (-49000 <= k <= 192300)%Z -> byE f g k lo hi = true -> exists m v, FIN v /\ FIN m /\ 0 <= FR m <= 1 /\ Rabs (FR T - FR v) <= FR m - 0.000025 /\ f m v lo hi = true.
Proof.
  intros I K E. pose proof (term_k k K) as K0.
  assert (BT : byT f k lo hi = true -> exists m v, FIN v /\ FIN m /\ 0 <= FR m <= 1 /\ Rabs (FR T - FR v) <= FR m - 0.000025 /\ f m v lo hi = true).
  { intros E'. destruct (byT_ok f k T lo hi I K0 E') as (v & Fv & B & H). exists 0.00005%float, v.
    assert (F5 : FIN 0.00005%float /\ 0.0000499999 <= FR 0.00005%float <= 0.0000500001) by (flit 0.00005%float F1' V1; split; [exact F1'|lra]). destruct F5 as [F5 V5]. repeat (split; [assumption || lra|]). exact H. }
  unfold byE in E. pose proof (late_cases k K) as LC. destruct (after4020 k) eqn:A; [|exact (BT E)]. destruct (est_b k (start k)) as [u|] eqn:Eu; [|exact (BT E)]. cbv zeta in E.
  destruct (f 0.164%float (day k u) lo hi) eqn:Ef; [|destruct (g 0.164%float (day k u) lo hi); [discriminate|exact (BT E)]].
  destruct (est_b_ok lib k T _ u ltac:(split; [exact K0|right; exact LC]) I Eu) as [Fd B]. replace (early k) with false in B by (unfold early, k_late in *; lia).
  assert (F5 : FIN 0.164%float /\ 0.1639999 <= FR 0.164%float <= 0.1640001) by (flit 0.164%float F1' V1; split; [exact F1'|lra]). destruct F5 as [F5 V5].
  exists 0.164%float, (day k u). repeat (split; [assumption || lra|]). exact Ef.
Qed.
Lemma holdsb_ok k T lo hi : is_term k T -> (-49000 <= k <= 192300)%Z -> (0 <= lo <= 6000000)%Z -> (0 <= hi <= 6000000)%Z -> holdsb k lo hi = true -> holds lo hi T.
Proof.
  intros I K Hl Hh E. pose proof (term_k k K) as K0. unfold holdsb in E. unfold holds. destruct (sureb k lo hi) eqn:E1.
  - unfold sureb, inside, mean_day in E1. pose proof (mean_lin k K0) as ML. pose proof (late_cases k K) as LC. destruct (after4020 k).
    + pose proof (term_late lib k T I LC) as B. destruct (_ <=? _)%Z eqn:E2 in E1; [|discriminate]. apply Z.leb_le, IZR_le in E1, E2. rewrite ?plus_IZR, ?mult_IZR in E1, E2. lra.
    + pose proof (term_old lib k T I LC) as B. apply andb_true_iff in E1. destruct E1 as [E1 E2]. apply Z.leb_le, IZR_le in E1, E2. rewrite ?plus_IZR, ?mult_IZR in E1, E2. lra.
  - destruct (byE_ok _ _ k T lo hi I K E) as (m & v & Fv & Fm & Vm & B & H). apply (proj1 (margins m v lo hi Fm Vm Fv Hl Hh)) in H. apply Rabs_le_inv in B. lra.
Qed.
Lemma avoidsb_ok k T lo hi : is_term k T -> (-49000 <= k <= 192300)%Z -> (0 <= lo <= 6000000)%Z -> (0 <= hi <= 6000000)%Z -> avoidsb k lo hi = true -> avoids lo hi T.
Proof.
  intros I K Hl Hh E. pose proof (term_k k K) as K0. unfold avoidsb in E. unfold avoids. destruct (farb k lo hi) eqn:E1.
  - unfold farb, mean_day in E1. cbv zeta in E1. pose proof (mean_lin k K0) as ML. pose proof (late_cases k K) as LC. destruct (after4020 k).
    + pose proof (term_late lib k T I LC) as B. destruct (_ <=? _)%Z eqn:E2 in E1; [left; clear E1; rename E2 into E1|right]; apply Z.leb_le, IZR_le in E1; rewrite ?plus_IZR, ?mult_IZR in E1; lra.
    + pose proof (term_old lib k T I LC) as B. destruct (_ <=? _)%Z eqn:E2 in E1; [left; clear E1; rename E2 into E1|right]; apply Z.leb_le, IZR_le in E1; rewrite ?plus_IZR, ?mult_IZR in E1; lra.
  - destruct (byE_ok _ _ k T lo hi I K E) as (m & v & Fv & Fm & Vm & B & H). apply (proj2 (margins m v lo hi Fm Vm Fv Hl Hh)) in H. apply Rabs_le_inv in B. destruct H; [left|right]; lra.
Qed.
End LIB.

(** ** Days *)
Definition of_instant (s : Solar) (T : float) : Prop := (Rabs (IZR (instant s) - 86400 * (FR T + 2451545.5)) <= 0.52)%R.
Lemma holds_day s T lo hi : valid_solar s -> of_instant s T -> holds lo hi T -> lo <= dayno (sdate s) < hi.
Proof.
  intros V B [H1 H2]. unfold of_instant in B. apply Rabs_le_inv in B. pose proof (sod_bounds s V) as S. 
  assert (X1 : (86400 * IZR lo < IZR (instant s))%R) by lra. assert (X2 : (IZR (instant s) < 86400 * IZR hi)%R) by lra. rewrite <- mult_IZR in X1, X2. apply lt_IZR in X1, X2. unfold instant in X1, X2. lia.
Qed.
Lemma avoids_day s T lo hi : valid_solar s -> of_instant s T -> avoids lo hi T -> dayno (sdate s) < lo \/ hi <= dayno (sdate s).
Proof.
  intros V B H. unfold of_instant in B. apply Rabs_le_inv in B. pose proof (sod_bounds s V) as S. destruct H as [H|H]; [left|right].
  - assert (X : (IZR (instant s) < 86400 * IZR lo)%R) by lra. rewrite <- mult_IZR in X. apply lt_IZR in X. unfold instant in X. lia.
  - assert (X : (86400 * IZR hi < IZR (instant s))%R) by lra. rewrite <- mult_IZR in X. apply lt_IZR in X. unfold instant in X. lia.
Qed.
Lemma in_zhong j : In j zhong <-> 0 <= j < 30 /\ Z.odd j = true.
Proof.
  split.
  - intros H. cbn [zhong In] in H. repeat (destruct H as [<-|H]; [split; [lia|reflexivity]|]). destruct H.
  - intros [H O]. assert (T : forallb (fun j => implb (Z.odd j) (existsb (Z.eqb j) zhong)) (zrange 0 30) = true) by reflexivity.
    pose proof (forallb_zrange _ _ _ T j ltac:(lia)) as E. cbv beta in E. rewrite O in E. cbn [implb] in E. apply existsb_exists in E. destruct E as (x & I & E). apply Z.eqb_eq in E. now subst x.
Qed.
Lemma before_leap_ok y : forall n ms i j a b, (n <= 13)%nat -> before_leap n y ms = true -> nth_error ms i = Some a -> nth_error ms j = Some b -> (i < j < n)%nat -> mm b < 0 -> exempt y a = true \/ exists m, 0 <= m < 13 /\ has_zhong y m a = true.
Proof.
  induction n as [|n IH]; intros ms i j a b Hn H Ei Ej L M; [lia|]. destruct ms as [|c r]; [destruct i; discriminate|]. cbn [before_leap] in H. destruct j as [|j]; [lia|]. cbn [nth_error] in Ej.
  assert (X : existsb (fun b => mm b <? 0) (firstn n r) = true).
  { apply existsb_exists. exists b. split; [|lia]. rewrite <- (firstn_skipn n r) in Ej. rewrite nth_error_app1 in Ej; [exact (nth_error_In _ _ Ej)|]. rewrite firstn_length.
    assert (j < List.length r)%nat by (apply nth_error_Some; rewrite <- (firstn_skipn n r), Ej; discriminate). lia. }
  rewrite X in H. destruct i as [|i]; cbn [nth_error] in Ei.
  - injection Ei as ->. destruct (exempt y a); [auto|]. destruct (has_zhong y (12 - Z.of_nat n) a) eqn:E; [right; exists (12 - Z.of_nat n); split; [lia|exact E]|discriminate].
  - apply (IH r i j a b); [lia| |exact Ei|exact Ej|lia|exact M]. destruct (exempt y c); [exact H|]. destruct (has_zhong y _ c); [exact H|discriminate].
Qed.
Section YEAR.
Context {fsin fcos : float -> float} (lib : libm fsin fcos) (y : Z) (ms : list LMonth) (jq : list (str * Solar)).
Context (Z0 : zhong_ok y ms = true) (Hy : 1646 <= y <= 9999).
Context (Q : forall j, 0 <= j < 31 -> exists T, is_term (fsin := fsin) (fcos := fcos) (24 * (y - 2000) + 17 + j) T /\ valid_solar (term_at jq j) /\ of_instant (term_at jq j) T).
Lemma z_bounds a : In a ms -> 0 <= mfirst a <= 5900000 /\ 0 <= mcount a <= 40.
Proof.
  intros I. unfold zhong_ok in Z0. rewrite !andb_true_iff in Z0. destruct Z0 as [[[[[[B _] _] _] _] _] _]. rewrite forallb_forall in B. specialize (B a I). unfold bounded in B. lia.
Qed.
Lemma z_free_ok a j : In a ms -> mm a < 0 -> 0 <= j < 30 -> Z.odd j = true -> free_ok y a j = true.
Proof.
  intros Ia Ma Hj Oj. unfold zhong_ok in Z0. rewrite !andb_true_iff in Z0. destruct Z0 as [[[[[[_ L] _] _] _] _] _]. rewrite forallb_forall in L. specialize (L a Ia). cbv beta in L. replace (mm a <? 0) with true in L by lia.
  rewrite forallb_forall in L. exact (L j (proj2 (in_zhong j) (conj Hj Oj))).
Qed.
Lemma z_exception a j d : In a ms -> mm a < 0 -> 0 <= j < 30 -> Z.odd j = true -> exception y j (mm a) = Some d -> my a = y /\ dayno (sdate (term_at jq j)) = mfirst a + d - 1.
Proof.
  intros Ia Ma Hj Oj E. destruct (z_bounds a Ia) as [B1 B2]. destruct (Q j ltac:(lia)) as (T & I & V & B). pose proof (z_free_ok a j Ia Ma Hj Oj) as L.
  unfold free_ok in L. cbv zeta in L. assert (O : -49000 <= 24 * (y - 2000) + 17 + j <= 192300) by lia. rewrite E in L. destruct (my a =? y) eqn:EY; [|discriminate]. split; [lia|].
  assert (1 <= d <= 40) by (unfold exception in E; cbn [find exceptions] in E; repeat (destruct (_ && _) in E; [injection E as <-; lia|]); discriminate).
  pose proof (holds_day _ T _ _ V B (holdsb_ok lib _ T (mfirst a + d - 1) (mfirst a + d) I O ltac:(lia) ltac:(lia) L)). lia.
Qed.
(** no other 中气 within a leap month *)
Lemma z_leap a j : In a ms -> mm a < 0 -> 0 <= j < 30 -> Z.odd j = true -> mfirst a <= dayno (sdate (term_at jq j)) < mend a -> exists d, exception y j (mm a) = Some d.
Proof.
  intros Ia Ma Hj Oj D. destruct (z_bounds a Ia) as [B1 B2]. destruct (Q j ltac:(lia)) as (T & I & V & B). pose proof (z_free_ok a j Ia Ma Hj Oj) as L.
  unfold free_ok in L. cbv zeta in L. assert (O : -49000 <= 24 * (y - 2000) + 17 + j <= 192300) by lia. unfold mend in *. destruct (exception y j (mm a)) as [d|]; [eauto|].
  exfalso. pose proof (avoids_day _ T _ _ V B (avoidsb_ok lib _ T (mfirst a) (mfirst a + mcount a) I O ltac:(lia) ltac:(lia) L)). lia.
Qed.
Lemma z_solstice j m : (j, m) = (1, 11) \/ y <= 6612 /\ (j, m) = (13, summer_month y) \/ (j, m) = (25, 11) -> exists a, In a ms /\ mm a = m /\ mfirst a <= dayno (sdate (term_at jq j)) < mend a.
Proof.
  intros C. pose proof Z0 as Z1. unfold zhong_ok in Z1. rewrite !andb_true_iff in Z1. destruct Z1 as [[[[[_ S1] S2] S3] _] _].
  assert (S : solstice_ok y ms j m = true /\ 0 <= j < 31) by (destruct C as [C|[[L C]|C]]; injection C as -> ->; [|replace (y <=? 6612) with true in S2 by lia|]; split; try assumption; lia). clear C S1 S2 S3. destruct S as [S Hj].
  unfold solstice_ok in S. cbv zeta in S. apply existsb_exists in S. destruct S as (a & Ia & S). exists a. split; [exact Ia|]. destruct (mm a =? m) eqn:Em; [|discriminate]. destruct (_ <? 40) in S; [|discriminate].
  split; [lia|]. destruct (z_bounds a Ia) as [B1 B2]. destruct (Q j Hj) as (T & I & V & B). unfold mend in *. apply (holds_day _ T _ _ V B), (holdsb_ok lib _ T _ _ I); [lia|lia|lia|exact S].
Qed.
Lemma z_before a b i j : nth_error ms i = Some a -> nth_error ms j = Some b -> (i < j < 13)%nat -> mm b < 0 ->
  exempt y a = true \/ exists n, 0 <= n < 30 /\ Z.odd n = true /\ mfirst a <= dayno (sdate (term_at jq n)) < mend a.
Proof.
  intros Ei Ej L M. pose proof Z0 as Z1. unfold zhong_ok in Z1. rewrite !andb_true_iff in Z1. destruct Z1 as [[_ BL] _].
  destruct (before_leap_ok y 13 ms i j a b ltac:(lia) BL Ei Ej L M) as [X|(m & Hm & X)]; [left; exact X|right]. 
  assert (H : exists n, In n zhong /\ holdsb (24 * (y - 2000) + 17 + n) (mfirst a) (mend a) = true).
  { unfold has_zhong in X. destruct (holdsb _ _ _) eqn:X0 in X; [exists (2 * m + 1); split; [apply in_zhong; split; [lia|rewrite Z.odd_add, Z.odd_mul; reflexivity]|rewrite <- X0; f_equal; lia]|]. destruct (existsb _ _) eqn:X1 in X.
    - apply existsb_exists in X1. destruct X1 as (n & I & X1). exists n. split; [exact I|]. unfold holdsb. rewrite X1. reflexivity.
    - apply existsb_exists in X. destruct X as (n & I & X2). cbv zeta in X2. exists n. split; [exact I|]. destruct (_ <? -5) in X2; [discriminate|]. destruct (_ <? 40) in X2; [exact X2|discriminate]. }
  clear X. destruct H as (n & In' & X). apply in_zhong in In'. exists n. split; [apply In'|]. split; [apply In'|].
  destruct (z_bounds a (nth_error_In _ _ Ei)) as [B1 B2]. destruct (Q n ltac:(lia)) as (T & I & V & B). unfold mend in *. apply (holds_day _ T _ _ V B), (holdsb_ok lib _ T _ _ I); [lia|lia|lia|exact X].
Qed.
End YEAR.
