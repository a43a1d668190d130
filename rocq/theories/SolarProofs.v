(** Correctness of date arithmetic in Solar.py / SolarUtil.py against CalSpec. *)
From Coq Require Import ZArith Lia Bool ZifyBool.
From Verif Require Import Py PyFloat Solar CalSpec DayNo.
Open Scope Z_scope.

Definition sdate (s : Solar) : date := (sy s, sm s, sd s).
Definition valid_solar (s : Solar) : Prop :=
  valid_date (sdate s) /\ valid_time (sh s) (smi s) (ss s).
Definition same_time (a b : Solar) : Prop := sh a = sh b /\ smi a = smi b /\ ss a = ss b.

Lemma isLeapYear_leap y : isLeapYear y = leap y.
Proof.
  unfold isLeapYear, leap.
  destruct (Z.ltb_spec y 1600), (Z.leb_spec y 1582); lia.
Qed.

Lemma getDaysOfYear_ylen y : getDaysOfYear y = ylen y.
Proof. unfold getDaysOfYear, ylen. rewrite isLeapYear_leap, (Z.eqb_sym 1582 y). reflexivity. Qed.

Lemma getDaysOfMonth_mlen y m : 1 <= m <= 12 -> getDaysOfMonth y m = Ok (mlen y m).
Proof.
  intros H. unfold getDaysOfMonth, mlen. rewrite isLeapYear_leap, (Z.eqb_sym 1582 y), (Z.eqb_sym 10 m).
  destruct (_ && _) eqn:E; [reflexivity|].
  dmonth m H; cbn; try reflexivity; destruct (leap y); reflexivity.
Qed.

Lemma sum_months y n : Z.of_nat n <= 12 ->
  foldM (fun days i => let! k := getDaysOfMonth y i in Ok (days + k)) 0 (zseq 1 n) = Ok (cum y (1 + Z.of_nat n)).
Proof.
  induction n as [|n IH]; intros H.
  - cbn [zseq foldM Z.of_nat]. rewrite Z.add_0_r, cum_1. reflexivity.
  - replace (S n) with (n + 1)%nat by lia. rewrite zseq_app, foldM_app, IH by lia.
    cbn [bind zseq foldM]. rewrite getDaysOfMonth_mlen by lia. cbn [bind].
    f_equal. replace (1 + Z.of_nat (n + 1)) with (1 + Z.of_nat n + 1) by lia.
    rewrite cum_succ by lia. lia.
Qed.

Lemma getDaysInYear_ok y m d : valid_date (y, m, d) -> getDaysInYear y m d = Ok (cum y m + dord y m d).
Proof.
  intros (Hm & Hd & Hg). unfold getDaysInYear, zrange. rewrite sum_months by lia.
  replace (1 + Z.of_nat (Z.to_nat (m - 1))) with m by lia. cbn [bind].
  unfold dord. rewrite (Z.eqb_sym 1582 y), (Z.eqb_sym 10 m).
  destruct (Z.eqb_spec y 1582), (Z.eqb_spec m 10); cbn [andb]; try reflexivity.
  destruct (Z.leb_spec 15 d), (Z.ltb_spec 4 d); try lia; f_equal; lia.
Qed.

Lemma fromYmdHms_ok y m d h mi s : valid_date (y, m, d) -> valid_time h mi s ->
  fromYmdHms y m d h mi s = Ok (mkSolar y m d h mi s).
Proof.
  intros (Hm & Hd & Hg) (Hh & Hmi & Hs). unfold fromYmdHms.
  repeat match goal with |- context [if ?b then _ else _] => destruct b eqn:?; [exfalso; lia|] end.
  reflexivity.
Qed.

(** From the ordinal in the month back to the day number printed on the calendar. *)
Lemma undord y m d : 1 <= m <= 12 -> 1 <= d <= mlen y m ->
  let d' := if (1582 =? y) && (10 =? m) then (if 4 <? d then d + 10 else d) else d in
  valid_date (y, m, d') /\ dord y m d' = d.
Proof.
  intros Hm Hd. cbv zeta. rewrite (Z.eqb_sym 1582 y), (Z.eqb_sym 10 m).
  unfold mlen in Hd. unfold valid_date, dord.
  destruct (Z.eqb_spec y 1582), (Z.eqb_spec m 10); cbn [andb] in *; try lia.
  subst. change (last_day 1582 10) with 31.
  destruct (Z.ltb_spec 4 d).
  - destruct (Z.ltb_spec 4 (d + 10)); lia.
  - destruct (Z.ltb_spec 4 d); lia.
Qed.

Definition cnt (y m d : Z) : Z := ybase y + cum y m + d.

Lemma next_month_cnt y m d : 1 <= m <= 12 ->
  let '(y', m') := if 12 <? m + 1 then (y + 1, 1) else (y, m + 1) in
  1 <= m' <= 12 /\ cnt y' m' (d - mlen y m) = cnt y m d.
Proof.
  intros H. pose proof (cum_succ y m H). unfold cnt.
  destruct (Z.ltb_spec 12 (m + 1)); split; try lia.
  assert (m = 12) by lia. subst. rewrite ybase_succ, cum_1, <- cum_13.
  change 13 with (12 + 1). lia.
Qed.

Lemma prev_month_cnt y m d : 1 <= m <= 12 ->
  let '(y', m') := if m - 1 <? 1 then (y - 1, 12) else (y, m - 1) in
  1 <= m' <= 12 /\ cnt y' m' (d + mlen y' m') = cnt y m d.
Proof.
  intros H. unfold cnt. destruct (Z.ltb_spec (m - 1) 1); split; try lia.
  - assert (m = 1) by lia. subst. pose proof (ybase_succ (y - 1)) as E.
    replace (y - 1 + 1) with y in E by lia. rewrite cum_1, E, <- cum_13.
    change 13 with (12 + 1). rewrite cum_succ by lia. lia.
  - pose proof (cum_succ y (m - 1) ltac:(lia)) as E. replace (m - 1 + 1) with m in E by lia. lia.
Qed.

Definition ymd_post (t : Z) (r : res (Z * Z * Z)) : Prop :=
  exists y m d, r = Ok (y, m, d) /\ 1 <= m <= 12 /\ 1 <= d <= mlen y m /\ cnt y m d = t.

Lemma fwd_loop y m d : 1 <= m <= 12 -> 1 <= d ->
  exists r, loop (Z.max 1 (d + 1)) nextDay_fwd (y, m, d, mlen y m) = Ok r /\ ymd_post (cnt y m d) r.
Proof.
  intros Hm Hd.
  apply (loop_rule
    (fun st => let '(y', m', d', k) := st in 1 <= m' <= 12 /\ 1 <= d' /\ k = mlen y' m' /\ cnt y' m' d' = cnt y m d)
    _ (fun st => let '(y', m', d', k) := st in d')).
  - intros [[[y' m'] d'] k]. lia.
  - intros [[[y' m'] d'] k] (A & B & -> & C). unfold nextDay_fwd.
    destruct (Z.ltb_spec (mlen y' m') d') as [L|L].
    + pose proof (next_month_cnt y' m' d' A) as N.
      destruct (if 12 <? m' + 1 then (y' + 1, 1) else (y', m' + 1)) as [y2 m2].
      destruct N as [N1 N2]. rewrite getDaysOfMonth_mlen by lia.
      pose proof (mlen_bounds y' m'). repeat split; lia.
    + exists y', m', d'. repeat split; lia.
  - repeat split; lia.
  - lia.
Qed.

Lemma bwd_loop y m d days : 1 <= m <= 12 -> 1 <= d <= mlen y m -> days < 0 ->
  exists r, loop (Z.max 1 (2 - (d + days))) (nextDay_bwd days) (y, m, d) = Ok r /\
    exists y' m' d', r = Ok (y', m', d') /\ 1 <= m' <= 12 /\ 1 <= d' + days <= mlen y' m' /\
      cnt y' m' d' = cnt y m d.
Proof.
  intros Hm Hd Hn.
  apply (loop_rule
    (fun st => let '(y', m', d') := st in 1 <= m' <= 12 /\ d' + days <= mlen y' m' /\ cnt y' m' d' = cnt y m d)
    _ (fun st => let '(y', m', d') := st in Z.max 0 (1 - (d' + days)))).
  - intros [[y' m'] d']. lia.
  - intros [[y' m'] d'] (A & B & C). unfold nextDay_bwd.
    destruct (Z.leb_spec (d' + days) 0) as [L|L].
    + pose proof (prev_month_cnt y' m' d' A) as N.
      destruct (if m' - 1 <? 1 then (y' - 1, 12) else (y', m' - 1)) as [y2 m2].
      destruct N as [N1 N2]. rewrite getDaysOfMonth_mlen by lia.
      pose proof (mlen_bounds y2 m2). repeat split; try lia.
    + exists y', m', d'. repeat split; lia.
  - repeat split; lia.
  - lia.
Qed.

Lemma nextDay_spec s n : valid_solar s ->
  exists s', nextDay s n = Ok s' /\ valid_solar s' /\ same_time s' s /\
             dayno (sdate s') = dayno (sdate s) + n.
Proof.
  intros [V T]. destruct s as [y m d h mi s]. unfold sdate in *. cbn [sy sm sd sh smi ss] in *.
  pose proof (dord_bounds _ _ _ V) as DB. assert (Hm := proj1 V).
  unfold nextDay. cbn [sy sm sd sh smi ss]. cbv zeta.
  assert (ED : (if (1582 =? y) && (10 =? m) then if 4 <? d then d - 10 else d else d) = dord y m d).
  { unfold dord. rewrite (Z.eqb_sym 1582 y), (Z.eqb_sym 10 m).
    destruct ((y =? 1582) && (m =? 10)), (4 <? d); reflexivity. }
  rewrite ED. clear ED.
  assert (K : exists r, (if 0 <? n then
      let! dim := getDaysOfMonth y m in
      let! r := loop (Z.max 1 (dord y m d + n + 1)) nextDay_fwd (y, m, dord y m d + n, dim) in r
    else if n <? 0 then
      let! r := loop (Z.max 1 (2 - (dord y m d + n))) (nextDay_bwd n) (y, m, dord y m d) in
      let! ymd := r in let '(y, m, d) := ymd in Ok (y, m, d + n)
    else Ok (y, m, dord y m d)) = r /\ ymd_post (cnt y m (dord y m d) + n) r).
  { eexists; split; [reflexivity|].
    destruct (Z.ltb_spec 0 n) as [L|L]; [|destruct (Z.ltb_spec n 0) as [L2|L2]].
    - rewrite getDaysOfMonth_mlen by lia. cbn [bind].
      destruct (fwd_loop y m (dord y m d + n) Hm ltac:(lia)) as (r & -> & P). cbn [bind].
      replace (cnt y m (dord y m d) + n) with (cnt y m (dord y m d + n)) by (unfold cnt; lia).
      exact P.
    - destruct (bwd_loop y m (dord y m d) n Hm DB L2) as (r & -> & y' & m' & d' & -> & A & B & C).
      cbn [bind]. exists y', m', (d' + n). repeat split; try lia. unfold cnt in *; lia.
    - exists y, m, (dord y m d). repeat split; try lia. }
  destruct K as (r & -> & y' & m' & d' & -> & A & B & C). cbn [bind].
  destruct (undord y' m' d' A B) as [V' E'].
  rewrite fromYmdHms_ok by assumption.
  eexists; split; [reflexivity|].
  unfold valid_solar, sdate, same_time. cbn [sy sm sd sh smi ss].
  repeat split; try assumption; try apply V'; try apply T.
  unfold dayno. rewrite E'. unfold cnt in C. lia.
Qed.

(** ** subtract *)

Lemma sum_years a n x :
  fold_left (fun acc i => acc + getDaysOfYear i) (zseq a n) x = x + (ybase (a + Z.of_nat n) - ybase a).
Proof.
  revert a x; induction n as [|n IH]; intros a x; cbn [zseq fold_left].
  - rewrite Z.add_0_r. lia.
  - rewrite IH, getDaysOfYear_ylen. pose proof (ybase_succ a).
    replace (a + Z.of_nat (S n)) with (a + 1 + Z.of_nat n) by lia. lia.
Qed.

Lemma getDaysBetween_spec a b : valid_date a -> valid_date b ->
  let '(ay, am, ad) := a in let '(b1, bm, bd) := b in
  getDaysBetween ay am ad b1 bm bd = Ok (dayno b - dayno a).
Proof.
  destruct a as [[ay am] ad], b as [[b1 bm] bd]. intros Va Vb.
  unfold getDaysBetween, zrange. rewrite !getDaysInYear_ok by assumption. cbn [bind].
  rewrite !sum_years, !getDaysOfYear_ylen. unfold dayno.
  destruct (Z.eqb_spec ay b1) as [E|E]; [|destruct (Z.ltb_spec b1 ay) as [L|L]].
  - subst. f_equal. lia.
  - f_equal. replace (b1 + 1 + Z.of_nat (Z.to_nat (ay - (b1 + 1)))) with ay by lia.
    pose proof (ybase_succ b1). lia.
  - f_equal. replace (ay + 1 + Z.of_nat (Z.to_nat (b1 - (ay + 1)))) with b1 by lia.
    pose proof (ybase_succ ay). lia.
Qed.

Lemma subtract_spec a b : valid_solar a -> valid_solar b ->
  subtract a b = Ok (dayno (sdate a) - dayno (sdate b)).
Proof.
  intros [Va _] [Vb _]. unfold subtract.
  exact (getDaysBetween_spec (sdate b) (sdate a) Vb Va).
Qed.

(** Seconds since midnight and position on the time line. *)
Definition sod (s : Solar) : Z := sh s * 3600 + smi s * 60 + ss s.
Definition instant (s : Solar) : Z := 86400 * dayno (sdate s) + sod s.

Lemma sod_bounds s : valid_solar s -> 0 <= sod s < 86400.
Proof. intros [_ (A & B & C)]. unfold sod. lia. Qed.

Lemma instant_inj a b : valid_solar a -> valid_solar b -> instant a = instant b -> a = b.
Proof.
  intros Va Vb E. pose proof (sod_bounds a Va). pose proof (sod_bounds b Vb). unfold instant in E.
  assert (D : sdate a = sdate b) by (apply dayno_inj; [apply Va|apply Vb|lia]).
  destruct Va as [_ (A1 & A2 & A3)], Vb as [_ (B1 & B2 & B3)].
  rewrite D in E. unfold sod in *.
  destruct a as [y m d h mi s], b as [y' m' d' h' mi' s']. unfold sdate in D. cbn in *.
  assert (h = h' /\ mi = mi' /\ s = s') by lia. inversion D. f_equal; lia.
Qed.

Lemma isBefore_instant a b : valid_solar a -> valid_solar b ->
  isBefore a b = (instant a <? instant b).
Proof.
  intros Va Vb. pose proof (sod_bounds a Va). pose proof (sod_bounds b Vb).
  assert (Da := proj1 Va). assert (Db := proj1 Vb).
  unfold instant. set (x := instant a). 
  assert (L1 : lex_lt (sdate a) (sdate b) -> isBefore a b = true /\ isBefore b a = false).
  { unfold lex_lt, sdate, isBefore. intros L.
    destruct (Z.ltb_spec (sy b) (sy a)), (Z.ltb_spec (sy a) (sy b)); try (split; [reflexivity|reflexivity]); try lia;
    destruct (Z.ltb_spec (sm b) (sm a)), (Z.ltb_spec (sm a) (sm b)); try (split; [reflexivity|reflexivity]); try lia;
    destruct (Z.ltb_spec (sd b) (sd a)), (Z.ltb_spec (sd a) (sd b)); try (split; [reflexivity|reflexivity]); try lia. }
  assert (L2 : lex_lt (sdate b) (sdate a) -> isBefore a b = false).
  { unfold lex_lt, sdate, isBefore. intros L.
    destruct (Z.ltb_spec (sy b) (sy a)), (Z.ltb_spec (sy a) (sy b)); try reflexivity; try lia;
    destruct (Z.ltb_spec (sm b) (sm a)), (Z.ltb_spec (sm a) (sm b)); try reflexivity; try lia;
    destruct (Z.ltb_spec (sd b) (sd a)), (Z.ltb_spec (sd a) (sd b)); try reflexivity; try lia. }
  destruct (lex_total (sdate a) (sdate b)) as [E|[L|L]].
  - rewrite E. unfold sdate in E. inversion E as [[E1 E2 E3]]. clear L1 L2.
    destruct Va as [_ (A1 & A2 & A3)], Vb as [_ (B1 & B2 & B3)].
    unfold isBefore. rewrite E1, E2, E3, !Z.ltb_irrefl. unfold sod in *.
    destruct (Z.ltb_spec (sh b) (sh a)), (Z.ltb_spec (sh a) (sh b)); try lia;
    destruct (Z.ltb_spec (smi b) (smi a)), (Z.ltb_spec (smi a) (smi b)); lia.
  - destruct (L1 L) as [-> _]. apply lex_lt_dayno in L; auto. lia.
  - rewrite (L2 L). apply lex_lt_dayno in L; auto. lia.
Qed.

Lemma isAfter_isBefore a b : isAfter a b = isBefore b a.
Proof.
  unfold isAfter, isBefore.
  destruct (Z.ltb_spec (sy b) (sy a)), (Z.ltb_spec (sy a) (sy b)); try reflexivity; try lia;
  destruct (Z.ltb_spec (sm b) (sm a)), (Z.ltb_spec (sm a) (sm b)); try reflexivity; try lia;
  destruct (Z.ltb_spec (sd b) (sd a)), (Z.ltb_spec (sd a) (sd b)); try reflexivity; try lia;
  destruct (Z.ltb_spec (sh b) (sh a)), (Z.ltb_spec (sh a) (sh b)); try reflexivity; try lia;
  destruct (Z.ltb_spec (smi b) (smi a)), (Z.ltb_spec (smi a) (smi b)); try reflexivity; try lia.
Qed.

Lemma subtractMinute_spec a b : valid_solar a -> valid_solar b ->
  subtractMinute a b =
  Ok (1440 * (dayno (sdate a) - dayno (sdate b)) + (60 * sh a + smi a) - (60 * sh b + smi b)).
Proof.
  intros Va Vb. unfold subtractMinute. rewrite subtract_spec by assumption. cbn [bind].
  destruct (_ <? 0); f_equal; lia.
Qed.
