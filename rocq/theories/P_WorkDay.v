(** C27: stepping over working days. *)
From Coq Require Import ZArith Lia Bool ZifyBool List FinFun String Floats.
From Verif Require Import Py PyFloat PyStr CalSpec DayNo T_Holiday Solar SolarProofs SolarUnits AlmanacProofs FromJulianDay JulianDay P_JD
  Holiday HolidayProofs HolidayRecs P_Holiday.
Import ListNotations.
Open Scope Z_scope.

(** A day is a working day if its record says so, else if it is no Saturday or Sunday; 1 January 2000 was a Saturday. *)
Definition working (rs : list hrec) (a : date) : Prop :=
  match find (on_day a) rs with
  | Some r => rwork r = true
  | None => exists n, days_later n (2000, 1, 1) a /\ (6 + n) mod 7 <> 0 /\ (6 + n) mod 7 <> 6
  end.
(** The same as a boolean, through the day number. *)
Definition workb (rs : list hrec) (a : date) : bool :=
  match find (on_day a) rs with
  | Some r => rwork r
  | None => negb ((0 =? (dayno a + 1) mod 7) || (6 =? (dayno a + 1) mod 7))
  end.
Lemma workb_working rs a : valid_date a -> (workb rs a = true <-> working rs a).
Proof.
  intros V. unfold workb, working. destruct (find (on_day a) rs); [reflexivity|]. split.
  - intros H. exists (dayno a - 2451545). split; [|lia]. apply days_later_dayno; [exact valid_2000|exact V|]. rewrite dayno_2000. lia.
  - intros (n & D & H1 & H2). apply days_later_dayno in D; [|exact valid_2000|exact V]. rewrite dayno_2000 in D. lia.
Qed.

(** The date with a given day number (proof device). *)
Definition date_of (d : Z) : date :=
  match nextDay (mkSolar 2000 1 1 0 0 0) (d - 2451545) with Ok s => sdate s | Raise _ => (0, 0, 0) end.
Lemma date_of_spec d : valid_date (date_of d) /\ dayno (date_of d) = d.
Proof.
  destruct (nextDay_spec (mkSolar 2000 1 1 0 0 0) (d - 2451545)) as (s & E & V & _ & D).
  - split; [exact valid_2000|]. unfold valid_time. cbn. lia.
  - unfold date_of. rewrite E. split; [apply V|]. rewrite D. change (sdate (mkSolar 2000 1 1 0 0 0)) with (2000, 1, 1). rewrite dayno_2000. lia.
Qed.
Lemma date_of_dayno a : valid_date a -> date_of (dayno a) = a.
Proof. intros V. destruct (date_of_spec (dayno a)). now apply dayno_inj. Qed.

Section COUNT.
  Variables (rs : list hrec) (dir d0 : Z).
  Hypothesis Hdir : dir = 1 \/ dir = -1.
  Definition w (d : Z) : bool := workb rs (date_of d).
  (** The day numbers of the first [k] days stepped to. *)
  Definition steps (k : Z) : list Z := map (fun i => d0 + dir * i) (zrange 1 (k + 1)).
  Definition cnt (p : Z -> bool) (k : Z) : Z := Z.of_nat (List.length (filter p (steps k))).

  Lemma steps_0 : steps 0 = []. Proof. reflexivity. Qed.
  Lemma steps_S k : 0 <= k -> steps (k + 1) = steps k ++ [d0 + dir * (k + 1)].
  Proof. intros H. unfold steps. rewrite zrange_snoc by lia. rewrite map_app. reflexivity. Qed.
  Lemma cnt_S p k : 0 <= k -> cnt p (k + 1) = cnt p k + (if p (d0 + dir * (k + 1)) then 1 else 0).
  Proof.
    intros H. unfold cnt. rewrite steps_S, filter_app, app_length by exact H. cbn [filter]. destruct (p _); cbn [List.length]; lia.
  Qed.
  Lemma cnt_mono p a b : 0 <= a <= b -> cnt p a <= cnt p b.
  Proof.
    intros H. replace b with (a + Z.of_nat (Z.to_nat (b - a))) by lia. induction (Z.to_nat (b - a)) as [|n IH].
    - replace (a + Z.of_nat 0) with a by lia. lia.
    - replace (a + Z.of_nat (Datatypes.S n)) with (a + Z.of_nat n + 1) by lia. rewrite cnt_S by lia. destruct (p _); lia.
  Qed.
  Lemma cnt_nonneg p k : 0 <= cnt p k. Proof. unfold cnt. lia. Qed.

  Definition week_day (d : Z) : bool := negb ((0 =? (d + 1) mod 7) || (6 =? (d + 1) mod 7)).
  Lemma week_days n : cnt week_day (7 * Z.of_nat n) = 5 * Z.of_nat n.
  Proof.
    induction n as [|n IH]; [reflexivity|].
    replace (7 * Z.of_nat (Datatypes.S n)) with (7 * Z.of_nat n + 1 + 1 + 1 + 1 + 1 + 1 + 1) by lia.
    rewrite !cnt_S by lia. rewrite IH. unfold week_day. set (e := d0 + dir * (7 * Z.of_nat n)).
    assert (forall j, d0 + dir * (7 * Z.of_nat n + j) = e + dir * j) as X by (intros; unfold e; lia).
    replace (d0 + dir * (7 * Z.of_nat n + 1)) with (e + dir * 1) by (unfold e; lia).
    replace (d0 + dir * (7 * Z.of_nat n + 1 + 1)) with (e + dir * 2) by (unfold e; lia).
    replace (d0 + dir * (7 * Z.of_nat n + 1 + 1 + 1)) with (e + dir * 3) by (unfold e; lia).
    replace (d0 + dir * (7 * Z.of_nat n + 1 + 1 + 1 + 1)) with (e + dir * 4) by (unfold e; lia).
    replace (d0 + dir * (7 * Z.of_nat n + 1 + 1 + 1 + 1 + 1)) with (e + dir * 5) by (unfold e; lia).
    replace (d0 + dir * (7 * Z.of_nat n + 1 + 1 + 1 + 1 + 1 + 1)) with (e + dir * 6) by (unfold e; lia).
    replace (d0 + dir * (7 * Z.of_nat n + 1 + 1 + 1 + 1 + 1 + 1 + 1)) with (e + dir * 7) by (unfold e; lia).
    clearbody e. clear X IH. replace (5 * Z.of_nat (Datatypes.S n)) with (5 * Z.of_nat n + 5) by lia. generalize (5 * Z.of_nat n) as q.
    assert (forall j, (e + dir * j + 1) mod 7 = (e mod 7 + dir * j + 1) mod 7) as M by (intros; lia).
    rewrite !M. assert (0 <= e mod 7 < 7) as B by (apply Z.mod_pos_bound; lia). set (f := e mod 7) in *. clearbody f. clear M.
    assert (f = 0 \/ f = 1 \/ f = 2 \/ f = 3 \/ f = 4 \/ f = 5 \/ f = 6) as C by lia.
    destruct Hdir as [-> | ->]; destruct C as [->|[->|[->|[->|[->|[->| ->]]]]]]; intros q; vm_compute Z.modulo; cbn -[Z.add]; lia.
  Qed.

  Definition has_rec (d : Z) : bool := match find (on_day (date_of d)) rs with Some _ => true | None => false end.

  Lemma steps_NoDup k : NoDup (steps k).
  Proof.
    unfold steps. apply FinFun.Injective_map_NoDup; [intros a b E; cbv beta in E; destruct Hdir as [-> | ->]; lia|].
    unfold zrange. set (n := Z.to_nat (k + 1 - 1)). generalize 1 as a. clearbody n.
    induction n as [|n IH]; intros a; cbn [zseq]; constructor; [|apply IH]. rewrite in_zseq. lia.
  Qed.
  Lemma has_rec_cnt k : cnt has_rec k <= Z.of_nat (List.length rs).
  Proof.
    unfold cnt. apply inj_le. rewrite <- (map_length date_of), <- (map_length rday rs). apply NoDup_incl_length.
    - apply FinFun.Injective_map_NoDup.
      + intros a b E. apply (f_equal dayno) in E. destruct (date_of_spec a) as [_ Ea], (date_of_spec b) as [_ Eb]. congruence.
      + apply NoDup_filter, steps_NoDup.
    - intros a I. apply in_map_iff in I. destruct I as (d & <- & I). apply filter_In in I. destruct I as [_ I].
      unfold has_rec in I. destruct (find (on_day (date_of d)) rs) as [r|] eqn:F; [|discriminate].
      apply find_some in F. destruct F as [F1 F2]. apply day_eqb_eq in F2. rewrite <- F2. now apply in_map.
  Qed.

  Lemma cnt_split k : 0 <= k -> cnt week_day k <= cnt w k + cnt has_rec k.
  Proof.
    intros H. replace k with (Z.of_nat (Z.to_nat k)) by lia. induction (Z.to_nat k) as [|n IH]; [unfold cnt; cbn; lia|].
    replace (Z.of_nat (Datatypes.S n)) with (Z.of_nat n + 1) by lia. rewrite !cnt_S by lia.
    set (d := d0 + dir * (Z.of_nat n + 1)).
    assert ((if week_day d then 1 else 0) <= (if w d then 1 else 0) + (if has_rec d then 1 else 0)); [|lia].
    unfold w, workb, has_rec, week_day. destruct (date_of_spec d) as [_ ->]. destruct (find _ rs); destruct (negb _); try destruct (rwork _); lia.
  Qed.

  Lemma cnt_enough n : 0 <= n -> n <= cnt w (7 * (n + Z.of_nat (List.length rs))).
  Proof.
    intros H. set (N := Z.of_nat (List.length rs)).
    pose proof (cnt_split (7 * (n + N)) ltac:(lia)) as C. pose proof (has_rec_cnt (7 * (n + N))) as R. fold N in R.
    pose proof (week_days (Z.to_nat (n + N))) as W. rewrite Z2Nat.id in W by lia. rewrite W in C. lia.
  Qed.
End COUNT.

Lemma is_work_spec db rs s : represents db rs -> valid_solar s -> 1000 <= sy s <= 9999 -> is_work db s = Ok (workb rs (sdate s)).
Proof.
  intros R V Y. unfold is_work, workb. destruct V as [V T].
  assert (1 <= sm s <= 99 /\ 1 <= sd s <= 99) as [M D].
  { destruct V as (A & B & _). pose proof (last_day_bounds (sy s) (sm s)). lia. }
  rewrite (C28_getHoliday db rs _ _ _ R Y M D). cbn [bind]. change (sy s, sm s, sd s) with (sdate s).
  destruct (find (on_day (sdate s)) rs) as [r|]; [reflexivity|]. cbn [option_map].
  rewrite getWeek_spec; [reflexivity|split; assumption|unfold jd_year; lia].
Qed.

(** The result, when enough days around stay in the years 1000..9999. *)
Lemma next_work_spec db rs s n K : represents db rs -> valid_solar s ->
  let dir := if n <? 0 then -1 else 1 in
  let d0 := dayno (sdate s) in
  0 <= K -> Z.abs n <= cnt dir d0 (w rs) K ->
  (forall k, 0 <= k <= K -> 1000 <= fst (fst (date_of (d0 + dir * k))) <= 9999) ->
  exists s' k, next_work db s n = Ok s' /\ valid_solar s' /\ same_time s' s /\ 0 <= k <= 7 * (Z.abs n + Z.of_nat (List.length rs)) /\
    dayno (sdate s') = d0 + dir * k /\ cnt dir d0 (w rs) k = Z.abs n /\ (n <> 0 -> 0 < k /\ workb rs (sdate s') = true) /\ k <= K.
Proof.
  intros R V dir d0 HK Hn HY. assert (dir = 1 \/ dir = -1) as Hdir by (unfold dir; destruct (n <? 0); auto).
  unfold next_work. pose proof V as [Vd Vt].
  assert (fromYmdHms (sy s) (sm s) (sd s) (sh s) (smi s) (ss s) = Ok s) as ->.
  { rewrite fromYmdHms_ok by assumption. now destruct s. }
  cbn [bind]. destruct (Z.eqb_spec n 0) as [->|N].
  { exists s, 0. split; [reflexivity|]. split; [exact V|]. split; [repeat split|]. split; [lia|]. split; [fold d0; lia|].
    split; [reflexivity|]. split; [lia|lia]. }
  set (B := 7 * (Z.abs n + Z.of_nat (List.length rs))).
  pose proof (cnt_enough rs dir d0 Hdir (Z.abs n) ltac:(lia)) as HB. fold B in HB.
  assert (slen (hdata db) = 18 * Z.of_nat (List.length rs)) as HL.
  { destruct R as [-> _]. unfold slen. rewrite concat18_length by apply rec_texts_18. rewrite map_length. lia. }
  rewrite HL. fold dir.
  set (Q := fun s' k => valid_solar s' /\ same_time s' s /\ dayno (sdate s') = d0 + dir * k /\ 0 <= k <= B /\ k <= K).
  destruct (loop_rule
    (fun st : Solar * Z => exists k, Q (fst st) k /\ 0 <= snd st /\ cnt dir d0 (w rs) k = Z.abs n - snd st
       /\ (snd st = 0 -> 0 < k /\ workb rs (sdate (fst st)) = true))
    (fun r => exists s' k, r = Ok s' /\ Q s' k /\ cnt dir d0 (w rs) k = Z.abs n /\ 0 < k /\ workb rs (sdate s') = true)
    (fun st => B - dir * (dayno (sdate (fst st)) - d0))
    (next_work_step db dir) (8 * (Z.abs n + 18 * Z.of_nat (List.length rs)) + 8) (s, Z.abs n)) as (r & E & s' & k & -> & HQ & HC & HP & HW).
  - intros [s1 rest] (k & (_ & _ & D & Hk & _) & _). cbn [fst snd] in *. rewrite D. destruct Hdir as [-> | ->]; lia.
  - intros [s1 rest] (k & (V1 & T1 & D1 & Hk & HkK) & Hr & HC & HF). cbn [fst snd] in *. unfold next_work_step.
    destruct (Z.ltb_spec 0 rest) as [L|L].
    + assert (k < B) as LB. { destruct (Z.lt_ge_cases k B) as [|G]; [assumption|]. pose proof (cnt_mono dir d0 (w rs) B k) as M. unfold cnt in *. lia. }
      assert (k < K) as LK. { destruct (Z.lt_ge_cases k K) as [|G]; [assumption|]. pose proof (cnt_mono dir d0 (w rs) K k) as M. unfold cnt in *. lia. }
      destruct (nextDay_spec s1 dir V1) as (s2 & -> & V2 & T2 & D2).
      assert (dayno (sdate s2) = d0 + dir * (k + 1)) as D2' by lia.
      assert (date_of (d0 + dir * (k + 1)) = sdate s2) as DO by (rewrite <- D2'; apply date_of_dayno, V2).
      assert (1000 <= sy s2 <= 9999) as Y2. { pose proof (HY (k + 1) ltac:(lia)) as Y. rewrite DO in Y. exact Y. }
      rewrite (is_work_spec db rs s2 R V2 Y2). cbn [fst snd].
      assert (w rs (d0 + dir * (k + 1)) = workb rs (sdate s2)) as W by (unfold w; now rewrite DO).
      pose proof (cnt_S dir d0 (w rs) k ltac:(lia)) as CS. rewrite W in CS.
      split.
      * exists (k + 1). split; [|split; [|split]].
        -- split; [exact V2|]. split; [destruct T1 as (? & ? & ?), T2 as (? & ? & ?); repeat split; congruence|]. split; [exact D2'|]. lia.
        -- destruct (workb rs (sdate s2)); lia.
        -- destruct (workb rs (sdate s2)); lia.
        -- destruct (workb rs (sdate s2)); [|lia]. intros _. split; [lia|reflexivity].
      * rewrite D2', D1. destruct Hdir as [-> | ->]; lia.
    + assert (rest = 0) as -> by lia. destruct (HF eq_refl) as [P1 P2].
      exists s1, k. split; [reflexivity|]. split; [split; auto|]. split; [lia|]. auto.
  - exists 0. cbn [fst snd]. split; [|split; [lia|split; [|lia]]].
    + split; [exact V|]. split; [repeat split|]. split; [fold d0; lia|]. lia.
    + change (cnt dir d0 (w rs) 0) with 0. lia.
  - cbn [fst]. fold d0. unfold B. lia.
  - exists s', k. destruct HQ as (V' & T' & D' & Hk & HkK).
    split; [exact (f_equal (fun x => bind x (fun r => r)) E)|]. repeat split; auto; try apply V'; try apply T'; try lia.
Qed.

(** The dates stepped to: the i-th is [i] days after (before, when [n < 0]) the start. *)
Definition stepped (dir : Z) (a : date) (l : list date) : Prop :=
  Forall2 (fun i b => valid_date b /\ days_later (dir * i) a b) (zrange 1 (Z.of_nat (List.length l) + 1)) l.

(** [next(n, True)] goes through days whose years have four digits; exactly [|n|] of the days it steps to are working
    days and the last of them is the result.  It suffices that the days up to [7 * (|n| + number of records)] away
    have four-digit years. *)
Theorem C27_next_work : forall db rs s n, represents db rs -> valid_solar s ->
  let dir := if n <? 0 then -1 else 1 in
  (forall k b, 0 <= k <= 7 * (Z.abs n + Z.of_nat (List.length rs)) -> valid_date b -> days_later (dir * k) (sdate s) b ->
     1000 <= fst (fst b) <= 9999) ->
  exists s' l, next_work db s n = Ok s' /\ valid_solar s' /\ same_time s' s /\ stepped dir (sdate s) l /\
    Z.of_nat (List.length (filter (workb rs) l)) = Z.abs n /\ last l (sdate s) = sdate s' /\
    (n <> 0 -> working rs (sdate s')).
Proof.
  intros db rs s n R V dir HY. set (d0 := dayno (sdate s)).
  assert (dir = 1 \/ dir = -1) as Hdir by (unfold dir; destruct (n <? 0); auto).
  destruct (next_work_spec db rs s n (7 * (Z.abs n + Z.of_nat (List.length rs))) R V) as (s' & k & E & V' & T' & Hk & D & C & W & _).
  - lia.
  - apply (cnt_enough rs _ _ Hdir). lia.
  - intros k Hk. destruct (date_of_spec (d0 + dir * k)) as [Vb Db]. apply (HY k _ Hk Vb).
    apply days_later_dayno; [apply V|exact Vb|]. rewrite Db. unfold d0. lia.
  - fold dir d0 in D, C. exists s', (map date_of (steps dir d0 k)). split; [exact E|]. split; [exact V'|]. split; [exact T'|].
    assert (List.length (steps dir d0 k) = Z.to_nat k) as L.
    { unfold steps. rewrite map_length. unfold zrange. rewrite zseq_length. lia. }
    split; [|split; [|split]].
    + unfold stepped. rewrite map_length, L, Z2Nat.id by lia. unfold steps. rewrite map_map.
      generalize (zrange 1 (k + 1)) as z. induction z as [|i z IH]; cbn [map]; constructor; [|exact IH].
      destruct (date_of_spec (d0 + dir * i)) as [Vb Db]. split; [exact Vb|].
      apply days_later_dayno; [apply V|exact Vb|]. rewrite Db. unfold d0. lia.
    + rewrite <- C. unfold cnt, w. f_equal. generalize (steps dir d0 k) as z. induction z as [|i z IH]; cbn [map filter]; [reflexivity|].
      destruct (workb rs (date_of i)); cbn [List.length]; lia.
    + destruct (Z.eq_dec k 0) as [->|Nk].
      * change (steps dir d0 0) with (@nil Z). cbn [map last]. apply dayno_inj; [apply V|apply V'|]. fold d0. lia.
      * replace k with (k - 1 + 1) by lia. rewrite steps_S by lia. rewrite map_app. cbn [map]. rewrite last_last.
        replace (k - 1 + 1) with k by lia. rewrite <- D. apply date_of_dayno, V'.
    + intros N. apply workb_working; [apply V'|]. apply W, N.
Qed.

(** On the shipped data: five working days after Monday 30 September 2019 (the holiday week is skipped and Saturday
    12 October counts), and four before Friday 9 October 2020 (27 September, a Sunday, counts). *)
Example C27_case : next_work HDB_shipped (mkSolar 2019 9 30 8 30 0) 5 = Ok (mkSolar 2019 10 12 8 30 0) /\
  next_work HDB_shipped (mkSolar 2020 10 9 0 0 0) (-4) = Ok (mkSolar 2020 9 27 0 0 0).
Proof. split; vm_compute; reflexivity. Qed.
(** The hypotheses hold for the shipped data and every start in the years 1100..9000, up to 4000 working days. *)
Example C27_applies : forall s n, valid_solar s -> 1100 <= sy s <= 9000 -> Z.abs n <= 4000 ->
  exists s', next_work HDB_shipped s n = Ok s' /\ (n <> 0 -> working shipped (sdate s')).
Proof.
  intros s n V Y N. assert (Z.of_nat (List.length shipped) <= 1000) as L by (vm_compute; discriminate).
  destruct (C27_next_work HDB_shipped shipped s n C28_shipped V) as (s' & l & E & _ & _ & _ & _ & _ & W).
  - set (len := Z.of_nat (List.length shipped)) in *. clearbody len. intros k b Hk Vb D.
    apply days_later_dayno in D; [|apply V|exact Vb].
    assert (dayno (1100, 1, 1) <= dayno (sdate s) < dayno (9001, 1, 1)) as B.
    { split.
      - destruct (Z.le_gt_cases (dayno (1100, 1, 1)) (dayno (sdate s))) as [|G]; [assumption|].
        apply dayno_lt_lex in G; [|apply V|split; [|split]; cbn; lia]. unfold lex_lt, sdate in G. destruct V as [(? & ? & ?) _]. lia.
      - apply lex_lt_dayno; [apply V|split; [|split]; cbn; lia|]. unfold lex_lt, sdate. lia. }
    assert (dayno (1000, 1, 1) <= dayno b < dayno (10000, 1, 1)) as B'.
    { change (dayno (1100, 1, 1)) with 2122833 in B. change (dayno (9001, 1, 1)) with 5008608 in B.
      change (dayno (1000, 1, 1)) with 2086308. change (dayno (10000, 1, 1)) with 5373485. destruct (n <? 0); lia. }
    destruct b as [[y m] d]. cbn [fst]. split.
    + destruct (Z.le_gt_cases 1000 y) as [|G]; [assumption|].
      assert (dayno (y, m, d) < dayno (1000, 1, 1)); [|lia]. apply lex_lt_dayno; [exact Vb|split; [|split]; cbn; lia|]. unfold lex_lt. lia.
    + destruct (Z.le_gt_cases y 9999) as [|G]; [assumption|].
      assert (dayno (10000, 1, 1) <= dayno (y, m, d)); [|lia].
      destruct (Z.le_gt_cases (dayno (10000, 1, 1)) (dayno (y, m, d))) as [|G2]; [assumption|].
      apply dayno_lt_lex in G2; [|exact Vb|split; [|split]; cbn; lia]. unfold lex_lt in G2. destruct Vb as (? & ? & ?). lia.
  - exists s'. auto.
Qed.
