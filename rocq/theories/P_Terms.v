(** Queries on the solar terms (C57, C58). *)
From Coq Require Import ZArith Lia Bool ZifyBool List String Floats.
From Verif Require Import Py PyFloat PyStr Solar CalSpec DayNo SolarProofs JulianDay P_JD P_Solar UnitsProofs
  LunarUtil T_LunarUtil T_Misc P_Tables LunarYear Lunar LunarProofs TermProofs Demo.
Import ListNotations.
Open Scope Z_scope.

(** ** C57: the nearest term *)
(** The 24 terms in their order; 节 and 气 alternate. *)
Definition terms24 : list str := Eval vm_compute in map utf8
  ["立春"; "雨水"; "惊蛰"; "春分"; "清明"; "谷雨"; "立夏"; "小满"; "芒种"; "夏至"; "小暑"; "大暑";
   "立秋"; "处暑"; "白露"; "秋分"; "寒露"; "霜降"; "立冬"; "小雪"; "大雪"; "冬至"; "小寒"; "大寒"]%string.
(** The [i]-th entry of a table (DA_XUE = 0, so 立春 = 4) is this term. *)
Definition term_name_at (i : Z) : str := nth (Z.to_nat ((i - 4) mod 24)) terms24 [].
Inductive kind := Jie | Qi | Any.
Definition of_kind (k : kind) (i : Z) : bool := match k with Jie => Z.even i | Qi => Z.odd i | Any => true end.

(** getNext*, getPrev* with the [whole_day] argument *)
Definition next_term (k : kind) (l : Lunar) (whole_day : bool) : res (option JieQi) :=
  match k with Jie => Lunar_getNextJie l whole_day | Qi => Lunar_getNextQi l whole_day | Any => Lunar_getNextJieQi l whole_day end.
Definition prev_term (k : kind) (l : Lunar) (whole_day : bool) : res (option JieQi) :=
  match k with Jie => Lunar_getPrevJie l whole_day | Qi => Lunar_getPrevQi l whole_day | Any => Lunar_getPrevJieQi l whole_day end.

(** The filter lists. *)
Definition conditions (k : kind) : option (list str) :=
  match k with
  | Jie => Some (map (fun j => term_key (2 * j)) (zrange 0 15))
  | Qi => Some (map (fun j => term_key (2 * j + 1)) (zrange 0 15))
  | Any => None
  end.
Lemma next_term_near k l wd : next_term k l wd = getNearJieQi l true (conditions k) wd.
Proof.
  destruct k; [| |reflexivity].
  - assert (E : jie_conditions = Ok (map (fun j => term_key (2 * j)) (zrange 0 15))) by (vm_compute; reflexivity).
    unfold next_term, Lunar_getNextJie. rewrite E. reflexivity.
  - assert (E : qi_conditions = Ok (map (fun j => term_key (2 * j + 1)) (zrange 0 15))) by (vm_compute; reflexivity).
    unfold next_term, Lunar_getNextQi. rewrite E. reflexivity.
Qed.
Lemma prev_term_near k l wd : prev_term k l wd = getNearJieQi l false (conditions k) wd.
Proof.
  destruct k; [| |reflexivity].
  - assert (E : jie_conditions = Ok (map (fun j => term_key (2 * j)) (zrange 0 15))) by (vm_compute; reflexivity).
    unfold prev_term, Lunar_getPrevJie. rewrite E. reflexivity.
  - assert (E : qi_conditions = Ok (map (fun j => term_key (2 * j + 1)) (zrange 0 15))) by (vm_compute; reflexivity).
    unfold prev_term, Lunar_getPrevQi. rewrite E. reflexivity.
Qed.

Definition skips (conditions : option (list str)) (key : str) : bool :=
  match conditions with None => false | Some [] => false | Some f => negb (existsb (str_eqb (convertJieQi key)) f) end.
Lemma term_table : forallb (fun i =>
    forallb (fun k => Bool.eqb (negb (skips (conditions k) (term_key i))) (of_kind k i)) [Jie; Qi; Any] &&
    str_eqb (convertJieQi (term_key i)) (term_name_at i) &&
    (let j := JieQi_new (term_name_at i) solar0 in Bool.eqb (jq_isJie j) (Z.even i) && Bool.eqb (jq_isQi j) (Z.odd i)))
  (zrange 0 31) = true.
Proof. vm_compute. reflexivity. Qed.
Lemma skips_kind k i : 0 <= i < 31 -> skips (conditions k) (term_key i) = negb (of_kind k i).
Proof.
  intros H. by_table term_table i. rewrite !andb_true_iff in X. destruct X as [[X _] _].
  cbn [forallb] in X. rewrite !andb_true_iff, !eqb_true_iff in X. destruct X as (A & B & C & _).
  destruct k; [rewrite <- A|rewrite <- B|rewrite <- C]; now rewrite negb_involutive.
Qed.
Lemma convert_key i : 0 <= i < 31 -> convertJieQi (term_key i) = term_name_at i.
Proof. intros H. by_table term_table i. rewrite !andb_true_iff in X. apply str_eqb_eq. apply X. Qed.
Lemma JieQi_at i t : 0 <= i < 31 -> JieQi_new (term_name_at i) t = mkJieQi (term_name_at i) t (Z.even i) (Z.odd i).
Proof.
  intros H. by_table term_table i. rewrite !andb_true_iff, !eqb_true_iff in X. destruct X as (_ & A & B).
  unfold JieQi_new in *. cbn [jq_isJie jq_isQi] in A, B. now rewrite A, B.
Qed.

Section Near.
Variables (jq : list (str * Solar)) (day : bool) (s : Solar) (cond : option (list str)).
Hypothesis N : named jq.
Hypothesis F : forall i, 0 <= i < 31 -> fmt_ok (term_at jq i).
Hypothesis S : fmt_ok s.

(** What the search knows after looking at the first [n] keys. *)
Definition best (forward : bool) (n : Z) (st : option (str * Solar)) : Prop :=
  let cand i := 0 <= i < n /\ skips cond (term_key i) = false /\
    (if forward then clock day s < clock day (term_at jq i) else clock day (term_at jq i) <= clock day s) in
  match st with
  | None => forall i, ~ cand i
  | Some (name, t) => exists i, cand i /\ name = convertJieQi (term_key i) /\ t = term_at jq i /\
      forall j, cand j -> if forward then clock day t <= clock day (term_at jq j) else clock day (term_at jq j) <= clock day t
  end.
Lemma near_spec forward n : 0 <= n <= 31 -> exists st,
  foldM (near_step jq (fmt_of day) (fmt_of day s) forward cond) None (map term_key (zrange 0 n)) = Ok st /\ best forward n st.
Proof.
  intros Hn. assert (H0 : 0 <= n) by lia. assert (H1 : n <= 31) by lia. clear Hn. revert n H0 H1.
  apply (natlike_ind (fun n => n <= 31 -> exists st,
    foldM (near_step jq (fmt_of day) (fmt_of day s) forward cond) None (map term_key (zrange 0 n)) = Ok st /\ best forward n st)).
  - intros _. exists None. split; [reflexivity|]. cbn. intros i [Hi _]. lia.
  - intros n Hn IH H1. destruct (IH ltac:(lia)) as (st & E & B). clear IH.
    unfold Z.succ. rewrite zrange_snoc, map_app, foldM_app, E by lia. cbn [bind map foldM].
    assert (X : exists st', near_step jq (fmt_of day) (fmt_of day s) forward cond st (term_key n) = Ok st' /\ best forward (n + 1) st').
    { unfold near_step. fold (skips cond (term_key n)). destruct (skips cond (term_key n)) eqn:K.
      - exists st. split; [reflexivity|]. unfold best in *. destruct st as [[name t]|].
        + destruct B as (i & (C1 & C2) & Ea & Et & C3). exists i. repeat split; try tauto; try lia.
          intros j ((J1 & J2) & J3 & J4). apply C3. assert (j <> n) by (intros ->; congruence). repeat split; try tauto; lia.
        + intros i ((J1 & J2) & J3 & J4). apply (B i). assert (i <> n) by (intros ->; congruence). repeat split; try tauto; lia.
      - rewrite dict_at by (assumption || lia). cbn [bind]. pose proof (F n ltac:(lia)) as Fn. cbv zeta.
        destruct forward.
        + rewrite fmt_leb by assumption. destruct (Z.leb_spec (clock day (term_at jq n)) (clock day s)) as [L|L].
          * exists st. split; [reflexivity|]. unfold best in *. destruct st as [[name t]|].
            -- destruct B as (i & (C1 & C2) & Ea & Et & C3). exists i. repeat split; try tauto; try lia.
               intros j ((J1 & J2) & J3 & J4). apply C3. assert (j <> n) by (intros ->; lia). repeat split; try tauto; lia.
            -- intros i ((J1 & J2) & J3 & J4). apply (B i). assert (i <> n) by (intros ->; lia). repeat split; try tauto; lia.
          * destruct st as [[name t]|].
            -- destruct B as (i & (C1 & C2 & C4) & Ea & Et & C3). subst t. rewrite fmt_ltb by (auto; apply F; lia).
               destruct (Z.ltb_spec (clock day (term_at jq n)) (clock day (term_at jq i))) as [M|M].
               ++ eexists. split; [reflexivity|]. exists n. repeat split; try tauto; try lia.
                  intros j ((J1 & J2) & J3 & J4). destruct (Z.eq_dec j n) as [->|]; [lia|].
                  assert (clock day (term_at jq i) <= clock day (term_at jq j)); [apply C3|lia]. repeat split; try tauto; lia.
               ++ eexists. split; [reflexivity|]. exists i. repeat split; try tauto; try lia.
                  intros j ((J1 & J2) & J3 & J4). destruct (Z.eq_dec j n) as [->|]; [lia|].
                  apply C3. repeat split; try tauto; lia.
            -- eexists. split; [reflexivity|]. exists n. repeat split; try tauto; try lia.
               intros j ((J1 & J2) & J3 & J4). destruct (Z.eq_dec j n) as [->|]; [lia|].
               exfalso. apply (B j). repeat split; try tauto; lia.
        + rewrite fmt_ltb by assumption. destruct (Z.ltb_spec (clock day s) (clock day (term_at jq n))) as [L|L].
          * exists st. split; [reflexivity|]. unfold best in *. destruct st as [[name t]|].
            -- destruct B as (i & (C1 & C2) & Ea & Et & C3). exists i. repeat split; try tauto; try lia.
               intros j ((J1 & J2) & J3 & J4). apply C3. assert (j <> n) by (intros ->; lia). repeat split; try tauto; lia.
            -- intros i ((J1 & J2) & J3 & J4). apply (B i). assert (i <> n) by (intros ->; lia). repeat split; try tauto; lia.
          * destruct st as [[name t]|].
            -- destruct B as (i & (C1 & C2 & C4) & Ea & Et & C3). subst t. rewrite fmt_ltb by (auto; apply F; lia).
               destruct (Z.ltb_spec (clock day (term_at jq i)) (clock day (term_at jq n))) as [M|M].
               ++ eexists. split; [reflexivity|]. exists n. repeat split; try tauto; try lia.
                  intros j ((J1 & J2) & J3 & J4). destruct (Z.eq_dec j n) as [->|]; [lia|].
                  assert (clock day (term_at jq j) <= clock day (term_at jq i)); [apply C3|lia]. repeat split; try tauto; lia.
               ++ eexists. split; [reflexivity|]. exists i. repeat split; try tauto; try lia.
                  intros j ((J1 & J2) & J3 & J4). destruct (Z.eq_dec j n) as [->|]; [lia|].
                  apply C3. repeat split; try tauto; lia.
            -- eexists. split; [reflexivity|]. exists n. repeat split; try tauto; try lia.
               intros j ((J1 & J2) & J3 & J4). destruct (Z.eq_dec j n) as [->|]; [lia|].
               exfalso. apply (B j). repeat split; try tauto; lia. }
    destruct X as (st' & E' & B'). exists st'. rewrite E'. split; [reflexivity|exact B'].
Qed.
End Near.

(** [s] is before [t], by the day or by the second *)
Definition before (whole_day : bool) (s t : Solar) : Prop :=
  if whole_day then dayno (sdate s) < dayno (sdate t) else instant s < instant t.
Lemma before_clock wd s t : before wd s t <-> clock wd s < clock wd t.
Proof. destruct wd; reflexivity. Qed.

Lemma new_good fromYear y m d h mi s l : Lunar_new fromYear y m d h mi s = Ok l -> valid_solar (l_solar l) ->
  good_terms (sy (l_solar l)) (l_jieQi l) ->
  named (l_jieQi l) /\ fmt_ok (l_solar l) /\ forall i, 0 <= i < 31 -> fmt_ok (term_at (l_jieQi l) i).
Proof.
  intros H V G. split; [eapply Lunar_new_named; exact H|]. split; [|intros; eapply good_fmt; eassumption].
  split; [exact V|]. rewrite <- (gt_lichun _ _ G). apply (gt_years _ _ G). lia.
Qed.

Theorem C57_next : forall fromYear y m d h mi s l k whole_day,
  Lunar_new fromYear y m d h mi s = Ok l -> valid_solar (l_solar l) -> good_terms (sy (l_solar l)) (l_jieQi l) ->
  exists i, 0 <= i < 31 /\ of_kind k i = true /\
    next_term k l whole_day = Ok (Some (mkJieQi (term_name_at i) (term_at (l_jieQi l) i) (Z.even i) (Z.odd i))) /\
    before whole_day (l_solar l) (term_at (l_jieQi l) i) /\
    forall j, 0 <= j < 31 -> of_kind k j = true -> before whole_day (l_solar l) (term_at (l_jieQi l) j) -> i <= j.
Proof.
  intros fromYear y m d h mi s l k wd H V G. destruct (new_good _ _ _ _ _ _ _ _ H V G) as (N & S & F).
  destruct (near_spec (l_jieQi l) wd (l_solar l) (conditions k) N F S true 31 ltac:(lia)) as (st & E & B).
  rewrite next_term_near. unfold getNearJieQi. rewrite all_keys. fold (fmt_of wd). rewrite E. cbn [bind].
  destruct st as [[name t]|].
  - destruct B as (i & (Hi & Ki & Ci) & -> & -> & M). exists i. rewrite convert_key, JieQi_at by lia.
    rewrite skips_kind in Ki by lia. split; [lia|]. split; [destruct (of_kind k i); [reflexivity|discriminate]|].
    split; [reflexivity|]. split; [now apply before_clock|].
    intros j Hj Kj Cj. rewrite before_clock in Cj. destruct (Z.le_gt_cases i j); [assumption|exfalso].
    pose proof (good_clock _ _ wd j i G ltac:(lia) ltac:(lia)).
    assert (clock wd (term_at (l_jieQi l) i) <= clock wd (term_at (l_jieQi l) j)); [|lia].
    apply M. split; [lia|]. split; [|exact Cj]. rewrite skips_kind by lia. now rewrite Kj.
  - exfalso. pose proof (good_around _ _ wd _ G V eq_refl) as [_ A].
    pose proof (good_clock _ _ wd 28 29 G ltac:(lia) ltac:(lia)).
    destruct (of_kind k 28) eqn:K.
    + apply (B 28). rewrite skips_kind by lia. rewrite K. repeat split; lia.
    + apply (B 29). rewrite skips_kind by lia. destruct k; [discriminate K| |discriminate K]. cbn. repeat split; lia.
Qed.

Theorem C57_prev : forall fromYear y m d h mi s l k whole_day,
  Lunar_new fromYear y m d h mi s = Ok l -> valid_solar (l_solar l) -> good_terms (sy (l_solar l)) (l_jieQi l) ->
  exists i, 0 <= i < 31 /\ of_kind k i = true /\
    prev_term k l whole_day = Ok (Some (mkJieQi (term_name_at i) (term_at (l_jieQi l) i) (Z.even i) (Z.odd i))) /\
    ~ before whole_day (l_solar l) (term_at (l_jieQi l) i) /\
    forall j, 0 <= j < 31 -> of_kind k j = true -> ~ before whole_day (l_solar l) (term_at (l_jieQi l) j) -> j <= i.
Proof.
  intros fromYear y m d h mi s l k wd H V G. destruct (new_good _ _ _ _ _ _ _ _ H V G) as (N & S & F).
  destruct (near_spec (l_jieQi l) wd (l_solar l) (conditions k) N F S false 31 ltac:(lia)) as (st & E & B).
  rewrite prev_term_near. unfold getNearJieQi. rewrite all_keys. fold (fmt_of wd). rewrite E. cbn [bind].
  destruct st as [[name t]|].
  - destruct B as (i & (Hi & Ki & Ci) & -> & -> & M). exists i. rewrite convert_key, JieQi_at by lia.
    rewrite skips_kind in Ki by lia. split; [lia|]. split; [destruct (of_kind k i); [reflexivity|discriminate]|].
    split; [reflexivity|]. split; [rewrite before_clock; lia|].
    intros j Hj Kj Cj. rewrite before_clock in Cj. destruct (Z.le_gt_cases j i); [assumption|exfalso].
    pose proof (good_clock _ _ wd i j G ltac:(lia) ltac:(lia)).
    assert (clock wd (term_at (l_jieQi l) j) <= clock wd (term_at (l_jieQi l) i)); [|lia].
    apply M. split; [lia|]. split; [|lia]. rewrite skips_kind by lia. now rewrite Kj.
  - exfalso. pose proof (good_around _ _ wd _ G V eq_refl) as [A _].
    pose proof (good_clock _ _ wd 0 1 G ltac:(lia) ltac:(lia)).
    destruct (of_kind k 0) eqn:K.
    + apply (B 0). rewrite skips_kind by lia. rewrite K. repeat split; lia.
    + apply (B 1). rewrite skips_kind by lia. destruct k; [discriminate K| |discriminate K]. cbn. repeat split; lia.
Qed.

(** Before 立春 2024: the next 节 is 立春 itself, at 16:26:53; by whole days it is already over on its day. *)
Definition demo_at {A} (s : Solar) (f : Lunar -> A) : res A := let! l := getLunar demo s in Ok (f l).
Definition jq_view (r : res (option JieQi)) : res (option (str * Solar)) :=
  let! o := r in Ok (match o with Some j => Some (jq_name j, jq_solar j) | None => None end).
Example C57_case :
  demo_at (mkSolar 2024 2 4 16 26 52) (fun l => (good_termsb 2024 (l_jieQi l), valid_solarb (l_solar l),
    jq_view (next_term Jie l false), jq_view (next_term Jie l true), jq_view (prev_term Qi l false))) =
  Ok (true, true, Ok (Some (utf8 "立春", mkSolar 2024 2 4 16 26 53)), Ok (Some (utf8 "惊蛰", mkSolar 2024 3 5 10 22 31)),
    Ok (Some (utf8 "大寒", mkSolar 2024 1 20 22 7 8))).
Proof. vm_compute. reflexivity. Qed.

(** ** C58: the term of the day *)
Lemma term_on_find jq s L : named jq -> Forall (fun i => 0 <= i < 31) L ->
  term_on jq s (map term_key L) =
  Ok (match find (fun i => same_day (term_at jq i) s) L with Some i => Some (term_key i, term_at jq i) | None => None end).
Proof.
  intros N F. induction F as [|i L Hi F IH]; cbn [map term_on find]; [reflexivity|].
  rewrite dict_at by assumption. cbn [bind]. destruct (same_day (term_at jq i) s); [reflexivity|exact IH].
Qed.
Lemma same_day_eq a b : same_day a b = true <-> sdate a = sdate b.
Proof.
  unfold same_day, sdate. rewrite !andb_true_iff, !Z.eqb_eq. split; [intros [[-> ->] ->]; reflexivity|].
  intros E. apply pair_equal_spec in E. destruct E as [E ->]. apply pair_equal_spec in E. tauto.
Qed.
Lemma find_unique {A} (f : A -> bool) L a : In a L -> f a = true -> (forall b, In b L -> f b = true -> b = a) -> find f L = Some a.
Proof.
  intros I Fa U. destruct (find f L) as [b|] eqn:E.
  - apply find_some in E. f_equal. now apply U.
  - pose proof (find_none _ _ E a I). congruence.
Qed.
Lemma find_nothing {A} (f : A -> bool) L : (forall b, In b L -> f b = false) -> find f L = None.
Proof. intros U. destruct (find f L) as [b|] eqn:E; [|reflexivity]. apply find_some in E. rewrite U in E; easy. Qed.

Definition positions (k : kind) : list Z := filter (of_kind k) (zrange 0 31).
Lemma positions_keys k : map term_key (positions k) =
  match k with Jie => evens Lunar_JIE_QI_IN_USE | Qi => odds Lunar_JIE_QI_IN_USE | Any => Lunar_JIE_QI_IN_USE end.
Proof. destruct k; vm_compute; reflexivity. Qed.
Lemma in_positions k i : In i (positions k) <-> 0 <= i < 31 /\ of_kind k i = true.
Proof. unfold positions. now rewrite filter_In, in_zrange. Qed.

(** getJie, getQi, getJieQi, and getCurrentJie, getCurrentQi, getCurrentJieQi *)
Definition term_today (k : kind) (l : Lunar) : res str :=
  match k with Jie => Lunar_getJie l | Qi => Lunar_getQi l | Any => Lunar_getJieQi l end.
Definition term_now (k : kind) (l : Lunar) : res (option JieQi) :=
  match k with Jie => Lunar_getCurrentJie l | Qi => Lunar_getCurrentQi l | Any => Lunar_getCurrentJieQi l end.

Lemma today_find k l : named (l_jieQi l) ->
  let o := find (fun i => same_day (term_at (l_jieQi l) i) (l_solar l)) (positions k) in
  term_today k l = Ok (match o with Some i => term_name_at i | None => [] end) /\
  term_now k l = Ok (match o with
    | Some i => Some (mkJieQi (term_name_at i) (match k with Any => l_solar l | _ => term_at (l_jieQi l) i end) (Z.even i) (Z.odd i))
    | None => None end).
Proof.
  intros N o.
  assert (T : term_on (l_jieQi l) (l_solar l) (map term_key (positions k)) =
    Ok (match o with Some i => Some (term_key i, term_at (l_jieQi l) i) | None => None end)).
  { apply term_on_find; [exact N|]. apply Forall_forall. intros i I. now apply in_positions in I. }
  rewrite positions_keys in T.
  assert (R : forall i, o = Some i -> 0 <= i < 31).
  { intros i E. apply find_some in E. destruct E as [E _]. now apply in_positions in E. }
  destruct k; unfold term_today, term_now, Lunar_getJie, Lunar_getQi, Lunar_getJieQi, Lunar_getCurrentJie, Lunar_getCurrentQi,
    Lunar_getCurrentJieQi; [| |unfold named in N; rewrite N]; rewrite T; cbn [bind term_name];
  destruct o as [i|]; try (split; reflexivity); specialize (R i eq_refl); rewrite convert_key, JieQi_at by lia; split; reflexivity.
Qed.

(** On the civil day of the [i]-th term: its name, by the queries of its kind; nothing by the other one. *)
Theorem C58_term_day : forall fromYear y m d h mi s l k i,
  Lunar_new fromYear y m d h mi s = Ok l -> good_terms (sy (l_solar l)) (l_jieQi l) ->
  0 <= i < 31 -> sdate (term_at (l_jieQi l) i) = sdate (l_solar l) ->
  (of_kind k i = true -> term_today k l = Ok (term_name_at i) /\
    term_now k l = Ok (Some (mkJieQi (term_name_at i) (match k with Any => l_solar l | _ => term_at (l_jieQi l) i end) (Z.even i) (Z.odd i)))) /\
  (of_kind k i = false -> term_today k l = Ok [] /\ term_now k l = Ok None).
Proof.
  intros fromYear y m d h mi s l k i H G Hi D. pose proof (Lunar_new_named _ _ _ _ _ _ _ _ H) as N.
  destruct (today_find k l N) as [A B]. rewrite A, B.
  assert (U : forall j, 0 <= j < 31 -> same_day (term_at (l_jieQi l) j) (l_solar l) = true -> j = i).
  { intros j Hj E. apply same_day_eq in E. destruct (Z.lt_trichotomy i j) as [L|[L|L]]; [|congruence|].
    - pose proof (gt_sorted _ _ G i j ltac:(lia) ltac:(lia)) as X. rewrite D, E in X. lia.
    - pose proof (gt_sorted _ _ G j i ltac:(lia) ltac:(lia)) as X. rewrite D, E in X. lia. }
  split; intros K.
  - rewrite (find_unique _ _ i); [split; reflexivity|now apply in_positions|now apply same_day_eq|].
    intros j J. apply in_positions in J. now apply U.
  - rewrite find_nothing; [split; reflexivity|]. intros j J. apply in_positions in J.
    destruct (same_day _ _) eqn:E; [|reflexivity]. apply U in E; [|easy]. subst j. destruct J. congruence.
Qed.

(** On every other day nothing; here no hypothesis on the table is needed. *)
Theorem C58_other_day : forall fromYear y m d h mi s l k,
  Lunar_new fromYear y m d h mi s = Ok l ->
  (forall i, 0 <= i < 31 -> of_kind k i = true -> sdate (term_at (l_jieQi l) i) <> sdate (l_solar l)) ->
  term_today k l = Ok [] /\ term_now k l = Ok None.
Proof.
  intros fromYear y m d h mi s l k H D. destruct (today_find k l (Lunar_new_named _ _ _ _ _ _ _ _ H)) as [A B]. rewrite A, B.
  rewrite find_nothing; [split; reflexivity|]. intros j J. apply in_positions in J.
  destruct (same_day _ _) eqn:E; [|reflexivity]. apply same_day_eq in E. exfalso. apply (D j); easy.
Qed.

(** getJieQi is getJie or else getQi. *)
Theorem C58_agree : forall fromYear y m d h mi s l,
  Lunar_new fromYear y m d h mi s = Ok l -> good_terms (sy (l_solar l)) (l_jieQi l) ->
  exists a b, Lunar_getJie l = Ok a /\ Lunar_getQi l = Ok b /\ Lunar_getJieQi l = Ok (if str_eqb a [] then b else a).
Proof.
  intros fromYear y m d h mi s l H G.
  assert (E : (exists i, 0 <= i < 31 /\ sdate (term_at (l_jieQi l) i) = sdate (l_solar l)) \/
    forall i, 0 <= i < 31 -> sdate (term_at (l_jieQi l) i) <> sdate (l_solar l)).
  { destruct (find (fun i => same_day (term_at (l_jieQi l) i) (l_solar l)) (zrange 0 31)) as [i|] eqn:E.
    - apply find_some in E. rewrite in_zrange, same_day_eq in E. left. eauto.
    - right. intros i Hi X. apply same_day_eq in X. rewrite (find_none _ _ E i) in X; [discriminate|now apply in_zrange]. }
  destruct E as [(i & Hi & D)|D].
  - pose proof (C58_term_day _ _ _ _ _ _ _ _ Jie i H G Hi D) as [J1 J2].
    pose proof (C58_term_day _ _ _ _ _ _ _ _ Qi i H G Hi D) as [Q1 Q2].
    pose proof (proj1 (C58_term_day _ _ _ _ _ _ _ _ Any i H G Hi D) eq_refl) as [A _].
    cbn [term_today of_kind] in *. rewrite <- Z.negb_even in Q1, Q2.
    assert (NE : str_eqb (term_name_at i) [] = false).
    { assert (T : forallb (fun i => negb (str_eqb (term_name_at i) [])) (zrange 0 31) = true) by (vm_compute; reflexivity).
      by_table T i. now destruct (str_eqb _ _). }
    destruct (Z.even i).
    + exists (term_name_at i), []. rewrite NE. split; [now apply J1|]. split; [now apply Q2|exact A].
    + exists [], (term_name_at i). split; [now apply J2|]. split; [now apply Q1|exact A].
  - exists [], []. split; [apply (C58_other_day _ _ _ _ _ _ _ _ Jie H); auto|].
    split; [apply (C58_other_day _ _ _ _ _ _ _ _ Qi H); auto|apply (C58_other_day _ _ _ _ _ _ _ _ Any H); auto].
Qed.

(** getCurrentJieQi gives the moment asked about where getCurrentJie and getCurrentQi give the instant of the term. *)
Example C58_case :
  demo_at (mkSolar 2024 2 4 8 0 0) (fun l => (good_termsb 2024 (l_jieQi l), Lunar_getJie l, Lunar_getQi l, Lunar_getJieQi l,
    jq_view (Lunar_getCurrentJie l), jq_view (Lunar_getCurrentJieQi l))) =
  Ok (true, Ok (utf8 "立春"), Ok [], Ok (utf8 "立春"), Ok (Some (utf8 "立春", mkSolar 2024 2 4 16 26 53)),
    Ok (Some (utf8 "立春", mkSolar 2024 2 4 8 0 0))).
Proof. vm_compute. reflexivity. Qed.
