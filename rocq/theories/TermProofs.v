(** Lemmas on the solar-term table of a Lunar. *)
From Coq Require Import ZArith Lia Bool ZifyBool List String Floats Sorting.Sorted.
From Verif Require Import Py PyFloat PyStr Solar SolarUnits CalSpec DayNo SolarProofs JulianDay P_JD P_Solar UnitsProofs
  LunarUtil T_LunarUtil T_Misc P_Almanac P_Tables LunarYear Lunar LunarProofs.
Import ListNotations.
Open Scope Z_scope.

(** ** Lookups in the table *)
Lemma mapM_nth {A B} (f : A -> res B) l r : mapM f l = Ok r ->
  List.length r = List.length l /\
  forall i a, nth_error l i = Some a -> exists b, f a = Ok b /\ nth_error r i = Some b.
Proof.
  revert r. induction l as [|x l IH]; cbn; intros r H.
  - apply Ok_inj in H. subst. split; [reflexivity|]. intros [|i] a E; discriminate.
  - apply bind_ok in H. destruct H as (b & Eb & H). apply bind_ok in H. destruct H as (bs & Ebs & H).
    apply Ok_inj in H. subst r. destruct (IH _ Ebs) as [L N]. cbn. split; [now rewrite L|].
    intros [|i] a E; cbn in *; [|eauto]. injection E as <-. eauto.
Qed.

Lemma mapM_map {A B C} (f : A -> res B) (g : B -> C) (h : A -> C) l : forall r,
  (forall a b, In a l -> f a = Ok b -> g b = h a) -> mapM f l = Ok r -> map g r = map h l.
Proof.
  induction l as [|x l IH]; cbn; intros r F H.
  - apply Ok_inj in H. now subst.
  - apply bind_ok in H. destruct H as (b & Eb & H). apply bind_ok in H. destruct H as (bs & Ebs & H).
    apply Ok_inj in H. subst r. cbn. rewrite (F _ _ (or_introl eq_refl) Eb). f_equal. apply IH; auto.
Qed.

Lemma computeJieQi_names terms jq : computeJieQi terms = Ok jq -> map fst jq = Lunar_JIE_QI_IN_USE.
Proof.
  unfold computeJieQi. intros H.
  rewrite (mapM_map _ fst (fun i => nth (Z.to_nat i) Lunar_JIE_QI_IN_USE []) _ _) with (2 := H).
  - vm_compute. reflexivity.
  - intros i b I E. apply in_zrange in I. apply bind_ok in E. destruct E as (n & En & E).
    apply bind_ok in E. destruct E as (jd & _ & E).
    apply bind_ok in E. destruct E as (s & _ & E). apply Ok_inj in E. subst b. cbn [fst].
    rewrite index_ok in En by exact I. now apply Ok_inj in En.
Qed.

Lemma assoc_nth {V} (d : list (str * V)) i k v :
  NoDup (map fst d) -> nth_error d i = Some (k, v) -> assoc k d = Some v.
Proof.
  revert i. induction d as [|[k' v'] d IH]; intros [|i] N E; cbn in *; try discriminate.
  - injection E as -> ->. inversion N as [|? ? N1 N2]; subst.
    replace (assoc k d) with (@None V).
    + now rewrite str_eqb_refl.
    + symmetry. clear - N1. induction d as [|[a b] d IH]; cbn in *; [reflexivity|].
      rewrite IH by tauto. destruct (str_eqb k a) eqn:E; [|reflexivity].
      apply str_eqb_eq in E. subst. exfalso. tauto.
  - inversion N as [|? ? N1 N2]; subst. now rewrite (IH _ N2 E).
Qed.

Fixpoint nodupb (l : list str) : bool :=
  match l with [] => true | a :: t => if existsb (str_eqb a) t then false else nodupb t end.
Lemma nodupb_ok l : nodupb l = true -> NoDup l.
Proof.
  induction l as [|a l IH]; cbn; intros H; [constructor|].
  destruct (existsb (str_eqb a) l) eqn:E; [discriminate|]. constructor; [|auto].
  intros I. assert (existsb (str_eqb a) l = true); [|congruence].
  apply existsb_exists. exists a. split; [exact I|apply str_eqb_refl].
Qed.
Lemma names_nodup : NoDup Lunar_JIE_QI_IN_USE.
Proof. apply nodupb_ok. vm_compute. reflexivity. Qed.

(** ** The table of a Lunar *)
Definition solar0 : Solar := mkSolar 0 0 0 0 0 0.
(** The [i]-th instant of a table, counted from DA_XUE = 0. *)
Definition term_at (jq : list (str * Solar)) (i : Z) : Solar := nth (Z.to_nat i) (map snd jq) solar0.
Definition term_key (i : Z) : str := nth (Z.to_nat i) Lunar_JIE_QI_IN_USE [].

Definition named (jq : list (str * Solar)) : Prop := map fst jq = Lunar_JIE_QI_IN_USE.
Lemma named_length jq : named jq -> List.length jq = 31%nat.
Proof. intros H. rewrite <- (map_length fst), H. reflexivity. Qed.
Lemma named_nth jq i : named jq -> 0 <= i < 31 ->
  nth_error jq (Z.to_nat i) = Some (term_key i, term_at jq i).
Proof.
  intros H Hi. pose proof (named_length _ H) as L. unfold term_key, term_at. rewrite <- H.
  assert (N : (Z.to_nat i < List.length jq)%nat) by lia. revert N. generalize (Z.to_nat i). clear.
  intros n. revert n. induction jq as [|[k t] jq IH]; cbn; intros [|n] N; try lia; [reflexivity|apply IH; lia].
Qed.
Lemma dict_at jq i : named jq -> 0 <= i < 31 -> py_dict jq (term_key i) = Ok (term_at jq i).
Proof.
  intros H Hi. unfold py_dict.
  rewrite (assoc_nth jq (Z.to_nat i) (term_key i) (term_at jq i)); [reflexivity| |now apply named_nth].
  rewrite H. exact names_nodup.
Qed.
Lemma in_table jq k t : named jq -> (In (k, t) jq <-> exists i, 0 <= i < 31 /\ k = term_key i /\ t = term_at jq i).
Proof.
  intros H. split.
  - intros I. apply In_nth_error in I. destruct I as [n E].
    pose proof (named_length _ H). assert (n < 31)%nat by (assert (N : nth_error jq n <> None) by congruence; apply nth_error_Some in N; lia).
    exists (Z.of_nat n). pose proof (named_nth jq (Z.of_nat n) H ltac:(lia)) as N.
    rewrite Nat2Z.id, E in N. injection N as -> ->. split; [lia|auto].
  - intros (i & Hi & -> & ->). apply nth_error_In with (Z.to_nat i). now apply named_nth.
Qed.

Lemma Lunar_new_named fromYear y m d h mi s l : Lunar_new fromYear y m d h mi s = Ok l -> named (l_jieQi l).
Proof.
  intros H. destruct (Lunar_new_inv _ _ _ _ _ _ _ _ H) as (t & mo & noon & t2 & _ & _ & _ & _ & _ & _ & _ & C).
  eapply computeJieQi_names. apply C.
Qed.

(** A table fit for the solar year [Y]: 31 real dates in increasing order, the first two (大雪, 冬至) before
    the year, 立春 in it and the last three (立春 to 惊蛰) after it. *)
Record good_terms (Y : Z) (jq : list (str * Solar)) : Prop := mkGood {
  gt_valid : forall i, 0 <= i < 31 -> valid_solar (term_at jq i);
  gt_years : forall i, 0 <= i < 31 -> 0 <= sy (term_at jq i) <= 9999;
  gt_sorted : forall i j, 0 <= i < j -> j < 31 -> dayno (sdate (term_at jq i)) < dayno (sdate (term_at jq j));
  gt_first : sy (term_at jq 1) < Y;
  gt_lichun : sy (term_at jq 4) = Y;
  gt_next : Y < sy (term_at jq 28)
}.

Lemma year_lt_dayno a b : valid_solar a -> valid_solar b -> sy a < sy b -> dayno (sdate a) < dayno (sdate b).
Proof. intros Va Vb H. apply lex_lt_dayno; [apply Va|apply Vb|]. unfold lex_lt, sdate. lia. Qed.
Lemma day_lt_instant a b : valid_solar a -> valid_solar b -> dayno (sdate a) < dayno (sdate b) -> instant a < instant b.
Proof. intros Va Vb H. unfold instant. pose proof (sod_bounds _ Va). pose proof (sod_bounds _ Vb). lia. Qed.

(** ** Comparing formatted dates: by day or by second *)
Definition fmt_of (day : bool) : Solar -> str := if day then toYmd else toYmdHms.
Definition clock (day : bool) (s : Solar) : Z := if day then dayno (sdate s) else instant s.
Definition fmt_ok (s : Solar) : Prop := valid_solar s /\ 0 <= sy s <= 9999.

Lemma fmt_ltb day a b : fmt_ok a -> fmt_ok b -> str_ltb (fmt_of day a) (fmt_of day b) = (clock day a <? clock day b).
Proof.
  intros [Va Ya] [Vb Yb]. destruct day; cbn.
  - apply toYmd_ltb; auto; [apply Va|apply Vb].
  - apply toYmdHms_ltb; auto.
Qed.
Lemma fmt_leb day a b : fmt_ok a -> fmt_ok b -> str_leb (fmt_of day a) (fmt_of day b) = (clock day a <=? clock day b).
Proof. intros A B. unfold str_leb. rewrite fmt_ltb by assumption. lia. Qed.
Lemma clock_lt day a b : valid_solar a -> valid_solar b -> dayno (sdate a) < dayno (sdate b) -> clock day a < clock day b.
Proof. intros. destruct day; cbn; [assumption|now apply day_lt_instant]. Qed.

(** ** The month index *)
Fixpoint mi (x : Z) (start : option Z) (ends : list Z) (index : Z) : Z :=
  match ends with
  | [] => index
  | e :: t => if (match start with None => x | Some s => s end <=? x) && (x <? e) then index else mi x (Some e) t (index + 1)
  end.
Lemma month_index_mi day s ends : fmt_ok s -> Forall fmt_ok ends -> forall start i,
  match start with None => True | Some t => fmt_ok t end ->
  month_index (fmt_of day s) (option_map (fmt_of day) start) (map (fmt_of day) ends) i =
  mi (clock day s) (option_map (clock day) start) (map (clock day) ends) i.
Proof.
  intros S F. induction F as [|e ends E F IH]; intros start i St; cbn [map month_index mi]; [reflexivity|].
  rewrite fmt_ltb by assumption.
  replace (str_leb match option_map (fmt_of day) start with Some s0 => s0 | None => fmt_of day s end (fmt_of day s))
    with (match option_map (clock day) start with Some s0 => s0 | None => clock day s end <=? clock day s).
  - destruct (_ && _); [reflexivity|]. apply (IH (Some e)). exact E.
  - destruct start; cbn; rewrite fmt_leb by assumption; reflexivity.
Qed.
Lemma mi_spec x : forall ends start i a,
  (match start with None => True | Some s => s <= x end) ->
  Forall (fun e => e <= x) a -> (exists b t, ends = a ++ b :: t /\ x < b) ->
  mi x start ends i = i + Z.of_nat (List.length a).
Proof.
  induction ends as [|e ends IH]; intros start i a St F (b & t & E & Hb).
  - destruct a; discriminate.
  - cbn [mi]. destruct a as [|a0 a].
    + cbn in E. injection E as -> ->. replace (_ && _) with true by (destruct start; lia). cbn. lia.
    + cbn in E. injection E as -> ->. inversion F as [|? ? F1 F2]; subst.
      replace (_ && _) with false by (destruct start; lia).
      rewrite (IH (Some a0) (i + 1) a) by (eauto || assumption). cbn [List.length]. lia.
Qed.

Lemma mapM_ok {A B} (f : A -> res B) (g : A -> B) l : (forall a, In a l -> f a = Ok (g a)) -> mapM f l = Ok (map g l).
Proof.
  induction l as [|a l IH]; intros H; cbn; [reflexivity|].
  rewrite H by (now left). cbn [bind]. rewrite IH by (intros; apply H; now right). reflexivity.
Qed.
Lemma mapM_ok_map {A B C} (f : B -> res C) (k : A -> B) (g : A -> C) l :
  (forall a, In a l -> f (k a) = Ok (g a)) -> mapM f (map k l) = Ok (map g l).
Proof.
  induction l as [|a l IH]; intros H; cbn; [reflexivity|].
  rewrite H by (now left). cbn [bind]. rewrite IH by (intros; apply H; now right). reflexivity.
Qed.
Lemma evens_keys : evens Lunar_JIE_QI_IN_USE = map (fun j => term_key (2 * j)) (zrange 0 16).
Proof. vm_compute. reflexivity. Qed.
Lemma odds_keys : odds Lunar_JIE_QI_IN_USE = map (fun j => term_key (2 * j + 1)) (zrange 0 15).
Proof. vm_compute. reflexivity. Qed.
Lemma all_keys : Lunar_JIE_QI_IN_USE = map term_key (zrange 0 31).
Proof. vm_compute. reflexivity. Qed.

Lemma zrange_split a b c : a <= b <= c -> zrange a c = zrange a b ++ zrange b c.
Proof.
  intros H. unfold zrange. replace (Z.to_nat (c - a)) with (Z.to_nat (b - a) + Z.to_nat (c - b))%nat by lia.
  rewrite zseq_app. do 2 f_equal. lia.
Qed.

Lemma good_fmt Y jq i : good_terms Y jq -> 0 <= i < 31 -> fmt_ok (term_at jq i).
Proof. intros G H. split; [now apply (gt_valid _ _ G)|now apply (gt_years _ _ G)]. Qed.
Lemma good_clock Y jq day i j : good_terms Y jq -> 0 <= i < j -> j < 31 -> clock day (term_at jq i) < clock day (term_at jq j).
Proof.
  intros G H H'. apply clock_lt; [apply (gt_valid _ _ G); lia..|]. apply (gt_sorted _ _ G); lia.
Qed.
Lemma good_clock_le Y jq day i j : good_terms Y jq -> 0 <= i <= j -> j < 31 -> clock day (term_at jq i) <= clock day (term_at jq j).
Proof.
  intros G H H'. destruct (Z.eq_dec i j) as [->|]; [lia|].
  pose proof (good_clock Y jq day i j G ltac:(lia) H'). lia.
Qed.
(** A moment of the year itself lies between the first and the 29th term. *)
Lemma good_around Y jq day s : good_terms Y jq -> valid_solar s -> sy s = Y ->
  clock day (term_at jq 1) < clock day s < clock day (term_at jq 28).
Proof.
  intros G V E. pose proof (gt_valid _ _ G 1 ltac:(lia)). pose proof (gt_valid _ _ G 28 ltac:(lia)).
  pose proof (gt_first _ _ G). pose proof (gt_next _ _ G).
  split; (apply clock_lt; [assumption..|]); (apply year_lt_dayno; [assumption..|]); lia.
Qed.
(** ... and between exactly one pair of consecutive 节. *)
Lemma good_between Y jq day s : good_terms Y jq -> valid_solar s -> sy s = Y ->
  exists j, 0 <= j < 14 /\ clock day (term_at jq (2 * j)) <= clock day s < clock day (term_at jq (2 * j + 2)).
Proof.
  intros G V E. pose proof (good_around _ _ day _ G V E) as [A B].
  pose proof (good_clock _ _ day 0 1 G ltac:(lia) ltac:(lia)) as A0.
  assert (forall n, 0 <= n <= 14 -> clock day s < clock day (term_at jq (2 * n)) ->
    exists j, 0 <= j < n /\ clock day (term_at jq (2 * j)) <= clock day s < clock day (term_at jq (2 * j + 2))) as H.
  { intros n Hn. pattern n. apply natlike_ind; [cbn; lia| |lia].
    intros x Hx IH L. destruct (Z.lt_ge_cases (clock day s) (clock day (term_at jq (2 * x)))) as [C|C].
    - destruct (IH C) as (j & Hj & R). exists j. split; [lia|exact R].
    - exists x. split; [lia|]. replace (2 * x + 2) with (2 * Z.succ x) by lia. lia. }
  exact (H 14 ltac:(lia) B).
Qed.

Lemma computeMonth_spec Y jq s ygl yge j k : named jq -> good_terms Y jq -> fmt_ok s ->
  0 <= j < 15 -> clock true (term_at jq (2 * j)) <= clock true s < clock true (term_at jq (2 * j + 2)) ->
  0 <= k < 15 -> clock false (term_at jq (2 * k)) <= clock false s < clock false (term_at jq (2 * k + 2)) ->
  computeMonth s jq ygl yge = Ok (month_gan ygl (j - 2), month_zhi (j - 2), month_gan yge (k - 2), month_zhi (k - 2)).
Proof.
  intros N G S Hj Cj Hk Ck. unfold computeMonth. rewrite evens_keys.
  rewrite (mapM_ok_map _ _ (fun x => term_at jq (2 * x)))
    by (intros a I; apply in_zrange in I; apply dict_at; [assumption|lia]).
  cbn [bind].
  set (ends := map (fun x => term_at jq (2 * x)) (zrange 0 16)).
  assert (F : Forall fmt_ok ends).
  { apply Forall_forall. intros t I. unfold ends in I. apply in_map_iff in I. destruct I as (x & <- & I).
    apply in_zrange in I. apply (good_fmt Y); [assumption|lia]. }
  assert (IX : forall day j, 0 <= j < 15 -> clock day (term_at jq (2 * j)) <= clock day s < clock day (term_at jq (2 * j + 2)) ->
    month_index (fmt_of day s) None (map (fmt_of day) ends) (-3) = j - 2).
  { clear - G S F. intros day j Hj C.
    change (@None str) with (option_map (fmt_of day) None). rewrite (month_index_mi day s ends S F None) by exact I.
    cbn [option_map]. unfold ends. rewrite map_map.
    rewrite (mi_spec _ _ _ _ (map (fun x => clock day (term_at jq (2 * x))) (zrange 0 (j + 1)))); [|exact I| |].
    - rewrite map_length. unfold zrange. rewrite zseq_length. lia.
    - apply Forall_forall. intros e I. apply in_map_iff in I. destruct I as (x & <- & I). apply in_zrange in I.
      pose proof (good_clock_le Y jq day (2 * x) (2 * j) G ltac:(lia) ltac:(lia)). lia.
    - exists (clock day (term_at jq (2 * (j + 1)))), (map (fun x => clock day (term_at jq (2 * x))) (zrange (j + 1 + 1) 16)).
      split; [|replace (2 * (j + 1)) with (2 * j + 2) by lia; lia].
      rewrite (zrange_split 0 (j + 1) 16) by lia. rewrite (zrange_cons (j + 1) 16) by lia. rewrite map_app. reflexivity. }
  pose proof (IX true j Hj Cj) as E1. pose proof (IX false k Hk Ck) as E2. cbn [fmt_of] in E1, E2. rewrite E1, E2. reflexivity.
Qed.

(** ** Deciding [good_terms] for a given table (examples) *)
Definition valid_solarb (s : Solar) : bool :=
  (1 <=? sm s) && (sm s <=? 12) && (1 <=? sd s) && (sd s <=? last_day (sy s) (sm s)) &&
  negb ((sy s =? 1582) && (sm s =? 10) && (5 <=? sd s) && (sd s <=? 14)) &&
  (0 <=? sh s) && (sh s <=? 23) && (0 <=? smi s) && (smi s <=? 59) && (0 <=? ss s) && (ss s <=? 59).
Lemma valid_solarb_ok s : valid_solarb s = true -> valid_solar s.
Proof.
  unfold valid_solarb, valid_solar, valid_date, valid_time, sdate. set (n := last_day (sy s) (sm s)). lia.
Qed.
Definition good_termsb (Y : Z) (jq : list (str * Solar)) : bool :=
  forallb (fun i => valid_solarb (term_at jq i) && (0 <=? sy (term_at jq i)) && (sy (term_at jq i) <=? 9999)) (zrange 0 31) &&
  forallb (fun i => dayno (sdate (term_at jq i)) <? dayno (sdate (term_at jq (i + 1)))) (zrange 0 30) &&
  (sy (term_at jq 1) <? Y) && (sy (term_at jq 4) =? Y) && (Y <? sy (term_at jq 28)).
Lemma good_termsb_ok Y jq : good_termsb Y jq = true -> good_terms Y jq.
Proof.
  unfold good_termsb. rewrite !andb_true_iff. intros [[[[A B] C] D] E].
  assert (A1 : forall i, 0 <= i < 31 -> valid_solarb (term_at jq i) = true /\ 0 <= sy (term_at jq i) <= 9999).
  { intros i Hi. pose proof (forallb_zrange _ _ _ A i Hi) as X. cbv beta in X. rewrite !andb_true_iff in X. split; [apply X|lia]. }
  assert (B1 : forall i, 0 <= i < 30 -> dayno (sdate (term_at jq i)) < dayno (sdate (term_at jq (i + 1)))).
  { intros i Hi. pose proof (forallb_zrange _ _ _ B i Hi) as X. cbv beta in X. lia. }
  clear A B. constructor; try lia.
  - intros i Hi. apply valid_solarb_ok. now apply A1.
  - intros i j Hi Hj. assert (Q : forall n, 0 <= n -> i + 1 + n < 31 ->
      dayno (sdate (term_at jq i)) < dayno (sdate (term_at jq (i + 1 + n)))).
    { intros n Hn. pattern n. apply natlike_ind; [| |exact Hn].
      - intros X. rewrite Z.add_0_r. apply B1. lia.
      - intros x Hx IH X. pose proof (B1 (i + 1 + x) ltac:(lia)) as Y1. specialize (IH ltac:(lia)).
        replace (i + 1 + Z.succ x) with (i + 1 + x + 1) by lia. lia. }
    pose proof (Q (j - i - 1) ltac:(lia) ltac:(lia)) as R. now replace (i + 1 + (j - i - 1)) with j in R by lia.
Qed.
