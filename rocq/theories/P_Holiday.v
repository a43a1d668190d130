(** C28-C33: the holiday database. *)
From Coq Require Import ZArith Lia Bool ZifyBool List String Floats Sorting.Sorted.
From Verif Require Import Py PyFloat PyStr T_Holiday Solar SolarUnits AlmanacProofs Holiday HolidayProofs HolidayRecs.
Import ListNotations.
Open Scope Z_scope.

Definition on_day (a : Z * Z * Z) (r : hrec) : bool := day_eqb (rday r) a.

(** ** C28 *)
Theorem C28_getHoliday : forall db rs y m d, represents db rs ->
  1000 <= y <= 9999 -> 1 <= m <= 99 -> 1 <= d <= 99 ->
  getHoliday db (str_of_Z y) m d = Ok (option_map (rec_holiday (hnames db)) (find (on_day (y, m, d)) rs)).
Proof.
  intros db rs y m d R Y M D. unfold getHoliday. replace ((m =? 0) || (d =? 0)) with false by lia.
  rewrite year4, !padding2 by lia. change (fixed 4 y ++ fixed 2 m ++ fixed 2 d) with (day8 (y, m, d)).
  rewrite (lookup_day db rs (y, m, d) R) by (unfold day_ok; lia). cbn [bind].
  change (find (on_day (y, m, d)) rs) with (find (fun r => day_eqb (rday r) (y, m, d)) rs).
  rewrite <- first_run_find, <- hd_map. destruct (map _ _); reflexivity.
Qed.

(** The same with a text argument, "YYYY-MM-DD" or "YYYYMMDD". *)
Theorem C28_getHoliday_text : forall db rs a s, represents db rs -> day_ok a -> s = dash a \/ s = day8 a ->
  getHoliday db s 0 0 = Ok (option_map (rec_holiday (hnames db)) (find (on_day a) rs)).
Proof.
  intros db rs a s R A [-> | ->]; [|now apply getHoliday_text].
  transitivity (getHoliday db (day8 a) 0 0); [|exact (getHoliday_text db rs a R A)]. unfold getHoliday. cbn [Z.eqb orb].
  now rewrite undash_dash, (undash_digits (day8 a)) by apply day8_digits.
Qed.

(** A holiday is reported iff the day has a record. *)
Theorem C28_none : forall db rs y m d, represents db rs ->
  1000 <= y <= 9999 -> 1 <= m <= 99 -> 1 <= d <= 99 ->
  (getHoliday db (str_of_Z y) m d = Ok None <-> forall r, In r rs -> rday r <> (y, m, d)).
Proof.
  intros db rs y m d R Y M D. rewrite (C28_getHoliday db rs y m d R Y M D). split.
  - intros E r I K. destruct (find (on_day (y, m, d)) rs) eqn:F; [discriminate|].
    apply List.find_none with (x := r) in F; [|exact I]. unfold on_day in F. rewrite K in F.
    assert (day_eqb (y, m, d) (y, m, d) = true) by now apply day_eqb_eq. congruence.
  - intros H. destruct (find (on_day (y, m, d)) rs) as [r|] eqn:F; [|reflexivity]. exfalso.
    apply find_some in F. destruct F as [I F]. apply day_eqb_eq in F. exact (H r I F).
Qed.

(** The shipped data. *)
Fixpoint num (acc : Z) (s : str) : Z := match s with [] => acc | c :: t => num (10 * acc + (c - 48)) t end.
Definition parse_day (s : str) : Z * Z * Z := (num 0 (firstn 4 s), num 0 (firstn 2 (skipn 4 s)), num 0 (skipn 6 s)).
Definition parse_rec (s : str) : hrec :=
  mkRec (parse_day (firstn 8 s)) (nth 8 s 0 - 48) (nth 9 s 0 =? 48) (parse_day (skipn 10 s)).
Definition shipped : list hrec := Eval vm_compute in map parse_rec HolidayUtil_DATA_parts.

Definition day_okb (a : Z * Z * Z) : bool :=
  let '(y, m, d) := a in (0 <=? y) && (y <=? 9999) && (0 <=? m) && (m <=? 99) && (0 <=? d) && (d <=? 99).
Definition rec_fitsb (n : Z) (r : hrec) : bool :=
  day_okb (rday r) && day_okb (rtarget r) && (0 <=? rname r) && (rname r <? n).
Lemma rec_fitsb_ok names r : rec_fitsb (Z.of_nat (List.length names)) r = true -> rec_fits names r.
Proof.
  unfold rec_fitsb, rec_fits, day_okb, day_ok. destruct (rday r) as [[y m] d], (rtarget r) as [[y' m'] d'].
  rewrite !andb_true_iff. lia.
Qed.

Theorem C28_shipped : represents HDB_shipped shipped.
Proof.
  split.
  - apply str_eqb_eq. vm_compute. reflexivity.
  - apply Forall_forall. intros r I.
    assert (forallb (rec_fitsb (Z.of_nat (List.length HolidayUtil_NAMES))) shipped = true) as T by (vm_compute; reflexivity).
    apply rec_fitsb_ok. rewrite forallb_forall in T. exact (T r I).
Qed.

Example C28_case : exists h, getHoliday HDB_shipped (str_of_Z 2020) 5 1 = Ok (Some h) /\ hwork h = false
  /\ hname h = utf8 "劳动节"%string /\ hday h = lit "2020-05-01".
Proof. rewrite (C28_getHoliday _ _ 2020 5 1 C28_shipped) by lia. eexists. repeat split; vm_compute; reflexivity. Qed.

(** Years with fewer or more than four digits are looked up wrongly. *)
Theorem C28_other_years_refuted :
  (exists h, getHoliday HDB_shipped (str_of_Z 20) 1 12 = Ok (Some h) /\ hday h = lit "2001-12-29") /\
  (exists h, getHoliday HDB_shipped (str_of_Z 20020) 10 10 = Ok (Some h) /\ hday h = lit "2002-01-01").
Proof. split; eexists; (split; [vm_compute; reflexivity|vm_compute; reflexivity]). Qed.

(** ** C29 *)
Definition day_num (a : Z * Z * Z) : Z := let '(y, m, d) := a in 10000 * y + 100 * m + d.
Definition in_order (rs : list hrec) : Prop := StronglySorted (fun a b => day_num (rday a) < day_num (rday b)) rs.
Definition year_of (r : hrec) : Z := fst (fst (rday r)).
Definition month_of (r : hrec) : Z := snd (fst (rday r)).

Lemma take_while_sorted {A} (f : A -> Z) lo hi l : StronglySorted (fun a b => f a < f b) l -> Forall (fun a => lo <= f a) l ->
  take_while (fun a => (lo <=? f a) && (f a <=? hi)) l = filter (fun a => (lo <=? f a) && (f a <=? hi)) l.
Proof.
  induction 1 as [|a l S IH F]; intros L; cbn; [reflexivity|]. inversion L as [|? ? La Ll]; subst.
  destruct ((lo <=? f a) && (f a <=? hi)) eqn:E; [now rewrite IH|].
  symmetry. clear IH. induction F as [|b l Hb Hl IHl]; [reflexivity|]. cbn.
  replace ((lo <=? f b) && (f b <=? hi)) with false by lia. apply IHl.
  - now inversion S.
  - inversion L as [|? ? ? L']; inversion L'; subst. now constructor.
  - now inversion Ll.
Qed.

Lemma first_run_sorted {A} (f : A -> Z) lo hi l : StronglySorted (fun a b => f a < f b) l ->
  first_run (fun a => (lo <=? f a) && (f a <=? hi)) l = filter (fun a => (lo <=? f a) && (f a <=? hi)) l.
Proof.
  intros S. unfold first_run. induction S as [|a l S IH F]; cbn; [reflexivity|].
  destruct ((lo <=? f a) && (f a <=? hi)) eqn:E; [|exact IH]. cbn. rewrite E. f_equal.
  apply take_while_sorted; [exact S|]. eapply Forall_impl; [|exact F]. cbn. intros b Hb. lia.
Qed.

Lemma filter_ext_Forall {A} (p q : A -> bool) l : Forall (fun x => p x = q x) l -> filter p l = filter q l.
Proof. induction 1 as [|a l E F IH]; cbn; [reflexivity|]. rewrite E, IH. reflexivity. Qed.

Lemma prefix_year r y : 0 <= y <= 9999 -> day_ok (rday r) -> prefixb (fixed 4 y) (rec_text r) = (year_of r =? y).
Proof.
  intros Y R. unfold rec_text, year_of. destruct (rday r) as [[y' m] d]. cbn [fst]. unfold day8. rewrite <- !app_assoc.
  destruct R as (R & _). rewrite prefixb_app by (rewrite !fixed_length; reflexivity). rewrite fixed_eqb by (cbn; lia). lia.
Qed.
Lemma prefix_month r y m : 0 <= y <= 9999 -> 0 <= m <= 99 -> day_ok (rday r) ->
  prefixb (fixed 4 y ++ fixed 2 m) (rec_text r) = (year_of r =? y) && (month_of r =? m).
Proof.
  intros Y M R. unfold rec_text, year_of, month_of. destruct (rday r) as [[y' m'] d]. cbn [fst snd]. unfold day8. rewrite <- !app_assoc.
  destruct R as (R1 & R2 & _). rewrite app_assoc. rewrite prefixb_app by (rewrite !app_length, !fixed_length; reflexivity).
  rewrite str_eqb_app by (rewrite !fixed_length; reflexivity). rewrite !fixed_eqb by (cbn; lia).
  now rewrite (Z.eqb_sym y), (Z.eqb_sym m).
Qed.

(** The code lists the first contiguous run of the year or month, whatever the order of the records. *)
Lemma getHolidays_year_run db rs y : represents db rs -> 1000 <= y <= 9999 ->
  getHolidays db (str_of_Z y) 0 = Ok (map (rec_holiday (hnames db)) (first_run (fun r => year_of r =? y) rs)).
Proof.
  intros R Y. unfold getHolidays. cbn [Z.eqb]. rewrite year4 by exact Y. rewrite undash_digits by apply fixed_digits.
  apply forward_recs; [exact R|rewrite fixed_length; lia|]. destruct R as [_ F].
  eapply Forall_impl; [|exact F]. intros r (D & _). apply prefix_year; [lia|exact D].
Qed.
Lemma getHolidays_month_run db rs y m : represents db rs -> 1000 <= y <= 9999 -> 1 <= m <= 99 ->
  getHolidays db (str_of_Z y) m = Ok (map (rec_holiday (hnames db)) (first_run (fun r => (year_of r =? y) && (month_of r =? m)) rs)).
Proof.
  intros R Y M. unfold getHolidays. replace (m =? 0) with false by lia. rewrite year4 by exact Y. rewrite padding2 by lia.
  apply forward_recs; [exact R|rewrite app_length, !fixed_length; lia|]. destruct R as [_ F].
  eapply Forall_impl; [|exact F]. intros r (D & _). apply prefix_month; [lia|lia|exact D].
Qed.

Theorem C29_year : forall db rs y, represents db rs -> in_order rs -> 1000 <= y <= 9999 ->
  getHolidays db (str_of_Z y) 0 = Ok (map (rec_holiday (hnames db)) (filter (fun r => year_of r =? y) rs)).
Proof.
  intros db rs y R O Y. rewrite (getHolidays_year_run db rs y R Y). f_equal. f_equal.
  set (p := fun r : hrec => (10000 * y <=? day_num (rday r)) && (day_num (rday r) <=? 10000 * y + 9999)).
  assert (Forall (fun r => (year_of r =? y) = p r) rs) as E.
  { destruct R as [_ F]. eapply Forall_impl; [|exact F]. intros r (D & _). unfold p, year_of, day_num.
    destruct (rday r) as [[y' m] d]. unfold day_ok in D. cbn [fst]. lia. }
  rewrite (first_run_ext _ p), (filter_ext_Forall _ p) by exact E.
  now apply (first_run_sorted (fun r => day_num (rday r))).
Qed.

Theorem C29_month : forall db rs y m, represents db rs -> in_order rs -> 1000 <= y <= 9999 -> 1 <= m <= 99 ->
  getHolidays db (str_of_Z y) m = Ok (map (rec_holiday (hnames db)) (filter (fun r => (year_of r =? y) && (month_of r =? m)) rs)).
Proof.
  intros db rs y m R O Y M. rewrite (getHolidays_month_run db rs y m R Y M). f_equal. f_equal.
  set (p := fun r : hrec => (10000 * y + 100 * m <=? day_num (rday r)) && (day_num (rday r) <=? 10000 * y + 100 * m + 99)).
  assert (Forall (fun r => (year_of r =? y) && (month_of r =? m) = p r) rs) as E.
  { destruct R as [_ F]. eapply Forall_impl; [|exact F]. intros r (D & _). unfold p, year_of, month_of, day_num.
    destruct (rday r) as [[y' m'] d]. unfold day_ok in D. cbn [fst snd]. lia. }
  rewrite (first_run_ext _ p), (filter_ext_Forall _ p) by exact E.
  now apply (first_run_sorted (fun r => day_num (rday r))).
Qed.

(** The shipped data are in order. *)
Fixpoint orderedb (l : list Z) : bool :=
  match l with a :: ((b :: _) as t) => (a <? b) && orderedb t | _ => true end.
Lemma orderedb_sorted {A} (f : A -> Z) l : orderedb (map f l) = true -> StronglySorted (fun a b => f a < f b) l.
Proof.
  intros H. apply Sorted_StronglySorted; [intros x y z; lia|]. induction l as [|a l IH]; [constructor|].
  destruct l as [|b l]; [repeat constructor|]. cbn [map orderedb] in H. apply andb_prop in H. destruct H as [H1 H2].
  constructor; [apply IH, H2|]. constructor. lia.
Qed.
Theorem C29_shipped_in_order : in_order shipped.
Proof. apply (orderedb_sorted (fun r => day_num (rday r))). vm_compute. reflexivity. Qed.

Example C29_case : exists l, getHolidays HDB_shipped (str_of_Z 2019) 10 = Ok l /\ List.length l = 8%nat
  /\ getHolidays HDB_shipped (str_of_Z 2000) 0 = Ok [].
Proof.
  rewrite (C29_month _ _ 2019 10 C28_shipped C29_shipped_in_order), (C29_year _ _ 2000 C28_shipped C29_shipped_in_order) by lia.
  eexists. split; [reflexivity|]. split; vm_compute; reflexivity.
Qed.

(** ** C31 *)
Definition for_target (a : Z * Z * Z) (r : hrec) : bool := day_eqb (rtarget r) a.

(** What is listed for any database: the last contiguous run of records with that target. *)
Theorem C31_last_run : forall db rs y m d, represents db rs -> 1000 <= y <= 9999 -> 1 <= m <= 99 -> 1 <= d <= 99 ->
  getHolidaysByTarget db (str_of_Z y) m d = Ok (map (rec_holiday (hnames db)) (last_run (for_target (y, m, d)) rs)).
Proof.
  intros db rs y m d R Y M D. unfold getHolidaysByTarget. replace ((m =? 0) || (d =? 0)) with false by lia.
  rewrite year4, !padding2 by lia. change (fixed 4 y ++ fixed 2 m ++ fixed 2 d) with (day8 (y, m, d)).
  apply backward_recs; [exact R|rewrite day8_length; lia|]. destruct R as [_ F].
  eapply Forall_impl; [|exact F]. intros r (_ & T & _). apply ends_target; [unfold day_ok; lia|exact T].
Qed.

(** On the shipped data this is every record of the target, except for three National Days. *)
Definition split_targets : list (Z * Z * Z) := [(2014, 10, 1); (2015, 10, 1); (2017, 10, 1)].

Fixpoint recs_eqb (a b : list hrec) : bool :=
  match a, b with
  | [], [] => true
  | x :: a', y :: b' => day_eqb (rday x) (rday y) && (rname x =? rname y) && Bool.eqb (rwork x) (rwork y)
                        && day_eqb (rtarget x) (rtarget y) && recs_eqb a' b'
  | _, _ => false
  end.
Definition rec_eqb (x y : hrec) : bool :=
  day_eqb (rday x) (rday y) && (rname x =? rname y) && Bool.eqb (rwork x) (rwork y) && day_eqb (rtarget x) (rtarget y).
Lemma rec_eqb_eq x y : rec_eqb x y = true <-> x = y.
Proof.
  unfold rec_eqb. rewrite !andb_true_iff, !day_eqb_eq, Z.eqb_eq, Bool.eqb_true_iff.
  destruct x, y; cbn. split; [intros [[[-> ->] ->] ->]; reflexivity|intros E; injection E as -> -> -> ->; auto].
Qed.
Lemma recs_eqb_eq a : forall b, recs_eqb a b = true -> a = b.
Proof.
  induction a as [|x a IH]; intros [|y b] H; try easy. cbn [recs_eqb] in H.
  change (rec_eqb x y && recs_eqb a b = true) in H. apply andb_prop in H. destruct H as [H1 H2].
  apply rec_eqb_eq in H1. apply IH in H2. now subst.
Qed.

Lemma first_run_none {A} (p : A -> bool) l : (forall a, In a l -> p a = false) -> first_run p l = [].
Proof. intros H. unfold first_run. now rewrite drop_until_none. Qed.
Lemma filter_nil {A} (p : A -> bool) l : (forall a, In a l -> p a = false) -> filter p l = [].
Proof. induction l as [|a l IH]; intros H; cbn; [reflexivity|]. rewrite H by now left. apply IH. intros; apply H; now right. Qed.

Definition shipped_rev : list hrec := Eval vm_compute in rev' shipped.
Definition shipped_targets : list (Z * Z * Z) := Eval vm_compute in
  fold_right (fun r l => if existsb (day_eqb (rtarget r)) l then l else rtarget r :: l) [] shipped.
Lemma shipped_rev_eq : rev shipped = shipped_rev.
Proof. rewrite rev_alt. apply recs_eqb_eq. vm_compute. reflexivity. Qed.
Lemma shipped_targets_all r : In r shipped -> In (rtarget r) shipped_targets.
Proof.
  assert (forallb (fun r => existsb (day_eqb (rtarget r)) shipped_targets) shipped = true) as T by (vm_compute; reflexivity).
  rewrite forallb_forall in T. intros I. specialize (T r I). apply existsb_exists in T. destruct T as (a & I' & E).
  apply day_eqb_eq in E. rewrite E. exact I'.
Qed.
Lemma shipped_targets_runs : forallb (fun a => existsb (day_eqb a) split_targets ||
    recs_eqb (rev (first_run (for_target a) shipped_rev)) (filter (for_target a) shipped)) shipped_targets = true.
Proof. vm_compute. reflexivity. Qed.

Theorem C31_shipped : forall y m d, 1000 <= y <= 9999 -> 1 <= m <= 99 -> 1 <= d <= 99 -> ~ In (y, m, d) split_targets ->
  getHolidaysByTarget HDB_shipped (str_of_Z y) m d =
    Ok (map (rec_holiday HolidayUtil_NAMES) (filter (for_target (y, m, d)) shipped)).
Proof.
  intros y m d Y M D N. rewrite (C31_last_run _ _ y m d C28_shipped Y M D). f_equal.
  change (hnames HDB_shipped) with HolidayUtil_NAMES. apply f_equal.
  destruct (existsb (for_target (y, m, d)) shipped) eqn:E.
  - apply existsb_exists in E. destruct E as (r & I & E). apply day_eqb_eq in E.
    pose proof shipped_targets_runs as T. rewrite forallb_forall in T. specialize (T _ (shipped_targets_all r I)). rewrite E in T.
    apply orb_prop in T. destruct T as [T|T]; [|apply recs_eqb_eq in T; unfold last_run; rewrite shipped_rev_eq; exact T].
    exfalso. apply N. apply existsb_exists in T. destruct T as (a & I' & T). apply day_eqb_eq in T. now subst a.
  - assert (forall r, In r shipped -> for_target (y, m, d) r = false) as H.
    { intros r I. destruct (for_target (y, m, d) r) eqn:F; [|reflexivity].
      assert (existsb (for_target (y, m, d)) shipped = true) by (apply existsb_exists; eauto). congruence. }
    unfold last_run. rewrite first_run_none, filter_nil; [reflexivity|exact H|]. intros r I. apply H. exact (proj2 (in_rev shipped r) I).
Qed.

(** For those three the earlier records are missing from the list. *)
Theorem C31_split_targets_refuted : forall a, In a split_targets ->
  let '(y, m, d) := a in exists l, getHolidaysByTarget HDB_shipped (str_of_Z y) m d = Ok l /\
    (List.length l < List.length (filter (for_target a) shipped))%nat.
Proof.
  intros a I. cbn [split_targets In] in I. destruct I as [<-|[<-|[<-|[]]]]; rewrite (C31_last_run _ _ _ _ _ C28_shipped) by lia;
    (eexists; split; [reflexivity|]; rewrite map_length; apply Nat.ltb_lt; vm_compute; reflexivity).
Qed.

Example C31_case : exists l, getHolidaysByTarget HDB_shipped (str_of_Z 2020) 5 1 = Ok l /\ List.length l = 7%nat.
Proof.
  rewrite (C31_shipped 2020 5 1) by (lia || (cbn; intuition congruence)). eexists. split; [reflexivity|].
  rewrite map_length. vm_compute. reflexivity.
Qed.
