(** Typed holiday records: the text database represents a list of them, and the queries are the
    corresponding list operations. *)
From Coq Require Import ZArith Lia Bool ZifyBool List String Floats.
From Verif Require Import Py PyFloat PyStr T_Holiday Solar SolarUnits AlmanacProofs Holiday HolidayProofs.
Import ListNotations.
Open Scope Z_scope.

(** A record: day, index of the name, working (make-up) day or not, target day. *)
Record hrec := mkRec { rday : Z * Z * Z; rname : Z; rwork : bool; rtarget : Z * Z * Z }.

(** Day and target fit in 8 digits. *)
Definition day_ok (a : Z * Z * Z) : Prop := let '(y, m, d) := a in 0 <= y <= 9999 /\ 0 <= m <= 99 /\ 0 <= d <= 99.
Definition rec_fits (names : list str) (r : hrec) : Prop :=
  day_ok (rday r) /\ day_ok (rtarget r) /\ 0 <= rname r < Z.of_nat (List.length names).

Definition day8 (a : Z * Z * Z) : str := let '(y, m, d) := a in fixed 4 y ++ fixed 2 m ++ fixed 2 d.
Definition dash (a : Z * Z * Z) : str := let '(y, m, d) := a in fixed 4 y ++ [45] ++ fixed 2 m ++ [45] ++ fixed 2 d.

(** The 18 characters of a record, and the [Holiday] it stands for. *)
Definition rec_text (r : hrec) : str := day8 (rday r) ++ [48 + rname r] ++ [if rwork r then 48 else 49] ++ day8 (rtarget r).
Definition rec_holiday (names : list str) (r : hrec) : Holiday :=
  mkHoliday (dash (rday r)) (nth (Z.to_nat (rname r)) names []) (rwork r) (dash (rtarget r)).

Definition day_eqb (a b : Z * Z * Z) : bool :=
  let '(y, m, d) := a in let '(y', m', d') := b in (y =? y') && (m =? m') && (d =? d').
Lemma day_eqb_eq a b : day_eqb a b = true <-> a = b.
Proof.
  destruct a as [[y m] d], b as [[y' m'] d']. unfold day_eqb. rewrite !andb_true_iff, !Z.eqb_eq. split.
  - intros [[-> ->] ->]. reflexivity.
  - intros E. injection E as -> -> ->. auto.
Qed.

(** The database [db] is the sequence of records [rs]. *)
Definition represents (db : HDB) (rs : list hrec) : Prop :=
  hdata db = concat (map rec_text rs) /\ Forall (rec_fits (hnames db)) rs.

Lemma day8_length a : List.length (day8 a) = 8%nat.
Proof. destruct a as [[y m] d]. unfold day8. rewrite !app_length, !fixed_length. reflexivity. Qed.
Lemma rec_text_18 r : rec18 (rec_text r).
Proof. unfold rec18, rec_text. rewrite !app_length, !day8_length. reflexivity. Qed.
Lemma rec_texts_18 rs : Forall rec18 (map rec_text rs).
Proof. apply Forall_forall. intros x H. apply in_map_iff in H. destruct H as (r & <- & _). apply rec_text_18. Qed.

Lemma fixed_digits w : forall n, Forall (fun c => 48 <= c <= 57) (fixed w n).
Proof.
  induction w as [|w IH]; intros n; cbn [fixed]; [constructor|]. apply Forall_app. split; [apply IH|].
  constructor; [lia|constructor].
Qed.
Lemma day8_digits a : Forall (fun c => 48 <= c <= 57) (day8 a).
Proof. destruct a as [[y m] d]. unfold day8. rewrite !Forall_app. repeat split; apply fixed_digits. Qed.

Lemma day8_eqb a b : day_ok a -> day_ok b -> str_eqb (day8 a) (day8 b) = day_eqb a b.
Proof.
  destruct a as [[y m] d], b as [[y' m'] d']. intros (A1 & A2 & A3) (B1 & B2 & B3). unfold day8, day_eqb.
  rewrite !str_eqb_app by (rewrite !fixed_length; reflexivity).
  rewrite !fixed_eqb by (cbn; lia). now rewrite andb_assoc.
Qed.
Lemma day8_inj a b : day_ok a -> day_ok b -> day8 a = day8 b -> a = b.
Proof. intros A B E. apply day_eqb_eq. rewrite <- day8_eqb by easy. rewrite E. apply str_eqb_refl. Qed.

Lemma no_dash s : Forall (fun c => 48 <= c <= 57) s -> py_in (lit "-") s = false.
Proof.
  intros F. unfold py_in, py_find. change (lit "-") with [45]. rewrite find_char_none; [reflexivity|].
  intros I. rewrite Forall_forall in F. apply F in I. lia.
Qed.

Lemma ymd_day8 a : Holiday_ymd (day8 a) = dash a.
Proof.
  unfold Holiday_ymd. rewrite no_dash by apply day8_digits. destruct a as [[y m] d]. unfold day8, dash.
  rewrite slice_0 by (rewrite fixed_length; reflexivity).
  rewrite slice_mid by (rewrite ?fixed_length; reflexivity).
  assert (slice_from (fixed 4 y ++ fixed 2 m ++ fixed 2 d) 6 = fixed 2 d) as ->; [|reflexivity].
  rewrite app_assoc. apply slice_from_app. rewrite app_length, !fixed_length. reflexivity.
Qed.

Lemma undash_digits s : Forall (fun c => 48 <= c <= 57) s -> undash s = s.
Proof.
  induction 1 as [|c s Hc Hs IH]; [reflexivity|]. unfold undash in *. cbn [filter].
  replace (negb (c =? 45)) with true by lia. now rewrite IH.
Qed.
Lemma undash_app a b : undash (a ++ b) = undash a ++ undash b.
Proof. apply filter_app. Qed.
Lemma undash_dash a : undash (dash a) = day8 a.
Proof.
  destruct a as [[y m] d]. unfold dash, day8. rewrite !undash_app.
  rewrite (undash_digits (fixed 4 y)), (undash_digits (fixed 2 m)), (undash_digits (fixed 2 d)) by apply fixed_digits. reflexivity.
Qed.

Lemma slice_8 (a b : str) (c w : Z) : List.length a = 8%nat -> List.length b = 8%nat ->
  slice (a ++ [c] ++ [w] ++ b) 0 8 = a /\ slice (a ++ [c] ++ [w] ++ b) 8 9 = [c] /\
  slice (a ++ [c] ++ [w] ++ b) 9 10 = [w] /\ slice (a ++ [c] ++ [w] ++ b) 10 18 = b.
Proof.
  intros A B. repeat split.
  - apply slice_0. now rewrite A.
  - apply slice_mid; rewrite A; reflexivity.
  - rewrite app_assoc. apply slice_mid; rewrite app_length, A; reflexivity.
  - replace (a ++ [c] ++ [w] ++ b) with ((a ++ [c] ++ [w]) ++ b ++ []) by (rewrite app_nil_r, <- !app_assoc; reflexivity).
    apply slice_mid; rewrite !app_length, A, ?B; reflexivity.
Qed.

Lemma py_index_nth {A} (l : list A) i d : 0 <= i < Z.of_nat (List.length l) -> py_index l i = Ok (nth (Z.to_nat i) l d).
Proof.
  intros H. unfold py_index. replace (i <? 0) with false by lia.
  replace ((i <? 0) || (Z.of_nat (List.length l) <=? i)) with false by lia.
  rewrite (nth_error_nth' l d) by lia. reflexivity.
Qed.

Lemma build_rec db r : rec_fits (hnames db) r -> buildHolidayForward db (rec_text r) = Ok (rec_holiday (hnames db) r).
Proof.
  intros (D & T & N). unfold buildHolidayForward, rec_text.
  destruct (slice_8 (day8 (rday r)) (day8 (rtarget r)) (48 + rname r) (if rwork r then 48 else 49)
              (day8_length _) (day8_length _)) as (-> & -> & -> & ->).
  cbn [py_ord bind]. unfold HolidayUtil_ZERO. replace (48 + rname r - 48) with (rname r) by lia.
  rewrite (py_index_nth (hnames db) (rname r) []) by exact N. cbn [bind]. unfold rec_holiday, Holiday_new.
  rewrite !ymd_day8. destruct (rwork r); reflexivity.
Qed.

Lemma mapM_build db rs : Forall (rec_fits (hnames db)) rs ->
  mapM (buildHolidayForward db) (map rec_text rs) = Ok (map (rec_holiday (hnames db)) rs).
Proof. induction 1 as [|r rs Hr Hrs IH]; cbn [map mapM]; [reflexivity|]. rewrite build_rec, IH by easy. reflexivity. Qed.

Lemma drop_until_map {A B} (f : A -> B) p l : drop_until p (map f l) = map f (drop_until (fun x => p (f x)) l).
Proof. induction l as [|a l IH]; cbn; [reflexivity|]. destruct (p (f a)); [reflexivity|exact IH]. Qed.
Lemma take_while_map {A B} (f : A -> B) p l : take_while p (map f l) = map f (take_while (fun x => p (f x)) l).
Proof. induction l as [|a l IH]; cbn; [reflexivity|]. destruct (p (f a)); [now rewrite IH|reflexivity]. Qed.
Lemma drop_until_ext {A} (p q : A -> bool) l : Forall (fun x => p x = q x) l -> drop_until p l = drop_until q l.
Proof. induction 1 as [|a l E F IH]; cbn; [reflexivity|]. rewrite E. destruct (q a); [reflexivity|exact IH]. Qed.
Lemma take_while_ext {A} (p q : A -> bool) l : Forall (fun x => p x = q x) l -> take_while p l = take_while q l.
Proof. induction 1 as [|a l E F IH]; cbn; [reflexivity|]. rewrite E. destruct (q a); [now rewrite IH|reflexivity]. Qed.
Lemma Forall_take {A} (P : A -> Prop) p l : Forall P l -> Forall P (take_while p l).
Proof. induction 1; cbn; auto. destruct (p x); auto. Qed.

(** The first contiguous run of records satisfying [p]. *)
Definition first_run {A} (p : A -> bool) (l : list A) : list A := take_while p (drop_until p l).
(** The last contiguous run. *)
Definition last_run {A} (p : A -> bool) (l : list A) : list A := rev (first_run p (rev l)).

Lemma first_run_ext {A} (p q : A -> bool) l : Forall (fun x => p x = q x) l -> first_run p l = first_run q l.
Proof.
  intros F. unfold first_run. rewrite (drop_until_ext p q) by exact F. apply take_while_ext. now apply Forall_drop.
Qed.

Lemma forward_recs db rs key p : represents db rs -> (1 <= List.length key <= 18)%nat ->
  Forall (fun r => prefixb key (rec_text r) = p r) rs ->
  findHolidaysForward db key = Ok (map (rec_holiday (hnames db)) (first_run p rs)).
Proof.
  intros [Hd Hf] Hk Hp. rewrite (findHolidaysForward_spec db (map rec_text rs) key Hd (rec_texts_18 rs) Hk).
  rewrite drop_until_map, take_while_map, mapM_build.
  - fold (first_run (fun x => prefixb key (rec_text x)) rs). rewrite (first_run_ext _ p) by exact Hp. reflexivity.
  - apply Forall_take, Forall_drop, Hf.
Qed.

Lemma backward_recs db rs key p : represents db rs -> (2 <= List.length key <= 18)%nat ->
  Forall (fun r => endsb key (rec_text r) = p r) rs ->
  findHolidaysBackward db key = Ok (map (rec_holiday (hnames db)) (last_run p rs)).
Proof.
  intros [Hd Hf] Hk Hp. rewrite (findHolidaysBackward_spec db (map rec_text rs) key Hd (rec_texts_18 rs) Hk).
  rewrite <- map_rev. rewrite drop_until_map, take_while_map, mapM_build.
  - cbn [bind]. rewrite <- map_rev. unfold last_run. f_equal. f_equal. f_equal.
    apply (first_run_ext (fun x => endsb key (rec_text x)) p). apply Forall_rev, Hp.
  - apply Forall_take, Forall_drop, Forall_rev, Hf.
Qed.

Lemma first_run_find {A} (p : A -> bool) l : hd_error (first_run p l) = find p l.
Proof.
  induction l as [|a l IH]; [reflexivity|]. unfold first_run in *. cbn [drop_until find].
  destruct (p a) eqn:E; [|exact IH]. cbn. now rewrite E.
Qed.

(** [str(n)] of a number with [w] digits. *)
Lemma digs_fixed w : forall fuel n, 10 ^ Z.of_nat w <= n < 10 ^ Z.of_nat (Datatypes.S w) -> n < 10 ^ Z.of_nat fuel ->
  digs fuel n = fixed (Datatypes.S w) n.
Proof.
  induction w as [|w IH]; intros fuel n Hn Hf.
  - destruct fuel as [|f]; [change (10 ^ Z.of_nat 0) with 1 in *; lia|]. change (10 ^ Z.of_nat 0) with 1 in Hn. change (10 ^ Z.of_nat 1) with 10 in Hn.
    cbn [digs fixed]. replace (n <? 10) with true by lia. cbn [app]. f_equal. rewrite Z.mod_small; lia.
  - destruct fuel as [|f].
    { change (10 ^ Z.of_nat 0) with 1 in Hf. assert (0 < 10 ^ Z.of_nat (Datatypes.S w)) by (apply Z.pow_pos_nonneg; lia). lia. }
    cbn [digs]. rewrite pow10_S in Hn. assert (0 < 10 ^ Z.of_nat w) by (apply Z.pow_pos_nonneg; lia).
    replace (n <? 10) with false by lia.
    rewrite (IH f (n / 10)); [reflexivity| |].
    + rewrite !pow10_S in Hn. rewrite pow10_S. set (p := 10 ^ Z.of_nat w) in *. clearbody p. lia.
    + rewrite pow10_S in Hf. set (p := 10 ^ Z.of_nat f) in *. clearbody p. lia.
Qed.
Lemma str_of_Z_fixed w n : 10 ^ Z.of_nat w <= n < 10 ^ Z.of_nat (Datatypes.S w) -> str_of_Z n = fixed (Datatypes.S w) n.
Proof.
  intros H. assert (0 < 10 ^ Z.of_nat w) by (apply Z.pow_pos_nonneg; lia). unfold str_of_Z. replace (n <? 0) with false by lia.
  apply digs_fixed; [exact H|]. apply dec_fuel_ok. lia.
Qed.
Lemma year4 y : 1000 <= y <= 9999 -> str_of_Z y = fixed 4 y.
Proof. intros H. apply (str_of_Z_fixed 3). cbn. lia. Qed.
Lemma padding2 n : 0 <= n <= 99 -> padding n = fixed 2 n.
Proof.
  intros H. unfold padding. destruct (Z.ltb_spec n 10).
  - unfold str_of_Z. replace (n <? 0) with false by lia. unfold dec_fuel. cbn [digs].
    replace (n <? 10) with true by lia. cbn [fixed app lit]. rewrite Z.div_small by lia. change (0 mod 10) with 0. rewrite (Z.mod_small n 10) by lia. reflexivity.
  - cbn [app]. apply (str_of_Z_fixed 1). cbn. lia.
Qed.

Lemma prefix_day r a : day_ok a -> day_ok (rday r) -> prefixb (day8 a) (rec_text r) = day_eqb (rday r) a.
Proof.
  intros A R. unfold rec_text. rewrite prefixb_app by (rewrite !day8_length; reflexivity).
  rewrite day8_eqb by easy. destruct (day_eqb a (rday r)) eqn:E, (day_eqb (rday r) a) eqn:F; try reflexivity.
  - apply day_eqb_eq in E. subst. assert (day_eqb (rday r) (rday r) = true) by now apply day_eqb_eq. congruence.
  - apply day_eqb_eq in F. subst. assert (day_eqb (rday r) (rday r) = true) by now apply day_eqb_eq. congruence.
Qed.

Lemma ends_target r a : day_ok a -> day_ok (rtarget r) -> endsb (day8 a) (rec_text r) = day_eqb (rtarget r) a.
Proof.
  intros A R. unfold endsb, rec_text. rewrite day8_length. change (18 - 8)%nat with 10%nat.
  replace (day8 (rday r) ++ [48 + rname r] ++ [if rwork r then 48 else 49] ++ day8 (rtarget r))
    with ((day8 (rday r) ++ [48 + rname r] ++ [if rwork r then 48 else 49]) ++ day8 (rtarget r)) by (rewrite <- !app_assoc; reflexivity).
  rewrite skipn_app. rewrite skipn_all2 by (rewrite !app_length, day8_length; cbn; lia).
  rewrite !app_length, day8_length. cbn [app List.length Nat.add Nat.sub skipn]. now apply day8_eqb.
Qed.

(** Looking a day up through the 8-character key. *)
Lemma lookup_day db rs a : represents db rs -> day_ok a ->
  findHolidaysForward db (day8 a) = Ok (map (rec_holiday (hnames db)) (first_run (fun r => day_eqb (rday r) a) rs)).
Proof.
  intros R A. apply forward_recs; [exact R|rewrite day8_length; lia|].
  destruct R as [_ F]. eapply Forall_impl; [|exact F]. intros r (D & _). now apply prefix_day.
Qed.

Lemma hd_map {A B} (f : A -> B) l : hd_error (map f l) = option_map f (hd_error l).
Proof. destruct l; reflexivity. Qed.

Lemma getHoliday_text db rs a : represents db rs -> day_ok a ->
  getHoliday db (day8 a) 0 0 = Ok (option_map (rec_holiday (hnames db)) (find (fun r => day_eqb (rday r) a) rs)).
Proof.
  intros R A. unfold getHoliday. cbn [Z.eqb orb]. rewrite undash_digits by apply day8_digits.
  rewrite (lookup_day db rs a R A). cbn [bind]. rewrite <- first_run_find, <- hd_map.
  destruct (map _ _); reflexivity.
Qed.
