(** Lemmas on the month table of LunarYear.compute. *)
From Coq Require Import ZArith Lia Bool ZifyBool List String Floats.
From Verif Require Import Py PyFloat PyStr Solar LunarUtil T_LunarUtil T_Misc ShouXing LunarYear Lunar LunarProofs TermProofs.
Import ListNotations.
Open Scope Z_scope.

Definition month0 : LMonth := mkLMonth 0 0 0 0 0.
Definition nthm (ms : list LMonth) (i : Z) : LMonth := nth (Z.to_nat i) ms month0.

Lemma py_index_nth {A} (l : list A) i d : 0 <= i < Z.of_nat (List.length l) -> py_index l i = Ok (nth (Z.to_nat i) l d).
Proof.
  intros H. unfold py_index. replace (i <? 0) with false by lia.
  replace ((i <? 0) || (Z.of_nat (List.length l) <=? i)) with false by lia.
  rewrite (nth_error_nth' l d) by lia. reflexivity.
Qed.
Lemma py_index_inv {A} (l : list A) i a d : 0 <= i -> py_index l i = Ok a -> i < Z.of_nat (List.length l) /\ a = nth (Z.to_nat i) l d.
Proof.
  intros H E. destruct (Z.lt_ge_cases i (Z.of_nat (List.length l))).
  - rewrite (py_index_nth l i d) in E by lia. apply Ok_inj in E. split; congruence.
  - unfold py_index in E. replace (i <? 0) with false in E by lia.
    replace ((i <? 0) || (Z.of_nat (List.length l) <=? i)) with true in E by lia. discriminate.
Qed.

(** The traditional number of the [i]-th month of a table whose leap month is at position [leap]. *)
Definition number (leap i : Z) : Z := ((if leap <=? i then i - 1 else i) + 10) mod 12 + 1.
Lemma YMC_nth v : py_index YMC (v mod 12) = Ok ((v + 10) mod 12 + 1).
Proof.
  assert (T : forallb (fun v => match py_index YMC v with Ok n => n =? (v + 10) mod 12 + 1 | _ => false end) (zrange 0 12) = true)
    by (vm_compute; reflexivity).
  pose proof (forallb_zrange _ _ _ T (v mod 12) ltac:(lia)) as X. cbv beta in X.
  destruct (py_index YMC (v mod 12)) as [n|]; [|discriminate]. f_equal. lia.
Qed.

(** The years of the calendar reforms (AD 8-23 and 237-239), in days. *)
Definition reform (dm : Z) : bool := ((1724360 <=? dm) && (dm <=? 1729794)) || ((1807724 <=? dm) && (dm <=? 1808699)).
(** the month number used by the code, before the sign *)
Definition number' (leap dm i : Z) : Z :=
  let v2 := if leap <=? i then i - 1 else i in
  if (1724360 <=? dm) && (dm <? 1729794) then (v2 + 1 + 10) mod 12 + 1
  else if (1807724 <=? dm) && (dm <? 1808699) then (v2 + 1 + 10) mod 12 + 1
  else if (dm =? 1729794) || (dm =? 1808699) then 12 else (v2 + 10) mod 12 + 1.
Lemma number'_plain leap dm i : reform dm = false -> number' leap dm i = number leap i.
Proof.
  unfold reform, number', number. intros R.
  replace ((1724360 <=? dm) && (dm <? 1729794)) with false by lia.
  replace ((1807724 <=? dm) && (dm <? 1808699)) with false by lia.
  replace ((dm =? 1729794) || (dm =? 1808699)) with false by lia. reflexivity.
Qed.
Definition signed (leap dm i : Z) : Z :=
  let mc := number' leap dm i in
  if i =? leap then - mc else if (dm =? 1729794) || (dm =? 1808699) then -11 else mc.
Lemma number'_range leap dm i : 1 <= number' leap dm i <= 12.
Proof. unfold number'. destruct (_ && _); [lia|]. destruct (_ && _); [lia|]. destruct (_ || _); lia. Qed.

Lemma month_step_spec leap hs fm index y i r : 0 <= i -> month_step leap hs (fm, index, y) i = Ok r ->
  exists h h', py_index hs i = Ok h /\ py_index hs (i + 1) = Ok h' /\
    let dm := h + 2451545 in
    let mc := number' leap dm i in
    let y' := if fm =? -1 then y else if mc <? fm then y + 1 else y in
    let x := if fm =? -1 then mc else if mc <? fm then 1 else index in
    r = (mc, x + 1, y', mkLMonth y' (signed leap dm i) (h' - h) dm x).
Proof.
  intros Hi H. unfold month_step in H.
  apply bind_ok in H. destruct H as (h & Eh & H). apply bind_ok in H. destruct H as (h' & Eh' & H).
  exists h, h'. split; [exact Eh|]. split; [exact Eh'|]. intros dm mc y' x. revert H. fold dm.
  set (v2 := if leap <=? i then i - 1 else i). rewrite !YMC_nth. cbn [bind].
  replace (if (1724360 <=? dm) && (dm <? 1729794) then (v2 + 1 + 10) mod 12 + 1
           else if (1807724 <=? dm) && (dm <? 1808699) then (v2 + 1 + 10) mod 12 + 1
           else if (dm =? 1729794) || (dm =? 1808699) then 12 else (v2 + 10) mod 12 + 1) with mc by reflexivity.
  intros H. subst y' x. unfold signed. fold mc.
  destruct (fm =? -1).
  - replace (mc <? mc) with false in H by lia. apply Ok_inj in H. now rewrite <- H.
  - destruct (mc <? fm); apply Ok_inj in H; now rewrite <- H.
Qed.

(** One table: positions i, i + 1, ... with the state before them. *)
Lemma months_from_spec leap hs : forall n i fm index y ms, 0 <= i ->
  months_from leap hs (fm, index, y) (zseq i n) = Ok ms ->
  List.length ms = n /\ (n <> O -> i + Z.of_nat n < Z.of_nat (List.length hs)) /\
  forall k, 0 <= k < Z.of_nat n ->
    let dm := nth (Z.to_nat (i + k)) hs 0 + 2451545 in
    mfirst (nthm ms k) = dm /\
    mcount (nthm ms k) = nth (Z.to_nat (i + k + 1)) hs 0 - nth (Z.to_nat (i + k)) hs 0 /\
    mm (nthm ms k) = signed leap dm (i + k) /\
    (k = 0 -> my (nthm ms k) = if fm =? -1 then y else if number' leap dm (i + k) <? fm then y + 1 else y) /\
    (0 < k -> my (nthm ms k) = my (nthm ms (k - 1)) +
       (if number' leap dm (i + k) <? number' leap (nth (Z.to_nat (i + k - 1)) hs 0 + 2451545) (i + k - 1) then 1 else 0)).
Proof.
  induction n as [|n IH]; intros i fm index y ms Hi H; cbn [zseq months_from] in H.
  - apply Ok_inj in H. subst. split; [reflexivity|]. split; [congruence|]. intros k Hk. lia.
  - apply bind_ok in H. destruct H as ([st m] & Es & H). apply bind_ok in H. destruct H as (ms' & Em & H).
    apply Ok_inj in H. subst ms.
    apply month_step_spec in Es; [|exact Hi]. destruct Es as (h & h' & Eh & Eh' & E).
    apply (py_index_inv _ _ _ 0) in Eh; [|lia]. apply (py_index_inv _ _ _ 0) in Eh'; [|lia].
    cbv zeta in E. apply pair_equal_spec in E. destruct E as [-> ->].
    destruct (IH (i + 1) _ _ _ _ ltac:(lia) Em) as (L & LH & IH'). clear IH Em.
    split; [cbn; now rewrite L|]. split; [intros _; destruct n; [lia|]; specialize (LH ltac:(lia)); lia|].
    intros k Hk dm. destruct (Z.eq_dec k 0) as [->|].
    + unfold nthm. cbn [Z.to_nat nth mfirst mcount mm my]. unfold dm. rewrite !Z.add_0_r.
      destruct Eh as [_ ->]. destruct Eh' as [_ ->]. repeat split; try reflexivity; lia.
    + assert (N : forall j, 0 < j -> nthm (mkLMonth (if fm =? -1 then y else if number' leap (h + 2451545) i <? fm then y + 1 else y)
        (signed leap (h + 2451545) i) (h' - h) (h + 2451545)
        (if fm =? -1 then number' leap (h + 2451545) i else if number' leap (h + 2451545) i <? fm then 1 else index) :: ms') j = nthm ms' (j - 1)).
      { intros j Hj. unfold nthm. replace (Z.to_nat j) with (Datatypes.S (Z.to_nat (j - 1))) by lia. reflexivity. }
      rewrite N by lia. destruct (IH' (k - 1) ltac:(lia)) as (A & B & C & D & E).
      replace (i + 1 + (k - 1)) with (i + k) in * by lia.
      unfold dm. split; [exact A|]. split; [exact B|]. split; [exact C|]. split; [lia|]. intros _.
      destruct (Z.eq_dec k 1) as [->|].
      * rewrite D by lia. change (1 - 1) with 0. unfold nthm at 1. cbn [Z.to_nat nth my].
        destruct Eh as [_ Eh]. replace (i + 1 - 1) with i by lia. rewrite <- Eh.
        pose proof (number'_range leap (h + 2451545) i) as R.
        destruct (Z.eqb_spec (number' leap (h + 2451545) i) (-1)); [lia|].
        clear; destruct (number' leap _ (i + 1) <? number' leap (h + 2451545) i); [reflexivity|now rewrite Z.add_0_r].
      * rewrite (N (k - 1)) by lia. rewrite E by lia. replace (i + k - 1) with (i + 1 + (k - 1) - 1) by lia.
        replace (i + 1 + (k - 1) - 1) with (i + k - 1) by lia. reflexivity.
Qed.

(** ** The leap month *)
Definition nthz (l : list Z) (i : Z) : Z := nth (Z.to_nat i) l 0.
Lemma leap_index_spec y hs jq : List.length hs = 16%nat -> List.length jq = 26%nat -> exists i,
  leap_index y hs jq = Ok i /\
  ((In y LunarYear_LEAP_11 /\ i = 13) \/
   (~ In y LunarYear_LEAP_11 /\ In y LunarYear_LEAP_12 /\ i = 14) \/
   (~ In y LunarYear_LEAP_11 /\ ~ In y LunarYear_LEAP_12 /\
    ((nthz jq 24 < nthz hs 13 /\ i = 16) \/
     (nthz hs 13 <= nthz jq 24 /\ 1 <= i <= 12 /\ nthz hs (i + 1) <= nthz jq (2 * i) /\
      forall k, 1 <= k < i -> nthz jq (2 * k) < nthz hs (k + 1))))).
Proof.
  intros Lh Lj. unfold leap_index.
  assert (B : forall l, existsb (Z.eqb y) l = true <-> In y l).
  { intros l. rewrite existsb_exists. split; [intros (x & I & E); apply Z.eqb_eq in E; now subst|intros I; exists y; split; [exact I|apply Z.eqb_refl]]. }
  pose proof (B LunarYear_LEAP_11) as B1. pose proof (B LunarYear_LEAP_12) as B2. clear B.
  destruct (existsb (Z.eqb y) LunarYear_LEAP_11); [exists 13; split; [reflexivity|]; left; split; [now apply B1|reflexivity]|].
  assert (N1 : ~ In y LunarYear_LEAP_11) by (intros I; apply B1 in I; discriminate). clear B1.
  destruct (existsb (Z.eqb y) LunarYear_LEAP_12); [exists 14; split; [reflexivity|]; right; left; repeat split; [exact N1|now apply B2]|].
  assert (N2 : ~ In y LunarYear_LEAP_12) by (intros I; apply B2 in I; discriminate). clear B2.
  rewrite (py_index_nth hs 13 0), (py_index_nth jq 24 0) by lia. cbn [bind].
  change (nth (Z.to_nat 13) hs 0) with (nthz hs 13). change (nth (Z.to_nat 24) jq 0) with (nthz jq 24).
  destruct (Z.leb_spec (nthz hs 13) (nthz jq 24)) as [C|C].
  - destruct (loop_rule (fun i => 1 <= i <= 12 /\ forall k, 1 <= k < i -> nthz jq (2 * k) < nthz hs (k + 1))
      (fun r => exists i, r = Ok i /\ 1 <= i <= 12 /\ nthz hs (i + 1) <= nthz jq (2 * i) /\ forall k, 1 <= k < i -> nthz jq (2 * k) < nthz hs (k + 1))
      (fun i => 12 - i) (leap_step hs jq) 20 1) as (r & E & (i & -> & R)).
    + intros s Hs. lia.
    + intros i (Hi & P). unfold leap_step. rewrite (py_index_nth hs (i + 1) 0), (py_index_nth jq (2 * i) 0) by lia.
      fold (nthz hs (i + 1)) (nthz jq (2 * i)).
      destruct (Z.ltb_spec (nthz jq (2 * i)) (nthz hs (i + 1))) as [X|X].
      * assert (i <> 12) by (intros ->; change (2 * 12) with 24 in X; change (12 + 1) with 13 in X; lia).
        replace (i <? 13) with true by lia. cbn [andb]. split; [|lia]. split; [lia|].
        intros k Hk. destruct (Z.eq_dec k i) as [->|]; [exact X|apply P; lia].
      * cbn [andb]. exists i. split; [reflexivity|]. split; [lia|]. split; [lia|exact P].
    + split; [lia|]. intros k Hk. lia.
    + lia.
    + exists i. rewrite E. cbn [bind]. split; [reflexivity|]. right. right. repeat split; try assumption. right. tauto.
  - exists 16. split; [reflexivity|]. right. right. repeat split; try assumption. left. split; [lia|reflexivity].
Qed.

Lemma mapM_length {A B} (f : A -> res B) l r : mapM f l = Ok r -> List.length r = List.length l.
Proof. intros H. apply mapM_nth in H. apply H. Qed.

(** What a successful construction gives, for any astronomy. *)
Lemma LunarYear_new_inv sky y t : LunarYear_new sky y = Ok t -> exists jq terms hs leap,
  compute_jq sky y = Ok jq /\ compute_terms sky jq = Ok terms /\ compute_hs sky jq = Ok hs /\
  leap_index y hs jq = Ok leap /\ months_from leap hs (-1, -1, y - 1) (zseq 0 15) = Ok (lmonths t) /\
  lyear t = y /\ lgan t = (y - 4) mod 10 /\ lzhi t = (y - 4) mod 12 /\ lterms t = terms /\
  List.length jq = 26%nat /\ List.length hs = 16%nat /\ List.length terms = 31%nat.
Proof.
  unfold LunarYear_new. intros H.
  apply bind_ok in H. destruct H as (jq & Ej & H). apply bind_ok in H. destruct H as (terms & Et & H).
  apply bind_ok in H. destruct H as (hs & Eh & H). apply bind_ok in H. destruct H as (ms & Em & H). apply Ok_inj in H. subst t.
  unfold compute_months in Em. apply bind_ok in Em. destruct Em as (leap & El & Em).
  exists jq, terms, hs, leap. cbn [lmonths lyear lgan lzhi lterms]. repeat split; try assumption.
  - unfold compute_jq in Ej. apply bind_ok in Ej. destruct Ej as (w & _ & Ej). now apply mapM_length in Ej.
  - unfold compute_hs in Eh. apply bind_ok in Eh. destruct Eh as (q & _ & Eh). apply bind_ok in Eh. destruct Eh as (w & _ & Eh).
    now apply mapM_length in Eh.
  - unfold compute_terms in Et. now apply mapM_length in Et.
Qed.
Lemma leap_range y hs jq leap : List.length hs = 16%nat -> List.length jq = 26%nat -> leap_index y hs jq = Ok leap -> 1 <= leap <= 16 /\ leap <> 15.
Proof. intros A B E. destruct (leap_index_spec y hs jq A B) as (i & E' & C). rewrite E in E'. apply Ok_inj in E'. lia. Qed.
