(** Holiday database: the text searches are exact on texts made of 18-character records. *)
From Coq Require Import ZArith Lia Bool ZifyBool List String Floats.
From Verif Require Import Py PyFloat PyStr T_Holiday Solar SolarUnits AlmanacProofs Holiday.
Import ListNotations.
Open Scope Z_scope.

(** ** Searching *)
Lemma find_from_spec p s : forall k, 0 <= k ->
  (find_from k p s = -1 /\ forall i, prefixb p (skipn i s) = false)
  \/ exists j, (j <= List.length s)%nat /\ find_from k p s = k + Z.of_nat j
     /\ prefixb p (skipn j s) = true /\ forall i, (i < j)%nat -> prefixb p (skipn i s) = false.
Proof.
  induction s as [|c s IH]; intros k Hk; cbn [find_from].
  - destruct (prefixb p []) eqn:E.
    + right. exists 0%nat. cbn. repeat split; [lia|lia|exact E|]. intros; lia.
    + left. split; [reflexivity|]. intros i. destruct i; exact E.
  - destruct (prefixb p (c :: s)) eqn:E.
    + right. exists 0%nat. cbn [skipn]. repeat split; [lia|lia|exact E|]. intros; lia.
    + destruct (IH (k + 1) ltac:(lia)) as [[E1 H]|(j & L & E1 & H1 & H2)].
      * left. split; [exact E1|]. intros [|i]; [exact E|apply H].
      * right. exists (Datatypes.S j). cbn [skipn List.length]. repeat split; [lia| |exact H1|].
        -- rewrite E1. lia.
        -- intros [|i] Hi; [exact E|apply H2; lia].
Qed.

Lemma rfind_from_spec p s : forall k acc,
  (rfind_from k p s acc = acc /\ forall i, (i <= List.length s)%nat -> prefixb p (skipn i s) = false)
  \/ exists j, (j <= List.length s)%nat /\ rfind_from k p s acc = k + Z.of_nat j
     /\ prefixb p (skipn j s) = true /\ forall i, (j < i <= List.length s)%nat -> prefixb p (skipn i s) = false.
Proof.
  induction s as [|c s IH]; intros k acc; cbn [rfind_from].
  - destruct (prefixb p []) eqn:E.
    + right. exists 0%nat. cbn. repeat split; [lia|lia|exact E|]. intros; lia.
    + left. split; [reflexivity|]. intros i _. destruct i; exact E.
  - destruct (IH (k + 1) (if prefixb p (c :: s) then k else acc)) as [[E1 H]|(j & L & E1 & H1 & H2)].
    + destruct (prefixb p (c :: s)) eqn:E.
      * right. exists 0%nat. rewrite E1. cbn [skipn List.length]. repeat split; [lia|lia|exact E|].
        intros [|i] Hi; [lia|]. apply H. lia.
      * left. split; [exact E1|]. intros [|i] Hi; [exact E|]. cbn [skipn]. apply H. cbn [List.length] in Hi. lia.
    + right. exists (Datatypes.S j). rewrite E1. cbn [skipn List.length]. repeat split; [lia|lia|exact H1|].
      intros [|i] Hi; [lia|]. apply H2. lia.
Qed.

Lemma prefixb_firstn p s : prefixb p s = true <-> firstn (List.length p) s = p.
Proof.
  revert s; induction p as [|x p IH]; intros [|y s]; cbn; try easy.
  rewrite andb_true_iff, IH, Z.eqb_eq. split.
  - intros [-> ->]. reflexivity.
  - intros E. injection E as -> ->. easy.
Qed.

Lemma prefixb_app_l p a b : (List.length p <= List.length a)%nat -> prefixb p (a ++ b) = prefixb p a.
Proof.
  revert a; induction p as [|x p IH]; intros [|y a] L; cbn in *; try reflexivity; try lia.
  rewrite IH by lia. reflexivity.
Qed.

Lemma prefixb_length p s : prefixb p s = true -> (List.length p <= List.length s)%nat.
Proof.
  revert s; induction p as [|x p IH]; intros [|y s] E; cbn in *; try lia; try easy.
  apply andb_prop in E. destruct E as [_ E]. apply IH in E. lia.
Qed.

Lemma skipn_add {A} (l : list A) : forall a b, skipn a (skipn b l) = skipn (b + a) l.
Proof. induction l as [|x l IH]; intros a [|b]; cbn; try reflexivity; [now rewrite skipn_nil|apply IH]. Qed.

(** ** Records of 18 characters *)
Definition rec18 (r : list Z) : Prop := List.length r = 18%nat.

Lemma rec18_slen r : rec18 r -> slen r = 18.
Proof. unfold rec18, slen. intros ->. reflexivity. Qed.

Lemma concat18_length rs : Forall rec18 rs -> List.length (concat rs) = (18 * List.length rs)%nat.
Proof. induction 1 as [|r rs Hr Hrs IH]; cbn [concat List.length]; [reflexivity|]. rewrite app_length, IH, Hr. lia. Qed.

Lemma skipn_concat18 rs : Forall rec18 rs -> forall q, skipn (18 * q) (concat rs) = concat (skipn q rs).
Proof.
  induction 1 as [|r rs Hr Hrs IH]; intros q.
  - cbn. destruct q; now rewrite ?skipn_nil.
  - destruct q as [|q]; [reflexivity|]. cbn [skipn concat]. rewrite skipn_app, Hr.
    rewrite skipn_all2 by (rewrite Hr; lia). cbn [app]. rewrite <- IH. f_equal. lia.
Qed.

Lemma firstn_concat18 rs : Forall rec18 rs -> forall q, firstn (18 * q) (concat rs) = concat (firstn q rs).
Proof.
  induction 1 as [|r rs Hr Hrs IH]; intros q.
  - cbn. destruct q; now rewrite ?firstn_nil.
  - destruct q as [|q]; [reflexivity|]. cbn [firstn concat]. rewrite firstn_app, Hr.
    rewrite firstn_all2 by (rewrite Hr; lia). rewrite <- IH. f_equal. f_equal. lia.
Qed.

Lemma Forall_skipn {A} (P : A -> Prop) l : Forall P l -> forall n, Forall P (skipn n l).
Proof. induction 1; intros [|n]; cbn; auto. Qed.
Lemma Forall_firstn {A} (P : A -> Prop) l : Forall P l -> forall n, Forall P (firstn n l).
Proof. induction 1; intros [|n]; cbn; auto. Qed.

Fixpoint drop_until {A} (p : A -> bool) (l : list A) : list A :=
  match l with [] => [] | a :: t => if p a then a :: t else drop_until p t end.
Fixpoint take_while {A} (p : A -> bool) (l : list A) : list A :=
  match l with [] => [] | a :: t => if p a then a :: take_while p t else [] end.

Lemma Forall_drop {A} (P : A -> Prop) p l : Forall P l -> Forall P (drop_until p l).
Proof. induction 1; cbn; auto. destruct (p x); auto. Qed.

Lemma drop_until_skip {A} (p : A -> bool) l : forall q d, (forall i, (i < q)%nat -> (i < List.length l)%nat -> p (nth i l d) = false) ->
  drop_until p (skipn q l) = drop_until p l.
Proof.
  induction l as [|a l IH]; intros [|q] d H; try reflexivity. cbn [skipn drop_until].
  pose proof (H 0%nat ltac:(lia) ltac:(cbn; lia)) as H0. cbn in H0. rewrite H0. apply (IH q d).
  intros i Hi Hl. apply (H (Datatypes.S i)); cbn; lia.
Qed.

Lemma drop_until_none {A} (p : A -> bool) l : (forall a, In a l -> p a = false) -> drop_until p l = [].
Proof. induction l as [|a l IH]; intros H; cbn; [reflexivity|]. rewrite H by now left. apply IH. intros; apply H; now right. Qed.

Lemma slice_from_pos {A} (a : list A) i : 0 <= i -> i <= Z.of_nat (List.length a) -> slice_from a i = skipn (Z.to_nat i) a.
Proof.
  intros H1 H2. unfold slice_from. rewrite slice_pos by lia. apply firstn_all2. rewrite skipn_length. lia.
Qed.

Lemma skipn18_concat r rs : rec18 r -> slice_from (r ++ concat rs) 18 = concat rs.
Proof. intros H. apply slice_from_app. now rewrite H. Qed.

Lemma nth_concat18 rs : Forall rec18 rs -> forall i, (i < List.length rs)%nat ->
  exists t, skipn (18 * i) (concat rs) = nth i rs [] ++ t.
Proof.
  intros H i Hi. rewrite skipn_concat18 by easy.
  assert (skipn i rs <> []) as N by (intros E; apply (f_equal (@List.length (list Z))) in E; rewrite skipn_length in E; cbn in E; lia).
  destruct (skipn i rs) as [|r t] eqn:E; [easy|]. exists (concat t). cbn. f_equal.
  rewrite <- (firstn_skipn i rs), E. rewrite app_nth2 by (rewrite firstn_length; lia).
  rewrite firstn_length. replace (i - Nat.min i (List.length rs))%nat with 0%nat by lia. reflexivity.
Qed.

Section FORWARD.
  Variables (db : HDB) (rs : list (list Z)) (key : list Z).
  Hypothesis Hdata : hdata db = concat rs.
  Hypothesis Hrs : Forall rec18 rs.
  Hypothesis Hkey : (1 <= List.length key <= 18)%nat.

  Lemma prefix_nil : prefixb key [] = false.
  Proof. destruct key; cbn in *; [lia|reflexivity]. Qed.

  Lemma prefix_rec r t : rec18 r -> prefixb key (r ++ t) = prefixb key r.
  Proof. intros H. apply prefixb_app_l. rewrite H. lia. Qed.

  Lemma forward_loop D : Forall rec18 D -> forall fuel, slen (concat D) < fuel ->
    loop fuel (findForward_step key) (concat D) = Ok (concat (drop_until (prefixb key) D)).
  Proof.
    intros HD fuel Hf.
    destruct (loop_rule
      (fun s => exists D', s = concat D' /\ Forall rec18 D' /\ drop_until (prefixb key) D' = drop_until (prefixb key) D)
      (fun r => r = concat (drop_until (prefixb key) D)) slen (findForward_step key) fuel (concat D)) as (r & E & ->); [| | | |exact E].
    - intros; apply slen_nonneg.
    - intros s (D' & -> & HD' & ED). unfold findForward_step.
      destruct HD' as [|r D' Hr HD'].
      + cbn [concat]. rewrite prefix_nil. cbn. now rewrite <- ED.
      + cbn [concat]. rewrite prefix_rec by easy. cbn [drop_until] in ED.
        assert (HolidayUtil_SIZE <=? slen (r ++ concat D') = true) as ->
          by (rewrite slen_app, (rec18_slen r Hr); pose proof (slen_nonneg (concat D')); unfold HolidayUtil_SIZE; lia).
        destruct (prefixb key r) eqn:P; cbn [negb andb].
        * rewrite <- ED. cbn [concat]. reflexivity.
        * split.
          -- exists D'. unfold HolidayUtil_SIZE. now rewrite skipn18_concat.
          -- unfold HolidayUtil_SIZE. rewrite skipn18_concat by easy. rewrite slen_app, (rec18_slen r Hr). lia.
    - exists D. auto.
    - lia.
  Qed.

  Lemma findForward_spec : exists o, findForward db key = Ok o /\
    match o with
    | None => drop_until (prefixb key) rs = []
    | Some s => s = concat (drop_until (prefixb key) rs)
    end.
  Proof.
    unfold findForward, py_find. rewrite Hdata. pose proof (concat18_length rs Hrs) as Len.
    destruct (find_from_spec key (concat rs) 0 ltac:(lia)) as [[-> H]|(j & Lj & E & H1 & H2)].
    - exists None. split; [reflexivity|]. apply drop_until_none. intros r Hr.
      apply (In_nth _ _ []) in Hr. destruct Hr as (i & Hi & <-).
      destruct (nth_concat18 rs Hrs i Hi) as (t & Et). specialize (H (18 * i)%nat). rewrite Et in H.
      rewrite prefix_rec in H; [easy|]. rewrite Forall_forall in Hrs. apply Hrs, nth_In, Hi.
    - rewrite E. replace (0 + Z.of_nat j <? 0) with false by lia. cbv zeta.
      rewrite slice_from_pos by lia. replace (Z.to_nat (0 + Z.of_nat j)) with j by lia.
      pose proof (prefixb_length _ _ H1) as Lp. rewrite skipn_length in Lp.
      assert (slen (skipn j (concat rs)) = Z.of_nat (18 * List.length rs - j)) as Ls.
      { unfold slen. rewrite skipn_length, Len. reflexivity. }
      rewrite Ls. unfold HolidayUtil_SIZE. set (n := Z.of_nat (18 * List.length rs - j) mod 18).
      assert (0 <= n < 18) as Hn by (apply Z.mod_pos_bound; lia).
      assert (exists q, (q <= List.length rs)%nat /\ (j + Z.to_nat n = 18 * q)%nat) as (q & Hq & Eq).
      { exists (Z.to_nat (Z.of_nat (List.length rs) - Z.of_nat (18 * List.length rs - j) / 18)).
        unfold n in *. Z.div_mod_to_equations. lia. }
      assert ((if 0 <? n then slice_from (skipn j (concat rs)) n else skipn j (concat rs)) = concat (skipn q rs)) as ->.
      { rewrite <- skipn_concat18, <- Eq by easy. destruct (Z.ltb_spec 0 n).
        - rewrite slice_from_pos; [|lia|]. 2:{ rewrite skipn_length. unfold n in *. Z.div_mod_to_equations. lia. }
          rewrite skipn_add. reflexivity.
        - f_equal. lia. }
      rewrite forward_loop; [|now apply Forall_skipn|lia]. cbn [bind].
      eexists. split; [reflexivity|]. cbn beta iota. apply (f_equal (@concat Z)). apply (drop_until_skip _ _ _ []).
      intros i Hi Hl. destruct (nth_concat18 rs Hrs i Hl) as (t & Et).
      specialize (H2 (18 * i)%nat ltac:(lia)). rewrite Et in H2. rewrite prefix_rec in H2; [easy|].
      rewrite Forall_forall in Hrs. apply Hrs, nth_In, Hl.
  Qed.

  Lemma buildForward_app r t : rec18 r -> buildHolidayForward db (r ++ t) = buildHolidayForward db r.
  Proof.
    intros H. unfold buildHolidayForward.
    assert (forall i j, 0 <= i <= 18 -> 0 <= j <= 18 -> i <= j -> slice (r ++ t) i j = slice r i j) as S.
    { intros i j Hi Hj Hij. rewrite !slice_pos by (rewrite ?app_length, ?H; lia).
      rewrite skipn_app, firstn_app. rewrite skipn_length, H.
      replace (Z.to_nat (j - i) - (18 - Z.to_nat i))%nat with 0%nat by lia. cbn [firstn]. now rewrite app_nil_r. }
    rewrite !S by lia. reflexivity.
  Qed.

  Lemma mapM_ok_rev {A B} (f : A -> res B) l : forall arr, (let! x := mapM f l in Ok (rev arr ++ x)) =
    match l with [] => Ok (rev arr)
    | a :: t => let! b := f a in let! x := mapM f t in Ok (rev (b :: arr) ++ x) end.
  Proof.
    destruct l as [|a t]; intros arr; cbn [mapM].
    - cbn. now rewrite app_nil_r.
    - destruct (f a) as [b|]; cbn [bind]; [|reflexivity]. destruct (mapM f t); cbn [bind]; [|reflexivity].
      cbn [rev]. now rewrite <- app_assoc.
  Qed.

  (** What the code lists: the records of the first contiguous run starting with the key. *)
  Lemma findHolidaysForward_spec : findHolidaysForward db key =
    mapM (buildHolidayForward db) (take_while (prefixb key) (drop_until (prefixb key) rs)).
  Proof.
    unfold findHolidaysForward. destruct findForward_spec as ([s|] & -> & Hs); cbn [bind]; [|now rewrite Hs].
    subst s. set (D := drop_until (prefixb key) rs).
    assert (Forall rec18 D) as HD by (now apply Forall_drop).
    set (R := mapM (buildHolidayForward db) (take_while (prefixb key) D)).
    destruct (loop_rule
      (fun st => exists D', fst st = concat D' /\ Forall rec18 D'
         /\ R = let! x := mapM (buildHolidayForward db) (take_while (prefixb key) D') in Ok (rev (snd st) ++ x))
      (fun r => r = R) (fun st => slen (fst st)) (holidaysForward_step db key) (slen (concat D) + 2) (concat D, [])) as (r & E & ->); [| | | |].
    - intros; apply slen_nonneg.
    - intros [s arr] (D' & Es & HD' & ER). cbn [fst snd] in *. subst s. unfold holidaysForward_step.
      destruct HD' as [|r D' Hr HD'].
      + cbn [concat]. rewrite prefix_nil. rewrite ER. cbn. now rewrite app_nil_r.
      + cbn [concat]. rewrite prefix_rec by easy. cbn [take_while] in ER.
        destruct (prefixb key r).
        * rewrite buildForward_app by easy. rewrite mapM_ok_rev in ER.
          destruct (buildHolidayForward db r) as [h|e]; cbn [bind] in ER; [|now rewrite ER].
          unfold HolidayUtil_SIZE. split.
          -- exists D'. cbn [fst snd]. rewrite skipn18_concat by easy. auto.
          -- cbn [fst]. rewrite skipn18_concat by easy. rewrite slen_app, (rec18_slen r Hr). lia.
        * rewrite ER. cbn. now rewrite app_nil_r.
    - exists D. cbn [fst snd]. repeat split; auto. unfold R. destruct (mapM _ _); reflexivity.
    - cbn [fst]. lia.
    - exact (f_equal (fun x => bind x (fun r => r)) E).
  Qed.
End FORWARD.

(** ** Backward search *)
Definition endsb (key r : list Z) : bool := str_eqb (skipn (18 - List.length key) r) key.

Section BACKWARD.
  Variables (db : HDB) (rs : list (list Z)) (key : list Z).
  Hypothesis Hdata : hdata db = concat rs.
  Hypothesis Hrs : Forall rec18 rs.
  Hypothesis Hkey : (2 <= List.length key <= 18)%nat.

  Lemma skip_last D r : Forall rec18 D -> rec18 r ->
    skipn (18 * List.length D + (18 - List.length key)) (concat (D ++ [r])) = skipn (18 - List.length key) r.
  Proof.
    intros HD Hr. rewrite concat_app. cbn [concat]. rewrite app_nil_r.
    rewrite skipn_app, concat18_length by easy. rewrite skipn_all2 by (rewrite concat18_length by easy; lia).
    cbn [app]. f_equal. lia.
  Qed.

  Lemma ends_test D r : Forall rec18 D -> rec18 r ->
    (slen (concat (D ++ [r])) - slen key =? py_rfind (concat (D ++ [r])) key) = endsb key r.
  Proof.
    intros HD Hr. pose proof (skip_last D r HD Hr) as SK.
    assert (List.length (concat (D ++ [r])) = (18 * List.length D + 18)%nat) as Len.
    { rewrite concat18_length by (apply Forall_app; auto). rewrite app_length. cbn [List.length]. lia. }
    unfold py_rfind, slen. rewrite Len.
    destruct (rfind_from_spec key (concat (D ++ [r])) 0 (-1)) as [[-> H]|(j & Lj & E & H1 & H2)].
    - transitivity false; [lia|]. symmetry. apply str_eqb_neq. intros E.
      specialize (H (18 * List.length D + (18 - List.length key))%nat ltac:(lia)). rewrite SK, E in H.
      assert (prefixb key key = true) by (apply prefixb_firstn; apply firstn_all). congruence.
    - rewrite E. pose proof (prefixb_length _ _ H1) as Lp. rewrite skipn_length, Len in Lp.
      unfold endsb. destruct (str_eqb_spec (skipn (18 - List.length key) r) key) as [K|K].
      + apply Z.eqb_eq.
        assert (~ (j < 18 * List.length D + (18 - List.length key))%nat) as N.
        { intros N. specialize (H2 (18 * List.length D + (18 - List.length key))%nat ltac:(lia)).
          rewrite SK, K in H2. assert (prefixb key key = true) by (apply prefixb_firstn; apply firstn_all). congruence. }
        lia.
      + apply Z.eqb_neq. intros N. assert (j = 18 * List.length D + (18 - List.length key))%nat as -> by lia.
        rewrite SK in H1. apply prefixb_firstn in H1. rewrite firstn_all2 in H1; [easy|].
        rewrite skipn_length, Hr. lia.
  Qed.

  Lemma ends_nil : (slen [] - slen key =? py_rfind [] key) = false.
  Proof. unfold py_rfind, slen. destruct key as [|c [|d k]]; cbn [List.length] in *; try lia. cbn [rfind_from prefixb]. lia. Qed.

  Lemma concat_snoc_len D r : Forall rec18 D -> rec18 r -> slen (concat (D ++ [r])) = slen (concat D) + 18.
  Proof. intros. rewrite concat_app, slen_app. cbn [concat]. rewrite app_nil_r, (rec18_slen r); easy. Qed.

  Lemma slice_init D r : Forall rec18 D -> rec18 r ->
    slice (concat (D ++ [r])) 0 (slen (concat (D ++ [r])) - 18) = concat D.
  Proof.
    intros HD Hr. rewrite concat_snoc_len by easy.
    replace (slen (concat D) + 18 - 18) with (slen (concat D)) by lia.
    rewrite concat_app. apply slice_0. reflexivity.
  Qed.

  Lemma backward_loop D : Forall rec18 D -> forall fuel, slen (concat (rev D)) < fuel ->
    loop fuel (findBackward_step key) (concat (rev D)) = Ok (concat (rev (drop_until (endsb key) D))).
  Proof.
    intros HD fuel Hf.
    destruct (loop_rule
      (fun s => exists D', s = concat (rev D') /\ Forall rec18 D' /\ drop_until (endsb key) D' = drop_until (endsb key) D)
      (fun r => r = concat (rev (drop_until (endsb key) D))) slen (findBackward_step key) fuel (concat (rev D))) as (r & E & ->); [| | | |exact E].
    - intros; apply slen_nonneg.
    - intros s (D' & -> & HD' & ED). unfold findBackward_step.
      destruct HD' as [|r D' Hr HD'].
      + cbn [rev concat]. rewrite ends_nil. change (slen []) with 0. cbn. now rewrite <- ED.
      + cbn [rev]. pose proof (Forall_rev HD') as HR. rewrite ends_test by easy. cbn [drop_until] in ED.
        rewrite concat_snoc_len by easy. pose proof (slen_nonneg (concat (rev D'))).
        destruct (endsb key r) eqn:P; cbn [negb andb].
        * rewrite <- ED. cbn [rev]. reflexivity.
        * match goal with |- context [if ?b then _ else _] => destruct b eqn:L end; [|unfold HolidayUtil_SIZE in L; lia].
          rewrite <- (concat_snoc_len _ r) by easy. unfold HolidayUtil_SIZE. rewrite slice_init by easy. split.
          -- exists D'. auto.
          -- rewrite concat_snoc_len by easy. lia.
    - exists D. auto.
    - lia.
  Qed.

  Lemma findBackward_spec : exists o, findBackward db key = Ok o /\
    match o with
    | None => drop_until (endsb key) (rev rs) = []
    | Some s => s = concat (rev (drop_until (endsb key) (rev rs)))
    end.
  Proof.
    unfold findBackward, py_rfind. rewrite Hdata. pose proof (concat18_length rs Hrs) as Len.
    (* an occurrence at the end of record i *)
    assert (forall i, (i < List.length rs)%nat -> endsb key (nth i rs []) = true ->
              prefixb key (skipn (18 * i + (18 - List.length key)) (concat rs)) = true) as OCC.
    { intros i Hi E. apply str_eqb_eq in E. destruct (nth_concat18 rs Hrs i Hi) as (t & Et).
      rewrite <- skipn_add. rewrite Et. rewrite skipn_app.
      assert (List.length (nth i rs []) = 18%nat) as L18 by (rewrite Forall_forall in Hrs; apply Hrs, nth_In, Hi).
      rewrite E. rewrite prefixb_app by reflexivity. apply str_eqb_refl. }
    destruct (rfind_from_spec key (concat rs) 0 (-1)) as [[-> H]|(j & Lj & E & H1 & H2)].
    - exists None. split; [reflexivity|]. apply drop_until_none. intros r Hr. apply in_rev in Hr.
      apply (In_nth _ _ []) in Hr. destruct Hr as (i & Hi & <-).
      destruct (endsb key (nth i rs [])) eqn:EE; [|reflexivity]. apply OCC in EE; [|easy].
      rewrite H in EE; [easy|]. lia.
    - rewrite E. replace (0 + Z.of_nat j <? 0) with false by lia. cbv zeta.
      pose proof (prefixb_length _ _ H1) as Lp. rewrite skipn_length, Len in Lp.
      set (e := (j + List.length key)%nat).
      assert (slice (concat rs) 0 (0 + Z.of_nat j + slen key) = firstn e (concat rs)) as ->.
      { unfold slen. rewrite slice_pos by lia. change (Z.to_nat 0) with 0%nat. cbn [skipn]. f_equal. unfold e. lia. }
      assert (slen (firstn e (concat rs)) = Z.of_nat e) as Ls.
      { unfold slen. rewrite firstn_length, Len. unfold e. lia. }
      rewrite Ls. unfold HolidayUtil_SIZE. set (n := Z.of_nat e mod 18).
      assert (0 <= n < 18) as Hn by (apply Z.mod_pos_bound; lia).
      assert (exists q, (q <= List.length rs)%nat /\ Z.of_nat e - n = 18 * Z.of_nat q) as (q & Hq & Eq).
      { exists (Z.to_nat (Z.of_nat e / 18)). unfold n, e in *. lia. }
      assert ((if 0 <? n then slice (firstn e (concat rs)) 0 (Z.of_nat e - n) else firstn e (concat rs)) = concat (firstn q rs)) as ->.
      { rewrite <- firstn_concat18 by easy. destruct (Z.ltb_spec 0 n).
        - rewrite slice_pos; [|lia|rewrite firstn_length, Len; unfold e in *; lia|lia].
          change (Z.to_nat 0) with 0%nat. cbn [skipn]. rewrite firstn_firstn. f_equal. unfold e in *. lia.
        - f_equal. lia. }
      rewrite <- (rev_involutive (firstn q rs)).
      rewrite backward_loop; [|now apply Forall_rev, Forall_firstn|lia]. cbn [bind].
      eexists. split; [reflexivity|]. cbn beta iota. apply (f_equal (@concat Z)). apply (f_equal (@rev (list Z))).
      rewrite <- (drop_until_skip (endsb key) (rev rs) (List.length rs - q) []).
      + f_equal. transitivity (skipn (List.length rs - q) (rev (firstn q rs ++ skipn q rs))); [|now rewrite firstn_skipn].
        rewrite rev_app_distr, skipn_app, rev_length, skipn_length.
        rewrite skipn_all2 by (rewrite rev_length, skipn_length; lia). rewrite Nat.sub_diag. reflexivity.
      + intros i Hi Hl. rewrite rev_length in Hl. rewrite rev_nth by easy.
        destruct (endsb key (nth (List.length rs - Datatypes.S i) rs [])) eqn:EE; [|reflexivity].
        apply OCC in EE; [|lia]. rewrite H2 in EE; [easy|]. unfold e in *. lia.
  Qed.

  Lemma buildBackward_app D r : Forall rec18 D -> rec18 r ->
    buildHolidayBackward db (concat (D ++ [r])) = buildHolidayForward db r.
  Proof.
    intros HD Hr. unfold buildHolidayBackward, buildHolidayForward.
    rewrite concat_snoc_len by easy. set (n := slen (concat D)).
    assert (concat (D ++ [r]) = concat D ++ r) as -> by (rewrite concat_app; cbn [concat]; now rewrite app_nil_r).
    assert (forall i j, 0 <= i <= 18 -> 0 <= j <= 18 -> i <= j -> slice (concat D ++ r) (n + i) (n + j) = slice r i j) as S.
    { intros i j Hi Hj Hij. unfold n, slen. rewrite !slice_pos by (rewrite ?app_length, ?Hr; lia).
      rewrite skipn_app. rewrite skipn_all2 by lia. cbn [app]. f_equal; [lia|]. f_equal. lia. }
    pose proof (slen_nonneg (concat D)). fold n in H.
    replace (n + 18 - 18) with (n + 0) by lia. replace (n + 18 - 10) with (n + 8) by lia.
    replace (n + 18 - 9) with (n + 9) by lia. replace (n + 18 - 8) with (n + 10) by lia.
    unfold slice_from. rewrite app_length, Hr.
    replace (Z.of_nat (List.length (concat D) + 18)) with (n + 18) by (unfold n, slen; lia).
    rewrite !S by lia. reflexivity.
  Qed.

  (** What the code lists: the records of the last contiguous run ending with the key, in order. *)
  Lemma findHolidaysBackward_spec : findHolidaysBackward db key =
    let! x := mapM (buildHolidayForward db) (take_while (endsb key) (drop_until (endsb key) (rev rs))) in Ok (rev x).
  Proof.
    unfold findHolidaysBackward. destruct findBackward_spec as ([s|] & -> & Hs); cbn [bind]; [|now rewrite Hs].
    subst s. set (D := drop_until (endsb key) (rev rs)).
    assert (Forall rec18 D) as HD by (now apply Forall_drop, Forall_rev).
    set (R := mapM (buildHolidayForward db) (take_while (endsb key) D)).
    destruct (loop_rule
      (fun st => exists D', fst st = concat (rev D') /\ Forall rec18 D'
         /\ R = let! x := mapM (buildHolidayForward db) (take_while (endsb key) D') in Ok (rev (snd st) ++ x))
      (fun r => r = let! x := R in Ok (rev x)) (fun st => slen (fst st)) (holidaysBackward_step db key) (slen (concat (rev D)) + 2) (concat (rev D), [])) as (r & E & ->); [| | | |].
    - intros; apply slen_nonneg.
    - intros [s arr] (D' & Es & HD' & ER). cbn [fst snd] in *. subst s. unfold holidaysBackward_step.
      destruct HD' as [|r D' Hr HD'].
      + cbn [rev concat]. rewrite ends_nil. rewrite ER. cbn [take_while mapM bind]. now rewrite app_nil_r, rev_involutive.
      + cbn [rev]. pose proof (Forall_rev HD') as HR. rewrite ends_test by easy. cbn [take_while] in ER.
        destruct (endsb key r).
        * rewrite buildBackward_app by easy. rewrite mapM_ok_rev in ER.
          destruct (buildHolidayForward db r) as [h|e]; cbn [bind] in ER; [|now rewrite ER].
          unfold HolidayUtil_SIZE. rewrite slice_init by easy. split.
          -- exists D'. cbn [fst snd]. auto.
          -- cbn [fst]. rewrite concat_snoc_len by easy. lia.
        * rewrite ER. cbn [mapM bind]. now rewrite app_nil_r, rev_involutive.
    - exists D. cbn [fst snd]. repeat split; auto. unfold R. destruct (mapM _ _); reflexivity.
    - cbn [fst]. lia.
    - exact (f_equal (fun x => bind x (fun r => r)) E).
  Qed.
End BACKWARD.

(** ** [str.replace] on aligned occurrences *)
Definition aligned_only (old : str) (s : str) : Prop :=
  forall i, prefixb old (skipn i s) = true -> (i mod 18 = 0)%nat.

Lemma replace_skip old new a : forall rest, replace_go old new (List.length a) (a ++ rest) = replace_go old new 0 rest.
Proof. induction a as [|c a IH]; intros rest; cbn [List.length app replace_go]; [reflexivity|]. apply IH. Qed.

Lemma replace_keep old new a : forall rest,
  (forall i, (i < List.length a)%nat -> prefixb old (skipn i (a ++ rest)) = false) ->
  replace_go old new 0 (a ++ rest) = a ++ replace_go old new 0 rest.
Proof.
  induction a as [|c a IH]; intros rest H; cbn [app]; [reflexivity|]. cbn [replace_go].
  pose proof (H 0%nat ltac:(cbn; lia)) as H0. cbn [skipn app] in H0. rewrite H0. f_equal. apply IH.
  intros i Hi. apply (H (Datatypes.S i)). cbn. lia.
Qed.

Lemma replace_aligned old new rs : Forall rec18 rs -> rec18 old -> aligned_only old (concat rs) ->
  py_replace (concat rs) old new = concat (map (fun r => if str_eqb r old then new else r) rs).
Proof.
  intros Hrs Ho. unfold py_replace. induction Hrs as [|r rs Hr Hrs IH]; intros A; [reflexivity|].
  assert (aligned_only old (concat rs)) as A'.
  { intros i Hi. specialize (A (18 + i)%nat). cbn [concat] in A. rewrite skipn_app, Hr in A.
    rewrite skipn_all2 in A by (rewrite Hr; lia). cbn [app] in A.
    replace (18 + i - 18)%nat with i in A by lia. specialize (A Hi).
    rewrite <- (Nat.mod_add i 1 18) by lia. now replace (i + 1 * 18)%nat with (18 + i)%nat by lia. }
  specialize (IH A'). cbn [concat map]. destruct (str_eqb_spec r old) as [E|E].
  - subst r. destruct old as [|c old']; [discriminate Ho|]. cbn [app replace_go].
    assert (prefixb (c :: old') (c :: old' ++ concat rs) = true) as -> by (pose proof (prefixb_app (c :: old') (c :: old') (concat rs) eq_refl) as Q; cbn [app] in Q; rewrite Q; apply str_eqb_refl).
    f_equal. replace (List.length (c :: old') - 1)%nat with (List.length old') by (cbn; lia).
    rewrite replace_skip. exact IH.
  - rewrite replace_keep; [now rewrite IH|]. intros i Hi. destruct (prefixb old (skipn i (r ++ concat rs))) eqn:P; [|reflexivity].
    exfalso. pose proof (A i P) as M. rewrite Hr in Hi. rewrite Nat.mod_small in M by lia. subst i.
    cbn [skipn] in P. rewrite prefixb_app_l in P by (rewrite Ho, Hr; lia). apply prefixb_firstn in P.
    rewrite firstn_all2 in P by (rewrite Ho, Hr; lia). easy.
Qed.
