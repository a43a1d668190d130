(** C96, C97: what setters and shared objects change. *)
From Coq Require Import ZArith Lia Bool List String Floats.
From Verif Require Import Py PyFloat PyStr FloatExpr Trig CalSpec DayNo Solar SolarProofs T_LunarUtil T_Misc LunarUtil ShouXing LunarYear Lunar LunarProofs YearProofs CalProofs P_LunarYears EightChar RealYears P_Pillars P_Real LunarState.
Import ListNotations.
Open Scope Z_scope.

(** ** What a history says *)
Notation history := (list (Op * Out)).
(** the Lunars made, in order *)
Definition made (tr : history) : list Lunar := flat_map (fun p => match fst p with New l => [l] | _ => [] end) tr.
(** the assignments to the table of terms of the Lunar [i] *)
Definition writes (i : nat) (tr : history) : list (str * Solar) := flat_map (fun p => match fst p with PutTerm j n s => if Nat.eqb j i then [(n, s)] else [] | _ => [] end) tr.
(** the attributes of the Lunar [i]: those it was made with, but for the assignments to its own table *)
Definition current (tr : history) (i : nat) : option Lunar :=
  option_map (fun l => with_terms l (fold_left (fun t p => dict_put t (fst p) (snd p)) (writes i tr) (l_jieQi l))) (nth_error (made tr) i).
(** the argument of the last setSect on the EightChar [e], 2 if there was none *)
Definition sects (e : nat) (tr : history) : list Z := flat_map (fun p => match fst p with SetSect e' k => if Nat.eqb e' e then [k] else [] | _ => [] end) tr.
Definition sect_set (tr : history) (e : nat) : Z := List.last (sects e tr) 2.

Lemma made_app a b : made (a ++ b) = made a ++ made b. Proof. apply flat_map_app. Qed.
Lemma writes_app i a b : writes i (a ++ b) = writes i a ++ writes i b. Proof. apply flat_map_app. Qed.
Lemma sects_app e a b : sects e (a ++ b) = sects e a ++ sects e b. Proof. apply flat_map_app. Qed.
Lemma with_terms_id l : with_terms l (l_jieQi l) = l. Proof. destruct l; reflexivity. Qed.
Lemma set_nth_length {A} n (x : A) l : List.length (set_nth n x l) = List.length l.
Proof. revert n. induction l as [|a l IH]; intros [|n]; cbn; auto. Qed.
Lemma set_nth_same {A} n (x : A) l y : nth_error l n = Some y -> nth_error (set_nth n x l) n = Some x.
Proof. revert n. induction l as [|a l IH]; intros [|n] H; cbn in *; try discriminate; auto. Qed.
Lemma set_nth_other {A} n m (x : A) l : n <> m -> nth_error (set_nth n x l) m = nth_error l m.
Proof. revert n m. induction l as [|a l IH]; intros [|n] [|m] H; cbn; try congruence. apply IH. congruence. Qed.
Lemma nth_snoc {A} (l : list A) x i : nth_error (l ++ [x]) i = if Nat.eqb i (List.length l) then Some x else nth_error l i.
Proof.
  destruct (Nat.eqb_spec i (List.length l)) as [->|N].
  - rewrite nth_error_app2 by lia. replace (List.length l - List.length l)%nat with 0%nat by lia. reflexivity.
  - destruct (Nat.lt_ge_cases i (List.length l)); [now rewrite nth_error_app1|].
    rewrite nth_error_app2 by lia. destruct (i - List.length l)%nat as [|k] eqn:E; [lia|]. cbn. destruct k; cbn; symmetry; apply nth_error_None; lia.
Qed.
Lemma in_snoc {A} (x y : A) l : In x (l ++ [y]) <-> In x l \/ x = y.
Proof. rewrite in_app_iff. cbn. intuition. Qed.

Record ok (tr : history) (h : Heap) : Prop := mkOk {
  ok_lunars : forall i, lunar_of h i = current tr i;
  ok_len : List.length (lunars h) = List.length (made tr);
  ok_sect : forall e s i, nth_error (eights h) e = Some (s, i) -> s = sect_set tr e;
  ok_set : forall e, sects e tr <> [] -> (e < List.length (eights h))%nat;
  ok_put : forall i, writes i tr <> [] -> (i < List.length (lunars h))%nat;
  ok_kept : forall i l e, nth_error (lunars h) i = Some (l, Some e) -> exists s, nth_error (eights h) e = Some (s, i);
  ok_get : forall i e, In (GetEight i, Object e) tr -> exists l, nth_error (lunars h) i = Some (l, Some e);
  ok_from : forall i e, In (FromLunar i, Object e) tr -> (exists s, nth_error (eights h) e = Some (s, i)) /\ forall j l, nth_error (lunars h) j <> Some (l, Some e);
  ok_hidden : forall i l e, nth_error (lunars h) i = Some (l, Some e) -> (forall e', ~ In (GetEight i, Object e') tr) -> sects e tr = [];
  ok_own : forall e s i, nth_error (eights h) e = Some (s, i) -> (i < List.length (lunars h))%nat
}.
Lemma lunar_set h i l e es : nth_error (lunars h) i = Some (l, e) -> forall e', (forall j, lunar_of (mkHeap (set_nth i (l, e') (lunars h)) es) j = lunar_of h j).
Proof.
  intros E e' j. unfold lunar_of. cbn. destruct (Nat.eq_dec i j) as [<-|N]; [rewrite (set_nth_same _ _ _ _ E), E; reflexivity|now rewrite set_nth_other].
Qed.
(** a step that writes nothing and makes no Lunar says the same of the attributes *)
Lemma current_same tr o out i : match o with New _ | PutTerm _ _ _ => False | _ => True end -> current (tr ++ [(o, out)]) i = current tr i.
Proof.
  intros H. unfold current. rewrite made_app, writes_app. destruct o; try contradiction; cbn; rewrite ?app_nil_r; reflexivity.
Qed.
Lemma sects_same tr o out e : match o with SetSect _ _ => False | _ => True end -> sects e (tr ++ [(o, out)]) = sects e tr.
Proof. intros H. rewrite sects_app. destruct o; try contradiction; cbn; now rewrite app_nil_r. Qed.

Lemma get_eight_ok tr h i h' e : ok tr h -> get_eight h i = Some (h', e) -> forall o out, match o with GetEight j => j = i /\ out = Object e | ReadBaZi _ => True | _ => False end ->
  (ok (tr ++ [(o, out)]) h' /\ (exists l, nth_error (lunars h') i = Some (l, Some e)) /\
   ((exists l, nth_error (lunars h) i = Some (l, Some e)) /\ h' = h \/ e = List.length (eights h) /\ forall l e', nth_error (lunars h) i <> Some (l, Some e'))).
Proof.
  intros K E o out Ho.
  assert (NP : match o with New _ | PutTerm _ _ _ => False | _ => True end) by (destruct o; auto). assert (NS : match o with SetSect _ _ => False | _ => True end) by (destruct o; auto).
  assert (MM : made (tr ++ [(o, out)]) = made tr) by (rewrite made_app; destruct o; try contradiction; cbn; now rewrite app_nil_r).
  assert (WW : forall j, writes j (tr ++ [(o, out)]) = writes j tr) by (intros j; rewrite writes_app; destruct o; try contradiction; cbn; now rewrite app_nil_r).
  assert (SS : forall j, sect_set (tr ++ [(o, out)]) j = sect_set tr j) by (intros j; unfold sect_set; now rewrite sects_same).
  unfold get_eight in E. destruct (nth_error (lunars h) i) as [[l [e0|]]|] eqn:Ei; [| |discriminate].
  - injection E as <- <-. split; [|split; [eauto|left; split; [eauto|reflexivity]]]. constructor.
    + intros j. rewrite current_same by exact NP. apply (ok_lunars _ _ K).
    + rewrite MM. apply (ok_len _ _ K).
    + intros e s j X. rewrite SS. exact (ok_sect _ _ K e s j X).
    + intros e. rewrite sects_same by exact NS. apply (ok_set _ _ K).
    + intros j. rewrite WW. apply (ok_put _ _ K).
    + exact (ok_kept _ _ K).
    + intros j e I. apply in_snoc in I. destruct I as [I|I]; [exact (ok_get _ _ K j e I)|]. injection I as <- <-. destruct Ho as [-> Ho]. injection Ho as ->. eauto.
    + intros j e I. apply in_snoc in I. destruct I as [I|I]; [exact (ok_from _ _ K j e I)|]. injection I as <- <-. contradiction.
    + intros j l1 e X N. rewrite sects_same by exact NS. apply (ok_hidden _ _ K j l1 e X). intros e' I. apply (N e'). apply in_snoc. now left.
    + exact (ok_own _ _ K).
  - injection E as <- <-. set (n := List.length (eights h)). set (h' := mkHeap _ _).
    assert (Hi : nth_error (lunars h') i = Some (l, Some n)) by (unfold h'; cbn [lunars]; exact (set_nth_same _ _ _ _ Ei)).
    assert (Hj : forall j, j <> i -> nth_error (lunars h') j = nth_error (lunars h) j) by (intros j N; unfold h'; cbn [lunars]; apply set_nth_other; congruence).
    assert (He : forall e s j, nth_error (eights h) e = Some (s, j) -> nth_error (eights h') e = Some (s, j)).
    { intros e s j X. unfold h'. cbn [eights]. rewrite nth_snoc. destruct (Nat.eqb_spec e (List.length (eights h))) as [->|N]; [|exact X].
      assert (Q : nth_error (eights h) (List.length (eights h)) = None) by (apply nth_error_None; lia). congruence. }
    assert (Sn : sects n tr = []).
    { destruct (sects n tr) as [|k t] eqn:Es; [reflexivity|]. pose proof (ok_set _ _ K n ltac:(congruence)) as L. unfold n in L. lia. }
    split; [|split; [eauto|right; split; [reflexivity|congruence]]]. constructor.
    + intros j. rewrite current_same by exact NP. unfold h'. rewrite (lunar_set h i l None _ Ei). apply (ok_lunars _ _ K).
    + unfold h'. cbn [lunars]. rewrite set_nth_length, MM. apply (ok_len _ _ K).
    + intros e s j X. rewrite SS. unfold h' in X. cbn [eights] in X. rewrite nth_snoc in X. destruct (Nat.eqb_spec e (List.length (eights h))) as [->|N]; [|exact (ok_sect _ _ K e s j X)].
      injection X as <- <-. unfold sect_set. fold n. now rewrite Sn.
    + intros e. rewrite sects_same by exact NS. intros X. pose proof (ok_set _ _ K e X). unfold h'. cbn [eights]. rewrite app_length. cbn. lia.
    + intros j. rewrite WW. intros X. unfold h'. cbn [lunars]. rewrite set_nth_length. exact (ok_put _ _ K j X).
    + intros j l1 e X. destruct (Nat.eq_dec j i) as [->|N].
      * rewrite Hi in X. injection X as <- <-. exists 2. unfold h', n. cbn [eights]. rewrite nth_snoc, Nat.eqb_refl. reflexivity.
      * rewrite (Hj j N) in X. destruct (ok_kept _ _ K j l1 e X) as (s & Q). exists s. exact (He _ _ _ Q).
    + intros j e I. apply in_snoc in I. destruct I as [I|I].
      * destruct (ok_get _ _ K j e I) as (l1 & Q). destruct (Nat.eq_dec j i) as [->|N]; [congruence|]. exists l1. now rewrite Hj.
      * injection I as <- <-. destruct Ho as [-> Ho]. injection Ho as ->. eauto.
    + intros j e I. apply in_snoc in I. destruct I as [I|I]; [|injection I as <- <-; contradiction]. destruct (ok_from _ _ K j e I) as [(s & Q) P]. split; [exists s; exact (He _ _ _ Q)|].
      intros j1 l1 X. destruct (Nat.eq_dec j1 i) as [->|N]; [|rewrite (Hj j1 N) in X; exact (P _ _ X)]. rewrite Hi in X. injection X as _ <-.
      assert (Q' : nth_error (eights h) n = None) by (apply nth_error_None; unfold n; lia). congruence.
    + intros j l1 e X N. rewrite sects_same by exact NS. destruct (Nat.eq_dec j i) as [->|Nj].
      * rewrite Hi in X. injection X as <- <-. exact Sn.
      * rewrite (Hj j Nj) in X. apply (ok_hidden _ _ K j l1 e X). intros e' I. apply (N e'). apply in_snoc. now left.
    + intros e s j X. unfold h' in *. cbn [eights lunars] in *. rewrite set_nth_length. rewrite nth_snoc in X. destruct (Nat.eqb_spec e (List.length (eights h))) as [->|N]; [|exact (ok_own _ _ K e s j X)].
      injection X as <- <-. apply nth_error_Some. congruence.
Qed.
Lemma run_ok tr h : run tr h -> ok tr h.
Proof.
  induction 1 as [|tr h o h' out Hr K U S].
  { constructor; unfold empty_heap, lunar_of, current; cbn.
    - intros [|i]; reflexivity.
    - reflexivity.
    - intros [|e] s i X; discriminate.
    - intros e X. congruence.
    - intros e X. congruence.
    - intros [|i] l e X; discriminate.
    - intros i e [].
    - intros i e [].
    - intros [|i] l e X; discriminate.
    - intros [|e] s i X; discriminate. }
  destruct o as [l|i|i|e k|i nm s|e|i|i]; cbn [step] in S.
  - (* New *) injection S as <- <-. assert (SS : forall e, sects e (tr ++ [(New l, Object (List.length (lunars h)))]) = sects e tr) by (intros e; now apply sects_same).
    assert (WW : forall j, writes j (tr ++ [(New l, Object (List.length (lunars h)))]) = writes j tr) by (intros j; rewrite writes_app; cbn; now rewrite app_nil_r).
    assert (NE : forall j l1 e, nth_error (lunars h ++ [(l, None)]) j = Some (l1, Some e) -> nth_error (lunars h) j = Some (l1, Some e)).
    { intros j l1 e X. rewrite nth_snoc in X. destruct (Nat.eqb_spec j (List.length (lunars h))); [discriminate|exact X]. }
    constructor; cbn [lunars eights].
    + intros j. unfold lunar_of, current. cbn [lunars]. rewrite WW, made_app. cbn [made flat_map fst app]. rewrite !nth_snoc, <- (ok_len _ _ K). destruct (Nat.eqb_spec j (List.length (lunars h))) as [->|N].
      * cbn [option_map fst]. f_equal. destruct (writes (List.length (lunars h)) tr) as [|w t] eqn:Ew; [cbn; now rewrite with_terms_id|]. pose proof (ok_put _ _ K (List.length (lunars h)) ltac:(congruence)). lia.
      * exact (ok_lunars _ _ K j).
    + rewrite made_app, !app_length. cbn. now rewrite (ok_len _ _ K).
    + intros e s i X. unfold sect_set. rewrite SS. exact (ok_sect _ _ K e s i X).
    + intros e. rewrite SS. apply (ok_set _ _ K).
    + intros i. rewrite WW, app_length. intros X. pose proof (ok_put _ _ K i X). lia.
    + intros i l1 e X. exact (ok_kept _ _ K i l1 e (NE _ _ _ X)).
    + intros i e I. apply in_snoc in I. destruct I as [I|I]; [|discriminate]. destruct (ok_get _ _ K i e I) as (l1 & Q). exists l1. rewrite nth_error_app1; [exact Q|]. apply nth_error_Some. congruence.
    + intros i e I. apply in_snoc in I. destruct I as [I|I]; [|discriminate]. destruct (ok_from _ _ K i e I) as [Q P]. split; [exact Q|]. intros j l1 X. exact (P _ _ (NE _ _ _ X)).
    + intros i l1 e X N. rewrite SS. apply (ok_hidden _ _ K i l1 e (NE _ _ _ X)). intros e' I. apply (N e'). apply in_snoc. now left.
    + intros e s i X. rewrite app_length. pose proof (ok_own _ _ K e s i X). lia.
  - (* GetEight *) destruct (get_eight h i) as [[h1 e]|] eqn:E; [|discriminate]. injection S as <- <-. apply (get_eight_ok tr h i h1 e K E (GetEight i) (Object e)). auto.
  - (* FromLunar *) destruct (lunar_of h i) eqn:Ei; [|discriminate]. injection S as <- <-. set (n := List.length (eights h)).
    assert (SS : forall e, sects e (tr ++ [(FromLunar i, Object n)]) = sects e tr) by (intros e; now apply sects_same).
    assert (WW : forall j, writes j (tr ++ [(FromLunar i, Object n)]) = writes j tr) by (intros j; rewrite writes_app; cbn; now rewrite app_nil_r).
    assert (He : forall e s j, nth_error (eights h) e = Some (s, j) -> nth_error (eights h ++ [(2, i)]) e = Some (s, j)).
    { intros e s j X. rewrite nth_error_app1; [exact X|]. apply nth_error_Some. congruence. }
    constructor; cbn [lunars eights].
    + intros j. rewrite current_same by exact I. exact (ok_lunars _ _ K j).
    + rewrite made_app. cbn. rewrite app_nil_r. apply (ok_len _ _ K).
    + intros e s j X. unfold sect_set. rewrite SS. rewrite nth_snoc in X. destruct (Nat.eqb_spec e (List.length (eights h))) as [->|N]; [|exact (ok_sect _ _ K e s j X)].
      injection X as <- <-. destruct (sects (List.length (eights h)) tr) as [|k t] eqn:Es; [reflexivity|]. pose proof (ok_set _ _ K (List.length (eights h)) ltac:(congruence)). lia.
    + intros e. rewrite SS, app_length. intros X. pose proof (ok_set _ _ K e X). lia.
    + intros j. rewrite WW. apply (ok_put _ _ K).
    + intros j l1 e X. destruct (ok_kept _ _ K j l1 e X) as (s & Q). exists s. exact (He _ _ _ Q).
    + intros j e I. apply in_snoc in I. destruct I as [I|I]; [|discriminate]. exact (ok_get _ _ K j e I).
    + intros j e I. apply in_snoc in I. destruct I as [I|I].
      * destruct (ok_from _ _ K j e I) as [(s & Q) P]. split; [exists s; exact (He _ _ _ Q)|exact P].
      * injection I as -> ->. split; [exists 2; unfold n; rewrite nth_snoc, Nat.eqb_refl; reflexivity|]. intros j1 l1 X. destruct (ok_kept _ _ K j1 l1 n X) as (s & Q).
        assert (Q' : nth_error (eights h) n = None) by (apply nth_error_None; unfold n; lia). congruence.
    + intros j l1 e X N. rewrite SS. apply (ok_hidden _ _ K j l1 e X). intros e' I. apply (N e'). apply in_snoc. now left.
    + intros e s j X. rewrite nth_snoc in X. destruct (Nat.eqb_spec e (List.length (eights h))) as [->|N]; [|exact (ok_own _ _ K e s j X)].
      injection X as <- <-. unfold lunar_of in Ei. destruct (nth_error (lunars h) i) eqn:Ei'; [|discriminate]. apply nth_error_Some. congruence.
  - (* SetSect *) destruct (nth_error (eights h) e) as [[s0 i0]|] eqn:E; [|discriminate]. injection S as <- <-.
    assert (WW : forall j, writes j (tr ++ [(SetSect e k, Nothing)]) = writes j tr) by (intros j; rewrite writes_app; cbn; now rewrite app_nil_r).
    assert (SE : sects e (tr ++ [(SetSect e k, Nothing)]) = sects e tr ++ [k]) by (rewrite sects_app; cbn; now rewrite Nat.eqb_refl).
    assert (SO : forall e', e' <> e -> sects e' (tr ++ [(SetSect e k, Nothing)]) = sects e' tr) by (intros e' N; rewrite sects_app; cbn; destruct (Nat.eqb_spec e e'); [congruence|now rewrite app_nil_r]).
    assert (He : forall e' s j, nth_error (eights h) e' = Some (s, j) -> exists s', nth_error (set_nth e (k, i0) (eights h)) e' = Some (s', j)).
    { intros e' s j X. destruct (Nat.eq_dec e' e) as [->|N]; [|exists s; now rewrite set_nth_other by congruence]. exists k. rewrite (set_nth_same _ _ _ _ E). congruence. }
    constructor; cbn [lunars eights].
    + intros j. rewrite current_same by exact I. exact (ok_lunars _ _ K j).
    + rewrite made_app. cbn. rewrite app_nil_r. apply (ok_len _ _ K).
    + intros e' s j X. unfold sect_set. destruct (Nat.eq_dec e' e) as [->|N].
      * rewrite (set_nth_same _ _ _ _ E) in X. injection X as <- <-. rewrite SE. now rewrite last_last.
      * rewrite set_nth_other in X by congruence. rewrite SO by exact N. exact (ok_sect _ _ K e' s j X).
    + intros e' X. rewrite set_nth_length. destruct (Nat.eq_dec e' e) as [->|N]; [apply nth_error_Some; congruence|]. rewrite SO in X by exact N. exact (ok_set _ _ K e' X).
    + intros j. rewrite WW. apply (ok_put _ _ K).
    + intros j l1 e' X. destruct (ok_kept _ _ K j l1 e' X) as (s & Q). exact (He _ _ _ Q).
    + intros j e' I. apply in_snoc in I. destruct I as [I|I]; [|discriminate]. exact (ok_get _ _ K j e' I).
    + intros j e' I. apply in_snoc in I. destruct I as [I|I]; [|discriminate]. destruct (ok_from _ _ K j e' I) as [(s & Q) P]. split; [exact (He _ _ _ Q)|exact P].
    + intros j l1 e' X N. assert (NG : forall e'', ~ In (GetEight j, Object e'') tr) by (intros e'' I; apply (N e''); apply in_snoc; now left).
      assert (e' <> e).
      { intros ->. destruct U as (i1 & [G|G]).
        - destruct (ok_get _ _ K i1 e G) as (l2 & Q2). destruct (ok_kept _ _ K _ _ _ Q2) as (s2 & Q3). destruct (ok_kept _ _ K _ _ _ X) as (s3 & Q4). assert (i1 = j) by congruence. subst i1. exact (NG e G).
        - exact (proj2 (ok_from _ _ K i1 e G) _ _ X). }
      rewrite SO by assumption. exact (ok_hidden _ _ K j l1 e' X NG).
    + intros e' s j X. destruct (Nat.eq_dec e' e) as [->|N]; [rewrite (set_nth_same _ _ _ _ E) in X; injection X as <- <-; exact (ok_own _ _ K e s0 i0 E)|].
      rewrite set_nth_other in X by congruence. exact (ok_own _ _ K e' s j X).
  - (* PutTerm *) destruct (nth_error (lunars h) i) as [[l e]|] eqn:Ei; [|discriminate]. injection S as <- <-. set (l' := with_terms _ _).
    assert (SS : forall e, sects e (tr ++ [(PutTerm i nm s, Nothing)]) = sects e tr) by (intros e'; now apply sects_same).
    assert (NE : forall j l1 e1, nth_error (set_nth i (l', e) (lunars h)) j = Some (l1, e1) -> exists l2, nth_error (lunars h) j = Some (l2, e1)).
    { intros j l1 e1 X. destruct (Nat.eq_dec j i) as [->|N]; [rewrite (set_nth_same _ _ _ _ Ei) in X; injection X as <- <-; eauto|rewrite set_nth_other in X by congruence; eauto]. }
    assert (EN : forall j l1 e1, nth_error (lunars h) j = Some (l1, e1) -> exists l2, nth_error (set_nth i (l', e) (lunars h)) j = Some (l2, e1)).
    { intros j l1 e1 X. destruct (Nat.eq_dec j i) as [->|N]; [rewrite (set_nth_same _ _ _ _ Ei); rewrite Ei in X; injection X as <- <-; eauto|rewrite set_nth_other by congruence; eauto]. }
    constructor; cbn [lunars eights].
    + intros j. pose proof (ok_lunars _ _ K j) as Q. unfold lunar_of, current in *. cbn [lunars]. rewrite made_app, writes_app. cbn [made flat_map fst]. rewrite app_nil_r.
      destruct (Nat.eq_dec j i) as [->|N].
      * rewrite (set_nth_same _ _ _ _ Ei). rewrite Ei in Q. cbn [option_map fst] in *. destruct (nth_error (made tr) i) as [l0|]; [|discriminate]. cbn [option_map] in *. injection Q as Q. f_equal. unfold l'. rewrite Q.
        cbn [writes flat_map fst]. rewrite Nat.eqb_refl. cbn [app]. rewrite fold_left_app. cbn [fold_left fst snd]. reflexivity.
      * rewrite set_nth_other by congruence. rewrite Q. cbn [writes flat_map fst]. destruct (Nat.eqb_spec i j); [congruence|]. now rewrite !app_nil_r.
    + rewrite set_nth_length, made_app. cbn. rewrite app_nil_r. apply (ok_len _ _ K).
    + intros e' s' j X. unfold sect_set. rewrite SS. exact (ok_sect _ _ K e' s' j X).
    + intros e'. rewrite SS. apply (ok_set _ _ K).
    + intros j X. rewrite set_nth_length. rewrite writes_app in X. cbn [writes flat_map fst] in X. destruct (Nat.eqb_spec i j) as [->|N]; [apply nth_error_Some; congruence|]. rewrite !app_nil_r in X. exact (ok_put _ _ K j X).
    + intros j l1 e1 X. destruct (NE _ _ _ X) as (l2 & Q). exact (ok_kept _ _ K j l2 e1 Q).
    + intros j e1 I. apply in_snoc in I. destruct I as [I|I]; [|discriminate]. destruct (ok_get _ _ K j e1 I) as (l1 & Q). exact (EN _ _ _ Q).
    + intros j e1 I. apply in_snoc in I. destruct I as [I|I]; [|discriminate]. destruct (ok_from _ _ K j e1 I) as [Q P]. split; [exact Q|]. intros j1 l1 X. destruct (NE _ _ _ X) as (l2 & Q2). exact (P _ _ Q2).
    + intros j l1 e1 X N. rewrite SS. destruct (NE _ _ _ X) as (l2 & Q). apply (ok_hidden _ _ K j l2 e1 Q). intros e' I. apply (N e'). apply in_snoc. now left.
    + intros e' s' j X. rewrite set_nth_length. exact (ok_own _ _ K e' s' j X).
  - (* ReadEight *) destruct (read_eight h e) as [x|]; [|discriminate]. injection S as <- <-. destruct K as [K1 K2 K3 K4 K5 K6 K7 K8 K9 K10]. constructor; try assumption.
    + intros j. rewrite current_same by exact I. apply K1.
    + rewrite made_app. cbn. now rewrite app_nil_r.
    + intros e' s' j X. unfold sect_set. rewrite sects_same by exact I. exact (K3 e' s' j X).
    + intros e'. rewrite sects_same by exact I. apply K4.
    + intros j. rewrite writes_app. cbn. rewrite app_nil_r. apply K5.
    + intros j e' I. apply in_snoc in I. destruct I as [I|I]; [|discriminate]. exact (K7 j e' I).
    + intros j e' I. apply in_snoc in I. destruct I as [I|I]; [|discriminate]. exact (K8 j e' I).
    + intros j l1 e' X N. rewrite sects_same by exact I. apply (K9 j l1 e' X). intros e'' Q. apply (N e''). apply in_snoc. now left.
  - (* ReadLunar *) destruct (lunar_of h i) as [x|]; [|discriminate]. injection S as <- <-. destruct K as [K1 K2 K3 K4 K5 K6 K7 K8 K9 K10]. constructor; try assumption.
    + intros j. rewrite current_same by exact I. apply K1.
    + rewrite made_app. cbn. now rewrite app_nil_r.
    + intros e' s' j X. unfold sect_set. rewrite sects_same by exact I. exact (K3 e' s' j X).
    + intros e'. rewrite sects_same by exact I. apply K4.
    + intros j. rewrite writes_app. cbn. rewrite app_nil_r. apply K5.
    + intros j e' I. apply in_snoc in I. destruct I as [I|I]; [|discriminate]. exact (K7 j e' I).
    + intros j e' I. apply in_snoc in I. destruct I as [I|I]; [|discriminate]. exact (K8 j e' I).
    + intros j l1 e' X N. rewrite sects_same by exact I. apply (K9 j l1 e' X). intros e'' Q. apply (N e''). apply in_snoc. now left.
  - (* ReadBaZi *) destruct (get_eight h i) as [[h1 e]|] eqn:E; [|discriminate]. destruct (read_eight h1 e) as [x|]; [|discriminate]. injection S as <- <-. apply (get_eight_ok tr h i h1 e K E (ReadBaZi i) (Eight x)). exact I.
Qed.
Lemma run_snoc_inv tr p h : run (tr ++ [p]) h -> exists h0, run tr h0 /\ usable tr (fst p) /\ step h0 (fst p) = Some (h, snd p).
Proof.
  intros H. remember (tr ++ [p]) as t eqn:E. destruct H as [|tr' h0 o h' out Hr U S]; [destruct tr; discriminate|]. apply app_inj_tail in E. destruct E as [-> <-]. eauto.
Qed.
Lemma run_prefix a b h : run (a ++ b) h -> exists h0, run a h0.
Proof.
  revert h. induction b as [|p b IH] using rev_ind; intros h H; [rewrite app_nil_r in H; eauto|]. rewrite app_assoc in H. apply run_snoc_inv in H. destruct H as (h0 & H & _). eauto.
Qed.

(** ** C96 *)
(** All calls of getEightChar on one Lunar return one object, those on different Lunars different ones. *)
Theorem C96_shared : forall tr h i j e e', run tr h -> In (GetEight i, Object e) tr -> In (GetEight j, Object e') tr -> (i = j <-> e = e').
Proof.
  intros tr h i j e e' R I I'. apply run_ok in R. destruct (ok_get _ _ R i e I) as (l & Q). destruct (ok_get _ _ R j e' I') as (l' & Q'). split; [intros <-; congruence|intros <-].
  destruct (ok_kept _ _ R _ _ _ Q) as (s & P). destruct (ok_kept _ _ R _ _ _ Q') as (s' & P'). congruence.
Qed.
(** EightChar.fromLunar returns a new object each time: none returned before or later is the same. *)
Theorem C96_fresh : forall a b h i e, run (a ++ (FromLunar i, Object e) :: b) h -> forall j, ~ In (GetEight j, Object e) (a ++ b) /\ ~ In (FromLunar j, Object e) (a ++ b).
Proof.
  intros a b h i e R j.
  assert (BEF : ~ In (GetEight j, Object e) a /\ ~ In (FromLunar j, Object e) a).
  { replace (a ++ (FromLunar i, Object e) :: b) with ((a ++ [(FromLunar i, Object e)]) ++ b) in R by (rewrite <- app_assoc; reflexivity). apply run_prefix in R. destruct R as (h1 & R). apply run_snoc_inv in R. destruct R as (h0 & R & _ & S).
    apply run_ok in R. cbn [fst snd step] in S. destruct (lunar_of h0 i); [|discriminate]. injection S as _ <-. split; intros I.
    - destruct (ok_get _ _ R j _ I) as (l0 & Q). destruct (ok_kept _ _ R _ _ _ Q) as (s & P). assert (X : nth_error (eights h0) (List.length (eights h0)) = None) by (apply nth_error_None; lia). congruence.
    - destruct (ok_from _ _ R j _ I) as [(s & P) _]. assert (X : nth_error (eights h0) (List.length (eights h0)) = None) by (apply nth_error_None; lia). congruence. }
  assert (AFT : ~ In (GetEight j, Object e) b /\ ~ In (FromLunar j, Object e) b).
  { clear BEF. revert h R. induction b as [|p b IH] using rev_ind; intros h R; [split; intros []|]. rewrite app_comm_cons, app_assoc in R. apply run_snoc_inv in R. destruct R as (h0 & R & _ & S). destruct (IH h0 R) as [N1 N2].
    apply run_ok in R. destruct (ok_from _ _ R i e) as [(s & P) NC]; [apply in_app_iff; right; now left|].
    split; intros I; apply in_snoc in I; (destruct I as [I|<-]; [tauto|]); cbn [fst snd step] in S.
    - destruct (get_eight h0 j) as [[h1 e1]|] eqn:E; [|discriminate]. injection S as -> ->. unfold get_eight in E. destruct (nth_error (lunars h0) j) as [[l [e0|]]|] eqn:Ej; [| |discriminate].
      + injection E as _ ->. exact (NC _ _ Ej).
      + injection E as _ E. assert (X : nth_error (eights h0) (List.length (eights h0)) = None) by (apply nth_error_None; lia). congruence.
    - destruct (lunar_of h0 j); [|discriminate]. injection S as _ E. assert (X : nth_error (eights h0) (List.length (eights h0)) = None) by (apply nth_error_None; lia). congruence. }
  rewrite !in_app_iff. tauto.
Qed.
(** What is read from an EightChar depends on the last setSect on that object and on its Lunar only. *)
Theorem C96_read : forall tr h i e x, run (tr ++ [(ReadEight e, Eight x)]) h -> In (GetEight i, Object e) tr \/ In (FromLunar i, Object e) tr ->
  exists l, current tr i = Some l /\ x = mkEightChar (sect_set tr e) l.
Proof.
  intros tr h i e x R G. apply run_snoc_inv in R. destruct R as (h0 & R & _ & S). apply run_ok in R. cbn [fst snd step] in S. unfold read_eight in S.
  assert (Q : exists s, nth_error (eights h0) e = Some (s, i)).
  { destruct G as [G|G]; [destruct (ok_get _ _ R i e G) as (l & Q); exact (ok_kept _ _ R _ _ _ Q)|exact (proj1 (ok_from _ _ R i e G))]. }
  destruct Q as (s & Q). rewrite Q in S. rewrite (ok_lunars _ _ R) in S. destruct (current tr i) as [l|]; [|discriminate]. cbn [option_map] in S. injection S as _ <-. exists l. split; [reflexivity|]. now rewrite (ok_sect _ _ R _ _ _ Q).
Qed.
(** getBaZi and the other lists of a Lunar follow the sect set on its EightChar; it is 2 as long as nobody asked for the object. *)
Theorem C96_bazi : forall tr h i x, run (tr ++ [(ReadBaZi i, Eight x)]) h -> exists l, current tr i = Some l /\ e_lunar x = l /\
  (forall e, In (GetEight i, Object e) tr -> e_sect x = sect_set tr e) /\ ((forall e, ~ In (GetEight i, Object e) tr) -> e_sect x = 2).
Proof.
  intros tr h i x R. apply run_snoc_inv in R. destruct R as (h0 & R & _ & S). apply run_ok in R. cbn [fst snd step] in S.
  destruct (get_eight h0 i) as [[h1 e]|] eqn:E; [|discriminate]. destruct (read_eight h1 e) as [y|] eqn:Y; [|discriminate]. injection S as -> ->.
  destruct (get_eight_ok tr h0 i h e R E (ReadBaZi i) (Eight x) I) as (R1 & (l & Q) & C). destruct (ok_kept _ _ R1 _ _ _ Q) as (s & P). unfold read_eight in Y. rewrite P in Y. rewrite (ok_lunars _ _ R1) in Y. rewrite current_same in Y by exact I.
  destruct (current tr i) as [l1|]; [|discriminate]. injection Y as <-. exists l1. split; [reflexivity|]. split; [reflexivity|]. cbn [e_sect]. pose proof (ok_sect _ _ R1 _ _ _ P) as Es. unfold sect_set in Es. rewrite sects_same in Es by exact I.
  split.
  - intros e' G. destruct (ok_get _ _ R i e' G) as (l2 & Q2). destruct C as [[(l3 & Q3) _]|[_ N]]; [|destruct (N _ _ Q2)]. assert (e' = e) by congruence. subst e'. exact Es.
  - intros N. assert (Z0 : sects e tr = []); [|rewrite Es, Z0; reflexivity]. destruct C as [[(l3 & Q3) _]|[-> _]]; [exact (ok_hidden _ _ R i l3 e Q3 N)|].
    destruct (sects (List.length (eights h0)) tr) as [|k t] eqn:Es'; [reflexivity|]. pose proof (ok_set _ _ R (List.length (eights h0)) ltac:(congruence)). lia.
Qed.
(** The attributes of a Lunar are those it was made with, but for assignments to its own table of terms; nothing done to other objects, nor setSect, changes them. *)
Theorem C96_lunar : forall tr h i l, run (tr ++ [(ReadLunar i, Attr l)]) h -> current tr i = Some l.
Proof.
  intros tr h i l R. apply run_snoc_inv in R. destruct R as (h0 & R & _ & S). apply run_ok in R. cbn [fst snd step] in S. rewrite (ok_lunars _ _ R) in S. destruct (current tr i); [|discriminate]. injection S as _ <-. reflexivity.
Qed.
(** No operation on objects that exist is impossible. *)
Theorem C96_defined : forall tr h o, run tr h -> usable tr o ->
  match o with GetEight i | FromLunar i | PutTerm i _ _ | ReadLunar i | ReadBaZi i => (i < List.length (made tr))%nat | _ => True end -> exists h' out, step h o = Some (h', out).
Proof.
  intros tr h o R U H. apply run_ok in R.
  assert (LU : forall i, (i < List.length (made tr))%nat -> exists p, nth_error (lunars h) i = Some p).
  { intros i Hi. destruct (nth_error (lunars h) i) eqn:E; [eauto|]. apply nth_error_None in E. rewrite (ok_len _ _ R) in E. lia. }
  assert (GE : forall e, given tr e -> exists s i p, nth_error (eights h) e = Some (s, i) /\ nth_error (lunars h) i = Some p).
  { intros e (i & G). assert (Q : exists s, nth_error (eights h) e = Some (s, i)) by (destruct G as [G|G]; [destruct (ok_get _ _ R i e G) as (l & Q); exact (ok_kept _ _ R _ _ _ Q)|exact (proj1 (ok_from _ _ R i e G))]).
    destruct Q as (s & Q). pose proof (ok_own _ _ R _ _ _ Q) as L. rewrite (ok_len _ _ R) in L. destruct (LU i L) as (p & P). exists s, i, p. auto. }
  destruct o as [l|i|i|e k|i nm s|e|i|i]; cbn [step usable] in *; unfold get_eight, read_eight, lunar_of.
  - eauto.
  - destruct (LU i H) as ([l [e|]] & ->); eauto.
  - destruct (LU i H) as (p & ->). cbn. eauto.
  - destruct (GE e U) as (s & i & p & -> & _). eauto.
  - destruct (LU i H) as ([l e] & ->). eauto.
  - destruct (GE e U) as (s & i & p & -> & ->). cbn. eauto.
  - destruct (LU i H) as (p & ->). cbn. eauto.
  - destruct (LU i H) as ([l [e|]] & P); rewrite P.
    + destruct (ok_kept _ _ R _ _ _ P) as (s & Q). rewrite Q. cbn [lunars eights]. unfold lunar_of. rewrite P. cbn. eauto.
    + cbn [lunars eights]. rewrite nth_snoc, Nat.eqb_refl. unfold lunar_of. cbn [lunars]. rewrite (set_nth_same _ _ _ _ P). cbn. eauto.
Qed.
(** The day pillar is the only one of the four that depends on the sect, and it does so exactly from 23:00 on. *)
Theorem C96_sect : forall k k' l,
  EightChar_getYear (mkEightChar k l) = EightChar_getYear (mkEightChar k' l) /\ EightChar_getMonth (mkEightChar k l) = EightChar_getMonth (mkEightChar k' l) /\ EightChar_getTime (mkEightChar k l) = EightChar_getTime (mkEightChar k' l) /\
  EightChar_getTaiYuan (mkEightChar k l) = EightChar_getTaiYuan (mkEightChar k' l) /\ EightChar_getMingGong (mkEightChar k l) = EightChar_getMingGong (mkEightChar k' l) /\ EightChar_getShenGong (mkEightChar k l) = EightChar_getShenGong (mkEightChar k' l).
Proof. intros. repeat split; reflexivity. Qed.
Theorem C96_day : forall sin cos, libm sin cos -> forall s l k, valid_solar s -> 20 <= sy s <= 9998 -> getLunar (real sin cos) s = Ok l -> k <> 2 ->
  (EightChar_getDay (mkEightChar k l) = EightChar_getDay (mkEightChar 2 l) <-> sh s <> 23).
Proof.
  intros sin cos lib s l k V Hy E Nk. set (n := dayno (sdate s) - 2451545).
  assert (D : days_later n (2000, 1, 1) (sdate s)) by (apply days_later_dayno; [unfold valid_date; cbn; lia|apply V|unfold n; change (dayno (2000, 1, 1)) with 2451545; lia]).
  destruct (C53_code sin cos lib s l n V Hy E D) as (_ & P2 & P3 & _). unfold EightChar_getDay, by_sect. cbn [e_sect e_lunar]. destruct (Z.eqb_spec 2 k); [congruence|]. change (2 =? 2) with true. cbv iota. rewrite P2, P3.
  destruct (Z.eqb_spec (sh s) 23) as [E23|N23]; split; intros Q; try assumption; try congruence.
  - apply Ok_inj in Q. apply C53_cycle_is_sixty in Q. exfalso. pose proof (Z.div_mod (54 + n + 1) 60). pose proof (Z.div_mod (54 + n) 60). pose proof (Z.mod_pos_bound (54 + n) 60). lia.
  - f_equal. f_equal. lia.
Qed.
(** Assignments to the table of terms leave the pillars as they are: they were computed when the Lunar was made. *)
Theorem C96_terms : forall l t k,
  EightChar_getYear (mkEightChar k (with_terms l t)) = EightChar_getYear (mkEightChar k l) /\ EightChar_getMonth (mkEightChar k (with_terms l t)) = EightChar_getMonth (mkEightChar k l) /\
  EightChar_getDay (mkEightChar k (with_terms l t)) = EightChar_getDay (mkEightChar k l) /\ EightChar_getTime (mkEightChar k (with_terms l t)) = EightChar_getTime (mkEightChar k l) /\ l_jieQi (with_terms l t) = t.
Proof. intros l t k. repeat split; reflexivity. Qed.
Definition late : Solar := mkSolar 2024 2 10 23 30 0.
(** At 23:30: the sect set on the Lunar's EightChar is what getBaZi uses afterwards, the EightChar made by fromLunar keeps its own. *)
Example C96_case : exists l, getLunar (real rsin rcos) late = Ok l /\
  (exists h, run [(New l, Object 0); (GetEight 0, Object 0); (SetSect 0 1, Nothing); (FromLunar 0, Object 1); (GetEight 0, Object 0); (New l, Object 1); (ReadBaZi 0, Eight (mkEightChar 1 l)); (ReadBaZi 1, Eight (mkEightChar 2 l)); (ReadEight 1, Eight (mkEightChar 2 l))] h) /\
  EightChar_getDay (mkEightChar 1 l) = Ok (utf8 "乙巳") /\ EightChar_getDay (mkEightChar 2 l) = Ok (utf8 "甲辰").
Proof.
  assert (V : valid_solar late) by (split; [unfold valid_date; cbn; lia|unfold valid_time; cbn; lia]).
  destruct (C47_code rsin rcos libm_ref late V ltac:(cbn; lia)) as (l & t & a & E & _). exists l. split; [exact E|]. split.
  - pose proof (run_step [] _ (New l) _ _ run_nil I eq_refl) as R1. pose proof (run_step _ _ (GetEight 0) _ _ R1 I eq_refl) as R2.
    pose proof (run_step _ _ (SetSect 0 1) _ _ R2 ltac:(exists 0%nat; left; cbn; tauto) eq_refl) as R3. pose proof (run_step _ _ (FromLunar 0) _ _ R3 I eq_refl) as R4. pose proof (run_step _ _ (GetEight 0) _ _ R4 I eq_refl) as R5.
    pose proof (run_step _ _ (New l) _ _ R5 I eq_refl) as R6. pose proof (run_step _ _ (ReadBaZi 0) _ _ R6 I eq_refl) as R7. pose proof (run_step _ _ (ReadBaZi 1) _ _ R7 I eq_refl) as R8.
    pose proof (run_step _ _ (ReadEight 1) _ _ R8 ltac:(exists 0%nat; right; cbn; tauto) eq_refl) as R9. eexists. exact R9.
  - assert (D : days_later 8806 (2000, 1, 1) (sdate late)) by (apply days_later_dayno; [unfold valid_date; cbn; lia|apply V|reflexivity]).
    destruct (C53_code rsin rcos libm_ref late l 8806 V ltac:(cbn; lia) E D) as (_ & P2 & P3 & _). unfold EightChar_getDay, by_sect. cbn [e_sect e_lunar]. change (2 =? 1) with false. change (2 =? 2) with true. cbv iota. rewrite P2, P3. split; vm_compute; reflexivity.
Qed.

(** ** C97 *)
(** the twelve Jie and the twelve Qi *)
Definition jie_names : list str := map utf8 ["立春"; "惊蛰"; "清明"; "立夏"; "芒种"; "小暑"; "立秋"; "白露"; "寒露"; "立冬"; "大雪"; "小寒"]%string.
Definition qi_names : list str := map utf8 ["雨水"; "春分"; "谷雨"; "小满"; "夏至"; "大暑"; "处暑"; "秋分"; "霜降"; "小雪"; "冬至"; "大寒"]%string.
Definition rename (j : JieQi) (names : list str) : JieQi := fold_left JieQi_setName names j.
Lemma index_of_app_none s l k : ~ In s l -> index_of k s l = -1.
Proof. revert k. induction l as [|a l IH]; intros k N; cbn [index_of]; [reflexivity|]. destruct (str_eqb_spec a s) as [->|]; [exfalso; apply N; now left|]. apply IH. intros I. apply N. now right. Qed.
Lemma kind_of name : ((0 <=? index_of 0 name Lunar_JIE_QI) && (index_of 0 name Lunar_JIE_QI mod 2 =? 1) = true <-> In name jie_names) /\
  ((0 <=? index_of 0 name Lunar_JIE_QI) && (index_of 0 name Lunar_JIE_QI mod 2 =? 0) = true <-> In name qi_names).
Proof.
  destruct (in_dec (list_eq_dec Z.eq_dec) name Lunar_JIE_QI) as [I|N].
  - assert (T : forallb (fun x => Bool.eqb ((0 <=? index_of 0 x Lunar_JIE_QI) && (index_of 0 x Lunar_JIE_QI mod 2 =? 1)) (existsb (str_eqb x) jie_names) && Bool.eqb ((0 <=? index_of 0 x Lunar_JIE_QI) && (index_of 0 x Lunar_JIE_QI mod 2 =? 0)) (existsb (str_eqb x) qi_names)) Lunar_JIE_QI = true) by (vm_compute; reflexivity).
    rewrite forallb_forall in T. specialize (T name I). apply andb_prop in T. destruct T as [T1 T2]. apply eqb_prop in T1, T2. rewrite T1, T2.
    split; rewrite existsb_exists; (split; [intros (x & Ix & Q); destruct (str_eqb_spec name x); [now subst|discriminate]|intros Ix; exists name; split; [exact Ix|destruct (str_eqb_spec name name); congruence]]).
  - rewrite index_of_app_none by exact N. cbn [Z.leb Z.compare andb]. split; (split; [discriminate|]); intros I; exfalso; apply N; revert I.
    + assert (S : forallb (fun x => existsb (str_eqb x) Lunar_JIE_QI) jie_names = true) by (vm_compute; reflexivity). intros I. rewrite forallb_forall in S. specialize (S _ I). rewrite existsb_exists in S. destruct S as (x & Ix & Q). destruct (str_eqb_spec name x); [now subst|discriminate].
    + assert (S : forallb (fun x => existsb (str_eqb x) Lunar_JIE_QI) qi_names = true) by (vm_compute; reflexivity). intros I. rewrite forallb_forall in S. specialize (S _ I). rewrite existsb_exists in S. destruct S as (x & Ix & Q). destruct (str_eqb_spec name x); [now subst|discriminate].
Qed.
(** A JieQi made with any name and renamed any number of times has the last name, and is a Jie (a Qi) exactly if one of all its names was one. *)
Theorem C97_names : forall name solar names, let j := rename (JieQi_new name solar) names in
  jq_name j = List.last names name /\ jq_solar j = solar /\
  (jq_isJie j = true <-> exists n, In n (name :: names) /\ In n jie_names) /\ (jq_isQi j = true <-> exists n, In n (name :: names) /\ In n qi_names).
Proof.
  intros name solar names. induction names as [|n names IH] using rev_ind; cbv zeta in *.
  - unfold rename. cbn [fold_left List.last]. unfold JieQi_new. cbn [jq_name jq_solar jq_isJie jq_isQi]. destruct (kind_of name) as [A B]. rewrite A, B.
    split; [reflexivity|]. split; [reflexivity|]. split; (split; [intros I; exists name; split; [now left|exact I]|intros (x & [<-|[]] & I); exact I]).
  - unfold rename in *. rewrite fold_left_app. cbn [fold_left]. set (j := fold_left JieQi_setName names (JieQi_new name solar)) in *. destruct IH as (I1 & I2 & I3 & I4). rewrite last_last. unfold JieQi_setName. cbn [jq_name jq_solar jq_isJie jq_isQi].
    split; [reflexivity|]. split; [exact I2|]. destruct (kind_of n) as [A B]. rewrite !orb_true_iff, A, B, I3, I4.
    assert (L : forall K, (exists x, In x (name :: names) /\ In x K) \/ In n K <-> exists x, In x (name :: names ++ [n]) /\ In x K).
    { intros K. rewrite app_comm_cons. split.
      - intros [(x & Ix & Q)|Q]; [exists x; split; [apply in_app_iff; now left|exact Q]|exists n; split; [apply in_app_iff; right; now left|exact Q]].
      - intros (x & Ix & Q). apply in_app_iff in Ix. destruct Ix as [Ix|[<-|[]]]; [left; exists x; auto|now right]. }
    split; apply L.
Qed.
(** The flags are those of the name as long as all names are of one kind. *)
Theorem C97_one_kind : forall name solar names, let j := rename (JieQi_new name solar) names in
  (Forall (fun n => In n jie_names) (name :: names) -> jq_isJie j = true /\ jq_isQi j = false) /\
  (Forall (fun n => In n qi_names) (name :: names) -> jq_isQi j = true /\ jq_isJie j = false).
Proof.
  intros name solar names j. destruct (C97_names name solar names) as (_ & _ & A & B). fold j in A, B. rewrite !Forall_forall.
  assert (DJ : forall n, In n jie_names -> In n qi_names -> False).
  { assert (T : forallb (fun x => negb (existsb (str_eqb x) qi_names)) jie_names = true) by (vm_compute; reflexivity). intros n I I'. rewrite forallb_forall in T. specialize (T n I). apply negb_true_iff in T.
    assert (X : existsb (str_eqb n) qi_names = true) by (apply existsb_exists; exists n; split; [exact I'|destruct (str_eqb_spec n n); congruence]). congruence. }
  split; intros F; (split; [|apply not_true_is_false]).
  - apply A. exists name. split; [now left|apply F; now left].
  - intros Q. apply B in Q. destruct Q as (n & I & Q). exact (DJ n (F n I) Q).
  - apply B. exists name. split; [now left|apply F; now left].
  - intros Q. apply A in Q. destruct Q as (n & I & Q). exact (DJ n Q (F n I)).
Qed.
(** Defect: a Qi renamed to a Jie is both. *)
Theorem C97_refuted : forall solar, let j := JieQi_setName (JieQi_new (utf8 "冬至") solar) (utf8 "清明") in jq_name j = utf8 "清明" /\ jq_isJie j = true /\ jq_isQi j = true.
Proof. intros solar. repeat split; vm_compute; reflexivity. Qed.
Example C97_case : forall solar, let j := rename (JieQi_new (utf8 "立春") solar) [utf8 "清明"; utf8 "小寒"] in jq_name j = utf8 "小寒" /\ jq_isJie j = true /\ jq_isQi j = false.
Proof. intros solar. repeat split; vm_compute; reflexivity. Qed.
