(** C34: fromYear in any number of threads.  C35: it does not block unless a construction raised.  C36: what callers can do to the cached year. *)
From Coq Require Import ZArith Lia Bool List String Floats.
From Verif Require Import Py LunarYear YearProofs P_NewYear LunarCache.
Import ListNotations.
Open Scope Z_scope.

Lemma upd_length {A} (l : list A) i x : List.length (upd l i x) = List.length l.
Proof. revert i. induction l; intros [|i]; cbn; auto. Qed.
Lemma upd_same {A} (l : list A) i x y : nth_error l i = Some y -> nth_error (upd l i x) i = Some x.
Proof. revert i. induction l; intros [|i]; cbn; try discriminate; auto. Qed.
Lemma upd_other {A} (l : list A) i j x : i <> j -> nth_error (upd l i x) j = nth_error l j.
Proof. revert i j. induction l; intros [|i] [|j]; cbn; intros; auto; try lia. Qed.
Lemma upd_at {A} (l : list A) i j x p : nth_error (upd l i x) j = Some p -> (j = i /\ p = x) \/ (j <> i /\ nth_error l j = Some p).
Proof.
  destruct (Nat.eq_dec j i) as [->|N].
  - intros H. left. split; [reflexivity|]. assert (L : (i < List.length (upd l i x))%nat) by (apply nth_error_Some; congruence). rewrite upd_length in L.
    destruct (nth_error l i) as [y|] eqn:E; [|apply nth_error_None in E; lia]. rewrite (upd_same _ _ _ _ E) in H. congruence.
  - rewrite upd_other by auto. auto.
Qed.
Lemma nth_app {A} (l l' : list A) i x : nth_error l i = Some x -> nth_error (l ++ l') i = Some x.
Proof. intros H. rewrite nth_error_app1; [exact H|]. apply nth_error_Some. congruence. Qed.
Lemma nth_last {A} (l l' : list A) x : nth_error (l ++ x :: l') (List.length l) = Some x.
Proof. rewrite nth_error_app2 by lia. now rewrite Nat.sub_diag. Qed.

(** ** The lock and the cache *)
Definition inside (p : pc) : bool := match p with Out | Acquire _ | Return _ _ => false | _ => true end.
Definition named (s : state) (y : Z) (o : addr) : Prop := exists x, nth_error (st_years s) o = Some x /\ o_year x = y.
Definition cached (s : state) (y : Z) : Prop := exists o, st_cache s = Some o /\ named s y o.
Definition pc_ok (s : state) (p : pc) : Prop :=
  match p with
  | TestYear _ => exists y, cached s y
  | Load y => cached s y
  | Store y o => named s y o
  | Release y r | Return y r => exists o, r = Some o /\ named s y o
  | _ => True
  end.
Record Inv (s : state) : Prop := mkInv {
  i_lists : forall o x, nth_error (st_years s) o = Some x -> (o_months x < List.length (st_lists s) /\ o_terms x < List.length (st_lists s))%nat;
  i_cache : forall o, st_cache s = Some o -> exists y, named s y o;
  i_pc : forall i p, at_pc s i p -> pc_ok s p;
  i_lock : forall i p, at_pc s i p -> inside p = true -> st_lock s = true;
  i_one : forall i j p q, at_pc s i p -> at_pc s j q -> inside p = true -> inside q = true -> i = j
}.
Lemma init_inv n : Inv (init n).
Proof.
  assert (O : forall i p, at_pc (init n) i p -> p = Out) by (intros i p H; apply nth_error_In in H; apply repeat_spec in H; exact H).
  constructor; cbn [init st_years st_lists st_cache st_lock].
  - intros [|o] x H; discriminate.
  - discriminate.
  - intros i p H. apply O in H. now subst.
  - intros i p H. apply O in H. subst. discriminate.
  - intros i j p q H. apply O in H. subst. discriminate.
Qed.
Lemma named_grow s s' y o : (exists l, st_years s' = st_years s ++ l) -> named s y o -> named s' y o.
Proof. intros (l & E) (x & H & Y). exists x. rewrite E. split; [now apply nth_app|exact Y]. Qed.
Lemma cached_grow s s' y : (exists l, st_years s' = st_years s ++ l) -> st_cache s' = st_cache s -> cached s y -> cached s' y.
Proof. intros G E (o & H & N). exists o. rewrite E. split; [exact H|now apply (named_grow s)]. Qed.
Lemma pc_grow s s' p : (exists l, st_years s' = st_years s ++ l) -> (st_cache s' = st_cache s \/ inside p = false) -> pc_ok s p -> pc_ok s' p.
Proof.
  intros G E H. destruct p; cbn [pc_ok inside] in *; auto.
  - destruct E as [E|]; [|discriminate]. destruct H as (y' & H). exists y'. now apply (cached_grow s).
  - now apply (named_grow s).
  - destruct E as [E|]; [|discriminate]. now apply (cached_grow s).
  - destruct H as (o & ? & ?). exists o. split; [auto|]. now apply (named_grow s).
  - destruct H as (o & ? & ?). exists o. split; [auto|]. now apply (named_grow s).
Qed.
(** one thread moves from [p] to [q], the rest of the state changes to that of [s1] *)
Lemma move_inv s s1 i p q : Inv s -> at_pc s i p -> st_threads s1 = st_threads s ->
  (forall o x, nth_error (st_years s1) o = Some x -> (o_months x < List.length (st_lists s1) /\ o_terms x < List.length (st_lists s1))%nat) ->
  (forall o, st_cache s1 = Some o -> exists y, named s1 y o) ->
  (exists l, st_years s1 = st_years s ++ l) -> (st_cache s1 = st_cache s \/ inside p = true) -> pc_ok (move s1 i q) q ->
  (inside q = true -> st_lock s1 = true /\ (inside p = true \/ st_lock s = false)) -> (st_lock s1 = st_lock s \/ st_lock s1 = true \/ inside p = true) -> Inv (move s1 i q).
Proof.
  intros I Hp Et L Hc G C K Q Lk. constructor; unfold at_pc in *; cbn [move st_years st_lists st_cache st_lock st_threads]; rewrite ?Et.
  - exact L.
  - exact Hc.
  - intros j r H. apply upd_at in H. destruct H as [[-> ->]|[N H]]; [exact K|]. apply (pc_grow s); [exact G| |exact (i_pc s I j r H)].
    destruct C as [C|C]; [left; exact C|]. right. destruct (inside r) eqn:E; [|reflexivity]. exfalso. apply N. exact (i_one s I _ _ _ _ H Hp E C).
  - intros j r H E. apply upd_at in H. destruct H as [[-> ->]|[N H]]; [now apply Q|]. pose proof (i_lock s I j r H E) as X.
    destruct Lk as [Lk|[Lk|Lk]]; [congruence|exact Lk|]. exfalso. apply N. exact (i_one s I _ _ _ _ H Hp E Lk).
  - intros j k r r' H H' E E'. apply upd_at in H. apply upd_at in H'. destruct H as [[-> ->]|[N H]], H' as [[-> ->]|[N' H']]; auto.
    + exfalso. destruct (Q E) as (_ & [X|X]); [apply N'; exact (i_one s I _ _ _ _ H' Hp E' X)|]. pose proof (i_lock s I _ _ H' E'). congruence.
    + exfalso. destruct (Q E') as (_ & [X|X]); [apply N; exact (i_one s I _ _ _ _ H Hp E X)|]. pose proof (i_lock s I _ _ H E). congruence.
    + exact (i_one s I _ _ _ _ H H' E E').
Qed.
Lemma same_threads_inv s s1 : Inv s -> st_threads s1 = st_threads s -> st_years s1 = st_years s -> (List.length (st_lists s) <= List.length (st_lists s1))%nat ->
  st_cache s1 = st_cache s -> st_lock s1 = st_lock s -> Inv s1.
Proof.
  intros I Et Ey El Ec Ek. constructor; unfold at_pc; rewrite ?Et, ?Ey, ?Ec, ?Ek.
  - intros o x H. pose proof (i_lists s I o x H). lia.
  - intros o H. destruct (i_cache s I o H) as (y & N). exists y. apply (named_grow s); [exists []; now rewrite app_nil_r|exact N].
  - intros i p H. apply (pc_grow s); [exists []; now rewrite app_nil_r|left; exact Ec|exact (i_pc s I i p H)].
  - exact (i_lock s I).
  - exact (i_one s I).
Qed.
Section Cache.
Context (build : Z -> res LYear) (Hb : forall y t, build y = Ok t -> lyear t = y).
Lemma step_inv s l s' : Inv s -> step build s l s' -> Inv s'.
Proof.
  intros I H. pose proof (i_lists s I) as Il. pose proof (i_cache s I) as Ic.
  assert (G : exists l, st_years s = st_years s ++ l) by (exists []; now rewrite app_nil_r).
  destruct H.
  - apply (move_inv s s i Out); cbn; auto; discriminate.
  - apply (move_inv s (set_lock true s) i (Acquire y)); cbn; auto.
  - apply (move_inv s s i (TestNone y)); cbn [inside]; auto.
    + destruct (st_cache s) as [o|] eqn:E; cbn [pc_ok]; [|exact Logic.I]. destruct (Ic o eq_refl) as (y' & N). exists y', o. auto.
    + intros _. split; [exact (i_lock s I _ _ H eq_refl)|now left].
  - apply (move_inv s s i (TestYear y)); cbn [inside]; auto.
    + destruct (o_year x =? y) eqn:E; cbn [negb pc_ok]; [|exact Logic.I]. exists o. split; [exact H0|]. exists x. split; [exact H1|now apply Z.eqb_eq].
    + intros _. split; [exact (i_lock s I _ _ H eq_refl)|now left].
  - apply (move_inv s s i (TestYear y)); cbn; auto; discriminate.
  - apply (move_inv s (new_year t s) i (Construct y)); cbn [inside]; auto.
    + cbn [new_year st_years st_lists]. intros o x Hx. rewrite app_length. cbn [List.length]. destruct (Nat.lt_ge_cases o (List.length (st_years s))) as [X|X].
      * rewrite nth_error_app1 in Hx by exact X. pose proof (Il o x Hx). lia.
      * rewrite nth_error_app2 in Hx by exact X. destruct (o - _)%nat as [|[|]]; cbn in Hx; try discriminate. injection Hx as <-. cbn [o_months o_terms]. lia.
    + intros o E. destruct (Ic o E) as (y' & N). exists y'. apply (named_grow s); [|exact N]. cbn. eauto.
    + cbn. eauto.
    + cbn [pc_ok]. exists (mkYObj (lyear t) (lgan t) (lzhi t) (List.length (st_lists s)) (Datatypes.S (List.length (st_lists s)))).
      cbn [move new_year st_years o_year]. split; [apply nth_last|exact (Hb _ _ H0)].
    + intros _. split; [exact (i_lock s I _ _ H eq_refl)|now left].
  - apply (move_inv s s i (Construct y)); cbn; auto; discriminate.
  - pose proof (i_pc s I _ _ H) as N. cbn [pc_ok] in N. apply (move_inv s (set_cache o s) i (Store y o)); cbn [inside]; auto.
    + cbn. intros o' [= <-]. exists y. exact N.
    + cbn [pc_ok]. exists o. split; [reflexivity|exact N].
    + intros _. split; [exact (i_lock s I _ _ H eq_refl)|now left].
  - pose proof (i_pc s I _ _ H) as N. cbn [pc_ok] in N. destruct N as (o & E & N). apply (move_inv s s i (Load y)); cbn [inside]; auto.
    + cbn [pc_ok]. exists o. split; [exact E|exact N].
    + intros _. split; [exact (i_lock s I _ _ H eq_refl)|now left].
  - pose proof (i_pc s I _ _ H) as N. cbn [pc_ok] in N. apply (move_inv s (set_lock false s) i (Release y r)); cbn [inside]; auto; try discriminate.
  - apply (move_inv s s i (Return y r)); cbn; auto; discriminate.
  - apply (same_threads_inv s); cbn; auto.
  - apply (same_threads_inv s); cbn; auto.
  - apply (same_threads_inv s); cbn; auto. rewrite app_length. lia.
  - apply (same_threads_inv s); cbn; auto. rewrite upd_length. lia.
Qed.
Lemma run_inv s ls s' : Inv s -> run build s ls s' -> Inv s'.
Proof. intros I H. induction H as [|s ls s1 l s2 H IH St]; [exact I|]. exact (step_inv _ _ _ (IH I) St). Qed.

(** ** What the heap keeps *)
Lemma step_years s l s' : step build s l s' -> exists ys, st_years s' = st_years s ++ ys.
Proof. intros H. destruct H; cbn; try (exists []; now rewrite app_nil_r). eauto. Qed.
Lemma run_years s ls s' : run build s ls s' -> exists ys, st_years s' = st_years s ++ ys.
Proof.
  intros H. induction H as [|s ls s1 l s2 H (ys & IH) St]; [exists []; now rewrite app_nil_r|]. destruct (step_years _ _ _ St) as (ys' & E).
  exists (ys ++ ys'). rewrite E, IH. now rewrite app_assoc.
Qed.
Lemma run_last s ls l s' : run build s (ls ++ [l]) s' -> exists m, run build s ls m /\ step build m l s'.
Proof.
  intros H. remember (ls ++ [l]) as k eqn:E. destruct H as [|s k m l' s' R St]; [destruct ls; discriminate|]. apply app_inj_tail in E. destruct E as [-> ->]. eauto.
Qed.
Lemma run_app s a b s' : run build s (a ++ b) s' <-> exists m, run build s a m /\ run build m b s'.
Proof.
  split.
  - revert s'. induction b as [|l b IH] using rev_ind; intros s' H.
    + rewrite app_nil_r in H. exists s'. split; [exact H|constructor].
    + rewrite app_assoc in H. apply run_last in H. destruct H as (m & R & St). destruct (IH _ R) as (m' & Ra & Rb). exists m'. split; [exact Ra|]. econstructor; eauto.
  - intros (m & Ra & Rb). induction Rb as [|m b m1 l m2 Rb IH St]; [now rewrite app_nil_r|]. rewrite app_assoc. econstructor; [exact (IH Ra)|exact St].
Qed.
Lemma run_one s l s' : step build s l s' -> run build s [l] s'.
Proof. intros H. apply (run_snoc _ s [] s l s'); [constructor|exact H]. Qed.
Lemma run_split s ls s' l : run build s ls s' -> In l ls -> exists a b m m', ls = a ++ l :: b /\ run build s a m /\ step build m l m' /\ run build m' b s'.
Proof.
  intros R I. apply in_split in I. destruct I as (a & b & ->). change (l :: b) with ([l] ++ b) in R. apply run_app in R. destruct R as (m & Ra & R).
  apply run_app in R. destruct R as (m' & Rl & Rb). exists a, b, m, m'. split; [reflexivity|]. split; [exact Ra|]. split; [|exact Rb].
  apply (run_last m [] l m') in Rl. destruct Rl as (m1 & R1 & St). remember [] as k eqn:E. destruct R1; [exact St|]. destruct ls; discriminate.
Qed.
(** the answer of a call *)
Lemma ret_ok s ls s' i y r : Inv s -> run build s ls s' -> In (Ret i y r) ls ->
  match r with Ok r => exists o, r = Some o /\ named s' y o | Raise e => build y = Raise e end.
Proof.
  intros I R Il. destruct (run_split _ _ _ _ R Il) as (a & b & m & m' & _ & Ra & St & Rb). pose proof (run_inv _ _ _ I Ra) as Im.
  inversion St; subst; match goal with H : at_pc m _ _ |- _ => pose proof (i_pc m Im _ _ H) as K end; cbn in K.
  - destruct K as (y' & o & E & _). congruence.
  - assumption.
  - destruct K as (o & -> & N). exists o. split; [reflexivity|].
    apply (named_grow m); [|exact N]. destruct (step_years _ _ _ St) as (l1 & E1). destruct (run_years _ _ _ Rb) as (l2 & E2). exists (l1 ++ l2). rewrite E2, E1. now rewrite app_assoc.
Qed.
Definition owned (s : state) (a : addr) : Prop := exists o x, nth_error (st_years s) o = Some x /\ (a = o_months x \/ a = o_terms x).
Definition good (s : state) : Prop := forall o x, nth_error (st_years s) o = Some x -> exists t, build (o_year x) = Ok t /\ view s o = Some t.
Lemma view_keep s s' o x t : nth_error (st_years s) o = Some x -> nth_error (st_years s') o = Some x ->
  (forall a, (a = o_months x \/ a = o_terms x) -> forall c, nth_error (st_lists s) a = Some c -> nth_error (st_lists s') a = Some c) -> view s o = Some t -> view s' o = Some t.
Proof.
  intros E E' K. unfold view. rewrite E, E'. destruct (nth_error (st_lists s) (o_months x)) as [[ms|]|] eqn:A; try discriminate.
  destruct (nth_error (st_lists s) (o_terms x)) as [[|ts]|] eqn:B; try discriminate. rewrite (K _ (or_introl eq_refl) _ A), (K _ (or_intror eq_refl) _ B). auto.
Qed.
Lemma good_step s l s' : Inv s -> good s -> (forall a c, l = Write a c -> ~ owned s a) -> step build s l s' -> good s'.
Proof.
  intros I G W H o x Hx.
  assert (K : nth_error (st_years s) o = Some x -> (forall a, (a = o_months x \/ a = o_terms x) -> forall c, nth_error (st_lists s) a = Some c -> nth_error (st_lists s') a = Some c) ->
    exists t, build (o_year x) = Ok t /\ view s' o = Some t).
  { intros E M. destruct (G o x E) as (t & Et & V). exists t. split; [exact Et|]. exact (view_keep s s' o x t E Hx M V). }
  destruct H; cbn in Hx; try (apply K; [exact Hx|]; cbn; now auto).
  - clear K. destruct (Nat.lt_ge_cases o (List.length (st_years s))) as [X|X].
    + rewrite nth_error_app1 in Hx by exact X. destruct (G o x Hx) as (t' & Et & V). exists t'. split; [exact Et|].
      apply (view_keep s _ o x t'); [exact Hx|cbn; now apply nth_app| |exact V]. cbn. intros a _ c. apply nth_app.
    + rewrite nth_error_app2 in Hx by exact X. destruct (o - _)%nat as [|[|]] eqn:D; cbn in Hx; try discriminate. injection Hx as <-.
      exists t. cbn [o_year]. rewrite (Hb _ _ H0). split; [exact H0|]. assert (o = List.length (st_years s)) by lia. subst o. unfold view. cbn [move new_year st_years st_lists].
      rewrite nth_last. cbn [o_months o_terms o_year o_gan o_zhi]. rewrite nth_last.
      replace (st_lists s ++ [Months (lmonths t); Terms (lterms t)]) with ((st_lists s ++ [Months (lmonths t)]) ++ [Terms (lterms t)]) by (rewrite <- app_assoc; reflexivity).
      replace (Datatypes.S (List.length (st_lists s))) with (List.length (st_lists s ++ [Months (lmonths t)])) by (rewrite app_length; cbn; lia).
      rewrite nth_last. destruct t; reflexivity.
  - apply K; [exact Hx|]. cbn. intros a _ c. apply nth_app.
  - apply K; [exact Hx|]. cbn. intros a' Ha c' E. rewrite upd_other; [exact E|]. intros <-. apply (W a c eq_refl). exists o, x. auto.
Qed.
Lemma good_named s y o : good s -> named s y o -> exists t, build y = Ok t /\ view s o = Some t.
Proof. intros G (x & E & <-). exact (G o x E). Qed.
Lemma good_run s ls s' : Inv s -> good s -> (forall a c, ~ In (Write a c) ls) -> run build s ls s' -> good s'.
Proof.
  intros I G W R. induction R as [|s ls s1 l s2 R IH St]; [exact G|]. apply (good_step s1 l); [exact (run_inv _ _ _ I R)| | |exact St].
  - apply IH; auto. intros a c X. apply (W a c). apply in_or_app. now left.
  - intros a c ->. exfalso. apply (W a c). apply in_or_app. right. now left.
Qed.
(** lists that no year owns *)
Definition private (s : state) : Prop := forall a, In a (st_held s) -> (a < List.length (st_lists s))%nat /\ ~ owned s a.
Lemma private_step s l s' : Inv s -> private s -> (forall o, l <> GetMonths o /\ l <> GetTerms o) -> step build s l s' -> private s'.
Proof.
  intros I P W H a Ia.
  assert (K : In a (st_held s) -> st_years s' = st_years s -> (List.length (st_lists s) <= List.length (st_lists s'))%nat -> (a < List.length (st_lists s'))%nat /\ ~ owned s' a).
  { intros X Ey El. destruct (P a X) as (L & O). split; [lia|]. intros (o & x & E & D). apply O. exists o, x. rewrite Ey in E. auto. }
  destruct H; cbn in Ia; try (apply K; cbn; now auto).
  - clear K. destruct (P a Ia) as (L & O). cbn. rewrite app_length. split; [lia|]. intros (o & x & E & D). cbn in E.
    destruct (Nat.lt_ge_cases o (List.length (st_years s))) as [X|X].
    + rewrite nth_error_app1 in E by exact X. apply O. exists o, x. auto.
    + rewrite nth_error_app2 in E by exact X. destruct (o - _)%nat as [|[|]]; cbn in E; try discriminate. injection E as <-. cbn [o_months o_terms] in D. lia.
  - exfalso. destruct (W o) as [X _]. now apply X.
  - exfalso. destruct (W o) as [_ X]. now apply X.
  - destruct Ia as [<-|Ia]; [|apply K; cbn; auto; rewrite app_length; lia]. cbn. rewrite app_length. cbn. split; [lia|].
    intros (o' & x & E & D). cbn in E. pose proof (i_lists s I _ _ E). lia.
  - apply K; cbn; auto. rewrite upd_length. lia.
Qed.
Lemma private_run s ls s' : Inv s -> good s -> private s -> (forall o, ~ In (GetMonths o) ls /\ ~ In (GetTerms o) ls) -> run build s ls s' -> good s' /\ private s'.
Proof.
  intros I G P W R. induction R as [|s ls s1 l s2 R IH St]; [auto|]. pose proof (run_inv _ _ _ I R) as I1. destruct IH as (G1 & P1); auto.
  { intros o. destruct (W o) as (A & B). split; intros X; [apply A|apply B]; apply in_or_app; now left. }
  split.
  - apply (good_step s1 l); auto. intros a c ->. assert (Ia : In a (st_held s1)) by (inversion St; auto). now apply P1.
  - apply (private_step s1 l); auto. intros o. destruct (W o) as (A & B). split; intros ->; [apply A|apply B]; apply in_or_app; right; now left.
Qed.
Lemma init_good n : good (init n).
Proof. intros [|o] x H; discriminate. Qed.
Lemma init_private n : private (init n).
Proof. intros a []. Qed.

(** ** Progress *)
Definition rank (p : pc) : nat :=
  match p with Out => 0 | Return _ _ => 1 | Release _ _ => 2 | Load _ | Store _ _ => 3 | Construct _ => 4 | TestYear _ => 5 | TestNone _ => 6 | Acquire _ => 7 end.
Definition total (s : state) : nat := list_sum (map rank (st_threads s)).
Definition internal (l : label) : bool := match l with Step _ | Ret _ _ _ => true | _ => false end.
Definition is_call (l : label) : bool := match l with Call _ _ => true | _ => false end.
Definition count (f : label -> bool) (ls : list label) : nat := List.length (filter f ls).
Lemma sum_upd l i p q : nth_error l i = Some p -> (list_sum (map rank (upd l i q)) + rank p = list_sum (map rank l) + rank q)%nat.
Proof.
  revert i. induction l as [|a l IH]; intros [|i] H; cbn in H; try discriminate.
  - injection H as ->. cbn [upd map list_sum fold_right]. lia.
  - cbn [upd map list_sum fold_right]. specialize (IH i H). unfold list_sum in IH. lia.
Qed.
Lemma total_move s s1 i p q : at_pc s i p -> st_threads s1 = st_threads s -> (total (move s1 i q) + rank p = total s + rank q)%nat.
Proof. intros H E. unfold total. cbn [move st_threads]. rewrite E. now apply sum_upd. Qed.
Lemma step_total s l s' : step build s l s' ->
  (total s' + (if internal l then 1 else 0) <= total s + (if is_call l then 7 else 0))%nat.
Proof.
  intros H. destruct H; cbn [internal is_call];
  match goal with A : at_pc s _ _ |- context [total (move ?s1 _ ?q)] => pose proof (total_move s s1 _ _ q A eq_refl) as T; cbn [rank] in T | _ => exact (le_n _) end; try lia.
  - destruct (st_cache s); cbn [rank] in T; lia.
  - destruct (o_year x =? y); cbn [negb rank] in *; lia.
Qed.
Lemma count_app f a b : count f (a ++ b) = (count f a + count f b)%nat.
Proof. unfold count. now rewrite filter_app, app_length. Qed.
Lemma run_total s ls s' : run build s ls s' -> (total s' + count internal ls <= total s + 7 * count is_call ls)%nat.
Proof.
  intros R. induction R as [|s ls s1 l s2 R IH St]; [cbn; lia|]. rewrite !count_app. pose proof (step_total _ _ _ St) as T. unfold count at 2 4. cbn [filter].
  destruct (internal l), (is_call l); cbn [List.length]; lia.
Qed.
Lemma init_total n : total (init n) = O.
Proof. unfold total, init. cbn [st_threads]. induction n; cbn; auto. Qed.

(** the year a call asks for *)
Definition pc_year (p : pc) : option Z :=
  match p with Out => None | Acquire y | TestNone y | TestYear y | Construct y | Store y _ | Load y | Release y _ | Return y _ => Some y end.
Record Live (s : state) (ls : list label) : Prop := mkLive {
  v_held : st_lock s = true -> exists i p, at_pc s i p /\ inside p = true;
  v_year : forall i p y, at_pc s i p -> pc_year p = Some y -> In (Call i y) ls
}.
Lemma at_move s i p : (i < List.length (st_threads s))%nat -> at_pc (move s i p) i p.
Proof. intros H. unfold at_pc. cbn. destruct (nth_error (st_threads s) i) as [q|] eqn:E; [|apply nth_error_None in E; lia]. exact (upd_same _ _ _ _ E). Qed.
Lemma at_lt s i p : at_pc s i p -> (i < List.length (st_threads s))%nat.
Proof. intros H. apply nth_error_Some. unfold at_pc in H. congruence. Qed.
Lemma live_move s s1 ls l i p q : Live s ls -> at_pc s i p -> st_threads s1 = st_threads s ->
  (pc_year q = pc_year p \/ q = Out \/ exists y, l = Call i y /\ q = Acquire y) ->
  (st_lock s1 = true -> inside q = true \/ (st_lock s = true /\ inside p = false)) -> Live (move s1 i q) (ls ++ [l]).
Proof.
  intros L Hp Et Y K. constructor.
  - cbn [move st_lock]. intros E. destruct (K E) as [K'|[K' N]].
    + exists i, q. split; [|exact K']. apply at_move. rewrite Et. exact (at_lt _ _ _ Hp).
    + destruct (v_held s ls L K') as (j & r & Hj & Ij). exists j, r. split; [|exact Ij]. unfold at_pc in *. cbn [move st_threads]. rewrite Et. rewrite upd_other; [exact Hj|].
      intros <-. rewrite Hj in Hp. injection Hp as ->. congruence.
  - intros j r y H E. unfold at_pc in *. cbn [move st_threads] in H. rewrite Et in H. apply upd_at in H. apply in_or_app. destruct H as [[-> ->]|[N H]].
    + destruct Y as [Y|[->|(y' & -> & ->)]]; [|discriminate|].
      * left. apply (v_year s ls L i p y Hp). congruence.
      * right. cbn in E. injection E as ->. now left.
    + left. exact (v_year s ls L j r y H E).
Qed.
Lemma live_same s s1 ls l : Live s ls -> st_threads s1 = st_threads s -> st_lock s1 = st_lock s -> Live s1 (ls ++ [l]).
Proof.
  intros L Et Ek. constructor; unfold at_pc; rewrite Et, ?Ek; [exact (v_held s ls L)|]. intros i p y H E. apply in_or_app. left. exact (v_year s ls L i p y H E).
Qed.
Lemma live_step s ls l s' : Inv s -> Live s ls -> (forall i y, In (Call i y) ls -> exists t, build y = Ok t) -> step build s l s' -> Live s' (ls ++ [l]).
Proof.
  intros I L B H. pose proof (i_lock s I) as Ik.
  destruct H; try (apply (live_same s); cbn; now auto); try match goal with A : at_pc s ?i ?p |- _ => apply (live_move s _ ls _ i p); [exact L|exact A|reflexivity|..] end; cbn; eauto; try discriminate.
  - destruct (st_cache s); auto.
  - destruct (st_cache s); auto.
  - destruct (o_year x =? y); auto.
  - destruct (o_year x =? y); auto.
  - pose proof (i_pc s I _ _ H) as K. cbn in K. destruct K as (y' & o & E & _). congruence.
  - exfalso. destruct (B i y) as (t & Et); [exact (v_year s ls L _ _ _ H eq_refl)|congruence].
Qed.
Lemma init_live n : Live (init n) [].
Proof.
  constructor; [discriminate|]. intros i p y H E. apply nth_error_In in H. cbn in H. apply repeat_spec in H. subst p. discriminate.
Qed.
Lemma live_run n ls s : (forall i y, In (Call i y) ls -> exists t, build y = Ok t) -> run build (init n) ls s -> Live s ls.
Proof.
  intros B R. remember (init n) as s0 eqn:E0. induction R as [|s ls s1 l s2 R IH St]; subst.
  - apply init_live.
  - assert (B' : forall i y, In (Call i y) ls -> exists t, build y = Ok t) by (intros i y H; apply (B i); apply in_or_app; now left).
    apply (live_step s1); auto. exact (run_inv _ _ _ (init_inv n) R).
Qed.
Definition pending (s : state) : Prop := exists i p, at_pc s i p /\ p <> Out.
Lemma inside_steps s ls i p : Inv s -> Live s ls -> (forall i y, In (Call i y) ls -> exists t, build y = Ok t) -> at_pc s i p -> inside p = true -> exists s', step build s (Step i) s'.
Proof.
  intros I L B H In'. pose proof (i_pc s I i p H) as K. destruct p; cbn in In'; try discriminate; cbn in K.
  - eexists. apply (s_test_none build s i y H).
  - destruct K as (y' & o & E & x & Ex & _). eexists. exact (s_test_year build s i y o x H E Ex).
  - destruct (B i y) as (t & Et); [exact (v_year s ls L _ _ _ H eq_refl)|]. eexists. exact (s_construct build s i y t H Et).
  - eexists. exact (s_store build s i y o H).
  - eexists. exact (s_load build s i y H).
  - eexists. exact (s_release build s i y r H).
Qed.
Lemma progress s ls : Inv s -> Live s ls -> (forall i y, In (Call i y) ls -> exists t, build y = Ok t) -> pending s ->
  exists l s', step build s l s' /\ internal l = true /\ forall i y e, l <> Ret i y (Raise e).
Proof.
  intros I L B (i & p & H & N). destruct (inside p) eqn:Ip.
  - destruct (inside_steps s ls i p I L B H Ip) as (s' & St). exists (Step i), s'. split; [exact St|]. split; [reflexivity|discriminate].
  - destruct p; try discriminate; [now contradiction N| |].
    + destruct (st_lock s) eqn:K.
      * destruct (v_held s ls L K) as (j & q & Hj & Iq). destruct (inside_steps s ls j q I L B Hj Iq) as (s' & St). exists (Step j), s'. split; [exact St|]. split; [reflexivity|discriminate].
      * eexists (Step i), _. split; [exact (s_acquire build s i y H K)|]. split; [reflexivity|discriminate].
    + eexists (Ret i y (Ok r)), _. split; [exact (s_return build s i y r H)|]. split; [reflexivity|discriminate].
Qed.
Lemma idle_or_pending s : (forall i p, at_pc s i p -> p = Out) \/ pending s.
Proof.
  assert (D : Forall (fun p => p = Out) (st_threads s) \/ Exists (fun p => p <> Out) (st_threads s)).
  { induction (st_threads s) as [|p l IH]; [left; constructor|]. destruct p; try (right; left; discriminate). destruct IH as [IH|IH]; [left; now constructor|right; now apply Exists_cons_tl]. }
  destruct D as [D|D].
  - left. intros i p H. rewrite Forall_forall in D. apply D. exact (nth_error_In _ _ H).
  - right. apply Exists_exists in D. destruct D as (p & Ip & N). apply In_nth_error in Ip. destruct Ip as (i & H). exists i, p. auto.
Qed.
Lemma completes n ls s : (forall i y, In (Call i y) ls -> exists t, build y = Ok t) -> run build (init n) ls s ->
  exists ls' s', run build s ls' s' /\ forallb internal ls' = true /\ (forall i y e, ~ In (Ret i y (Raise e)) ls') /\ forall i p, at_pc s' i p -> p = Out.
Proof.
  remember (total s) as k eqn:Ek. revert ls s Ek. induction k as [k IH] using lt_wf_ind. intros ls s -> B R.
  destruct (idle_or_pending s) as [D|P]; [exists [], s; split; [constructor|]; cbn; auto|].
  pose proof (run_inv _ _ _ (init_inv n) R) as I. pose proof (live_run n ls s B R) as L.
  destruct (progress s ls I L B P) as (l & s1 & St & Il & Nl). pose proof (step_total _ _ _ St) as T. rewrite Il in T. assert (Cl : is_call l = false) by (destruct l; auto; discriminate). rewrite Cl in T.
  destruct (IH (total s1) ltac:(lia) (ls ++ [l]) s1 eq_refl) as (ls' & s' & R' & F & Nr & D).
  - intros i y H. apply in_app_or in H. destruct H as [H|[->|[]]]; [exact (B i y H)|discriminate].
  - econstructor; eauto.
  - exists (l :: ls'), s'. split; [change (l :: ls') with ([l] ++ ls'); apply run_app; exists s1; split; [now apply run_one|exact R']|].
    split; [cbn; now rewrite Il, F|]. split; [|exact D]. intros i y e [H|H]; [exact (Nl _ _ _ H)|exact (Nr _ _ _ H)].
Qed.

(** ** After a construction raised *)
Definition stuck (s : state) : Prop := st_lock s = true /\ forall i p, at_pc s i p -> inside p = false.
Lemma raise_stuck s i y e s' : Inv s -> step build s (Ret i y (Raise e)) s' -> stuck s'.
Proof.
  intros I St. inversion St; subst;
  match goal with H : at_pc s i ?p |- _ => pose proof (i_lock s I _ _ H eq_refl) as K; split; [exact K|]; intros j q Hj; apply upd_at in Hj; destruct Hj as [[-> ->]|[N Hj]]; [reflexivity|];
    destruct (inside q) eqn:E; [|reflexivity]; exfalso; apply N; exact (i_one s I _ _ _ _ Hj H E eq_refl) end.
Qed.
Lemma stuck_step s l s' : stuck s -> step build s l s' -> stuck s'.
Proof.
  intros (K & N) St.
  assert (M : forall i q, inside q = false -> forall j r, at_pc (move s i q) j r -> inside r = false).
  { intros i q Q j r H. apply upd_at in H. destruct H as [[-> ->]|[_ H]]; [exact Q|exact (N _ _ H)]. }
  destruct St; try match goal with H : at_pc s _ ?p |- _ => pose proof (N _ _ H) as X; cbn in X; try discriminate end; try congruence; try (split; [exact K|]; try exact N; apply M; reflexivity).
Qed.
Lemma waiting_step s l s' j y : stuck s -> at_pc s j (Acquire y) -> step build s l s' -> at_pc s' j (Acquire y) /\ forall y' r, l <> Ret j y' r.
Proof.
  intros (K & N) Hj St.
  destruct St; try (split; [exact Hj|discriminate]);
  match goal with H : at_pc s _ ?p |- _ => pose proof (N _ _ H) as X; cbn in X; try discriminate end; try congruence;
  (destruct (Nat.eq_dec i j) as [->|D]; [unfold at_pc in *; congruence|]); (split; [unfold at_pc in *; cbn [move st_threads]; now rewrite upd_other|]; intros y' r' E; congruence).
Qed.
Lemma waiting_run s ls s' j y : stuck s -> at_pc s j (Acquire y) -> run build s ls s' -> (stuck s' /\ at_pc s' j (Acquire y)) /\ forall y' r, ~ In (Ret j y' r) ls.
Proof.
  intros Q H R. induction R as [|s ls s1 l s2 R IH St]; [split; [auto|intros ? ? []]|]. destruct (IH Q H) as ((Q1 & H1) & N1).
  destruct (waiting_step _ _ _ _ _ Q1 H1 St) as (H2 & N2). split; [split; [exact (stuck_step _ _ _ Q1 St)|exact H2]|].
  intros y' r I. apply in_app_or in I. destruct I as [I|[I|[]]]; [exact (N1 _ _ I)|exact (N2 _ _ I)].
Qed.
Lemma stuck_run s ls s' : stuck s -> run build s ls s' -> stuck s'.
Proof. intros Q R. induction R as [|s ls s1 l s2 R IH St]; [exact Q|]. exact (stuck_step _ _ _ (IH Q) St). Qed.
End Cache.

(** ** The theorems, for the constructor of any sky *)
Lemma new_year_number sky y t : LunarYear_new sky y = Ok t -> lyear t = y.
Proof. intros H. destruct (LunarYear_new_inv _ _ _ H) as (? & ? & ? & ? & ? & ? & ? & ? & ? & E & _). exact E. Qed.

(** C34: as long as callers do not change the lists they got, every call returns an object that says what LunarYear(y) says, then and ever after,
    or raises what LunarYear(y) raises, whatever the other threads do. *)
Theorem C34_transparent : forall sky n ls s i y r, run (LunarYear_new sky) (init n) ls s -> (forall a c, ~ In (Write a c) ls) -> In (Ret i y r) ls ->
  match r with
  | Ok r => exists o t, r = Some o /\ LunarYear_new sky y = Ok t /\ view s o = Some t
  | Raise e => LunarYear_new sky y = Raise e
  end.
Proof.
  intros sky n ls s i y r R W I. pose proof (ret_ok _ (new_year_number sky) _ _ _ _ _ _ (init_inv n) R I) as K. destruct r as [r|e]; [|exact K].
  destruct K as (o & -> & N). destruct (good_named _ _ _ _ (good_run _ (new_year_number sky) _ _ _ (init_inv n) (init_good _ n) W R) N) as (t & Et & V). exists o, t. auto.
Qed.
(** Even if callers change the lists, the object has the year that was asked for. *)
Theorem C34_year : forall sky n ls s i y r, run (LunarYear_new sky) (init n) ls s -> In (Ret i y (Ok r)) ls ->
  exists o x, r = Some o /\ nth_error (st_years s) o = Some x /\ o_year x = y.
Proof.
  intros sky n ls s i y r R I. destruct (ret_ok _ (new_year_number sky) _ _ _ _ _ _ (init_inv n) R I) as (o & -> & x & E & Y). exists o, x. auto.
Qed.
(** No two threads construct at the same time. *)
Theorem C34_exclusive : forall sky n ls s i j y y', run (LunarYear_new sky) (init n) ls s -> at_pc s i (Construct y) -> at_pc s j (Construct y') -> i = j.
Proof. intros sky n ls s i j y y' R H H'. exact (i_one s (run_inv _ (new_year_number sky) _ _ _ (init_inv n) R) _ _ _ _ H H' eq_refl eq_refl). Qed.

(** C35: when no construction raises, no schedule blocks for ever: n calls take at most 7 n steps, some call can move as long as one is open, and all can complete. *)
Theorem C35_bounded : forall sky n ls s, run (LunarYear_new sky) (init n) ls s -> (count internal ls <= 7 * count is_call ls)%nat.
Proof. intros sky n ls s R. pose proof (run_total _ (new_year_number sky) _ _ _ R) as T. rewrite init_total in T. lia. Qed.
Theorem C35_progress : forall sky n ls s i p, run (LunarYear_new sky) (init n) ls s -> (forall i y, In (Call i y) ls -> exists t, LunarYear_new sky y = Ok t) ->
  at_pc s i p -> p <> Out -> exists l s', step (LunarYear_new sky) s l s' /\ internal l = true.
Proof.
  intros sky n ls s i p R B H N. destruct (progress _ s ls (run_inv _ (new_year_number sky) _ _ _ (init_inv n) R) (live_run _ (new_year_number sky) n ls s B R) B) as (l & s' & St & Il & _); [exists i, p; auto|]. eauto.
Qed.
Theorem C35_completes : forall sky n ls s, run (LunarYear_new sky) (init n) ls s -> (forall i y, In (Call i y) ls -> exists t, LunarYear_new sky y = Ok t) ->
  exists ls' s', run (LunarYear_new sky) s ls' s' /\ forallb internal ls' = true /\ (forall i y e, ~ In (Ret i y (Raise e)) ls') /\ forall i p, at_pc s' i p -> p = Out.
Proof. intros sky n ls s R B. exact (completes _ (new_year_number sky) n ls s B R). Qed.
(** After a construction raised, no call ever returns. *)
Theorem C35_refuted : forall sky n ls i y e ls1 j y' ls2 s,
  run (LunarYear_new sky) (init n) (ls ++ [Ret i y (Raise e)] ++ ls1 ++ [Call j y'] ++ ls2) s -> forall y'' r, ~ In (Ret j y'' r) ls2.
Proof.
  intros sky n ls i y e ls1 j y' ls2 s R. apply run_app in R. destruct R as (s1 & R1 & R). apply run_app in R. destruct R as (s2 & R2 & R).
  apply run_app in R. destruct R as (s3 & R3 & R). apply run_app in R. destruct R as (s4 & R4 & R5).
  pose proof (run_inv _ (new_year_number sky) _ _ _ (init_inv n) R1) as I1.
  apply (run_last _ s1 []) in R2. destruct R2 as (s1' & R0 & St). assert (s1' = s1) by (inversion R0; [reflexivity|destruct ls0; discriminate]). subst s1'.
  pose proof (stuck_run _ _ _ _ (raise_stuck _ _ _ _ _ _ I1 St) R3) as Q3.
  apply (run_last _ s3 []) in R4. destruct R4 as (s3' & R0' & St'). assert (s3' = s3) by (inversion R0'; [reflexivity|destruct ls0; discriminate]). subst s3'.
  pose proof (stuck_step _ _ _ _ Q3 St') as Q4. inversion St'; subst.
  match goal with H : at_pc s3 j Out |- _ => pose proof (at_move s3 j (Acquire y') (at_lt _ _ _ H)) as W end.
  destruct (waiting_run _ _ _ _ _ _ Q4 W R5) as (_ & N). exact N.
Qed.

(** C36: callers who use getMonthsInYear and the other accessors may do with the lists they get what they like; nobody else notices. *)
Theorem C36_isolated : forall sky n ls s i y r, run (LunarYear_new sky) (init n) ls s -> (forall o, ~ In (GetMonths o) ls /\ ~ In (GetTerms o) ls) -> In (Ret i y (Ok r)) ls ->
  exists o t, r = Some o /\ LunarYear_new sky y = Ok t /\ view s o = Some t.
Proof.
  intros sky n ls s i y r R W I. destruct (ret_ok _ (new_year_number sky) _ _ _ _ _ _ (init_inv n) R I) as (o & -> & N).
  destruct (private_run _ (new_year_number sky) _ _ _ (init_inv n) (init_good _ n) (init_private n) W R) as (G & _).
  destruct (good_named _ _ _ _ G N) as (t & Et & V). exists o, t. auto.
Qed.
(** a call undisturbed by other threads; it takes as many steps when it builds a first year as when it finds the year *)
Definition one_call (i : nat) (y : Z) (o : addr) : list label := [Call i y; Step i; Step i; Step i; Step i; Step i; Ret i y (Ok (Some o))].
Lemma run_cons build s l s1 s2 ls s' : step build s l s1 -> s1 = s2 -> run build s2 ls s' -> run build s (l :: ls) s'.
Proof. intros H <- R. change (l :: ls) with ([l] ++ ls). apply run_app. exists s1. split; [now apply run_one|exact R]. Qed.
Ltac go H := eapply run_cons; [eapply H; first [reflexivity|eassumption|cbn; auto; fail]|cbn; reflexivity|].
Lemma shared_months build y t : build y = Ok t -> lyear t = y ->
  exists s, run build (init 2) (one_call 0 y 0%nat ++ [GetMonths 0%nat; Write 0%nat (Months [])] ++ one_call 1 y 0%nat) s /\
    view s 0%nat = Some (mkLYear y (lgan t) (lzhi t) [] (lterms t)).
Proof.
  intros E Y. eexists. split.
  - cbn [one_call app]. go (s_call build). go (s_acquire build). go (s_test_none build). go (s_construct build). go (s_store build). go (s_release build). go (s_return build).
    go (s_getMonths build). go (s_write build).
    go (s_call build). go (s_acquire build). go (s_test_none build).
    eapply run_cons; [eapply (s_test_year build); reflexivity|cbn; rewrite Y, Z.eqb_refl; cbn; reflexivity|]. go (s_load build). go (s_release build). go (s_return build). constructor.
  - cbn. rewrite Y. reflexivity.
Qed.
(** But a list got from getMonths is the one of the cache: whoever empties it empties the year for every later caller. *)
Theorem C36_refuted : forall sky y t, LunarYear_new sky y = Ok t ->
  exists s, run (LunarYear_new sky) (init 2) (one_call 0 y 0%nat ++ [GetMonths 0%nat; Write 0%nat (Months [])] ++ one_call 1 y 0%nat) s /\
    view s 0%nat = Some (mkLYear y (lgan t) (lzhi t) [] (lterms t)) /\ forall m, getMonth (mkLYear y (lgan t) (lzhi t) [] (lterms t)) m = None.
Proof.
  intros sky y t E. destruct (shared_months _ y t E (new_year_number sky y t E)) as (s & R & V). exists s. split; [exact R|]. split; [exact V|]. intros m. reflexivity.
Qed.

(** ** Cases *)
(** 10^400 is a year whose float overflows; the call raises and leaves the lock taken. *)
Lemma huge_year sky : LunarYear_new sky (10 ^ 400) = Raise ExcOverflow.
Proof. vm_compute. reflexivity. Qed.
Lemma raising build y e : build y = Raise e -> exists s, run build (init 2) [Call 0 y; Step 0; Step 0; Ret 0 y (Raise e); Call 1 2024] s /\ st_lock s = true /\ at_pc s 1 (Acquire 2024).
Proof.
  intros E. eexists. split; [go (s_call build); go (s_acquire build); go (s_test_none build); go (s_construct_raises build); go (s_call build); constructor|]. split; reflexivity.
Qed.
Example C35_case : forall sky, exists s, run (LunarYear_new sky) (init 2) [Call 0 (10 ^ 400); Step 0; Step 0; Ret 0 (10 ^ 400) (Raise ExcOverflow); Call 1 2024] s /\
  st_lock s = true /\ at_pc s 1 (Acquire 2024).
Proof. intros sky. exact (raising _ _ _ (huge_year sky)). Qed.
(** Two threads ask for 2025 at once; the second finds the year built by the first. *)
Definition together (y : Z) : list label :=
  [Call 0 y; Call 1 y; Step 0; Step 0; Step 0; Step 0; Step 0; Step 1; Ret 0 y (Ok (Some 0%nat)); Step 1; Step 1; Step 1; Step 1; Ret 1 y (Ok (Some 0%nat))].
Lemma both build y t : build y = Ok t -> lyear t = y -> exists s, run build (init 2) (together y) s /\ view s 0%nat = Some t.
Proof.
  intros E Y. eexists. split.
  - unfold together. go (s_call build). go (s_call build). go (s_acquire build). go (s_test_none build). go (s_construct build). go (s_store build). go (s_release build).
    go (s_acquire build). go (s_return build). go (s_test_none build).
    eapply run_cons; [eapply (s_test_year build); reflexivity|cbn; rewrite Y, Z.eqb_refl; cbn; reflexivity|]. go (s_load build). go (s_release build). go (s_return build). constructor.
  - cbn. destruct t. reflexivity.
Qed.
Example C34_case : exists s, run (LunarYear_new mean_sky) (init 2) (together 2025) s /\ view s 0%nat = Some mean_2025.
Proof. exact (both _ _ _ mean_2025_eq eq_refl). Qed.
(** A caller changes a list got from getMonthsInYear; the year stays as it was. *)
Lemma own_list build y t : build y = Ok t -> lyear t = y ->
  exists s, run build (init 1) (one_call 0 y 0%nat ++ [GetMonthsInYear 0%nat; Write 2%nat (Months [])]) s /\ view s 0%nat = Some t.
Proof.
  intros E Y. eexists. split.
  - cbn [one_call app]. go (s_call build). go (s_acquire build). go (s_test_none build). go (s_construct build). go (s_store build). go (s_release build). go (s_return build).
    eapply run_cons; [eapply (s_getMonthsInYear build _ 0%nat t); destruct t; reflexivity|cbn; reflexivity|]. go (s_write build). constructor.
  - cbn. destruct t. reflexivity.
Qed.
Example C36_case : exists s, run (LunarYear_new mean_sky) (init 1) (one_call 0 2025 0%nat ++ [GetMonthsInYear 0%nat; Write 2%nat (Months [])]) s /\ view s 0%nat = Some mean_2025.
Proof. exact (own_list _ _ _ mean_2025_eq eq_refl). Qed.
