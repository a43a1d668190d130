(** The almanac tables: what the packed texts contain and what the lookups return. *)
From Coq Require Import ZArith Lia Bool ZifyBool List String.
From Verif Require Import Py PyFloat PyStr T_LunarUtil T_Almanac LunarUtil AlmanacProofs.
Import ListNotations.
Open Scope Z_scope.

(** ** A parser for the packed texts, independent of the code under study *)

Fixpoint split_on (c : Z) (s : str) : list str :=
  match s with
  | [] => [[]]
  | x :: t => match split_on c t with
              | p :: ps => if x =? c then [] :: p :: ps else (x :: p) :: ps
              | [] => []
              end
  end.

(** Pieces between "=" to (key, value) pairs: each piece but the last ends with the next key. *)
Fixpoint pair_up (k : nat) (key : str) (ps : list str) : list (str * str) :=
  match ps with
  | [] => []
  | [p] => [(key, p)]
  | p :: t => let n := (List.length p - k)%nat in (key, firstn n p) :: pair_up k (skipn n p) t
  end.
Definition parse (k : nat) (s : str) : list (str * str) :=
  match split_on EQ s with key :: ps => pair_up k key ps | [] => [] end.

Fixpoint unhex (s : str) : list Z :=
  match s with
  | a :: b :: t => match int16 [a; b] with Ok v => v | _ => 256 end :: unhex t
  | _ => []
  end.

(** Records ((k1, k2), (good, bad)); the first key has [n1] digits. *)
Definition prec : Type := (Z * Z) * (list Z * list Z).
Definition parse2 (n1 : nat) (s : str) : list prec :=
  map (fun r => ((match int16 (firstn n1 (fst r)) with Ok v => v | _ => 256 end,
                  match int16 (skipn n1 (fst r)) with Ok v => v | _ => 256 end),
                 match split_on 44 (snd r) with [a; b] => (unhex a, unhex b) | _ => ([], []) end))
      (parse (n1 + 2) s).

(** Records of the day table: (day, (months, (good, bad))). *)
Definition drec : Type := Z * (list Z * (list Z * list Z)).
Definition parse3 (s : str) : list drec :=
  map (fun r => (nth 0 (unhex (fst r)) 256,
        match split_on 58 (snd r) with
        | [ms; ab] => (unhex ms, match split_on 44 ab with [a; b] => (unhex a, unhex b) | _ => ([], []) end)
        | _ => ([], ([], [])) end)) (parse 2 s).

Definition time_recs : list prec := Eval vm_compute in parse2 2 LunarUtil_TIME_YI_JI.
Definition shensha_recs : list prec := Eval vm_compute in parse2 1 LunarUtil_DAY_SHEN_SHA.
Definition day_recs : list drec := Eval vm_compute in parse3 LunarUtil_DAY_YI_JI.

Definition enc3 (rs : list drec) : list (str * str) :=
  map (fun r : drec => let '(d, (ms, (a, b))) := r in
                       (LunarUtil_hex d, codes ms ++ 58 :: codes a ++ 44 :: codes b)) rs.

Definition time_key (k : Z * Z) : str := LunarUtil_hex (fst k) ++ LunarUtil_hex (snd k).
Definition shensha_key (k : Z * Z) : str := py_hex (fst k) ++ LunarUtil_hex (snd k).
Definition keyed (f : Z * Z -> str) (rs : list prec) : list (str * (list Z * list Z)) :=
  map (fun r => (f (fst r), snd r)) rs.

(** The record lists, written out as "key=good,bad" ("day=months:good,bad"), are the packed texts. *)
Theorem C40_time_text : enc (enc2 (keyed time_key time_recs)) = LunarUtil_TIME_YI_JI.
Proof. apply str_eqb_eq. vm_compute. reflexivity. Qed.
Theorem C40_shensha_text : enc (enc2 (keyed shensha_key shensha_recs)) = LunarUtil_DAY_SHEN_SHA.
Proof. apply str_eqb_eq. vm_compute. reflexivity. Qed.
Theorem C40_day_text : enc (enc3 day_recs) = LunarUtil_DAY_YI_JI.
Proof. apply str_eqb_eq. vm_compute. reflexivity. Qed.

(** ** The names *)
Definition names (table : list str) (l : list Z) : list str := map (fun c => nth (Z.to_nat c) table []) l.

(** ** Well-formedness, decided *)
Definition codeb (n c : Z) : bool := (0 <=? c) && (c <? n).
Definition prec_okb (lo1 n1 n2 n : Z) (r : prec) : bool :=
  let '((k1, k2), (a, b)) := r in
  (lo1 <=? k1) && codeb n1 k1 && codeb n2 k2 && forallb (codeb n) a && forallb (codeb n) b.
Definition drec_okb (r : drec) : bool :=
  let '(d, (ms, (a, b))) := r in
  codeb 60 d && forallb (codeb 60) ms && forallb (codeb 142) a && forallb (codeb 142) b.

Lemma time_ok : forallb (prec_okb 0 60 60 142) time_recs = true.
Proof. vm_compute. reflexivity. Qed.
Lemma shensha_ok : forallb (prec_okb 1 13 60 148) shensha_recs = true.
Proof. vm_compute. reflexivity. Qed.
Lemma day_ok : forallb drec_okb day_recs = true.
Proof. vm_compute. reflexivity. Qed.
Lemma table_lengths : Z.of_nat (List.length LunarUtil_YI_JI) = 142 /\ Z.of_nat (List.length LunarUtil_SHEN_SHA) = 148.
Proof. vm_compute. easy. Qed.

Definition count (x : Z) (l : list Z) : Z := Z.of_nat (List.length (filter (fun y => y =? x) l)).

Definition seconds (k : Z) (rs : list prec) : list Z :=
  map (fun r : prec => snd (fst r)) (filter (fun r : prec => fst (fst r) =? k) rs).
Definition day_months (k : Z) (rs : list drec) : list Z :=
  concat (map (fun r : drec => fst (snd r)) (filter (fun r : drec => fst r =? k) rs)).

(** Each key pair once: the twelve hour pillars of each day pillar, every day pillar in every month. *)
Lemma time_once : forallb (fun i => let l := seconds i time_recs in
  forallb (fun j => count j l =? (if (j - 12 * i) mod 60 <? 12 then 1 else 0)) (zrange 0 60)) (zrange 0 60) = true.
Proof. vm_compute. reflexivity. Qed.
Lemma shensha_once : forallb (fun i => let l := seconds i shensha_recs in
  forallb (fun j => count j l =? 1) (zrange 0 60)) (zrange 1 13) = true.
Proof. vm_compute. reflexivity. Qed.
Lemma day_once : forallb (fun i => let l := day_months i day_recs in
  forallb (fun j => count j l =? 1) (zrange 0 60)) (zrange 0 60) = true.
Proof. vm_compute. reflexivity. Qed.

(** ** Key pairs *)
Definition is_key (k : Z * Z) (r : prec) : bool := (fst (fst r) =? fst k) && (snd (fst r) =? snd k).

Lemma is_key_eq k r : is_key k r = true <-> fst r = k.
Proof. unfold is_key. destruct r as [[a b] v], k as [c d]. cbn. split; intros H; [f_equal; lia|injection H; lia]. Qed.

Lemma count_seconds k rs :
  count (snd k) (seconds (fst k) rs) = Z.of_nat (List.length (filter (is_key k) rs)).
Proof.
  unfold count, seconds. f_equal. induction rs as [|r rs IH]; [reflexivity|]. cbn [filter].
  unfold is_key at 1. destruct (fst (fst r) =? fst k); cbn [andb map filter]; [|exact IH].
  destruct (snd (fst r) =? snd k); cbn [List.length]; now rewrite IH.
Qed.

Lemma lookup2_keyed f k rs : (forall r, In r rs -> f k = f (fst r) -> fst r = k) ->
  lookup2 (f k) (keyed f rs) = match filter (is_key k) rs with [] => None | r :: _ => Some (snd r) end.
Proof.
  induction rs as [|r rs IH]; intros H; [reflexivity|]. cbn [keyed map lookup2 fst snd filter].
  destruct (str_eqb_spec (f k) (f (fst r))) as [E|E].
  - apply H in E; [|now left]. replace (is_key k r) with true by (symmetry; now apply is_key_eq). reflexivity.
  - destruct (is_key k r) eqn:Q; [apply is_key_eq in Q; now subst|].
    apply IH. intros r' Hr'. apply H. now right.
Qed.

Lemma lookup2_absent key f rs : (forall r, In r rs -> key <> f (fst r)) -> lookup2 key (keyed f rs) = None.
Proof.
  induction rs as [|r rs IH]; intros H; [reflexivity|]. cbn [keyed map lookup2 fst snd].
  destruct (str_eqb_spec key (f (fst r))) as [E|E]; [exfalso; apply (H r); [now left|easy]|].
  apply IH. intros; apply H; now right.
Qed.

Lemma index_ok (table : list str) c : 0 <= c < Z.of_nat (List.length table) ->
  py_index table c = Ok (nth (Z.to_nat c) table []).
Proof.
  intros H. unfold py_index. replace (c <? 0) with false by lia.
  replace ((c <? 0) || (Z.of_nat (List.length table) <=? c)) with false by lia.
  destruct (nth_error table (Z.to_nat c)) as [a|] eqn:E; [|apply nth_error_None in E; lia].
  f_equal. symmetry. now apply nth_error_nth.
Qed.

(** Indexing by codes below the table length never raises. *)
Lemma index_names (table : list str) n l : Z.of_nat (List.length table) = n -> forallb (codeb n) l = true ->
  mapM (py_index table) l = Ok (names table l).
Proof.
  intros Hn. induction l as [|c l IH]; intros H; [reflexivity|]. cbn in H. apply andb_prop in H.
  destruct H as [Hc H]. specialize (IH H). cbn [mapM names map]. unfold codeb in Hc.
  rewrite IH, (index_ok table c) by lia. reflexivity.
Qed.

Lemma codeb_code n l : n <= 256 -> forallb (codeb n) l = true -> Forall is_code l.
Proof.
  intros Hn H. apply Forall_forall. intros x Hx. rewrite forallb_forall in H. specialize (H x Hx).
  unfold codeb, is_code in *. lia.
Qed.

(** ** The two-key tables *)
  Lemma count_exists rs k1 k2 : count k2 (seconds k1 rs) <> 0 <-> exists a b, In ((k1, k2), (a, b)) rs.
  Proof.
    change k2 with (snd (k1, k2)) at 1. change k1 with (fst (k1, k2)) at 2. rewrite count_seconds. split.
    - intros H. destruct (filter (is_key (k1, k2)) rs) as [|[key [a b]] t] eqn:E; [cbn in H; lia|].
      exists a, b. assert (In (key, (a, b)) (filter (is_key (k1, k2)) rs)) as G by (rewrite E; now left).
      apply filter_In in G. destruct G as [G1 G2]. apply is_key_eq in G2. cbn in G2. now subst.
    - intros (a & b & H) E. assert (In ((k1, k2), (a, b)) (filter (is_key (k1, k2)) rs)) as G.
      { apply filter_In. split; [easy|]. now apply is_key_eq. }
      destruct (filter (is_key (k1, k2)) rs); [easy|cbn in E; lia].
  Qed.
  Lemma prec_parts rs lo n1 n (Hok : forallb (prec_okb lo n1 60 n) rs = true) k1 k2 a b :
    In ((k1, k2), (a, b)) rs ->
    (lo <= k1 /\ 0 <= k1 < n1 /\ 0 <= k2 < 60) /\ forallb (codeb n) a = true /\ forallb (codeb n) b = true.
  Proof.
    intros H. pose proof Hok as Q. rewrite forallb_forall in Q. specialize (Q _ H). unfold prec_okb in Q.
    rewrite !andb_true_iff in Q. destruct Q as ((((Q1 & Q2) & Q3) & Q4) & Q5).
    unfold codeb in Q2, Q3. repeat split; try assumption; lia.
  Qed.

Section TWO.
  Variables (f : Z * Z -> str) (rs : list prec) (table : list str) (lo n1 n : Z) (w : nat) (k : Z).
  Hypothesis Hn : n <= 256.
  Hypothesis Htable : Z.of_nat (List.length table) = n.
  Hypothesis Hok : forallb (prec_okb lo n1 60 n) rs = true.
  Hypothesis Hf : forall k1 k2, lo <= k1 -> 0 <= k1 < n1 -> 0 <= k2 < 60 ->
    List.length (f (k1, k2)) = w /\ ~ In EQ (f (k1, k2)).
  Hypothesis Hinj : forall k1 k2 k1' k2', lo <= k1 -> 0 <= k1 < n1 -> 0 <= k2 < 60 ->
    lo <= k1' -> 0 <= k1' < n1 -> 0 <= k2' < 60 -> f (k1, k2) = f (k1', k2') -> (k1, k2) = (k1', k2').
  Hypothesis Hk : k = Z.of_nat w.

  Lemma keyed_ok (key : str) : List.length key = w -> Forall (rec2_ok (List.length key)) (keyed f rs).
  Proof.
    intros L. apply Forall_forall. intros r Hr. unfold keyed in Hr. apply in_map_iff in Hr.
    destruct Hr as ([[k1 k2] [a b]] & <- & Hr). apply (prec_parts _ _ _ _ Hok) in Hr. destruct Hr as ((H1 & H2 & H3) & Ha & Hb).
    destruct (Hf k1 k2 H1 H2 H3) as [L' N']. unfold rec2_ok. cbn [fst snd]. rewrite L, L'.
    split; [reflexivity|]. split; [exact N'|]. split; now apply (codeb_code n).
  Qed.

  Lemma two_found k1 k2 a b : In ((k1, k2), (a, b)) rs -> count k2 (seconds k1 rs) = 1 ->
    packed_get (enc (enc2 (keyed f rs))) table (f (k1, k2)) k before_comma = Ok (or_none (names table a))
    /\ packed_get (enc (enc2 (keyed f rs))) table (f (k1, k2)) k after_comma = Ok (or_none (names table b)).
  Proof.
    intros Hin Hc. destruct (prec_parts _ _ _ _ Hok _ _ _ _ Hin) as ((H1 & H2 & H3) & Ha & Hb).
    destruct (Hf k1 k2 H1 H2 H3) as [L' N'].
    assert (k = slen (f (k1, k2))) as Hk' by (unfold slen; now rewrite L').
    rewrite packed_get_before, packed_get_after by auto using keyed_ok.
    change k2 with (snd (k1, k2)) in Hc. change k1 with (fst (k1, k2)) in Hc at 2.
    rewrite count_seconds in Hc.
    assert (In ((k1, k2), (a, b)) (filter (is_key (k1, k2)) rs)) as Hf'.
    { apply filter_In. split; [easy|]. now apply is_key_eq. }
    rewrite lookup2_keyed.
    - destruct (filter (is_key (k1, k2)) rs) as [|r [|? ?]]; [easy| |cbn in Hc; lia].
      destruct Hf' as [->|[]]. cbn [snd].
      rewrite !(index_names table n) by easy. easy.
    - intros [[k1' k2'] [a' b']] Hr E. cbn [fst] in *. symmetry. 
      destruct (prec_parts _ _ _ _ Hok _ _ _ _ Hr) as ((? & ? & ?) & _). now apply Hinj.
  Qed.

  Lemma two_absent (key : str) : List.length key = w -> ~ In EQ key ->
    (forall k1 k2 v, In ((k1, k2), v) rs -> key <> f (k1, k2)) ->
    packed_get (enc (enc2 (keyed f rs))) table key k before_comma = Ok [utf8 "无"%string]
    /\ packed_get (enc (enc2 (keyed f rs))) table key k after_comma = Ok [utf8 "无"%string].
  Proof.
    intros L N H. assert (k = slen key) as Hk' by (unfold slen; now rewrite L).
    rewrite packed_get_before, packed_get_after by auto using keyed_ok.
    rewrite lookup2_absent; [easy|]. intros [[k1 k2] v] Hr. apply (H _ _ _ Hr).
  Qed.

End TWO.

(** ** Pillar keys *)
Definition JZ (i : Z) : str := nth (Z.to_nat i) LunarUtil_JIA_ZI [].

Lemma jz_table : forallb (fun i => getJiaZiIndex (JZ i) =? i) (zrange 0 60) = true.
Proof. vm_compute. reflexivity. Qed.
Lemma jz_index i : 0 <= i < 60 -> getJiaZiIndex (JZ i) = i.
Proof. intros H. pose proof (forallb_zrange _ _ _ jz_table i ltac:(lia)). cbv beta in *. lia. Qed.

Lemma index_of_range s l : forall k, (index_of k s l = -1 /\ ~ In s l)
  \/ exists i, (i < List.length l)%nat /\ index_of k s l = k + Z.of_nat i /\ nth i l [] = s.
Proof.
  induction l as [|a l IH]; intros k; cbn [index_of]; [left; easy|].
  destruct (str_eqb_spec a s) as [->|N].
  - right. exists 0%nat. cbn. repeat split; lia.
  - destruct (IH (k + 1)) as [[E H]|(i & L & E & H)].
    + left. rewrite E. split; [easy|]. intros [?|?]; easy.
    + right. exists (Datatypes.S i). cbn. repeat split; [lia| |easy]. rewrite E. lia.
Qed.

(** Any string: an index 0..59 or -1. *)
Lemma jz_any s : (getJiaZiIndex s = -1 /\ forall i, 0 <= i < 60 -> s <> JZ i)
  \/ exists i, 0 <= i < 60 /\ s = JZ i /\ getJiaZiIndex s = i.
Proof.
  unfold getJiaZiIndex. destruct (index_of_range s LunarUtil_JIA_ZI 0) as [[E H]|(i & L & E & H)].
  - left. split; [easy|]. intros i Hi ->. apply H. unfold JZ. apply nth_In.
    change (List.length LunarUtil_JIA_ZI) with 60%nat. lia.
  - right. exists (Z.of_nat i). change (List.length LunarUtil_JIA_ZI) with 60%nat in L.
    split; [lia|]. split; [|lia]. unfold JZ. now rewrite Nat2Z.id.
Qed.

Lemma hexm1 : LunarUtil_hex (-1) = [45; 49].
Proof. reflexivity. Qed.
Lemma hex_len c : is_code c -> List.length (LunarUtil_hex c) = 2%nat /\ ~ In EQ (LunarUtil_hex c).
Proof.
  intros H. destruct (hex_code c H) as (a & b & E & _ & Q). rewrite E. split; [reflexivity|].
  intros X. now apply Q in X.
Qed.
Lemma hex_not_m1 c : is_code c -> LunarUtil_hex c <> [45; 49].
Proof.
  intros H E. destruct (hex_code c H) as (a & b & E' & I & _). rewrite E' in E. injection E as -> ->.
  discriminate I.
Qed.

Lemma app2_inj {A} (a b c d : list A) : List.length a = List.length c -> a ++ b = c ++ d -> a = c /\ b = d.
Proof.
  revert c; induction a as [|x a IH]; intros [|y c] L E; try discriminate L; [easy|].
  injection L as L. injection E as -> E. destruct (IH _ L E). now subst.
Qed.

Lemma is_code_60 i : 0 <= i < 60 -> is_code i.
Proof. unfold is_code. lia. Qed.
Local Hint Resolve is_code_60 : core.

Lemma time_key_ok k1 k2 : 0 <= k1 -> 0 <= k1 < 60 -> 0 <= k2 < 60 ->
  List.length (time_key (k1, k2)) = 4%nat /\ ~ In EQ (time_key (k1, k2)).
Proof.
  intros _ H1 H2. unfold time_key. cbn [fst snd]. rewrite app_length, in_app_iff.
  destruct (hex_len k1), (hex_len k2); auto. split; [lia|tauto].
Qed.
Lemma time_key_inj k1 k2 k1' k2' : 0 <= k1 -> 0 <= k1 < 60 -> 0 <= k2 < 60 ->
  0 <= k1' -> 0 <= k1' < 60 -> 0 <= k2' < 60 ->
  time_key (k1, k2) = time_key (k1', k2') -> (k1, k2) = (k1', k2').
Proof.
  intros _ H1 H2 _ H3 H4 E. unfold time_key in E. cbn [fst snd] in E. apply app2_inj in E.
  - destruct E as [E1 E2]. apply hex_inj in E1; auto. apply hex_inj in E2; auto. now subst.
  - destruct (hex_len k1), (hex_len k1'); auto. lia.
Qed.

(** *** getTimeYi / getTimeJi
    A record of the packed text for the pair is what is returned, names for codes ("无" for none). *)
Theorem C40_time : forall d t a b, In ((d, t), (a, b)) time_recs ->
  LunarUtil_getTimeYi (JZ d) (JZ t) = Ok (or_none (names LunarUtil_YI_JI a))
  /\ LunarUtil_getTimeJi (JZ d) (JZ t) = Ok (or_none (names LunarUtil_YI_JI b)).
Proof.
  intros d t a b H.
  destruct (prec_parts time_recs 0 60 142 time_ok _ _ _ _ H) as ((_ & Hd & Ht) & _).
  pose proof (forallb_zrange _ _ _ time_once d ltac:(lia)) as T. cbv beta zeta in T.
  pose proof (forallb_zrange _ _ _ T t ltac:(lia)) as T'. cbv beta in T'. clear T.
  assert (count t (seconds d time_recs) <> 0) as C by (apply count_exists; eauto).
  unfold LunarUtil_getTimeYi, LunarUtil_getTimeJi. rewrite <- C40_time_text.
  rewrite !jz_index by easy.
  apply (two_found time_key time_recs LunarUtil_YI_JI 0 60 142 4%nat 4
    ltac:(lia) (proj1 table_lengths) time_ok time_key_ok time_key_inj eq_refl _ _ _ _ H).
  destruct (_ <? 12); lia.
Qed.

(** There is a record exactly for the twelve hour pillars that occur on a day with that pillar: hour
    branch [h] of day [d] has pillar [(12 d + h) mod 60]. *)
Theorem C40_time_cover : forall d t, 0 <= d < 60 -> 0 <= t < 60 ->
  ((exists a b, In ((d, t), (a, b)) time_recs) <-> exists h, 0 <= h < 12 /\ t = (12 * d + h) mod 60).
Proof.
  intros d t Hd Ht. rewrite <- count_exists.
  pose proof (forallb_zrange _ _ _ time_once d ltac:(lia)) as T. cbv beta zeta in T.
  pose proof (forallb_zrange _ _ _ T t ltac:(lia)) as T'. cbv beta in T'. clear T.
  assert (count t (seconds d time_recs) <> 0 <-> (t - 12 * d) mod 60 < 12) as ->.
  { destruct (Z.ltb_spec ((t - 12 * d) mod 60) 12); lia. }
  split.
  - intros H. exists ((t - 12 * d) mod 60). Z.div_mod_to_equations. lia.
  - intros (h & Hh & ->). Z.div_mod_to_equations. lia.
Qed.

(** Anything else: "无"; nothing ever raises. *)
Theorem C40_time_other : forall x y,
  (forall d t a b, In ((d, t), (a, b)) time_recs -> ~ (x = JZ d /\ y = JZ t)) ->
  LunarUtil_getTimeYi x y = Ok [utf8 "无"%string] /\ LunarUtil_getTimeJi x y = Ok [utf8 "无"%string].
Proof.
  intros x y H. unfold LunarUtil_getTimeYi, LunarUtil_getTimeJi. rewrite <- C40_time_text.
  assert (forall s, List.length (LunarUtil_hex (getJiaZiIndex s)) = 2%nat /\ ~ In EQ (LunarUtil_hex (getJiaZiIndex s))) as A.
  { intros s. destruct (jz_any s) as [[-> _]|(i & Hi & _ & ->)].
    - rewrite hexm1. cbn. unfold EQ. lia.
    - apply hex_len. auto. }
  apply (two_absent time_key time_recs LunarUtil_YI_JI 0 60 142 4%nat 4 ltac:(lia) time_ok time_key_ok eq_refl).
  - rewrite app_length. destruct (A x), (A y). lia.
  - rewrite in_app_iff. destruct (A x), (A y). tauto.
  - intros d t v Hin E. destruct v as [a b].
    destruct (prec_parts time_recs 0 60 142 time_ok _ _ _ _ Hin) as ((_ & Hd & Ht) & _).
    apply (H d t a b Hin). unfold time_key in E. cbn [fst snd] in E. apply app2_inj in E.
    2:{ destruct (A x), (hex_len d); auto. lia. }
    destruct E as [E1 E2].
    destruct (jz_any x) as [[Ex _]|(i & Hi & Ex & Ei)].
    { rewrite Ex, hexm1 in E1. symmetry in E1. now apply hex_not_m1 in E1; auto. }
    destruct (jz_any y) as [[Ey _]|(j & Hj & Ey & Ej)].
    { rewrite Ey, hexm1 in E2. symmetry in E2. now apply hex_not_m1 in E2; auto. }
    rewrite Ei in E1. rewrite Ej in E2. apply hex_inj in E1; auto. apply hex_inj in E2; auto. now subst.
Qed.

(** *** getDayJiShen / getDayXiongSha *)
Lemma month_hex_table : forallb (fun m => match py_hex m with
  | [c] => negb (c =? EQ) && match int16 [c] with Ok v => v =? m | _ => false end | _ => false end) (zrange 1 13) = true.
Proof. vm_compute. reflexivity. Qed.
Lemma month_hex m : 1 <= m -> m < 13 -> exists c, py_hex m = [c] /\ c <> EQ /\ int16 [c] = Ok m.
Proof.
  intros H1 H2. pose proof (forallb_zrange _ _ _ month_hex_table m ltac:(lia)) as T. cbv beta in T.
  destruct (py_hex m) as [|c [|? ?]]; try discriminate. exists c. split; [reflexivity|].
  apply andb_prop in T. destruct T as [T1 T2]. destruct (int16 [c]); [|discriminate].
  split; [lia|f_equal; lia].
Qed.

Lemma shensha_key_ok k1 k2 : 1 <= k1 -> 0 <= k1 < 13 -> 0 <= k2 < 60 ->
  List.length (shensha_key (k1, k2)) = 3%nat /\ ~ In EQ (shensha_key (k1, k2)).
Proof.
  intros H0 H1 H2. unfold shensha_key. cbn [fst snd]. rewrite app_length, in_app_iff.
  destruct (month_hex k1) as (c & -> & N & _); try lia. destruct (hex_len k2); auto. cbn. split; [lia|].
  intros [[?|[]]|?]; congruence.
Qed.
Lemma shensha_key_inj k1 k2 k1' k2' : 1 <= k1 -> 0 <= k1 < 13 -> 0 <= k2 < 60 ->
  1 <= k1' -> 0 <= k1' < 13 -> 0 <= k2' < 60 ->
  shensha_key (k1, k2) = shensha_key (k1', k2') -> (k1, k2) = (k1', k2').
Proof.
  intros H0 H1 H2 H0' H3 H4 E. unfold shensha_key in E. cbn [fst snd] in E.
  destruct (month_hex k1) as (c & E1 & N & I); try lia.
  destruct (month_hex k1') as (c' & E1' & N' & I'); try lia.
  rewrite E1, E1' in E. cbn in E. injection E as <- E. apply hex_inj in E; auto.
  rewrite I in I'. apply Ok_inj in I'. now subst.
Qed.

(** A record of the packed text for (month, day pillar) is what is returned; leap months (negative)
    read like the month they repeat. *)
Theorem C40_shensha : forall m d a b, In ((Z.abs m, d), (a, b)) shensha_recs ->
  LunarUtil_getDayJiShen m (JZ d) = Ok (or_none (names LunarUtil_SHEN_SHA a))
  /\ LunarUtil_getDayXiongSha m (JZ d) = Ok (or_none (names LunarUtil_SHEN_SHA b)).
Proof.
  intros m d a b H.
  destruct (prec_parts shensha_recs 1 13 148 shensha_ok _ _ _ _ H) as ((Hm' & Hm & Hd) & _).
  pose proof (forallb_zrange _ _ _ shensha_once (Z.abs m) ltac:(lia)) as T. cbv beta zeta in T.
  pose proof (forallb_zrange _ _ _ T d ltac:(lia)) as T'. cbv beta in T'. clear T.
  unfold LunarUtil_getDayJiShen, LunarUtil_getDayXiongSha. rewrite <- C40_shensha_text.
  rewrite !jz_index by easy.
  apply (two_found shensha_key shensha_recs LunarUtil_SHEN_SHA 1 13 148 3%nat 3
    ltac:(lia) (proj2 table_lengths) shensha_ok shensha_key_ok shensha_key_inj eq_refl _ _ _ _ H). lia.
Qed.

(** Every month and day pillar has a record. *)
Theorem C40_shensha_cover : forall m d, 1 <= Z.abs m <= 12 -> 0 <= d < 60 ->
  exists a b, In ((Z.abs m, d), (a, b)) shensha_recs.
Proof.
  intros m d Hm Hd. apply count_exists.
  pose proof (forallb_zrange _ _ _ shensha_once (Z.abs m) ltac:(lia)) as T. cbv beta zeta in T.
  pose proof (forallb_zrange _ _ _ T d ltac:(lia)) as T'. cbv beta in T'. lia.
Qed.

Theorem C40_shensha_other : forall m x, 1 <= Z.abs m <= 12 -> (forall i, 0 <= i < 60 -> x <> JZ i) ->
  LunarUtil_getDayJiShen m x = Ok [utf8 "无"%string] /\ LunarUtil_getDayXiongSha m x = Ok [utf8 "无"%string].
Proof.
  intros m x Hm H. unfold LunarUtil_getDayJiShen, LunarUtil_getDayXiongSha. rewrite <- C40_shensha_text.
  destruct (jz_any x) as [[Ex _]|(i & Hi & Ex & Ei)]; [|now apply H in Ex].
  rewrite Ex, hexm1. destruct (month_hex (Z.abs m)) as (c & E & N & _); try lia. rewrite E.
  apply (two_absent shensha_key shensha_recs LunarUtil_SHEN_SHA 1 13 148 3%nat 3 ltac:(lia) shensha_ok shensha_key_ok eq_refl).
  - reflexivity.
  - cbn. unfold EQ in *. lia.
  - intros k1 k2 [a b] Hin E'. 
    destruct (prec_parts shensha_recs 1 13 148 shensha_ok _ _ _ _ Hin) as ((Hm' & Hm2 & Hd) & _).
    unfold shensha_key in E'. cbn [fst snd] in E'.
    destruct (month_hex k1) as (c' & E1' & N' & I'); try lia. rewrite E1' in E'. cbn in E'.
    injection E' as _ E'. symmetry in E'. now apply hex_not_m1 in E'; auto.
Qed.

(** ** getDayYi / getDayJi: several records per day, each for a set of months *)
Definition drec_ok (r : drec) : Prop :=
  let '(d, (ms, (a, b))) := r in is_code d /\ Forall is_code ms /\ Forall is_code a /\ Forall is_code b.

Definition value3 (r : drec) : str :=
  let '(d, (ms, (a, b))) := r in codes ms ++ 58 :: codes a ++ 44 :: codes b.

Fixpoint lookup3 (dk mk : str) (rs : list drec) : option (list Z * list Z) :=
  match rs with
  | [] => None
  | (d, (ms, ab)) :: t =>
      if str_eqb dk (LunarUtil_hex d) && existsb (fun m => str_eqb (LunarUtil_hex m) mk) ms then Some ab
      else lookup3 dk mk t
  end.

Fixpoint from_key3 (dk : str) (rs : list drec) : list drec :=
  match rs with
  | [] => []
  | r :: t => if str_eqb dk (LunarUtil_hex (fst r)) then r :: t else from_key3 dk t
  end.

Lemma enc3_cons r rs : enc3 (r :: rs) = (LunarUtil_hex (fst r), value3 r) :: enc3 rs.
Proof. destruct r as [d [ms [a b]]]. reflexivity. Qed.

Lemma from_key_enc3 dk rs : from_key dk (enc3 rs) = enc3 (from_key3 dk rs).
Proof.
  induction rs as [|r rs IH]; [reflexivity|]. rewrite enc3_cons. cbn [from_key from_key3 fst].
  destruct (str_eqb dk (LunarUtil_hex (fst r))); [now rewrite enc3_cons|exact IH].
Qed.

Lemma lookup3_from dk mk rs : lookup3 dk mk rs = lookup3 dk mk (from_key3 dk rs).
Proof.
  induction rs as [|r rs IH]; [reflexivity|]. destruct r as [d [ms ab]]. cbn [lookup3 from_key3 fst].
  destruct (str_eqb dk (LunarUtil_hex d)) eqn:E; cbn [andb]; [|exact IH]. cbn [lookup3]. now rewrite E.
Qed.

Lemma value3_clean r : drec_ok r -> ~ In EQ (value3 r).
Proof.
  destruct r as [d [ms [a b]]]. intros (Hd & Hm & Ha & Hb). unfold value3. rewrite in_app_iff.
  intros [X|[X|X]]; [now apply (codes_clean _ Hm) in X|discriminate X|].
  rewrite in_app_iff in X.
  destruct X as [X|[X|X]]; [now apply (codes_clean _ Ha) in X|discriminate X|now apply (codes_clean _ Hb) in X].
Qed.

Lemma enc3_ok dk rs : List.length dk = 2%nat -> Forall drec_ok rs -> Forall (rec_ok dk) (enc3 rs).
Proof.
  intros L. induction 1 as [|r rs Hr Hrs IH]; [constructor|]. rewrite enc3_cons. constructor; [|exact IH].
  unfold rec_ok. cbn [fst snd]. rewrite L.
  assert (is_code (fst r)) as Hc by (destruct r as [d [ms [a b]]]; apply Hr).
  destruct (hex_len _ Hc). auto using value3_clean.
Qed.

Lemma from_key3_ok dk rs : Forall drec_ok rs -> Forall drec_ok (from_key3 dk rs).
Proof.
  induction 1 as [|r rs Hr Hrs IH]; cbn; [constructor|].
  destruct (str_eqb dk (LunarUtil_hex (fst r))); [now constructor|exact IH].
Qed.

Definition pick_yi (l : str) : str := slice l (py_find l (lit ":") + 1) (py_find l (lit ",")).
Definition pick_ji (l : str) : str := slice_from l (py_find l (lit ",") + 1).

Lemma value3_months r : drec_ok r -> slice (value3 r) 0 (py_find (value3 r) (lit ":")) = codes (fst (snd r)).
Proof.
  destruct r as [d [ms [a b]]]. intros (Hd & Hm & Ha & Hb). unfold value3, py_find. cbn [fst snd].
  change (lit ":") with [58]. rewrite find_char by (intros X; now apply (codes_clean _ Hm) in X).
  now apply slice_0.
Qed.

Lemma value3_comma r : drec_ok r -> let '(d, (ms, (a, b))) := r in
  py_find (value3 r) (lit ",") = slen (codes ms) + 1 + slen (codes a).
Proof.
  destruct r as [d [ms [a b]]]. intros (Hd & Hm & Ha & Hb). unfold value3, py_find.
  change (lit ",") with [44].
  replace (codes ms ++ 58 :: codes a ++ 44 :: codes b) with ((codes ms ++ 58 :: codes a) ++ 44 :: codes b)
    by (now rewrite <- app_assoc).
  rewrite find_char.
  - rewrite slen_app, slen_cons. lia.
  - rewrite in_app_iff. intros [X|[X|X]]; [now apply (codes_clean _ Hm) in X|discriminate X|now apply (codes_clean _ Ha) in X].
Qed.

Lemma value3_yi r : drec_ok r -> pick_yi (value3 r) = codes (fst (snd (snd r))).
Proof.
  intros H. pose proof (value3_comma r H) as C. destruct r as [d [ms [a b]]]. unfold pick_yi. rewrite C.
  destruct H as (Hd & Hm & Ha & Hb). unfold value3, py_find. cbn [fst snd].
  change (lit ":") with [58]. rewrite find_char by (intros X; now apply (codes_clean _ Hm) in X).
  replace (codes ms ++ 58 :: codes a ++ 44 :: codes b) with ((codes ms ++ [58]) ++ codes a ++ 44 :: codes b)
    by (now rewrite <- app_assoc).
  apply slice_mid; rewrite app_length; unfold slen; cbn [List.length]; lia.
Qed.

Lemma value3_ji r : drec_ok r -> pick_ji (value3 r) = codes (snd (snd (snd r))).
Proof.
  intros H. pose proof (value3_comma r H) as C. destruct r as [d [ms [a b]]]. unfold pick_ji. rewrite C.
  unfold value3. cbn [fst snd].
  replace (codes ms ++ 58 :: codes a ++ 44 :: codes b) with ((codes ms ++ 58 :: codes a ++ [44]) ++ codes b)
    by (rewrite <- app_assoc; cbn; now rewrite <- app_assoc).
  apply slice_from_app. rewrite app_length. cbn [List.length]. rewrite app_length. unfold slen. cbn [List.length]. lia.
Qed.

Lemma existsb_map {A B} (g : A -> B) p l : existsb p (map g l) = existsb (fun x => p (g x)) l.
Proof. induction l as [|x l IH]; cbn; [reflexivity|now rewrite IH]. Qed.

Lemma day_loop dk mk pick sel rs :
  ~ In EQ dk -> List.length dk = 2%nat -> Forall drec_ok rs ->
  (forall r, drec_ok r -> pick (value3 r) = codes (sel (snd (snd r)))) ->
  loop (slen (enc (enc3 rs)) + 2) (dayYiJi_step dk mk pick) (enc (enc3 rs), py_find (enc (enc3 rs)) (dk ++ lit "=")) =
  Ok (match lookup3 dk mk rs with
      | Some ab => decode_codes LunarUtil_YI_JI (codes (sel ab))
      | None => Ok [] end).
Proof.
  intros N L Hrs Hpick.
  set (R := match lookup3 dk mk rs with
      | Some ab => decode_codes LunarUtil_YI_JI (codes (sel ab))
      | None => Ok [] end).
  destruct (loop_rule
    (fun st => exists v rs', fst st = v ++ enc (enc3 rs') /\ ~ In EQ v /\ Forall drec_ok rs'
       /\ snd st = py_find (fst st) (dk ++ lit "=") /\ lookup3 dk mk rs = lookup3 dk mk rs')
    (fun r => r = R) (fun st => slen (fst st)) (dayYiJi_step dk mk pick)
    (slen (enc (enc3 rs)) + 2) (enc (enc3 rs), py_find (enc (enc3 rs)) (dk ++ lit "="))) as (r & E & ->); [| | | |exact E].
  - intros st _. apply slen_nonneg.
  - intros [rest index] (v & rs' & Ev & Nv & Hrs' & Ei & El). cbn [fst snd] in *. unfold dayYiJi_step.
    pose proof (find_enc dk N (enc3 rs') (enc3_ok _ _ L Hrs') v Nv) as F. rewrite <- Ev in F.
    rewrite from_key_enc3 in F. unfold py_find in Ei. change (lit "=") with [EQ] in *.
    destruct (from_key3 dk rs') as [|r t] eqn:Et.
    + cbn [enc3 map] in F. rewrite F in Ei. subst index. cbn [Z.leb Z.compare].
      unfold R. rewrite El, lookup3_from, Et. reflexivity.
    + rewrite enc3_cons in F. cbn [fst snd] in F.
      destruct F as (u & Eu & Ek & Hr' & Ht & F). rewrite F in Ei. subst index.
      pose proof (slen_nonneg u). replace (0 + slen u <=? -1) with false by lia.
      assert (slice_from rest (0 + slen u + 3) = value3 r ++ enc (enc3 t)) as ->.
      { rewrite Eu.
        replace (u ++ dk ++ EQ :: value3 r ++ enc (enc3 t)) with ((u ++ dk ++ [EQ]) ++ value3 r ++ enc (enc3 t))
          by (now rewrite <- !app_assoc).
        apply slice_from_app. rewrite !app_length. unfold slen. cbn [List.length]. lia. }
      assert (Forall drec_ok (r :: t)) as Hrt by (rewrite <- Et; now apply from_key3_ok).
      pose proof (Forall_inv Hrt) as Hr. pose proof (Forall_inv_tail Hrt) as Ht'.
      pose proof (cut_value dk (value3 r) (enc3 t) (value3_clean r Hr) Ht) as Cut.
      change (lit "=") with [EQ] in Cut. rewrite L in Cut. change (Z.of_nat 2) with 2 in Cut.
      set (w := value3 r ++ enc (enc3 t)) in *.
      cbv zeta. rewrite Cut, (value3_months r Hr).
      assert (Forall is_code (fst (snd r))) as Hms by (destruct r as [d [ms [a b]]]; apply Hr).
      rewrite chunks2_codes by easy. rewrite existsb_map.
      destruct (existsb (fun x => str_eqb (LunarUtil_hex x) mk) (fst (snd r))) eqn:M.
      * unfold R. rewrite El, lookup3_from, Et. destruct r as [d [ms ab]]. cbn [lookup3 fst snd] in *.
        rewrite Ek, str_eqb_refl, M. cbn [andb]. f_equal. now rewrite (Hpick _ Hr).
      * split.
        -- exists (value3 r), t. cbn [fst snd]. split; [reflexivity|]. split; [now apply value3_clean|].
           split; [easy|]. split; [reflexivity|]. rewrite El, lookup3_from, Et.
           destruct r as [d [ms ab]]. cbn [lookup3 fst snd] in *. rewrite M. now rewrite andb_false_r.
        -- cbn [fst]. rewrite Eu, !slen_app, !slen_cons.
           pose proof (slen_nonneg dk). pose proof (slen_nonneg v). lia.
  - exists [], rs. cbn [fst snd app]. repeat split; auto.
  - cbn [fst]. lia.
Qed.

Lemma day_recs_ok : Forall drec_ok day_recs.
Proof.
  apply Forall_forall. intros [d [ms [a b]]] H. pose proof day_ok as T. rewrite forallb_forall in T.
  specialize (T _ H). unfold drec_okb in T. rewrite !andb_true_iff in T. destruct T as (((T1 & T2) & T3) & T4).
  unfold codeb in T1. split; [unfold is_code; lia|]. repeat split; (eapply codeb_code; [|eassumption]; lia).
Qed.

Lemma dayYiJi_spec pick sel mk dk : (forall r, drec_ok r -> pick (value3 r) = codes (sel (snd (snd r)))) ->
  (forall ab, sel ab = fst ab) \/ (forall ab, sel ab = snd ab) ->
  dayYiJi pick mk dk =
  Ok (match lookup3 (LunarUtil_hex (getJiaZiIndex dk)) (LunarUtil_hex (getJiaZiIndex mk)) day_recs with
      | Some ab => or_none (names LunarUtil_YI_JI (sel ab))
      | None => [utf8 "无"%string] end).
Proof.
  intros Hp Hs. unfold dayYiJi.
  assert (List.length (LunarUtil_hex (getJiaZiIndex dk)) = 2%nat /\ ~ In EQ (LunarUtil_hex (getJiaZiIndex dk))) as [L N].
  { destruct (jz_any dk) as [[-> _]|(i & Hi & _ & ->)]; [rewrite hexm1; cbn; unfold EQ; lia|apply hex_len; auto]. }
  rewrite <- C40_day_text. cbv zeta.
  rewrite (day_loop _ (LunarUtil_hex (getJiaZiIndex mk)) pick sel day_recs N L day_recs_ok Hp). cbn [bind].
  destruct (lookup3 (LunarUtil_hex (getJiaZiIndex dk)) (LunarUtil_hex (getJiaZiIndex mk)) day_recs) as [ab|] eqn:E; [|reflexivity].
  assert (exists d ms, In (d, (ms, ab)) day_recs) as (d & ms & Hin).
  { revert E. generalize day_recs as rs. induction rs as [|[d [ms ab']] rs IH]; cbn [lookup3]; [easy|].
    destruct (_ && _); [intros E; injection E as <-; exists d, ms; now left|].
    intros E. destruct (IH E) as (d' & ms' & G). exists d', ms'. now right. }
  pose proof day_ok as T. rewrite forallb_forall in T. specialize (T _ Hin). destruct ab as [a b].
  unfold drec_okb in T. rewrite !andb_true_iff in T. destruct T as (((T1 & T2) & T3) & T4).
  assert (forallb (codeb 142) (sel (a, b)) = true) as Hc.
  { destruct Hs as [Hs|Hs]; rewrite Hs; easy. }
  rewrite decode_codes_spec by (eapply codeb_code; [|exact Hc]; lia).
  rewrite (index_names _ 142) by (exact Hc || apply table_lengths). reflexivity.
Qed.

(** A record for day pillar [d] whose months include [m]. *)
Definition is_drec (d m : Z) (a b : list Z) : Prop := exists ms, In (d, (ms, (a, b))) day_recs /\ In m ms.

Lemma lookup3_spec d m : 0 <= d < 60 -> 0 <= m < 60 ->
  exists a b, is_drec d m a b /\ (forall a' b', is_drec d m a' b' -> a' = a /\ b' = b)
              /\ lookup3 (LunarUtil_hex d) (LunarUtil_hex m) day_recs = Some (a, b).
Proof.
  intros Hd Hm.
  pose proof (forallb_zrange _ _ _ day_once d ltac:(lia)) as T. cbv beta zeta in T.
  pose proof (forallb_zrange _ _ _ T m ltac:(lia)) as T'. cbv beta in T'. clear T.
  unfold is_drec. pose proof day_recs_ok as Hok. revert T' Hok. generalize day_recs as rs.
  assert (forall m ms, Forall is_code ms -> is_code m ->
    existsb (fun x => str_eqb (LunarUtil_hex x) (LunarUtil_hex m)) ms = true <-> In m ms) as Mem.
  { intros x ms Hms Hx. rewrite existsb_exists. split.
    - intros (y & Hy & E). apply str_eqb_eq in E. apply hex_inj in E; [now subst| |easy].
      rewrite Forall_forall in Hms. auto.
    - intros H. exists x. split; [easy|apply str_eqb_refl]. }
  assert (forall x l, count x l = 0 <-> ~ In x l) as C0.
  { intros x l. unfold count. split.
    - intros E H. assert (In x (filter (fun y => y =? x) l)) as G by (apply filter_In; split; [easy|lia]).
      destruct (filter (fun y => y =? x) l); [easy|cbn in E; lia].
    - intros H. destruct (filter (fun y => y =? x) l) as [|y t] eqn:E; [reflexivity|]. exfalso. apply H.
      assert (In y (filter (fun y => y =? x) l)) as G by (rewrite E; now left). apply filter_In in G.
      replace x with y by lia. easy. }
  assert (forall x l l', count x (l ++ l') = count x l + count x l') as Capp.
  { intros. unfold count. rewrite filter_app, app_length. lia. }
  assert (forall d rs m ms ab, In (d, (ms, ab)) rs -> In m ms -> In m (day_months d rs)) as Din.
  { intros d0 rs m0 ms ab H1 H2. unfold day_months. apply in_concat. exists ms. split; [|easy].
    apply in_map_iff. exists (d0, (ms, ab)). split; [reflexivity|]. apply filter_In. cbn. split; [easy|lia]. }
  induction rs as [|[d' [ms [a b]]] rs IH]; intros T Hok.
  - cbn in T. discriminate T.
  - pose proof (Forall_inv Hok) as (Hc & Hms & Ha & Hb). pose proof (Forall_inv_tail Hok) as Hok'.
    change (day_months d ((d', (ms, (a, b))) :: rs))
      with (concat (map (fun r : drec => fst (snd r)) (if d' =? d then (d', (ms, (a, b))) :: filter (fun r : drec => fst r =? d) rs else filter (fun r : drec => fst r =? d) rs))) in T.
    cbn [lookup3].
    destruct (Z.eqb_spec d' d) as [->|Nd].
    + cbn [map concat fst snd] in T. fold (day_months d rs) in T. rewrite Capp in T.
      rewrite str_eqb_refl. cbn [andb].
      destruct (existsb _ ms) eqn:M.
      * apply Mem in M; auto.
        exists a, b. split; [exists ms; split; [now left|easy]|]. split; [|reflexivity].
        intros a' b' (ms' & [E|Hin] & Hm'); [injection E; auto|].
        exfalso. apply Din with (m := m) in Hin; [|easy].
        assert (count m ms <> 0) by (rewrite C0; tauto).
        assert (count m (day_months d rs) <> 0) by (rewrite C0; tauto).
        unfold count in *. lia.
      * assert (~ In m ms) as Nm by (intros X; apply Mem in X; auto; congruence).
        apply C0 in Nm as Nm'. rewrite Nm' in T.
        destruct (IH ltac:(lia) Hok') as (a0 & b0 & (ms0 & I0 & J0) & U & E).
        exists a0, b0. split; [exists ms0; split; [now right|easy]|]. split; [|exact E].
        intros a' b' (ms' & [Q|Hin] & Hm'); [injection Q as <- <- <-; easy|]. apply U. now exists ms'.
    + fold (day_months d rs) in T.
      destruct (str_eqb_spec (LunarUtil_hex d) (LunarUtil_hex d')) as [E|_];
        [apply hex_inj in E; auto; congruence|]. cbn [andb].
      destruct (IH T Hok') as (a0 & b0 & (ms0 & I0 & J0) & U & E).
      exists a0, b0. split; [exists ms0; split; [now right|easy]|]. split; [|exact E].
      intros a' b' (ms' & [Q|Hin] & Hm'); [injection Q as <- _ _ _; easy|]. apply U. now exists ms'.
Qed.

(** Every (day pillar, month pillar) has exactly one entry in the packed text and the two functions
    return its names. *)
Theorem C40_day : forall d m, 0 <= d < 60 -> 0 <= m < 60 ->
  exists a b, is_drec d m a b /\ (forall a' b', is_drec d m a' b' -> a' = a /\ b' = b)
  /\ LunarUtil_getDayYi (JZ m) (JZ d) = Ok (or_none (names LunarUtil_YI_JI a))
  /\ LunarUtil_getDayJi (JZ m) (JZ d) = Ok (or_none (names LunarUtil_YI_JI b)).
Proof.
  intros d m Hd Hm. destruct (lookup3_spec d m Hd Hm) as (a & b & H1 & H2 & H3).
  exists a, b. split; [easy|]. split; [easy|].
  unfold LunarUtil_getDayYi, LunarUtil_getDayJi.
  rewrite (dayYiJi_spec _ fst) by (auto || exact value3_yi).
  rewrite (dayYiJi_spec _ snd) by (auto || exact value3_ji).
  rewrite !jz_index by easy. rewrite H3. split; reflexivity.
Qed.

Theorem C40_day_other : forall x y, (forall i, 0 <= i < 60 -> x <> JZ i) \/ (forall i, 0 <= i < 60 -> y <> JZ i) ->
  LunarUtil_getDayYi x y = Ok [utf8 "无"%string] /\ LunarUtil_getDayJi x y = Ok [utf8 "无"%string].
Proof.
  intros x y H. unfold LunarUtil_getDayYi, LunarUtil_getDayJi.
  rewrite (dayYiJi_spec _ fst) by (auto || exact value3_yi).
  rewrite (dayYiJi_spec _ snd) by (auto || exact value3_ji).
  assert (lookup3 (LunarUtil_hex (getJiaZiIndex y)) (LunarUtil_hex (getJiaZiIndex x)) day_recs = None) as ->; [|easy].
  pose proof day_recs_ok as Hok. revert Hok. generalize day_recs as rs.
  induction 1 as [|[d [ms [a b]]] rs (Hc & Hms & Ha & Hb) Hrs IH]; [reflexivity|]. cbn [lookup3].
  destruct (_ && _) eqn:E; [exfalso|exact IH]. apply andb_prop in E. destruct E as [E1 E2].
  destruct H as [H|H].
  - destruct (jz_any x) as [[Ex _]|(i & Hi & Ex & Ei)]; [|now apply H in Ex]. rewrite Ex, hexm1 in E2.
    apply existsb_exists in E2. destruct E2 as (m & Hm & E2). apply str_eqb_eq in E2.
    rewrite Forall_forall in Hms. now apply hex_not_m1 in E2; auto.
  - destruct (jz_any y) as [[Ex _]|(i & Hi & Ex & Ei)]; [|now apply H in Ex]. rewrite Ex, hexm1 in E1.
    apply str_eqb_eq in E1. symmetry in E1. now apply hex_not_m1 in E1; auto.
Qed.

(** Concrete entries: the first record of the hour table (day 丁丑, hour 甲辰), day 甲子 in month 甲子,
    leap month 2 on a 乙丑 day. *)
Example C40_time_example : In ((13, 40), ([], [44; 46])) time_recs
  /\ LunarUtil_getTimeYi (JZ 13) (JZ 40) = Ok [utf8 "无"%string].
Proof.
  assert (In ((13, 40), ([], [44; 46])) time_recs) as H by (now left).
  split; [exact H|]. exact (proj1 (C40_time _ _ _ _ H)).
Qed.
Example C40_shensha_example : exists a b, In ((2, 1), (a, b)) shensha_recs
  /\ LunarUtil_getDayJiShen (-2) (JZ 1) = Ok (names LunarUtil_SHEN_SHA a) /\ (List.length a > 0)%nat.
Proof.
  destruct (C40_shensha_cover (-2) 1 ltac:(lia) ltac:(lia)) as (a & b & H). change (Z.abs (-2)) with 2 in H.
  pose proof (C40_shensha (-2) 1 a b H) as [E _].
  exists a, b. split; [exact H|].
  assert (a <> []) as N.
  { intros ->. assert (existsb (fun r : prec => match fst (snd r) with [] => true | _ => false end) shensha_recs = false) as Q
      by (vm_compute; reflexivity).
    assert (existsb (fun r : prec => match fst (snd r) with [] => true | _ => false end) shensha_recs = true) as Q'
      by (apply existsb_exists; exists ((2, 1), ([], b)); split; [exact H|reflexivity]). congruence. }
  destruct a; [easy|]. split; [exact E|cbn; lia].
Qed.
