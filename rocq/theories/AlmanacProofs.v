(** Searching the packed almanac tables: the substring search is exact for any text in which "="
    only follows keys. *)
From Coq Require Import ZArith Lia Bool ZifyBool List String.
From Verif Require Import Py PyFloat PyStr T_LunarUtil T_Almanac LunarUtil.
Import ListNotations.
Open Scope Z_scope.

Definition EQ : Z := 61.

Lemma slen_nonneg s : 0 <= slen s.
Proof. unfold slen. lia. Qed.

Lemma slen_app a b : slen (a ++ b) = slen a + slen b.
Proof. unfold slen. rewrite app_length. lia. Qed.

Lemma slen_cons x a : slen (x :: a) = 1 + slen a.
Proof. unfold slen. cbn [List.length]. lia. Qed.

Lemma slice_pos {A} (a : list A) i j : 0 <= i -> 0 <= j <= Z.of_nat (List.length a) -> i <= Z.of_nat (List.length a) ->
  slice a i j = firstn (Z.to_nat (j - i)) (skipn (Z.to_nat i) a).
Proof.
  intros Hi Hj L. unfold slice, clamp.
  replace (i <? 0) with false by lia. replace (j <? 0) with false by lia.
  now rewrite (Z.min_l i), (Z.min_l j) by lia.
Qed.

Lemma slice_0 {A} (a b : list A) n : n = Z.of_nat (List.length a) -> slice (a ++ b) 0 n = a.
Proof.
  intros ->. rewrite slice_pos by (rewrite ?app_length; lia).
  rewrite Z.sub_0_r, Nat2Z.id. cbn [Z.to_nat skipn].
  rewrite firstn_app, Nat.sub_diag, firstn_all. cbn. apply app_nil_r.
Qed.

Lemma slice_mid {A} (a b c : list A) n m :
  n = Z.of_nat (List.length a) -> m = Z.of_nat (List.length a + List.length b) -> slice (a ++ b ++ c) n m = b.
Proof.
  intros -> ->. rewrite slice_pos by (rewrite ?app_length; lia).
  rewrite Nat2Z.id, skipn_app, Nat.sub_diag, skipn_all. cbn [app skipn].
  rewrite firstn_app. replace (Z.to_nat (Z.of_nat (List.length a + List.length b) - Z.of_nat (List.length a)))
    with (List.length b) by lia.
  rewrite Nat.sub_diag, firstn_all. cbn. apply app_nil_r.
Qed.

Lemma slice_from_app {A} (a b : list A) n : n = Z.of_nat (List.length a) -> slice_from (a ++ b) n = b.
Proof.
  intros ->. unfold slice_from. rewrite <- (app_nil_r b) at 1.
  apply slice_mid; [reflexivity|]. now rewrite app_length.
Qed.

(** One-character search. *)
Lemma find_char c u : ~ In c u -> forall k rest, find_from k [c] (u ++ c :: rest) = k + slen u.
Proof.
  induction u as [|x u IH]; intros N k rest; cbn [app find_from prefixb].
  - rewrite Z.eqb_refl. cbn. unfold slen. cbn. lia.
  - replace (c =? x) with false by (symmetry; apply Z.eqb_neq; intros ->; apply N; now left).
    cbn [andb]. rewrite IH by (intros H; apply N; now right). rewrite slen_cons. lia.
Qed.

Lemma find_char_none c u : ~ In c u -> forall k, find_from k [c] u = -1.
Proof.
  induction u as [|x u IH]; intros N k; cbn [find_from prefixb]; [reflexivity|].
  replace (c =? x) with false by (symmetry; apply Z.eqb_neq; intros ->; apply N; now left).
  cbn [andb]. apply IH. intros H; apply N; now right.
Qed.

Lemma prefixb_app p s t : List.length p = List.length s -> prefixb p (s ++ t) = str_eqb p s.
Proof.
  revert s; induction p as [|x p IH]; intros [|y s] L; try discriminate L; [reflexivity|].
  injection L as L. cbn. now rewrite IH.
Qed.

Lemma prefixb_nth p : forall s i d, prefixb p s = true -> (i < List.length p)%nat -> nth i s d = nth i p d.
Proof.
  induction p as [|x p IH]; intros s i d H L; [cbn in L; lia|].
  destruct s as [|y s]; [discriminate|]. cbn in H. apply andb_prop in H. destruct H as [H1 H2].
  apply Z.eqb_eq in H1. subst y. destruct i as [|i]; [reflexivity|]. cbn. apply IH; [easy|cbn in L; lia].
Qed.

Section FIND.
  Variable key : str.
  Hypothesis Hkey : ~ In EQ key.
  Let pat := key ++ [EQ].
  Let K := List.length key.

  Lemma pat_nth i : (i < List.length pat)%nat -> nth i pat 0 = EQ -> i = K.
  Proof.
    unfold pat. rewrite app_length. cbn. intros L E.
    destruct (Nat.lt_ge_cases i K) as [H|H].
    - rewrite app_nth1 in E by easy. exfalso. apply Hkey. rewrite <- E. now apply nth_In.
    - unfold K in *. lia.
  Qed.

  (** The pattern ["key="] in [u ++ "=" ++ rest]: it matches just before this "=" iff [u] ends with
      [key]; otherwise the search goes on after the "=". *)
  Lemma find_skip u : ~ In EQ u -> forall k rest,
    find_from k pat (u ++ EQ :: rest) =
      if (K <=? List.length u)%nat && str_eqb key (skipn (List.length u - K) u)
      then k + slen u - Z.of_nat K
      else find_from (k + slen u + 1) pat rest.
  Proof.
    induction u as [|x u IH]; intros N k rest.
    - cbn [app find_from]. unfold slen. cbn [List.length].
      replace (k + Z.of_nat 0 + 1) with (k + 1) by lia.
      destruct (Nat.eq_dec K 0) as [E0|E0].
      + assert (key = []) as Ek by (destruct key; [reflexivity|discriminate]).
        unfold pat. replace K with 0%nat by easy. rewrite Ek. cbn. unfold EQ. cbn. lia.
      + replace (K <=? 0)%nat with false by (symmetry; apply Nat.leb_gt; lia). cbn [andb].
        destruct (prefixb pat (EQ :: rest)) eqn:P; [exfalso|reflexivity].
        pose proof (prefixb_nth _ _ 0%nat 0 P) as H. cbn [nth] in H.
        assert (0 < List.length pat)%nat as L by (unfold pat; rewrite app_length; cbn; lia).
        specialize (H L). symmetry in H. pose proof (pat_nth 0 L H). lia.
    - change ((x :: u) ++ EQ :: rest) with (x :: (u ++ EQ :: rest)). cbn [find_from].
      assert (~ In EQ u) as Nu by (intros H; apply N; now right).
      rewrite (IH Nu). rewrite slen_cons. cbn [List.length].
      destruct (Nat.lt_trichotomy K (Datatypes.S (List.length u))) as [H|[H|H]].
      + (* the pattern would end before the "=" *)
        assert (prefixb pat (x :: u ++ EQ :: rest) = false) as ->.
        { destruct (prefixb pat (x :: u ++ EQ :: rest)) eqn:P; [exfalso|reflexivity].
          pose proof (prefixb_nth _ _ K 0 P) as G.
          assert (K < List.length pat)%nat as L by (unfold pat; rewrite app_length; cbn; fold K; lia).
          specialize (G L). unfold pat in G. rewrite app_nth2 in G by (fold K; lia). fold K in G.
          rewrite Nat.sub_diag in G. change (nth 0 [EQ] 0) with EQ in G.
          change (x :: u ++ EQ :: rest) with ((x :: u) ++ EQ :: rest) in G.
          rewrite app_nth1 in G by (cbn; lia). apply N. rewrite <- G. apply nth_In. cbn. lia. }
        replace (K <=? List.length u)%nat with true by (symmetry; apply Nat.leb_le; lia).
        replace (K <=? Datatypes.S (List.length u))%nat with true by (symmetry; apply Nat.leb_le; lia).
        replace (Datatypes.S (List.length u) - K)%nat with (Datatypes.S (List.length u - K)) by lia.
        cbn [skipn]. destruct (true && _); [lia|].
        f_equal. lia.
      + replace (K <=? List.length u)%nat with false by (symmetry; apply Nat.leb_gt; lia).
        replace (K <=? Datatypes.S (List.length u))%nat with true by (symmetry; apply Nat.leb_le; lia).
        replace (Datatypes.S (List.length u) - K)%nat with 0%nat by lia. cbn [skipn andb].
        change (x :: u ++ EQ :: rest) with ((x :: u) ++ [EQ] ++ rest). rewrite app_assoc.
        rewrite prefixb_app by (unfold pat; rewrite !app_length; fold K; cbn; lia).
        unfold pat at 1. rewrite str_eqb_app by (fold K; cbn; lia).
        rewrite str_eqb_refl, andb_true_r.
        destruct (str_eqb key (x :: u)).
        * rewrite H. unfold slen. lia.
        * f_equal. lia.
      + replace (K <=? List.length u)%nat with false by (symmetry; apply Nat.leb_gt; lia).
        replace (K <=? Datatypes.S (List.length u))%nat with false by (symmetry; apply Nat.leb_gt; lia).
        cbn [andb].
        assert (prefixb pat (x :: u ++ EQ :: rest) = false) as ->.
        { destruct (prefixb pat (x :: u ++ EQ :: rest)) eqn:P; [exfalso|reflexivity].
          pose proof (prefixb_nth _ _ (List.length (x :: u)) 0 P) as G.
          assert (List.length (x :: u) < List.length pat)%nat as L
            by (unfold pat; rewrite app_length; cbn; fold K; lia).
          specialize (G L). change (x :: u ++ EQ :: rest) with ((x :: u) ++ EQ :: rest) in G.
          rewrite app_nth2 in G by lia. rewrite Nat.sub_diag in G. cbn [nth] in G.
          pose proof (pat_nth _ L (eq_sym G)) as Q. cbn in Q. lia. }
        f_equal. lia.
  Qed.

  Lemma find_none u : ~ In EQ u -> forall k, find_from k pat u = -1.
  Proof.
    induction u as [|x u IH]; intros N k.
    - cbn [find_from]. assert (prefixb pat [] = false) as ->; [|reflexivity].
      unfold pat. destruct key; reflexivity.
    - cbn [find_from].
      assert (prefixb pat (x :: u) = false) as ->.
      { destruct (prefixb pat (x :: u)) eqn:P; [exfalso|reflexivity].
        pose proof (prefixb_nth _ _ K 0 P) as G.
        assert (K < List.length pat)%nat as L by (unfold pat; rewrite app_length; cbn; fold K; lia).
        specialize (G L). unfold pat in G. rewrite app_nth2 in G by (fold K; lia). fold K in G.
        rewrite Nat.sub_diag in G. change (nth 0 [EQ] 0) with EQ in G.
        destruct (Nat.lt_ge_cases K (List.length (x :: u))) as [H|H].
        - apply N. rewrite <- G. now apply nth_In.
        - rewrite nth_overflow in G by lia. discriminate G. }
      apply IH. intros H; apply N; now right.
  Qed.

  (** ** Tables of records [key=value] with keys of one length *)
  Definition enc (rs : list (str * str)) : str := concat (map (fun r => fst r ++ EQ :: snd r) rs).
  Definition rec_ok (r : str * str) : Prop := List.length (fst r) = K /\ ~ In EQ (fst r) /\ ~ In EQ (snd r).

  (** The records from the first with the key on. *)
  Fixpoint from_key (rs : list (str * str)) : list (str * str) :=
    match rs with
    | [] => []
    | r :: t => if str_eqb key (fst r) then r :: t else from_key t
    end.

  Lemma enc_cons r rs : enc (r :: rs) = fst r ++ EQ :: snd r ++ enc rs.
  Proof. unfold enc. cbn. now rewrite <- app_assoc. Qed.

  (** Searching a table that follows a text [v] without "=". *)
  Lemma find_enc rs : Forall rec_ok rs -> forall v, ~ In EQ v ->
    match from_key rs with
    | [] => forall k, find_from k pat (v ++ enc rs) = -1
    | r :: t => exists u, v ++ enc rs = u ++ key ++ EQ :: snd r ++ enc t /\ fst r = key
                          /\ rec_ok r /\ Forall rec_ok t
                          /\ forall k, find_from k pat (v ++ enc rs) = k + slen u
    end.
  Proof.
    induction 1 as [|r rs Hr Hrs IH]; intros v Nv.
    - cbn [from_key]. intros k. unfold enc. cbn. rewrite app_nil_r. now apply find_none.
    - cbn [from_key]. destruct r as [kr vr]. destruct Hr as (L & N1 & N2). cbn [fst snd] in *.
      assert (~ In EQ (v ++ kr)) as Nvk by (rewrite in_app_iff; tauto).
      assert (forall k, find_from k pat (v ++ enc ((kr, vr) :: rs)) =
                        if str_eqb key kr then k + slen v
                        else find_from (k + slen (v ++ kr) + 1) pat (vr ++ enc rs)) as F.
      { intros k. rewrite enc_cons. cbn [fst snd]. rewrite app_assoc. rewrite (find_skip _ Nvk).
        rewrite app_length. rewrite L.
        replace (K <=? _)%nat with true by (symmetry; apply Nat.leb_le; lia).
        replace (List.length v + K - K)%nat with (List.length v) by lia.
        rewrite skipn_app, skipn_all, Nat.sub_diag. cbn [skipn app andb].
        destruct (str_eqb key kr); [|reflexivity]. rewrite slen_app. unfold slen. rewrite L. lia. }
      destruct (str_eqb_spec key kr) as [E|E].
      + exists v. subst kr. rewrite enc_cons. cbn [fst snd].
        split; [reflexivity|]. split; [reflexivity|]. split; [easy|]. split; [exact Hrs|].
        intros k. rewrite <- F, enc_cons. reflexivity.
      + specialize (IH vr N2). destruct (from_key rs) as [|r' t].
        * intros k. rewrite F. apply IH.
        * destruct IH as (u & E1 & E2 & Hr' & Ht & E3). exists (v ++ kr ++ EQ :: u).
          split; [|split; [|split; [|split]]]; auto.
          -- rewrite enc_cons. cbn [fst snd]. rewrite E1. rewrite <- !app_assoc. cbn. rewrite <- ?app_assoc.
             reflexivity.
          -- intros k. rewrite F, E3. rewrite !slen_app, slen_cons. lia.
  Qed.

  (** Cutting the value at the next "=" minus one key. *)
  Lemma cut_value v t : ~ In EQ v -> Forall rec_ok t ->
    (if py_in (lit "=") (v ++ enc t)
     then slice (v ++ enc t) 0 (py_find (v ++ enc t) (lit "=") - Z.of_nat K) else v ++ enc t) = v.
  Proof.
    intros N Ht. change (lit "=") with [EQ]. unfold py_in, py_find.
    destruct Ht as [|r t Hr Ht].
    - change (enc []) with (@nil Z). rewrite app_nil_r.
      now rewrite (find_char_none _ _ N).
    - destruct r as [kr vr]. destruct Hr as (L & N1 & N2). cbn [fst snd] in *.
      rewrite enc_cons. cbn [fst snd].
      assert (find_from 0 [EQ] (v ++ kr ++ EQ :: vr ++ enc t) = slen (v ++ kr)) as ->.
      { rewrite app_assoc. rewrite find_char by (rewrite in_app_iff; tauto). lia. }
      pose proof (slen_nonneg (v ++ kr)). replace (0 <=? _) with true by lia.
      apply slice_0. rewrite slen_app. unfold slen. lia.
  Qed.
End FIND.

(** [packed_find] is the lookup of the first record with the key. *)
Fixpoint lookup (key : str) (rs : list (str * str)) : option str :=
  match rs with
  | [] => None
  | r :: t => if str_eqb key (fst r) then Some (snd r) else lookup key t
  end.

Lemma lookup_from_key key rs :
  lookup key rs = match from_key key rs with [] => None | r :: _ => Some (snd r) end.
Proof. induction rs as [|r rs IH]; cbn; [reflexivity|]. destruct (str_eqb key (fst r)); auto. Qed.

Lemma packed_find_spec key rs k : ~ In EQ key -> k = slen key -> Forall (rec_ok key) rs ->
  packed_find (enc rs) key k = lookup key rs.
Proof.
  intros N -> H. unfold packed_find, py_find. rewrite lookup_from_key.
  pose proof (find_enc key N rs H [] (fun x => x)) as F. cbn [app] in F.
  change (lit "=") with [EQ] in *.
  destruct (from_key key rs) as [|r t].
  - now rewrite F.
  - destruct F as (u & E & Ek & (L & N1 & N2) & Ht & F). rewrite F.
    pose proof (slen_nonneg u). replace (-1 <? 0 + slen u) with true by lia. rewrite E.
    assert (slice_from (u ++ key ++ EQ :: snd r ++ enc t) (0 + slen u + slen key + 1) = snd r ++ enc t) as ->.
    { replace (u ++ key ++ EQ :: snd r ++ enc t) with ((u ++ key ++ [EQ]) ++ snd r ++ enc t)
        by (now rewrite <- !app_assoc).
      apply slice_from_app. rewrite !app_length. unfold slen. cbn [List.length]. lia. }
    f_equal. apply (cut_value key (snd r) t N2 Ht).
Qed.

(** ** Codes: two upper-case hexadecimal digits *)
Definition codes (l : list Z) : str := concat (map LunarUtil_hex l).
Definition is_code (c : Z) : Prop := 0 <= c <= 255.

Lemma hex_code_table : forallb (fun c =>
  match LunarUtil_hex c with
  | [a; b] => match int16 [a; b] with Ok v => v =? c | _ => false end
              && negb (existsb (fun x => (x =? EQ) || (x =? 58) || (x =? 44)) [a; b])
  | _ => false end) (zrange 0 256) = true.
Proof. vm_compute. reflexivity. Qed.

Lemma hex_code c : is_code c -> exists a b, LunarUtil_hex c = [a; b] /\ int16 [a; b] = Ok c
  /\ forall x, In x [a; b] -> x <> EQ /\ x <> 58 /\ x <> 44.
Proof.
  intros H. pose proof (forallb_zrange _ _ _ hex_code_table c ltac:(unfold is_code in H; lia)) as T.
  cbv beta in T. destruct (LunarUtil_hex c) as [|a [|b [|? ?]]]; try discriminate.
  apply andb_prop in T. destruct T as [T1 T2]. exists a, b. split; [reflexivity|]. split.
  - destruct (int16 [a; b]); [|discriminate]. f_equal. lia.
  - intros x Hx. apply negb_true_iff in T2.
    destruct (Z.eqb_spec x EQ); [|destruct (Z.eqb_spec x 58); [|destruct (Z.eqb_spec x 44); [|tauto]]];
      exfalso; (assert (existsb (fun x => (x =? EQ) || (x =? 58) || (x =? 44)) [a; b] = true)
        by (apply existsb_exists; exists x; split; [easy|subst; reflexivity])); congruence.
Qed.

Lemma codes_clean l : Forall is_code l -> forall x, In x (codes l) -> x <> EQ /\ x <> 58 /\ x <> 44.
Proof.
  induction 1 as [|c l Hc Hl IH]; intros x; unfold codes; cbn; [easy|].
  rewrite in_app_iff. intros [H|H]; [|now apply IH].
  destruct (hex_code c Hc) as (a & b & E & _ & Q). rewrite E in H. auto.
Qed.

Lemma chunks2_codes l : Forall is_code l -> chunks2 (codes l) = map LunarUtil_hex l.
Proof.
  induction 1 as [|c l Hc Hl IH]; [reflexivity|]. unfold codes. cbn [map concat].
  destruct (hex_code c Hc) as (a & b & E & _). rewrite E. cbn [app chunks2]. f_equal. exact IH.
Qed.

Lemma hex_inj a b : is_code a -> is_code b -> LunarUtil_hex a = LunarUtil_hex b -> a = b.
Proof.
  intros Ha Hb E. destruct (hex_code a Ha) as (x & y & E1 & I1 & _).
  destruct (hex_code b Hb) as (x' & y' & E2 & I2 & _). rewrite E1, E2 in E. injection E as <- <-.
  rewrite I1 in I2. now apply Ok_inj in I2.
Qed.

Lemma decode_codes_spec table l : Forall is_code l ->
  decode_codes table (codes l) = mapM (py_index table) l.
Proof.
  intros H. unfold decode_codes. rewrite chunks2_codes by easy.
  induction H as [|c l Hc Hl IH]; [reflexivity|]. cbn [map mapM]. rewrite IH.
  destruct (hex_code c Hc) as (a & b & E & I & _). rewrite E, I. reflexivity.
Qed.

(** ** Records "codes,codes" *)
Lemma before_comma_codes a b : Forall is_code a -> before_comma (codes a ++ 44 :: b) = codes a.
Proof.
  intros H. unfold before_comma, py_find. change (lit ",") with [44].
  rewrite find_char by (intros X; now apply (codes_clean a H) in X). now apply slice_0.
Qed.
Lemma after_comma_codes a b : Forall is_code a -> after_comma (codes a ++ 44 :: b) = b.
Proof.
  intros H. unfold after_comma, py_find. change (lit ",") with [44].
  rewrite find_char by (intros X; now apply (codes_clean a H) in X).
  change (codes a ++ 44 :: b) with (codes a ++ [44] ++ b). rewrite app_assoc.
  apply slice_from_app. rewrite app_length. unfold slen. cbn. lia.
Qed.

(** A table of records (key, good codes, bad codes). *)
Definition enc2 (rs : list (str * (list Z * list Z))) : list (str * str) :=
  map (fun r => (fst r, codes (fst (snd r)) ++ 44 :: codes (snd (snd r)))) rs.

Definition rec2_ok (n : nat) (r : str * (list Z * list Z)) : Prop :=
  List.length (fst r) = n /\ ~ In EQ (fst r) /\ Forall is_code (fst (snd r)) /\ Forall is_code (snd (snd r)).

Fixpoint lookup2 (key : str) (rs : list (str * (list Z * list Z))) : option (list Z * list Z) :=
  match rs with
  | [] => None
  | r :: t => if str_eqb key (fst r) then Some (snd r) else lookup2 key t
  end.

Lemma enc2_ok key rs : Forall (rec2_ok (List.length key)) rs -> Forall (rec_ok key) (enc2 rs).
Proof.
  induction 1 as [|r rs (L & N & Ha & Hb) Hrs IH]; constructor; [|exact IH].
  split; [easy|]. split; [easy|]. cbn. rewrite in_app_iff. intros [X|[X|X]].
  - now apply (codes_clean _ Ha) in X.
  - discriminate X.
  - now apply (codes_clean _ Hb) in X.
Qed.

Lemma lookup_enc2 key rs :
  lookup key (enc2 rs) =
  match lookup2 key rs with Some (a, b) => Some (codes a ++ 44 :: codes b) | None => None end.
Proof.
  induction rs as [|[k [a b]] rs IH]; [reflexivity|]. cbn. destruct (str_eqb key k); [reflexivity|exact IH].
Qed.

Lemma lookup2_ok n key rs : Forall (rec2_ok n) rs -> forall a b, lookup2 key rs = Some (a, b) ->
  Forall is_code a /\ Forall is_code b.
Proof.
  induction 1 as [|[k [a' b']] rs (L & N & Ha & Hb) Hrs IH]; intros a b E; [discriminate|]. cbn in E.
  destruct (str_eqb key k); [|now apply IH]. injection E as -> ->. easy.
Qed.

Lemma packed_get_before table key rs k : ~ In EQ key -> k = slen key ->
  Forall (rec2_ok (List.length key)) rs ->
  packed_get (enc (enc2 rs)) table key k before_comma =
  match lookup2 key rs with
  | Some (a, _) => let! l := mapM (py_index table) a in Ok (or_none l)
  | None => Ok [utf8 "无"%string]
  end.
Proof.
  intros N Hk H. unfold packed_get. rewrite packed_find_spec by (auto using enc2_ok).
  rewrite lookup_enc2. destruct (lookup2 key rs) as [[a b]|] eqn:E; [|reflexivity].
  destruct (lookup2_ok _ _ _ H _ _ E) as [Ha Hb].
  rewrite before_comma_codes by easy. now rewrite decode_codes_spec.
Qed.
Lemma packed_get_after table key rs k : ~ In EQ key -> k = slen key ->
  Forall (rec2_ok (List.length key)) rs ->
  packed_get (enc (enc2 rs)) table key k after_comma =
  match lookup2 key rs with
  | Some (_, b) => let! l := mapM (py_index table) b in Ok (or_none l)
  | None => Ok [utf8 "无"%string]
  end.
Proof.
  intros N Hk H. unfold packed_get. rewrite packed_find_spec by (auto using enc2_ok).
  rewrite lookup_enc2. destruct (lookup2 key rs) as [[a b]|] eqn:E; [|reflexivity].
  destruct (lookup2_ok _ _ _ H _ _ E) as [Ha Hb].
  rewrite after_comma_codes by easy. now rewrite decode_codes_spec.
Qed.
