(** Stems, branches, the sexagenary cycle, double hours, ten gods, 纳音, clashes. *)
From Coq Require Import ZArith Lia Bool ZifyBool List String Floats.
From Verif Require Import Py PyFloat PyStr T_LunarUtil T_Almanac LunarUtil AlmanacProofs P_Almanac.
Import ListNotations.
Open Scope Z_scope.

(** The ten stems and twelve branches in their order. *)
Definition stems : list str := Eval vm_compute in map utf8
  ["甲"; "乙"; "丙"; "丁"; "戊"; "己"; "庚"; "辛"; "壬"; "癸"]%string.
Definition branches : list str := Eval vm_compute in map utf8
  ["子"; "丑"; "寅"; "卯"; "辰"; "巳"; "午"; "未"; "申"; "酉"; "戌"; "亥"]%string.
Definition stem (i : Z) : str := nth (Z.to_nat (i mod 10)) stems [].
Definition branch (i : Z) : str := nth (Z.to_nat (i mod 12)) branches [].
(** The [i]-th pair of the cycle of sixty. *)
Definition pair60 (i : Z) : str := stem i ++ branch i.

Lemma stem_mod i : stem (i mod 60) = stem i.
Proof. unfold stem. replace ((i mod 60) mod 10) with (i mod 10); [reflexivity|]. Z.div_mod_to_equations. lia. Qed.
Lemma branch_mod i : branch (i mod 60) = branch i.
Proof. unfold branch. replace ((i mod 60) mod 12) with (i mod 12); [reflexivity|]. Z.div_mod_to_equations. lia. Qed.
Lemma pair60_mod i : pair60 (i mod 60) = pair60 i.
Proof. unfold pair60. now rewrite stem_mod, branch_mod. Qed.

Lemma in_60 (P : Z -> Prop) : (forall i, 0 <= i < 60 -> P i) -> forall i, P (i mod 60).
Proof. intros H i. apply H. apply Z.mod_pos_bound. lia. Qed.

Ltac by_table T i :=
  let X := fresh "X" in
  pose proof (forallb_zrange _ _ _ T i ltac:(lia)) as X; cbv beta in X; try clear T.

Definition ok_is (r : res str) (s : str) : bool := match r with Ok v => str_eqb v s | _ => false end.
Lemma ok_is_eq r s : ok_is r s = true -> r = Ok s.
Proof. destruct r; cbn; [|discriminate]. intros E. apply str_eqb_eq in E. now subst. Qed.

Definition some_is (r : option str) (s : str) : bool := match r with Some v => str_eqb v s | _ => false end.
Lemma some_is_eq r s : some_is r s = true -> r = Some s.
Proof. destruct r; cbn; [|discriminate]. intros E. apply str_eqb_eq in E. now subst. Qed.

(** ** C37 *)
Lemma jiazi_table : forallb (fun i => str_eqb (JZ i) (pair60 i)) (zrange 0 60) = true.
Proof. vm_compute. reflexivity. Qed.
Lemma JZ_pair60 i : 0 <= i < 60 -> JZ i = pair60 i.
Proof. intros H. by_table jiazi_table i. now apply str_eqb_eq. Qed.

(** JIA_ZI[i] is the pair of stem i mod 10 and branch i mod 12, and there are sixty. *)
Theorem C37_jia_zi : forall i, 0 <= i < 60 -> py_index LunarUtil_JIA_ZI i = Ok (stem i ++ branch i).
Proof. intros i H. rewrite index_ok by exact H. change (nth (Z.to_nat i) LunarUtil_JIA_ZI []) with (JZ i). now rewrite JZ_pair60. Qed.
Theorem C37_jia_zi_length : List.length LunarUtil_JIA_ZI = 60%nat.
Proof. reflexivity. Qed.

(** getJiaZiIndex inverts the table for every integer taken modulo sixty. *)
Theorem C37_index : forall i, getJiaZiIndex (stem i ++ branch i) = i mod 60.
Proof.
  intros i. fold (pair60 i). rewrite <- pair60_mod. revert i. apply (in_60 (fun i => getJiaZiIndex (pair60 i) = i)).
  intros i H. rewrite <- JZ_pair60 by easy. now apply jz_index.
Qed.
(** Anything that is not one of the sixty pairs gives -1. *)
Theorem C37_index_other : forall s, (forall i, s <> stem i ++ branch i) -> getJiaZiIndex s = -1.
Proof.
  intros s H. destruct (jz_any s) as [[E _]|(i & Hi & E & _)]; [easy|].
  exfalso. apply (H i). now rewrite E, JZ_pair60.
Qed.
(** A stem and a branch form a pair iff their parities agree. *)
Theorem C37_parity : forall g z, 0 <= g < 10 -> 0 <= z < 12 ->
  (getJiaZiIndex (stem g ++ branch z) <> -1 <-> (g - z) mod 2 = 0).
Proof.
  intros g z Hg Hz.
  assert (forallb (fun g => forallb (fun z =>
    Bool.eqb (negb (getJiaZiIndex (stem g ++ branch z) =? -1)) ((g - z) mod 2 =? 0)) (zrange 0 12)) (zrange 0 10) = true) as T
    by (vm_compute; reflexivity).
  by_table T g. by_table X z. apply eqb_prop in X0. lia.
Qed.
(** Index from stem and branch indices (Chinese remainder). *)
Theorem C37_index_parts : forall g z, 0 <= g < 10 -> 0 <= z < 12 -> (g - z) mod 2 = 0 ->
  let i := getJiaZiIndex (stem g ++ branch z) in 0 <= i < 60 /\ i mod 10 = g /\ i mod 12 = z.
Proof.
  intros g z Hg Hz Hp i.
  set (n := (6 * g - 5 * z) mod 60).
  assert (n mod 10 = g /\ n mod 12 = z) as [E1 E2] by (unfold n; Z.div_mod_to_equations; lia).
  assert (stem g ++ branch z = stem n ++ branch n) as E.
  { unfold stem, branch. rewrite E1, E2, (Z.mod_small g), (Z.mod_small z) by easy. reflexivity. }
  assert (i = n mod 60) as -> by (unfold i; rewrite E; apply C37_index).
  unfold n in *. rewrite Z.mod_mod by lia. split; [apply Z.mod_pos_bound; lia|easy].
Qed.
Example C37_example : getJiaZiIndex (utf8 "甲辰"%string) = 40 /\ getJiaZiIndex (utf8 "甲丑"%string) = -1.
Proof. vm_compute. easy. Qed.

(** ** C38: 旬 and 空亡 *)
(** The decade of pair [i] starts at [10 (i/10)]; the branches it leaves out are the next two. *)
Theorem C38_xun : forall i, 0 <= i < 60 ->
  LunarUtil_getXun (stem i ++ branch i) = Ok (stem (10 * (i / 10)) ++ branch (10 * (i / 10)))
  /\ LunarUtil_getXunKong (stem i ++ branch i) = Ok (branch (10 * (i / 10) + 10) ++ branch (10 * (i / 10) + 11)).
Proof.
  intros i H.
  assert (forallb (fun i =>
    ok_is (LunarUtil_getXun (stem i ++ branch i)) (stem (10 * (i / 10)) ++ branch (10 * (i / 10)))
    && ok_is (LunarUtil_getXunKong (stem i ++ branch i)) (branch (10 * (i / 10) + 10) ++ branch (10 * (i / 10) + 11)))
    (zrange 0 60) = true) as T by (vm_compute; reflexivity).
  by_table T i. apply andb_prop in X. destruct X as [X1 X2]. split; now apply ok_is_eq.
Qed.
(** The head of the decade starts with 甲, and the empty branches are those that no pair of the
    decade uses. *)
Theorem C38_meaning : forall i, 0 <= i < 60 ->
  stem (10 * (i / 10)) = utf8 "甲"%string
  /\ forall z, 0 <= z < 12 ->
       ((forall j, 10 * (i / 10) <= j < 10 * (i / 10) + 10 -> branch j <> branch z)
        <-> branch z = branch (10 * (i / 10) + 10) \/ branch z = branch (10 * (i / 10) + 11)).
Proof.
  intros i H. split.
  - unfold stem. replace ((10 * (i / 10)) mod 10) with 0 by (Z.div_mod_to_equations; lia). reflexivity.
  - intros z Hz.
    assert (forall a b, branch a = branch b <-> a mod 12 = b mod 12) as Inj.
    { assert (forallb (fun a => forallb (fun b => Bool.eqb (str_eqb (nth (Z.to_nat a) branches []) (nth (Z.to_nat b) branches [])) (a =? b)) (zrange 0 12)) (zrange 0 12) = true) as T by (vm_compute; reflexivity).
      intros a b. pose proof (Z.mod_pos_bound a 12 ltac:(lia)). pose proof (Z.mod_pos_bound b 12 ltac:(lia)).
      by_table T (a mod 12). by_table X (b mod 12). apply eqb_prop in X0. unfold branch. split; intros E.
      - rewrite E, str_eqb_refl in X0. lia.
      - now rewrite E. }
    rewrite !Inj. set (k := 10 * (i / 10)). split.
    + intros A. destruct (Z.eq_dec (z mod 12) ((k + 10) mod 12)); [tauto|]. right.
      destruct (Z.eq_dec (z mod 12) ((k + 11) mod 12)); [easy|]. exfalso.
      apply (A (k + (z - k) mod 12)).
      * Z.div_mod_to_equations. lia.
      * rewrite Inj. Z.div_mod_to_equations. lia.
    + intros A j Hj. rewrite Inj. Z.div_mod_to_equations. lia.
Qed.
Example C38_example : LunarUtil_getXunKong (utf8 "甲辰"%string) = Ok (utf8 "寅卯"%string).
Proof. vm_compute. reflexivity. Qed.

(** ** C39: clock time to double hour *)
Definition hhmm (h m : Z) : str := fmt0 2 h ++ lit ":" ++ fmt0 2 m.

Theorem C39_time_zhi : forall h m t, 0 <= h < 24 -> 0 <= m < 60 ->
  getTimeZhiIndex (hhmm h m ++ t) = ((h + 1) / 2) mod 12.
Proof.
  intros h m t Hh Hm.
  assert (forallb (fun h => forallb (fun m =>
    (getTimeZhiIndex (hhmm h m) =? ((h + 1) / 2) mod 12) && (slen (hhmm h m) =? 5)) (zrange 0 60)) (zrange 0 24) = true) as T
    by (vm_compute; reflexivity).
  by_table T h. by_table X m. apply andb_prop in X0. destruct X0 as [E L].
  assert (getTimeZhiIndex (hhmm h m ++ t) = getTimeZhiIndex (hhmm h m)) as ->; [|lia].
  unfold getTimeZhiIndex at 1 2. rewrite slen_app. replace (5 <? slen (hhmm h m)) with false by lia.
  pose proof (slen_nonneg t).
  destruct (Z.ltb_spec 5 (slen (hhmm h m) + slen t)) as [G|G].
  - f_equal. apply slice_0. unfold slen in L. lia.
  - destruct t; [now rewrite app_nil_r|]. rewrite slen_cons in *. pose proof (slen_nonneg t). lia.
Qed.

(** Whatever the text, the index is 0..11 and convertTime names a branch. *)
Theorem C39_range : forall hm, 0 <= getTimeZhiIndex hm <= 11
  /\ convertTime hm = Ok (branch (getTimeZhiIndex hm)).
Proof.
  intros hm.
  assert (0 <= getTimeZhiIndex hm <= 11) as R.
  { unfold getTimeZhiIndex.
    assert (forall s l x, 0 <= x -> 0 <= getTimeZhiIndex_loop s l x <= x + Z.max 0 (Z.of_nat (List.length l) - 1)) as A.
    { intros s l; induction l as [|i l IH]; intros x Hx; cbn [getTimeZhiIndex_loop List.length]; [lia|].
      destruct (_ && _); [lia|]. specialize (IH (x + 1) ltac:(lia)).
      destruct l; [cbn [getTimeZhiIndex_loop List.length] in *; lia|cbn [List.length] in *; lia]. }
    specialize (A (if 5 <? slen hm then slice hm 0 5 else hm) [1; 3; 5; 7; 9; 11; 13; 15; 17; 19; 21] 1 ltac:(lia)).
    exact A. }
  split; [exact R|]. unfold convertTime.
  assert (forallb (fun i => ok_is (py_index LunarUtil_ZHI (i + 1)) (branch i)) (zrange 0 12) = true) as T
    by (vm_compute; reflexivity).
  by_table T (getTimeZhiIndex hm). now apply ok_is_eq.
Qed.
Example C39_example : getTimeZhiIndex (lit "23:00:00") = 0 /\ getTimeZhiIndex (lit "22:59") = 11
  /\ getTimeZhiIndex (lit "12:59") = 6 /\ getTimeZhiIndex (lit "01:00") = 1.
Proof. vm_compute. easy. Qed.
(** The documented "0 for an illegal time" does not hold: comparisons are on text. *)
Theorem C39_illegal_refuted : getTimeZhiIndex (lit "1") = 5 /\ getTimeZhiIndex (lit "01:99") = 1
  /\ getTimeZhiIndex (lit "1x") = 10.
Proof. vm_compute. easy. Qed.

(** ** C41: ten gods *)
(** Elements in generation order: 木 0, 火 1, 土 2, 金 3, 水 4; stem [i] has element [i/2] and is yang
    iff even.  [(eb - ea) mod 5]: 0 same, 1 day stem generates, 2 overcomes, 3 is overcome, 4 is
    generated. *)
Definition ten_gods : list (str * str) := Eval vm_compute in map (fun p => (utf8 (fst p), utf8 (snd p)))
  [("比肩", "劫财"); ("食神", "伤官"); ("偏财", "正财"); ("七杀", "正官"); ("偏印", "正印")]%string.
Theorem C41_shi_shen : forall a b, 0 <= a < 10 -> 0 <= b < 10 ->
  assoc (stem a ++ stem b) LunarUtil_SHI_SHEN =
  let p := nth (Z.to_nat ((b / 2 - a / 2) mod 5)) ten_gods ([], []) in
  Some (if (a - b) mod 2 =? 0 then fst p else snd p).
Proof.
  intros a b Ha Hb.
  assert (forallb (fun a => forallb (fun b =>
    some_is (assoc (stem a ++ stem b) LunarUtil_SHI_SHEN) (let p := nth (Z.to_nat ((b / 2 - a / 2) mod 5)) ten_gods ([], []) in
                           if (a - b) mod 2 =? 0 then fst p else snd p)) (zrange 0 10)) (zrange 0 10) = true) as T by (vm_compute; reflexivity).
  by_table T a. by_table X b. apply some_is_eq in X0. exact X0.
Qed.

(** Elements by name, and of hidden stems: each branch hides one to three stems, its element is that of
    the first, and all the ten gods of hidden stems are defined. *)
Definition elements : list str := Eval vm_compute in map utf8 ["木"; "火"; "土"; "金"; "水"]%string.
Theorem C41_elements : forall i, 0 <= i < 10 ->
  assoc (stem i) LunarUtil_WU_XING_GAN = Some (nth (Z.to_nat (i / 2)) elements []).
Proof.
  intros i H.
  assert (forallb (fun i => some_is (assoc (stem i) LunarUtil_WU_XING_GAN) (nth (Z.to_nat (i / 2)) elements [])) (zrange 0 10) = true) as T
    by (vm_compute; reflexivity).
  by_table T i. apply some_is_eq in X. exact X.
Qed.
Definition stem_index (s : str) : Z := index_of 0 s stems.
Theorem C41_hidden : forall z, 0 <= z < 12 -> exists hs,
  assoc (branch z) LunarUtil_ZHI_HIDE_GAN = Some hs
  /\ (1 <= List.length hs <= 3)%nat
  /\ (forall h, In h hs -> exists g, 0 <= g < 10 /\ h = stem g)
  /\ assoc (branch z) LunarUtil_WU_XING_ZHI = assoc (hd [] hs) LunarUtil_WU_XING_GAN
  /\ assoc (branch z) LunarUtil_WU_XING_ZHI <> None.
Proof.
  intros z H.
  assert (forallb (fun z => match assoc (branch z) LunarUtil_ZHI_HIDE_GAN with
    | Some hs => Nat.leb 1 (List.length hs) && Nat.leb (List.length hs) 3
        && forallb (fun h => let i := stem_index h in (0 <=? i) && (i <? 10) && str_eqb h (stem i)) hs
        && match assoc (branch z) LunarUtil_WU_XING_ZHI, assoc (hd [] hs) LunarUtil_WU_XING_GAN with
           | Some x, Some y => str_eqb x y | _, _ => false end
    | None => false end) (zrange 0 12) = true) as T by (vm_compute; reflexivity).
  by_table T z. destruct (assoc (branch z) LunarUtil_ZHI_HIDE_GAN) as [hs|]; [|discriminate]. exists hs.
  rewrite !andb_true_iff in X. destruct X as (((X1 & X2) & X3) & X4).
  apply Nat.leb_le in X1, X2. split; [reflexivity|]. split; [lia|]. split.
  - intros h Hh. rewrite forallb_forall in X3. specialize (X3 h Hh). cbv zeta in X3.
    rewrite !andb_true_iff in X3. destruct X3 as ((Y1 & Y2) & Y3). apply str_eqb_eq in Y3.
    exists (stem_index h). split; [lia|easy].
  - destruct (assoc (branch z) LunarUtil_WU_XING_ZHI), (assoc (hd [] hs) LunarUtil_WU_XING_GAN); try discriminate.
    apply str_eqb_eq in X4. subst. easy.
Qed.
(** The yin-yang and element of a branch: 子 水, 丑 土, 寅卯 木, 辰 土, 巳午 火, 未 土, 申酉 金, 戌 土, 亥 水. *)
Theorem C41_branch_elements : forall z, 0 <= z < 12 ->
  assoc (branch z) LunarUtil_WU_XING_ZHI =
  Some (if z mod 3 =? 1 then utf8 "土"%string else nth (Z.to_nat (nth (Z.to_nat ((z + 1) mod 12 / 3)) [4; 0; 1; 3] 0)) elements []).
Proof.
  intros z H.
  assert (forallb (fun z => some_is (assoc (branch z) LunarUtil_WU_XING_ZHI) (if z mod 3 =? 1 then utf8 "土"%string else nth (Z.to_nat (nth (Z.to_nat ((z + 1) mod 12 / 3)) [4; 0; 1; 3] 0)) elements [])) (zrange 0 12) = true) as T by (vm_compute; reflexivity).
  by_table T z. apply some_is_eq in X. exact X.
Qed.
Example C41_example : assoc (utf8 "甲庚"%string) LunarUtil_SHI_SHEN = Some (utf8 "七杀"%string)
  /\ assoc (utf8 "申"%string) LunarUtil_ZHI_HIDE_GAN = Some [utf8 "庚"%string; utf8 "壬"%string; utf8 "戊"%string].
Proof. vm_compute. easy. Qed.

(** ** C74: 纳音 *)
(** Defined on exactly the sixty pairs; pairs 2k and 2k+1 share it; its element is the classical one:
    stem values 甲乙 1 ... 壬癸 5, branch values 子丑午未 1, 寅卯申酉 2, 辰巳戌亥 3, sum reduced by 5:
    1 木, 2 金, 3 水, 4 火, 5 土. *)
Definition nayin_element (i : Z) : str :=
  let g := (i mod 10) / 2 + 1 in
  let z := ((i mod 12) mod 6) / 2 + 1 in
  let s := if 5 <? g + z then g + z - 5 else g + z in
  nth (Z.to_nat (s - 1)) [utf8 "木"; utf8 "金"; utf8 "水"; utf8 "火"; utf8 "土"]%string [].
Theorem C74_nayin : forall i, exists s,
  assoc (stem i ++ branch i) LunarUtil_NAYIN = Some s
  /\ assoc (stem (2 * (i / 2)) ++ branch (2 * (i / 2))) LunarUtil_NAYIN = Some s
  /\ slen s = 3 /\ slice_from s 2 = nayin_element i.
Proof.
  intros i.
  assert (forallb (fun i => match assoc (pair60 i) LunarUtil_NAYIN, assoc (pair60 (2 * (i / 2))) LunarUtil_NAYIN with
    | Some s, Some s' => str_eqb s s' && (slen s =? 3) && str_eqb (slice_from s 2) (nayin_element i)
    | _, _ => false end) (zrange 0 60) = true) as T by (vm_compute; reflexivity).
  assert (nayin_element (i mod 60) = nayin_element i) as En.
  { unfold nayin_element. replace ((i mod 60) mod 10) with (i mod 10) by (Z.div_mod_to_equations; lia).
    replace ((i mod 60) mod 12) with (i mod 12) by (Z.div_mod_to_equations; lia). reflexivity. }
  assert (pair60 (2 * ((i mod 60) / 2)) = pair60 (2 * (i / 2))) as Ep.
  { rewrite <- (pair60_mod (2 * (i / 2))), <- (pair60_mod (2 * (i mod 60 / 2))). f_equal.
    Z.div_mod_to_equations. lia. }
  pose proof (Z.mod_pos_bound i 60 ltac:(lia)).
  by_table T (i mod 60). rewrite pair60_mod, Ep, En in X. fold (pair60 i). fold (pair60 (2 * (i / 2))).
  destruct (assoc (pair60 i) LunarUtil_NAYIN) as [s|]; [|discriminate].
  destruct (assoc (pair60 (2 * (i / 2))) LunarUtil_NAYIN) as [s'|]; [|discriminate].
  rewrite !andb_true_iff in X. destruct X as ((X1 & X2) & X3). apply str_eqb_eq in X1, X3. subst s'.
  exists s. repeat split; try easy. lia.
Qed.
Theorem C74_nayin_only : forall s v, In (s, v) LunarUtil_NAYIN -> exists i, 0 <= i < 60 /\ s = stem i ++ branch i.
Proof.
  intros s v H.
  assert (forallb (fun p : str * str => negb (getJiaZiIndex (fst p) =? -1)) LunarUtil_NAYIN = true) as T by (vm_compute; reflexivity).
  rewrite forallb_forall in T. specialize (T _ H). cbn [fst] in T.
  destruct (jz_any s) as [[E _]|(i & Hi & E & _)]; [rewrite E in T; discriminate|].
  exists i. split; [easy|]. rewrite E. now apply JZ_pair60.
Qed.
Example C74_example : assoc (utf8 "甲子"%string) LunarUtil_NAYIN = Some (utf8 "海中金"%string).
Proof. vm_compute. reflexivity. Qed.

(** ** C75: clashes, harmonies, 煞 *)
(** The clashing branch is six away; the harmonising branch mirrors (子丑, 寅亥, ...); the clashing stem
    four on, the harmonising stem five on. *)
Theorem C75_branches : forall z, 0 <= z < 12 ->
  py_index LunarUtil_CHONG z = Ok (branch (z + 6)) /\ py_index LunarUtil_HE_ZHI_6 z = Ok (branch (13 - z)).
Proof.
  intros z H.
  assert (forallb (fun z => ok_is (py_index LunarUtil_CHONG z) (branch (z + 6))
    && ok_is (py_index LunarUtil_HE_ZHI_6 z) (branch (13 - z))) (zrange 0 12) = true) as T by (vm_compute; reflexivity).
  by_table T z. apply andb_prop in X. destruct X. split; now apply ok_is_eq.
Qed.
Theorem C75_stems : forall g, 0 <= g < 10 ->
  py_index LunarUtil_HE_GAN_5 g = Ok (stem (g + 5))
  /\ py_index LunarUtil_CHONG_GAN g = Ok (stem (g + 4))
  /\ py_index LunarUtil_CHONG_GAN_TIE g = Ok (stem (if g mod 2 =? 0 then g + 5 else g + 3)).
Proof.
  intros g H.
  assert (forallb (fun g => ok_is (py_index LunarUtil_HE_GAN_5 g) (stem (g + 5))
    && ok_is (py_index LunarUtil_CHONG_GAN g) (stem (g + 4))
    && ok_is (py_index LunarUtil_CHONG_GAN_TIE g) (stem (if g mod 2 =? 0 then g + 5 else g + 3))) (zrange 0 10) = true) as T by (vm_compute; reflexivity).
  by_table T g. rewrite !andb_true_iff in X. destruct X as ((X1 & X2) & X3). repeat split; now apply ok_is_eq.
Qed.
(** 煞: the four triads 申子辰 南, 巳酉丑 东, 寅午戌 北, 亥卯未 西. *)
Theorem C75_sha : forall z, 0 <= z < 12 ->
  assoc (branch z) LunarUtil_SHA = Some (nth (Z.to_nat (z mod 4)) [utf8 "南"; utf8 "东"; utf8 "北"; utf8 "西"]%string []).
Proof.
  intros z H.
  assert (forallb (fun z => some_is (assoc (branch z) LunarUtil_SHA) (nth (Z.to_nat (z mod 4)) [utf8 "南"; utf8 "东"; utf8 "北"; utf8 "西"]%string [])) (zrange 0 12) = true) as T
    by (vm_compute; reflexivity).
  by_table T z. apply some_is_eq in X. exact X.
Qed.
