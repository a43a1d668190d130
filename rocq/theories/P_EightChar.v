(** C63: the derived pillars and the twelve stages of an EightChar. *)
From Coq Require Import ZArith Lia Bool ZifyBool List String Floats.
From Verif Require Import Py PyFloat FloatFacts PyStr CalSpec DayNo Solar SolarProofs JulianDay LunarUtil T_LunarUtil T_Misc P_Almanac P_Tables
  LunarYear Lunar LunarTime LunarProofs TermProofs P_Pillars P_Accessors P_Stars EightChar Demo.
Import ListNotations.
Open Scope Z_scope.

(** [a], [b], [c], [t] are the numbers of the four pillars among the sixty: 甲子 is 0, 乙丑 is 1, ... *)
Definition pillars (e : EightChar) (a b c t : Z) : Prop :=
  EightChar_getYear e = Ok (pair60 a) /\ EightChar_getMonth e = Ok (pair60 b) /\
  EightChar_getDay e = Ok (pair60 c) /\ EightChar_getTime e = Ok (pair60 t).
Definition built (e : EightChar) : Prop := exists fromYear y m d h mi s, Lunar_new fromYear y m d h mi s = Ok (e_lunar e).
Lemma built_indices e : built e -> indices (e_lunar e).
Proof. intros (fy & y & m & d & h & mi & s & H). exact (new_indices _ _ _ _ _ _ _ _ H). Qed.
Lemma pillars_exist e : built e -> exists a b c t, 0 <= a < 60 /\ 0 <= b < 60 /\ 0 <= c < 60 /\ 0 <= t < 60 /\ pillars e a b c t.
Proof.
  intros I. apply built_indices in I. destruct (eight_pillars e I) as (a & b & c & t & Ba & Bb & Bc & Bt & (Ga & Za) & (Gb & Zb) & (Gc & Zc) & (Gt & Zt)).
  exists a, b, c, t. split; [exact Ba|]. split; [exact Bb|]. split; [exact Bc|]. split; [exact Bt|].
  destruct (day_by_sect e) as (_ & _ & D & _). unfold pillars. rewrite D.
  split; [|split; [|split]]; apply pillar; assumption.
Qed.
Lemma pillars_indices e a b c t : built e -> pillars e a b c t ->
  (l_yearGanExact (e_lunar e) = a mod 10 /\ l_yearZhiExact (e_lunar e) = a mod 12) /\
  (l_monthGanExact (e_lunar e) = b mod 10 /\ l_monthZhiExact (e_lunar e) = b mod 12) /\
  (EightChar_getDayGanIndex e = c mod 10 /\ EightChar_getDayZhiIndex e = c mod 12) /\
  (l_timeGan (e_lunar e) = t mod 10 /\ l_timeZhi (e_lunar e) = t mod 12).
Proof.
  intros I (Pa & Pb & Pc & Pt). apply built_indices in I.
  destruct (eight_pillars e I) as (a' & b' & c' & t' & Ba & Bb & Bc & Bt & (Ga & Za) & (Gb & Zb) & (Gc & Zc) & (Gt & Zt)).
  destruct (day_by_sect e) as (_ & _ & D & _). rewrite D in Pc.
  split; [|split; [|split]]; apply pil_inv; try assumption; eexists; (split; [|split; eassumption]); assumption.
Qed.

Lemma pair_nayin k : known (naYin (Ok (pair60 k))).
Proof.
  rewrite <- (pair60_mod k). apply optb_ok.
  assert (T : forallb (fun k => optb (naYin (Ok (pair60 k)))) (zrange 0 60) = true) by (vm_compute; reflexivity).
  exact (forallb_zrange _ _ _ T (k mod 60) (Z.mod_pos_bound k 60 ltac:(lia))).
Qed.
Lemma sixty_of g z : (g - z) mod 2 = 0 -> exists k, 0 <= k < 60 /\ k mod 10 = g mod 10 /\ k mod 12 = z mod 12.
Proof. intros H. exists ((6 * g - 5 * z) mod 60). split; [apply Z.mod_pos_bound; lia|]. split; Z.div_mod_to_equations; lia. Qed.
Lemma sixty_unique k k' : k mod 10 = k' mod 10 -> k mod 12 = k' mod 12 -> pair60 k = pair60 k'.
Proof. intros A B. apply C53_cycle_is_sixty. Z.div_mod_to_equations; lia. Qed.

Lemma gan_mod k : py_index LunarUtil_GAN (k mod 10 + 1) = Ok (stem k).
Proof. rewrite GAN_ok by (apply Z.mod_pos_bound; lia). unfold stem. now rewrite Zmod_mod. Qed.
Lemma zhi_mod k : py_index LunarUtil_ZHI (k mod 12 + 1) = Ok (branch k).
Proof. rewrite ZHI_ok by (apply Z.mod_pos_bound; lia). unfold branch. now rewrite Zmod_mod. Qed.

(** 胎元: one stem and three branches after the month. *)
Theorem C63_tai_yuan : forall e a b c t k, built e -> pillars e a b c t -> k mod 10 = (b + 1) mod 10 -> k mod 12 = (b + 3) mod 12 ->
  EightChar_getTaiYuan e = Ok (pair60 k).
Proof.
  intros e a b c t k I P G Z. destruct (pillars_indices _ _ _ _ _ I P) as (_ & (Gb & Zb) & _).
  unfold EightChar_getTaiYuan. rewrite Gb, Zb. cbv zeta.
  replace (if 10 <=? b mod 10 + 1 then b mod 10 + 1 - 10 else b mod 10 + 1) with (k mod 10) by (rewrite G; clear; destruct (Z.leb_spec 10 (b mod 10 + 1)); Z.div_mod_to_equations; lia).
  replace (if 12 <=? b mod 12 + 3 then b mod 12 + 3 - 12 else b mod 12 + 3) with (k mod 12) by (rewrite Z; clear; destruct (Z.leb_spec 12 (b mod 12 + 3)); Z.div_mod_to_equations; lia).
  apply pillar; reflexivity.
Qed.
(** 胎息: the stem that combines with the day stem (five further on) and the branch that combines with the day branch
    (子丑, 寅亥, 卯戌, 辰酉, 巳申, 午未: the two add up to 1 modulo twelve). *)
Theorem C63_tai_xi : forall e a b c t k, built e -> pillars e a b c t -> k mod 10 = (c + 5) mod 10 -> (k + c) mod 12 = 1 ->
  EightChar_getTaiXi e = Ok (pair60 k).
Proof.
  intros e a b c t k I P G Z. destruct (pillars_indices _ _ _ _ _ I P) as (_ & _ & (Gc & Zc) & _).
  unfold EightChar_getTaiXi. rewrite Gc, Zc.
  assert (T1 : forallb (fun g => match py_index LunarUtil_HE_GAN_5 g, py_index LunarUtil_GAN ((g + 5) mod 10 + 1) with Ok x, Ok y => str_eqb x y | _, _ => false end) (zrange 0 10) = true) by (vm_compute; reflexivity).
  assert (T2 : forallb (fun g => match py_index LunarUtil_HE_ZHI_6 g, py_index LunarUtil_ZHI ((1 - g) mod 12 + 1) with Ok x, Ok y => str_eqb x y | _, _ => false end) (zrange 0 12) = true) by (vm_compute; reflexivity).
  pose proof (forallb_zrange _ _ _ T1 (c mod 10) (Z.mod_pos_bound c 10 ltac:(lia))) as E1.
  pose proof (forallb_zrange _ _ _ T2 (c mod 12) (Z.mod_pos_bound c 12 ltac:(lia))) as E2. clear T1 T2. cbv beta in E1, E2.
  replace ((c mod 10 + 5) mod 10) with (k mod 10) in E1 by (rewrite G; clear; Z.div_mod_to_equations; lia).
  replace ((1 - c mod 12) mod 12) with (k mod 12) in E2 by (clear - Z; Z.div_mod_to_equations; lia).
  rewrite (gan_mod k) in E1. rewrite (zhi_mod k) in E2. unfold pair60.
  destruct (py_index LunarUtil_HE_GAN_5 (c mod 10)) as [x|]; [|discriminate]. destruct (py_index LunarUtil_HE_ZHI_6 (c mod 12)) as [y|]; [|discriminate].
  apply str_eqb_eq in E1. apply str_eqb_eq in E2. subst. reflexivity.
Qed.
(** The months and hours numbered from 寅 = 1 to 丑 = 12. *)
Definition from_yin (b : Z) : Z := (b - 2) mod 12 + 1.
(** 命宫: the palace whose number completes those of the month and the hour to 14 or 26, with the stem that the five tigers
    rule gives to that month of the year (the first month of a year numbered [a] is pair number 12a + 2). *)
Lemma ming_table : forallb (fun g => forallb (fun b => forallb (fun t =>
  match py_index LunarUtil_ZHI (b + 1), py_index LunarUtil_ZHI (t + 1) with
  | Ok mz, Ok tz =>
    let offset := pos0 mz EightChar_MONTH_ZHI + pos0 tz EightChar_MONTH_ZHI in
    let offset := if 14 <=? offset then 26 - offset else 14 - offset in
    let gan_index := reduce 10 ((g + 1) * 2 + offset) in
    let k := (13 - from_yin b - from_yin t) mod 12 + 1 in
    match cat2 (py_index LunarUtil_GAN gan_index) (py_index EightChar_MONTH_ZHI offset) with Ok x => str_eqb x (pair60 (12 * g + 1 + k)) | _ => false end
  | _, _ => false end) (zrange 0 12)) (zrange 0 12)) (zrange 0 10) = true.
Proof. vm_compute. reflexivity. Qed.
Theorem C63_ming_gong : forall e a b c t, built e -> pillars e a b c t -> exists k, 1 <= k <= 12 /\
  (from_yin b + from_yin t + k = 14 \/ from_yin b + from_yin t + k = 26) /\ EightChar_getMingGong e = Ok (pair60 (12 * a + 1 + k)).
Proof.
  intros e a b c t I P. destruct (pillars_indices _ _ _ _ _ I P) as ((Ga & Za) & (Gb & Zb) & _ & (Gt & Zt)).
  exists ((13 - from_yin b - from_yin t) mod 12 + 1). split; [|split]; [unfold from_yin; clear; Z.div_mod_to_equations; lia..|].
  pose proof (forallb_zrange _ _ _ (forallb_zrange _ _ _ (forallb_zrange _ _ _ ming_table (a mod 10) (Z.mod_pos_bound a 10 ltac:(lia))) (b mod 12) (Z.mod_pos_bound b 12 ltac:(lia))) (t mod 12) (Z.mod_pos_bound t 12 ltac:(lia))) as T.
  cbv beta in T. unfold EightChar_getMingGong, EightChar_getMonthZhi, EightChar_getTimeZhi, Lunar_getMonthZhiExact, Lunar_getTimeZhi. rewrite Zb, Zt, Ga.
  rewrite (zhi_mod b), (zhi_mod t) in *. cbv beta iota zeta in T. cbn [bind].
  match goal with |- ?x = _ => destruct x as [s|]; [|discriminate] end. apply str_eqb_eq in T. subst s. f_equal. apply C53_cycle_is_sixty.
  replace (from_yin (b mod 12)) with (from_yin b) by (unfold from_yin; clear; Z.div_mod_to_equations; lia).
  replace (from_yin (t mod 12)) with (from_yin t) by (unfold from_yin; clear; Z.div_mod_to_equations; lia).
  generalize ((13 - from_yin b - from_yin t) mod 12). intros k. clear. Z.div_mod_to_equations; lia.
Qed.
(** 身宫: the palace counted forwards from the month (寅 = 1) by the hour (子 = 1); the twelfth (丑) takes the stem of the 丑
    that precedes the first month. *)
Lemma shen_table : forallb (fun g => forallb (fun b => forallb (fun t =>
  match py_index LunarUtil_ZHI (b + 1), py_index LunarUtil_ZHI (t + 1) with
  | Ok mz, Ok tz =>
    let offset := reduce 12 (pos0 mz EightChar_MONTH_ZHI + pos0 tz LunarUtil_ZHI) in
    let gan_index := reduce 10 ((g + 1) * 2 + offset mod 12) in
    let k := (from_yin b + (t + 1)) mod 12 in
    match cat2 (py_index LunarUtil_GAN gan_index) (py_index EightChar_MONTH_ZHI offset) with Ok x => str_eqb x (pair60 (12 * g + 1 + k)) | _ => false end
  | _, _ => false end) (zrange 0 12)) (zrange 0 12)) (zrange 0 10) = true.
Proof. vm_compute. reflexivity. Qed.
Theorem C63_shen_gong : forall e a b c t, built e -> pillars e a b c t ->
  EightChar_getShenGong e = Ok (pair60 (12 * a + 1 + (from_yin b + (t + 1)) mod 12)).
Proof.
  intros e a b c t I P. destruct (pillars_indices _ _ _ _ _ I P) as ((Ga & Za) & (Gb & Zb) & _ & (Gt & Zt)).
  pose proof (forallb_zrange _ _ _ (forallb_zrange _ _ _ (forallb_zrange _ _ _ shen_table (a mod 10) (Z.mod_pos_bound a 10 ltac:(lia))) (b mod 12) (Z.mod_pos_bound b 12 ltac:(lia))) (t mod 12) (Z.mod_pos_bound t 12 ltac:(lia))) as T.
  cbv beta in T. unfold EightChar_getShenGong, EightChar_getMonthZhi, EightChar_getTimeZhi, Lunar_getMonthZhiExact, Lunar_getTimeZhi. rewrite Zb, Zt, Ga.
  rewrite (zhi_mod b), (zhi_mod t) in *. cbv beta iota zeta in T. cbn [bind].
  match goal with |- ?x = _ => destruct x as [s|]; [|discriminate] end. apply str_eqb_eq in T. subst s. f_equal. apply C53_cycle_is_sixty.
  replace (from_yin (b mod 12)) with (from_yin b) by (unfold from_yin; clear; Z.div_mod_to_equations; lia).
  replace ((from_yin b + (t mod 12 + 1)) mod 12) with ((from_yin b + (t + 1)) mod 12) by (clear; Z.div_mod_to_equations; lia).
  generalize ((from_yin b + (t + 1)) mod 12). intros k. clear. Z.div_mod_to_equations; lia.
Qed.
(** So all four are among the sixty and their sounds are defined. *)
Theorem C63_sixty : forall e, built e -> Forall (fun f => exists k, 0 <= k < 60 /\ f e = Ok (pair60 k) /\ known (naYin (f e)))
  [EightChar_getTaiYuan; EightChar_getTaiXi; EightChar_getMingGong; EightChar_getShenGong].
Proof.
  intros e I. destruct (pillars_exist e I) as (a & b & c & t & Ba & Bb & Bc & Bt & P).
  assert (G : forall r k, r = Ok (pair60 k) -> exists k, 0 <= k < 60 /\ r = Ok (pair60 k) /\ known (naYin r)).
  { intros r k E. exists (k mod 60). split; [apply Z.mod_pos_bound; lia|]. rewrite pair60_mod. split; [exact E|]. rewrite E. apply pair_nayin. }
  apply Forall_cons; [|apply Forall_cons; [|apply Forall_cons; [|apply Forall_cons; [|apply Forall_nil]]]].
  - destruct (sixty_of (b + 1) (b + 3)) as (k & _ & K1 & K2); [clear; Z.div_mod_to_equations; lia|]. exact (G _ _ (C63_tai_yuan e a b c t k I P K1 K2)).
  - destruct (sixty_of (c + 5) (1 - c)) as (k & _ & K1 & K2); [clear; Z.div_mod_to_equations; lia|].
    apply (G _ k), (C63_tai_xi e a b c t k I P K1). clear - K2. Z.div_mod_to_equations; lia.
  - destruct (C63_ming_gong e a b c t I P) as (k & _ & _ & E). exact (G _ _ E).
  - exact (G _ _ (C63_shen_gong e a b c t I P)).
Qed.

(** 地势: the twelve stages of the day stem; the first, 长生, stands at these branches for 甲, 乙, ... 癸 (亥, 午, 寅, 酉, 寅, 酉, 巳, 子, 申, 卯),
    yang stems go through the branches forwards and yin stems backwards. *)
Definition birth (stem : Z) : Z := nth (Z.to_nat stem) [11; 6; 2; 9; 2; 9; 5; 0; 8; 3] 0.
Definition stages : list str := [utf8 "长生"; utf8 "沐浴"; utf8 "冠带"; utf8 "临官"; utf8 "帝旺"; utf8 "衰"; utf8 "病"; utf8 "死"; utf8 "墓"; utf8 "绝"; utf8 "胎"; utf8 "养"].
Definition stage (stem branch : Z) : str :=
  nth (Z.to_nat (if stem mod 2 =? 0 then (branch - birth stem) mod 12 else (birth stem - branch) mod 12)) stages [].
Lemma stage_table : forallb (fun g => forallb (fun z =>
  match py_index LunarUtil_GAN (g + 1) with
  | Ok n => match assoc n EightChar_CHANG_SHENG_OFFSET with
            | Some o => let index := o + (if g mod 2 =? 0 then z else - z) in
                        let index := if 12 <=? index then index - 12 else index in
                        let index := if index <? 0 then index + 12 else index in
                        match py_index EightChar_CHANG_SHENG index with Ok s => str_eqb s (stage g z) | _ => false end
            | None => false end
  | _ => false end) (zrange 0 12)) (zrange 0 10) = true.
Proof. vm_compute. reflexivity. Qed.
Theorem C63_di_shi : forall e a b c t, built e -> pillars e a b c t ->
  EightChar_getYearDiShi e = Ok (stage (c mod 10) (a mod 12)) /\ EightChar_getMonthDiShi e = Ok (stage (c mod 10) (b mod 12)) /\
  EightChar_getDayDiShi e = Ok (stage (c mod 10) (c mod 12)) /\ EightChar_getTimeDiShi e = Ok (stage (c mod 10) (t mod 12)).
Proof.
  intros e a b c t I P. destruct (pillars_indices _ _ _ _ _ I P) as ((Ga & Za) & (Gb & Zb) & (Gc & Zc) & (Gt & Zt)).
  destruct (day_by_sect e) as (D & _).
  assert (G : forall z, 0 <= z < 12 -> diShi e z = Ok (stage (c mod 10) z)).
  { intros z Hz. pose proof (forallb_zrange _ _ _ (forallb_zrange _ _ _ stage_table (c mod 10) (Z.mod_pos_bound c 10 ltac:(lia))) z Hz) as T. cbv beta in T.
    unfold diShi. rewrite D, Gc in *. rewrite (gan_mod c) in *. cbn [bind]. destruct (assoc _ EightChar_CHANG_SHENG_OFFSET); [|discriminate].
    cbv zeta in *. match goal with |- ?x = _ => destruct x as [s|]; [|discriminate] end. apply str_eqb_eq in T. subst s. reflexivity. }
  unfold EightChar_getYearDiShi, EightChar_getMonthDiShi, EightChar_getDayDiShi, EightChar_getTimeDiShi. rewrite Za, Zb, Zc, Zt.
  split; [|split; [|split]]; apply G, Z.mod_pos_bound; lia.
Qed.
(** The stages of a stem are all different, one per branch. *)
Theorem C63_stages_distinct : forall stem b b', 0 <= stem < 10 -> 0 <= b < 12 -> 0 <= b' < 12 -> stage stem b = stage stem b' -> b = b'.
Proof.
  assert (T : forallb (fun s => forallb (fun b => forallb (fun b' => if str_eqb (stage s b) (stage s b') then b =? b' else true) (zrange 0 12)) (zrange 0 12)) (zrange 0 10) = true) by (vm_compute; reflexivity).
  intros s b b' Hs Hb Hb' E. pose proof (forallb_zrange _ _ _ (forallb_zrange _ _ _ (forallb_zrange _ _ _ T s Hs) b Hb) b' Hb') as X. cbv beta in X.
  replace (str_eqb (stage s b) (stage s b')) with true in X by (symmetry; apply str_eqb_eq; exact E). lia.
Qed.

Definition same (r : res str) (s : str) : bool := match r with Ok x => str_eqb x s | _ => false end.
Lemma same_ok r s : same r s = true -> r = Ok s.
Proof. destruct r as [x|]; [|discriminate]. intros H. apply str_eqb_eq in H. now subst x. Qed.
Example C63_case : exists e, built e /\ pillars e 40 2 59 55 /\ EightChar_getTaiYuan e = Ok (utf8 "丁巳") /\ EightChar_getTaiXi e = Ok (utf8 "戊寅") /\
  EightChar_getMingGong e = Ok (utf8 "壬申") /\ EightChar_getShenGong e = Ok (utf8 "甲戌") /\ EightChar_getYearDiShi e = Ok (utf8 "养").
Proof.
  assert (E : (let! l := getLunar demo (mkSolar 2024 2 29 13 0 0) in let e := Lunar_getEightChar l in
    Ok (forallb id [same (EightChar_getYear e) (pair60 40); same (EightChar_getMonth e) (pair60 2); same (EightChar_getDay e) (pair60 59); same (EightChar_getTime e) (pair60 55);
        same (EightChar_getTaiYuan e) (utf8 "丁巳"); same (EightChar_getTaiXi e) (utf8 "戊寅"); same (EightChar_getMingGong e) (utf8 "壬申"); same (EightChar_getShenGong e) (utf8 "甲戌");
        same (EightChar_getYearDiShi e) (utf8 "养")])) = Ok true) by (vm_compute; reflexivity).
  apply bind_ok in E. destruct E as (l & El & E). cbv zeta in E. apply Ok_inj in E. rewrite forallb_forall in E. unfold id in E. set (e := Lunar_getEightChar l) in *.
  exists e. split. { destruct (getLunar_new _ _ _ El) as (y & m & d & H). exists demo, y, m, d, 13, 0, 0. exact H. }
  unfold pillars. repeat match goal with |- _ /\ _ => split end; apply same_ok, E; cbn [In]; tauto.
Qed.
