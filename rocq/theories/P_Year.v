(** C80: the omens of the new year (灶马头).  C81: 元 and 运 of a year.  C82: the pillars of the lunar months. *)
From Coq Require Import ZArith Lia Bool ZifyBool List String Floats.
From Verif Require Import Py PyFloat PyStr CalSpec DayNo Solar SolarProofs JulianDay P_Solar P_JD LunarUtil T_LunarUtil T_Misc LunarYear Lunar LunarTime
  FloatFacts LunarProofs TermProofs YearProofs CalProofs Demo P_Pillars P_LunarCal P_LunarYears P_Tables P_Almanac P_Accessors P_NewYear P_Day.
Import ListNotations.
Open Scope Z_scope.

(** ** C80 *)
Definition numerals : list str := Eval vm_compute in map utf8 ["一"; "二"; "三"; "四"; "五"; "六"; "七"; "八"; "九"; "十"; "十一"; "十二"]%string.
Definition numeral (n : Z) : str := nth (Z.to_nat (n - 1)) numerals [].

Lemma new_day fy lo hi y t a m d h mi s l : Calendar fy lo hi -> lo + 1 < y < hi - 1 -> fy y = Ok t -> getMonth t m = Some a -> Lunar_new fy y m d h mi s = Ok l ->
  1 <= d <= mcount a /\ l_dayGan l = (mfirst a + d - 1 - 11) mod 10 /\ l_dayZhi l = (mfirst a + d - 1 - 11) mod 12.
Proof.
  intros C Hy Et Em H.
  destruct (Lunar_new_inv _ _ _ _ _ _ _ _ H) as (t' & mo & noon & t2 & Et' & Em' & Hd & En & ES & VT & _ & CP).
  rewrite Et in Et'. apply Ok_inj in Et'. subst t'. rewrite Em in Em'. assert (mo = a) by congruence. subst mo. clear Em'.
  destruct (getMonth_inv _ _ _ Em) as (Ia & Ya & Ma). pose proof (cal_wf C y t ltac:(lia) Et) as W. rewrite (wf_year _ _ W) in Ya.
  destruct (month_range C y t a ltac:(lia) Et Ia) as [M0 M1]. unfold mend in M1.
  destruct (whole_day (mfirst a + d - 1) ltac:(lia)) as (noon' & En' & Vn & Dn). rewrite En in En'. apply Ok_inj in En'. subst noon'.
  assert (Vs : valid_solar (l_solar l)) by (rewrite ES; split; [apply Vn|exact VT]).
  assert (Ds : dayno (sdate (l_solar l)) = mfirst a + d - 1) by (rewrite ES; exact Dn).
  pose proof (wf_bounds W a Ia) as B. unfold mend in B. pose proof (cal_range _ _ _ C) as R.
  assert (J : jd_year (sy (l_solar l))).
  { destruct Vs as [Vs _]. destruct (l_solar l) as [Y M D h0 m0 s0]. unfold sdate in *. cbn [sy sm sd] in *.
    assert (y - 1 <= Y) by (apply (year_ge _ _ _ _ Vs); lia).
    assert (Y <= y + 1) by (apply (year_le _ _ _ _ Vs); replace (y + 1 + 1) with (y + 2) by lia; lia). unfold jd_year. lia. }
  destruct (Lunar_new_day _ _ _ _ _ _ _ _ H Vs J) as (_ & _ & A1 & A2 & _). rewrite Ds in A1, A2. split; [lia|]. split; assumption.
Qed.
Lemma new_year_spec fy lo hi y t a : Calendar fy lo hi -> lo + 1 < y < hi - 1 -> fy y = Ok t -> getMonth t 1 = Some a ->
  exists l, new_year_lunar fy t = Ok l /\ l_dayGan l = (mfirst a - 11) mod 10 /\ l_dayZhi l = (mfirst a - 11) mod 12.
Proof.
  intros C Hy Et Em. destruct (getMonth_inv _ _ _ Em) as (Ia & Ya & Ma). pose proof (cal_wf C y t ltac:(lia) Et) as W. rewrite (wf_year _ _ W) in Ya.
  destruct (month_range C y t a ltac:(lia) Et Ia) as [M0 M1]. unfold mend in M1. destruct (wf_month _ _ W a Ia) as (MC & _).
  destruct (whole_day (mfirst a) ltac:(lia)) as (noon & En & Vn & Dn). pose proof (wf_bounds W a Ia) as B. unfold mend in B. pose proof (cal_range _ _ _ C) as R.
  assert (Hs : y - 1 <= sy noon <= y + 1).
  { destruct Vn as [Vs _]. destruct noon as [Y M D h0 m0 s0]. unfold sdate in *. cbn [sy sm sd] in *.
    assert (y - 1 <= Y) by (apply (year_ge _ _ _ _ Vs); lia).
    assert (Y <= y + 1) by (apply (year_le _ _ _ _ Vs); replace (y + 1 + 1) with (y + 2) by lia; lia). lia. }
  destruct (getLunar_spec C noon Vn ltac:(lia)) as (l & t' & b & El & _ & _ & _ & _ & _ & _ & _ & _ & _ & S).
  exists l. unfold new_year_lunar. rewrite Em, En. cbn [bind]. split; [exact El|].
  destruct (P_Stars.getLunar_new _ _ _ El) as (y0 & m0 & d0 & H).
  destruct (Lunar_new_day _ _ _ _ _ _ _ _ H) as (_ & _ & A1 & A2 & _); [rewrite S; exact Vn|rewrite S; unfold jd_year; lia|].
  rewrite S, Dn in A1, A2. split; assumption.
Qed.
Lemma NUMBER_ok i : 0 <= i < 12 -> py_index LunarUtil_NUMBER (i + 1) = Ok (numeral (i + 1)).
Proof.
  intros H. assert (T : forallb (fun i => ok_is (py_index LunarUtil_NUMBER (i + 1)) (numeral (i + 1))) (zrange 0 12) = true) by (vm_compute; reflexivity).
  by_table T i. apply ok_is_eq in X. exact X.
Qed.
(** The day [d] of the first month of [y] is the first that shows [name]. *)
Definition first_day (fy : Z -> res LYear) (y : Z) (shown : Lunar -> res str) (name : str) (d : Z) : Prop :=
  forall d' h mi s l, Lunar_new fy y 1 d' h mi s = Ok l -> (d' = d -> shown l = Ok name) /\ (d' < d -> shown l <> Ok name).

Lemma zao_zhi fy lo hi y t b name : Calendar fy lo hi -> lo + 1 < y < hi - 1 -> fy y = Ok t -> getMonth t 1 <> None -> 0 <= b < 12 ->
  exists d, 1 <= d <= 12 /\ getZaoByZhi fy t b name = Ok (replace1 name (utf8 "几") (numeral d)) /\ first_day fy y Lunar_getDayZhi (branch b) d.
Proof.
  intros C Hy Et Hm Hb. destruct (getMonth t 1) as [a|] eqn:Em; [clear Hm|contradiction].
  destruct (new_year_spec _ _ _ _ _ _ C Hy Et Em) as (l & El & _ & Z1). pose proof (Z.mod_pos_bound (mfirst a - 11) 12 ltac:(lia)) as Bz.
  exists ((b - (mfirst a - 11)) mod 12 + 1). pose proof (Z.mod_pos_bound (b - (mfirst a - 11)) 12 ltac:(lia)) as Bo. split; [lia|]. split.
  - unfold getZaoByZhi. rewrite El. cbn [bind]. cbv zeta. rewrite Z1.
    assert (Q : (if b - (mfirst a - 11) mod 12 <? 0 then b - (mfirst a - 11) mod 12 + 12 else b - (mfirst a - 11) mod 12) = (b - (mfirst a - 11)) mod 12).
    { destruct (Z.ltb_spec (b - (mfirst a - 11) mod 12) 0); Z.div_mod_to_equations; lia. }
    rewrite Q, NUMBER_ok by exact Bo. reflexivity.
  - intros d' h mi s l' H. destruct (new_day _ _ _ _ _ _ _ _ _ _ _ _ C Hy Et Em H) as (Hd & _ & Z2). unfold Lunar_getDayZhi.
    assert (Bd : 0 <= l_dayZhi l' < 12) by (rewrite Z2; apply Z.mod_pos_bound; lia). rewrite ZHI_ok by exact Bd. rewrite Z2.
    split.
    + intros ->. f_equal. unfold branch. do 2 f_equal. clear - Hb. Z.div_mod_to_equations. lia.
    + intros L X. apply Ok_inj in X. apply branch_inj in X. clear - X L Hd Hb. Z.div_mod_to_equations. lia.
Qed.
Lemma stem_inj a b : stem a = stem b -> a mod 10 = b mod 10.
Proof.
  intros E. assert (T : forallb (fun x => forallb (fun y => negb (str_eqb (stem x) (stem y)) || (x =? y)) (zrange 0 10)) (zrange 0 10) = true) by (vm_compute; reflexivity).
  pose proof (forallb_zrange _ _ _ T (a mod 10) (Z.mod_pos_bound a 10 ltac:(lia))) as X. cbv beta in X.
  pose proof (forallb_zrange _ _ _ X (b mod 10) (Z.mod_pos_bound b 10 ltac:(lia))) as Y. cbv beta in Y. clear T X.
  unfold stem in *. rewrite !Z.mod_mod in Y by lia. rewrite E in Y. apply orb_prop in Y. destruct Y as [Y|Y]; [|lia].
  rewrite (proj2 (str_eqb_eq _ _) eq_refl) in Y. discriminate.
Qed.
Lemma zao_gan fy lo hi y t b name : Calendar fy lo hi -> lo + 1 < y < hi - 1 -> fy y = Ok t -> getMonth t 1 <> None -> 0 <= b < 10 ->
  exists d, 1 <= d <= 10 /\ getZaoByGan fy t b name = Ok (replace1 name (utf8 "几") (numeral d)) /\ first_day fy y Lunar_getDayGan (stem b) d.
Proof.
  intros C Hy Et Hm Hb. destruct (getMonth t 1) as [a|] eqn:Em; [clear Hm|contradiction].
  destruct (new_year_spec _ _ _ _ _ _ C Hy Et Em) as (l & El & Z1 & _). pose proof (Z.mod_pos_bound (mfirst a - 11) 10 ltac:(lia)) as Bz.
  exists ((b - (mfirst a - 11)) mod 10 + 1). pose proof (Z.mod_pos_bound (b - (mfirst a - 11)) 10 ltac:(lia)) as Bo. split; [lia|]. split.
  - unfold getZaoByGan. rewrite El. cbn [bind]. cbv zeta. rewrite Z1.
    assert (Q : (if b - (mfirst a - 11) mod 10 <? 0 then b - (mfirst a - 11) mod 10 + 10 else b - (mfirst a - 11) mod 10) = (b - (mfirst a - 11)) mod 10).
    { destruct (Z.ltb_spec (b - (mfirst a - 11) mod 10) 0); Z.div_mod_to_equations; lia. }
    rewrite Q, NUMBER_ok by lia. reflexivity.
  - intros d' h mi s l' H. destruct (new_day _ _ _ _ _ _ _ _ _ _ _ _ C Hy Et Em H) as (Hd & Z2 & _). unfold Lunar_getDayGan.
    assert (Bd : 0 <= l_dayGan l' < 10) by (rewrite Z2; apply Z.mod_pos_bound; lia). rewrite GAN_ok by exact Bd. rewrite Z2.
    split.
    + intros ->. f_equal. unfold stem. do 2 f_equal. clear - Hb. Z.div_mod_to_equations. lia.
    + intros L X. apply Ok_inj in X. apply stem_inj in X. clear - X L Hd Hb. Z.div_mod_to_equations. lia.
Qed.

(** The omens, by the branch of the day they name: what precedes and follows the number. *)
Definition branch_omens (fy : Z -> res LYear) (t : LYear) : list (res str * str * str * str) :=
  [(getTouLiang fy t, utf8 "子", [], utf8 "鼠偷粮"); (getCaoZi fy t, utf8 "子", utf8 "草子", utf8 "分"); (getGengTian fy t, utf8 "丑", [], utf8 "牛耕田");
   (getHuaShou fy t, utf8 "卯", utf8 "花收", utf8 "分"); (getZhiShui fy t, utf8 "辰", [], utf8 "龙治水"); (getTuoGu fy t, utf8 "午", [], utf8 "马驮谷");
   (getQiangMi fy t, utf8 "酉", [], utf8 "鸡抢米"); (getKanCan fy t, utf8 "酉", [], utf8 "姑看蚕"); (getGongZhu fy t, utf8 "亥", [], utf8 "屠共猪")].
Definition stem_omens (fy : Z -> res LYear) (t : LYear) : list (res str * str * str * str) :=
  [(getJiaTian fy t, utf8 "甲", utf8 "甲田", utf8 "分"); (getFenBing fy t, utf8 "丙", [], utf8 "人分饼"); (getDeJin fy t, utf8 "辛", [], utf8 "日得金")].
Definition double_omens (fy : Z -> res LYear) (t : LYear) : list (res str * str * str) :=
  [(getRenBing fy t, utf8 "丙", utf8 "丙"); (getRenChu fy t, utf8 "丁", utf8 "锄")].
Theorem C80_branch_days : forall fy lo hi y t r name pre suf, Calendar fy lo hi -> lo + 1 < y < hi - 1 -> fy y = Ok t -> getMonth t 1 <> None ->
  In (r, name, pre, suf) (branch_omens fy t) -> exists d, 1 <= d <= 12 /\ r = Ok (pre ++ numeral d ++ suf) /\ first_day fy y Lunar_getDayZhi name d.
Proof.
  intros fy lo hi y t r name pre suf C Hy Et Hm I.
  assert (K : forall b n p q, (r, name, pre, suf) = (getZaoByZhi fy t b n, branch b, p, q) -> 0 <= b < 12 -> (forall x, replace1 n (utf8 "几") x = p ++ x ++ q) ->
    exists d, 1 <= d <= 12 /\ r = Ok (pre ++ numeral d ++ suf) /\ first_day fy y Lunar_getDayZhi name d).
  { intros b n p q E Hb R. apply pair_equal_spec in E. destruct E as [E ->]. apply pair_equal_spec in E. destruct E as [E ->]. apply pair_equal_spec in E. destruct E as [-> ->].
    destruct (zao_zhi _ _ _ _ _ b n C Hy Et Hm Hb) as (d & Hd & E & F). exists d. split; [exact Hd|]. split; [|exact F]. now rewrite E, R. }
  unfold branch_omens in I. repeat (destruct I as [I|I]; [symmetry in I; eapply K; [exact I|lia|intros x; reflexivity]|]). destruct I.
Qed.
Theorem C80_stem_days : forall fy lo hi y t r name pre suf, Calendar fy lo hi -> lo + 1 < y < hi - 1 -> fy y = Ok t -> getMonth t 1 <> None ->
  In (r, name, pre, suf) (stem_omens fy t) -> exists d, 1 <= d <= 10 /\ r = Ok (pre ++ numeral d ++ suf) /\ first_day fy y Lunar_getDayGan name d.
Proof.
  intros fy lo hi y t r name pre suf C Hy Et Hm I.
  assert (K : forall b n p q, (r, name, pre, suf) = (getZaoByGan fy t b n, stem b, p, q) -> 0 <= b < 10 -> (forall x, replace1 n (utf8 "几") x = p ++ x ++ q) ->
    exists d, 1 <= d <= 10 /\ r = Ok (pre ++ numeral d ++ suf) /\ first_day fy y Lunar_getDayGan name d).
  { intros b n p q E Hb R. apply pair_equal_spec in E. destruct E as [E ->]. apply pair_equal_spec in E. destruct E as [E ->]. apply pair_equal_spec in E. destruct E as [-> ->].
    destruct (zao_gan _ _ _ _ _ b n C Hy Et Hm Hb) as (d & Hd & E & F). exists d. split; [exact Hd|]. split; [|exact F]. now rewrite E, R. }
  unfold stem_omens in I. repeat (destruct I as [I|I]; [symmetry in I; eapply K; [exact I|lia|intros x; reflexivity]|]). destruct I.
Qed.
(** 几人几丙 and 几人几锄: the first number is that of the first 寅 day, the second that of the first 丙 or 丁 day. *)
Theorem C80_two_days : forall fy lo hi y t r name last, Calendar fy lo hi -> lo + 1 < y < hi - 1 -> fy y = Ok t -> getMonth t 1 <> None ->
  In (r, name, last) (double_omens fy t) -> exists d d', 1 <= d <= 12 /\ 1 <= d' <= 10 /\ r = Ok (numeral d ++ utf8 "人" ++ numeral d' ++ last) /\
    first_day fy y Lunar_getDayZhi (utf8 "寅") d /\ first_day fy y Lunar_getDayGan name d'.
Proof.
  intros fy lo hi y t r name last C Hy Et Hm I.
  assert (K : forall b n p, (r, name, last) = ((let! s := getZaoByZhi fy t 2 n in getZaoByGan fy t b s), stem b, p) -> 0 <= b < 10 ->
    (forall x, replace1 n (utf8 "几") x = x ++ utf8 "人几" ++ p) ->
    (forall d x, 1 <= d <= 12 -> replace1 (numeral d ++ utf8 "人几" ++ p) (utf8 "几") x = numeral d ++ utf8 "人" ++ x ++ p) ->
    exists d d', 1 <= d <= 12 /\ 1 <= d' <= 10 /\ r = Ok (numeral d ++ utf8 "人" ++ numeral d' ++ last) /\
      first_day fy y Lunar_getDayZhi (utf8 "寅") d /\ first_day fy y Lunar_getDayGan name d').
  { intros b n p E Hb R R'. apply pair_equal_spec in E. destruct E as [E ->]. apply pair_equal_spec in E. destruct E as [-> ->].
    destruct (zao_zhi _ _ _ _ _ 2 n C Hy Et Hm ltac:(lia)) as (d & Hd & E & F).
    destruct (zao_gan _ _ _ _ _ b (numeral d ++ utf8 "人几" ++ p) C Hy Et Hm Hb) as (d' & Hd' & E' & F'). exists d, d'. split; [exact Hd|]. split; [exact Hd'|]. split; [|split; assumption].
    rewrite E. cbn [bind]. rewrite R, E'. f_equal. apply R'. exact Hd. }
  unfold double_omens in I. repeat (destruct I as [I|I]; [symmetry in I; eapply K; [exact I|lia|intros x; reflexivity|]|]); [| |destruct I].
  - intros d x Hd.
    assert (Q : d = 1 \/ d = 2 \/ d = 3 \/ d = 4 \/ d = 5 \/ d = 6 \/ d = 7 \/ d = 8 \/ d = 9 \/ d = 10 \/ d = 11 \/ d = 12) by (clear - Hd; lia).
    repeat (destruct Q as [->|Q]; [reflexivity|]). subst d. reflexivity.
  - intros d x Hd.
    assert (Q : d = 1 \/ d = 2 \/ d = 3 \/ d = 4 \/ d = 5 \/ d = 6 \/ d = 7 \/ d = 8 \/ d = 9 \/ d = 10 \/ d = 11 \/ d = 12) by (clear - Hd; lia).
    repeat (destruct Q as [->|Q]; [reflexivity|]). subst d. reflexivity.
Qed.
(** Under a sky of equal months, the first 辰 day of 2025 is the seventh of the month. *)
Example C80_case : Calendar mean 2023 2032 /\ 2023 + 1 < 2025 < 2032 - 1 /\ mean 2025 = Ok mean_2025 /\ getMonth mean_2025 1 <> None /\
  getZhiShui mean mean_2025 = Ok (utf8 "七龙治水") /\ getRenBing mean mean_2025 = Ok (utf8 "五人九丙").
Proof. split; [exact mean_calendar|]. split; [lia|]. split; [exact mean_2025_eq|]. split; [discriminate|]. split; vm_compute; reflexivity. Qed.

(** ** C81 *)
(** The great cycle of 180 years begins in 1864: three 元 of 60 years, nine 运 of 20 years. *)
Definition yuan_names : list str := Eval vm_compute in map utf8 ["上元"; "中元"; "下元"]%string.
Definition yun_names : list str := Eval vm_compute in map utf8 ["一运"; "二运"; "三运"; "四运"; "五运"; "六运"; "七运"; "八运"; "九运"]%string.
Theorem C81_yuan : forall t, -2696 <= lyear t <= 2 ^ 51 ->
  LunarYear_getYuan t = Ok (nth (Z.to_nat ((lyear t - 1864) / 60 mod 3)) yuan_names []) /\
  LunarYear_getYun t = Ok (nth (Z.to_nat ((lyear t - 1864) / 20 mod 9)) yun_names []).
Proof.
  intros t H. split.
  - unfold LunarYear_getYuan. rewrite int_truediv_spec by lia. rewrite Z.quot_div_nonneg by lia. cbn [bind].
    replace ((lyear t - 1864) / 60 mod 3) with (((lyear t + 2696) / 60 mod 3 - 76) mod 3) by (clear; Z.div_mod_to_equations; lia).
    assert (T : forallb (fun q => ok_is (let! s := py_index LunarYear_YUAN q in Ok (s ++ utf8 "元"%string)) (nth (Z.to_nat ((q - 76) mod 3)) yuan_names [])) (zrange 0 3) = true)
      by (vm_compute; reflexivity).
    pose proof (forallb_zrange _ _ _ T ((lyear t + 2696) / 60 mod 3) (Z.mod_pos_bound _ 3 ltac:(lia))) as X. cbv beta in X. apply ok_is_eq in X. exact X.
  - unfold LunarYear_getYun. rewrite int_truediv_spec by lia. rewrite Z.quot_div_nonneg by lia. cbn [bind].
    replace ((lyear t - 1864) / 20 mod 9) with (((lyear t + 2696) / 20 mod 9 - 228) mod 9) by (clear; Z.div_mod_to_equations; lia).
    assert (T : forallb (fun q => ok_is (let! s := py_index LunarYear_YUN q in Ok (s ++ utf8 "运"%string)) (nth (Z.to_nat ((q - 228) mod 9)) yun_names [])) (zrange 0 9) = true)
      by (vm_compute; reflexivity).
    pose proof (forallb_zrange _ _ _ T ((lyear t + 2696) / 20 mod 9) (Z.mod_pos_bound _ 9 ltac:(lia))) as X. cbv beta in X. apply ok_is_eq in X. exact X.
Qed.
(** Before the year -2696 the quotient is truncated towards zero, and the 元 that begins there has 119 years. *)
Theorem C81_refuted : forall t, -2755 <= lyear t < -2696 -> LunarYear_getYuan t = Ok (utf8 "下元") /\ (lyear t - 1864) / 60 mod 3 = 1.
Proof.
  intros t H. split; [|Z.div_mod_to_equations; lia]. unfold LunarYear_getYuan. rewrite int_truediv_spec by lia.
  replace (Z.quot (lyear t + 2696) 60) with 0; [vm_compute; reflexivity|]. symmetry.
  replace (lyear t + 2696) with (- (- (lyear t + 2696))) by lia. rewrite Z.quot_opp_l by lia. rewrite Z.quot_small by lia. reflexivity.
Qed.
Example C81_case : LunarYear_getYuan mean_2025 = Ok (utf8 "下元") /\ LunarYear_getYun mean_2025 = Ok (utf8 "九运") /\ -2696 <= lyear mean_2025 <= 2 ^ 51.
Proof. split; [vm_compute; reflexivity|]. split; [vm_compute; reflexivity|]. vm_compute. split; discriminate. Qed.

(** ** C82 *)
(** From month to month the index grows by one, or begins again at 1 with the year. *)
Fixpoint counted (l : list LMonth) : Prop :=
  match l with
  | a :: ((b :: _) as t) => ((my b = my a /\ mindex b = mindex a + 1) \/ (my b = my a + 1 /\ mindex b = 1)) /\ counted t
  | _ => True
  end.
Lemma months_counted leap hs : forall n i fm index y ms, 0 <= i -> months_from leap hs (fm, index, y) (zseq i n) = Ok ms ->
  counted ms /\ match ms with m :: _ => if fm =? -1 then my m = y else (my m = y /\ mindex m = index) \/ (my m = y + 1 /\ mindex m = 1) | [] => True end.
Proof.
  induction n as [|n IH]; intros i fm index y ms Hi H; cbn [zseq months_from] in H.
  - apply Ok_inj in H. subst ms. split; exact I.
  - apply bind_ok in H. destruct H as ([st m] & Es & H). apply bind_ok in H. destruct H as (ms' & Em & H). apply Ok_inj in H. subst ms.
    apply month_step_spec in Es; [|exact Hi]. destruct Es as (h & h' & _ & _ & E). cbv zeta in E. apply pair_equal_spec in E. destruct E as [-> ->].
    destruct (IH (i + 1) _ _ _ _ ltac:(lia) Em) as (L & F). clear IH Em. pose proof (number'_range leap (h + 2451545) i) as R.
    split.
    + cbn [counted]. destruct ms' as [|b ms']; [exact I|]. split; [|exact L]. replace (number' leap (h + 2451545) i =? -1) with false in F by lia.
      cbn [my mindex]. exact F.
    + cbn [my mindex]. destruct (fm =? -1); [reflexivity|]. destruct (number' leap (h + 2451545) i <? fm); [right|left]; split; reflexivity.
Qed.
Lemma counted_filter y ms : counted ms -> match ms with m :: _ => my m < y | [] => True end ->
  forall i, 0 <= i < Z.of_nat (List.length (filter (fun m => my m =? y) ms)) -> mindex (nthm (filter (fun m => my m =? y) ms) i) = i + 1.
Proof.
  assert (G : forall ms a, counted (a :: ms) -> my a = y -> forall i, 0 <= i < Z.of_nat (List.length (filter (fun m => my m =? y) (a :: ms))) ->
    mindex (nthm (filter (fun m => my m =? y) (a :: ms)) i) = mindex a + i).
  { induction ms0 as [|b ms0 IH]; intros a H E i Hi; cbn [filter] in *; replace (my a =? y) with true in * by lia.
    - cbn [List.length] in Hi. replace i with 0 by lia. cbn. lia.
    - destruct (Z.eq_dec i 0) as [->|Ni]; [cbn; lia|].
      assert (Sh : forall l, nthm (a :: l) i = nthm l (i - 1)) by (intros l; unfold nthm; replace (Z.to_nat i) with (Datatypes.S (Z.to_nat (i - 1))) by lia; reflexivity).
      rewrite Sh. destruct H as [[[Y X]|[Y X]] H].
      + specialize (IH b H ltac:(lia) (i - 1)). cbn [filter] in IH. rewrite IH; [lia|]. cbn [List.length] in Hi. cbn [filter] in Hi. lia.
      + exfalso. clear IH Sh. assert (Q : forall l b, counted (b :: l) -> y < my b -> filter (fun m => my m =? y) (b :: l) = []).
        { clear. induction l as [|c l IH]; intros b H Y; cbn [filter]; replace (my b =? y) with false by lia; [reflexivity|]. destruct H as [H H']. apply (IH c H'). lia. }
        specialize (Q ms0 b H ltac:(lia)). cbn [filter] in Q. rewrite Q in Hi. cbn in Hi. lia. }
  induction ms as [|a ms IH]; intros H L i Hi; [cbn in Hi; lia|]. cbn [filter] in *. replace (my a =? y) with false in * by lia.
  destruct ms as [|b ms]; [cbn in Hi; lia|]. destruct H as [[[Y X]|[Y X]] H]; [apply IH; [exact H|lia|exact Hi]|].
  destruct (Z.eq_dec (my b) y) as [E|E]; [pose proof (G ms b H E i Hi) as Q; etransitivity; [exact Q|lia]|]. apply IH; [exact H|lia|exact Hi].
Qed.
(** The index of a month is its place in the year, leap months counted. *)
Theorem C82_place : forall sky y t i, LunarYear_new sky y = Ok t -> 0 <= i < Z.of_nat (List.length (getMonthsInYear t)) -> mindex (nthm (getMonthsInYear t) i) = i + 1.
Proof.
  intros sky y t i H Hi. destruct (LunarYear_new_inv _ _ _ H) as (jq & terms & hs & leap & _ & _ & _ & El & Em & Y & _).
  pose proof (months_counted _ _ _ 0 _ _ _ _ ltac:(lia) Em) as [C F]. unfold getMonthsInYear in *.
  rewrite Y in *. apply counted_filter; [exact C| |exact Hi]. destruct (lmonths t); [exact I|]. change (-1 =? -1) with true in F. cbv iota in F. lia.
Qed.
(** The pillars of the months run on from year to year: the [i]-th month of [y] has the pillar 12 (y - 4) + 2 + i of the cycle (丙寅 for the first of a year 甲). *)
Theorem C82_pillars : forall sky y t i, LunarYear_new sky y = Ok t -> 0 <= i < Z.of_nat (List.length (getMonthsInYear t)) ->
  LunarMonth_getGanZhi (LunarYear_new sky) (nthm (getMonthsInYear t) i) = Ok (pair60 (12 * (y - 4) + 2 + i)).
Proof.
  intros sky y t i H Hi. pose proof (C82_place _ _ _ _ H Hi) as X.
  assert (Y : my (nthm (getMonthsInYear t) i) = y).
  { destruct (LunarYear_new_inv _ _ _ H) as (_ & _ & _ & _ & _ & _ & _ & _ & _ & Y & _). pose proof (nthm_in (getMonthsInYear t) i Hi) as I. unfold getMonthsInYear in I at 2. rewrite Y in I.
    apply filter_In in I. lia. }
  destruct (LunarYear_new_inv _ _ _ H) as (_ & _ & _ & _ & _ & _ & _ & _ & _ & _ & G & _).
  unfold LunarMonth_getGanZhi, LunarMonth_getGan, LunarMonth_getZhi, LunarMonth_getGanIndex, LunarMonth_getZhiIndex. rewrite Y, X, H. cbn [bind]. rewrite G.
  change LunarUtil_BASE_MONTH_ZHI_INDEX with 2. apply pillar; clear; Z.div_mod_to_equations; lia.
Qed.
(** A leap month takes a pillar of its own, so the thirteenth month of a year has that of the first month of the next; and the table of the next year, which begins with the
    last months of this one, counts them without the leap month. *)
Theorem C82_refuted : forall sky y t t', LunarYear_new sky y = Ok t -> LunarYear_new sky (y + 1) = Ok t' -> List.length (getMonthsInYear t) = 13%nat -> getMonthsInYear t' <> [] ->
  LunarMonth_getGanZhi (LunarYear_new sky) (nthm (getMonthsInYear t) 12) = LunarMonth_getGanZhi (LunarYear_new sky) (nthm (getMonthsInYear t') 0).
Proof.
  intros sky y t t' H H' L N. rewrite (C82_pillars _ _ _ 12 H) by (rewrite L; lia).
  rewrite (C82_pillars _ _ _ 0 H') by (destruct (getMonthsInYear t'); [contradiction|]; cbn [List.length]; lia). do 2 f_equal. lia.
Qed.
Example C82_case : List.length (getMonthsInYear mean_2025) = 13%nat /\ nthm (getMonthsInYear mean_2025) 12 = twelve /\
  LunarMonth_getGanZhi mean twelve = Ok (utf8 "庚寅") /\ LunarMonth_getGanZhi mean first2026 = Ok (utf8 "庚寅") /\
  LunarMonth_getGanZhi mean (nthm (getMonthsInYear mean_2025) 0) = Ok (utf8 "戊寅") /\
  (let! t := mean 2026 in Ok (map (fun m => (my m, mm m, LunarMonth_getGanZhi mean m)) (firstn 2 (lmonths t)))) =
    Ok [(2025, 11, Ok (utf8 "戊子")); (2025, 12, Ok (utf8 "己丑"))].
Proof. split; [vm_compute; reflexivity|]. split; [vm_compute; reflexivity|]. split; [vm_compute; reflexivity|]. split; [vm_compute; reflexivity|]. split; vm_compute; reflexivity. Qed.
