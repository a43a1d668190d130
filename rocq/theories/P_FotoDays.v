(** C84: Buddhist fast days and lodges.  C85: Taoist days. *)
From Coq Require Import ZArith Lia Bool ZifyBool List String Floats.
From Verif Require Import Py PyFloat PyStr CalSpec DayNo Solar SolarProofs JulianDay P_JD P_Solar LunarUtil T_LunarUtil T_Misc T_Festivals P_Tables P_Almanac
  LunarYear ShouXing Lunar LunarTime LunarProofs TermProofs YearProofs CalProofs P_Accessors P_Pillars P_LunarYears P_LunarCal FotoTao P_NewYear P_Stars P_Day P_Year P_HolidayFix Demo.
Import ListNotations.
Open Scope Z_scope.

(** ** C84 *)
(** The six fast days of a month: 8, 14, 15, 23 and its last two days. *)
Theorem C84_six : forall fy y m d h mi s l t a, Lunar_new fy y m d h mi s = Ok l -> fy y = Ok t -> getMonth t m = Some a -> 29 <= mcount a <= 30 ->
  exists b, isDayZhaiSix fy l = Ok b /\ (b = true <-> In d [8; 14; 15; 23; mcount a - 1; mcount a]).
Proof.
  intros fy y m d h mi s l t a H Et Em Hc. destruct (new_ymd _ _ _ _ _ _ _ _ H) as (Ey & Emo & Ed).
  destruct (Lunar_new_inv _ _ _ _ _ _ _ _ H) as (t' & mo & noon & t2 & Et' & Em' & Hd & _).
  rewrite Et in Et'. apply Ok_inj in Et'. subst t'. rewrite Em in Em'. assert (mo = a) by congruence. subst mo.
  unfold isDayZhaiSix, LunarMonth_fromYm. cbv zeta. rewrite Ey, Emo, Ed, Et. cbn [bind]. rewrite Em.
  destruct ((8 =? d) || (14 =? d) || (15 =? d) || (23 =? d) || (29 =? d) || (30 =? d)) eqn:E1.
  - exists true. split; [reflexivity|]. cbn [In]. lia.
  - destruct (Z.eqb_spec 28 d) as [E2|E2]; eexists; (split; [reflexivity|]); cbn [In]; lia.
Qed.
(** So a month of 29 or 30 days has exactly six. *)
Theorem C84_six_per_month : forall fy lo hi y t a, Calendar fy lo hi -> lo + 1 < y < hi - 1 -> fy y = Ok t -> In a (lmonths t) -> my a = y -> 29 <= mcount a <= 30 ->
  exists ds, List.length ds = 6%nat /\ NoDup ds /\ forall d, (exists l, Lunar_new fy y (mm a) d 0 0 0 = Ok l /\ isDayZhaiSix fy l = Ok true) <-> In d ds.
Proof.
  intros fy lo hi y t a C Hy Et Ia Ya Hc. exists [8; 14; 15; 23; mcount a - 1; mcount a]. split; [reflexivity|]. split; [repeat constructor; cbn [In]; lia|].
  intros d. destruct (getMonth_same C y t a ltac:(lia) Et Ia Ya) as (b & Eb & Ib & (Sy & Sm & Sf & Sc)). split.
  - intros (l & H & Z6). destruct (C84_six _ _ _ _ _ _ _ _ _ _ H Et Eb ltac:(lia)) as (x & E & F). rewrite Z6 in E. apply Ok_inj in E. subst x. rewrite Sc. apply F. reflexivity.
  - intros I. assert (Hd : 1 <= d <= mcount a) by (cbn [In] in I; lia).
    destruct (new_spec C y t a d 0 0 0 ltac:(lia) Et Ia Ya Hd ltac:(unfold valid_time; lia)) as (l & H & _).
    { apply (year_of_month _ _ _ y t a _ C ltac:(lia) Et Ia). unfold mend. lia. }
    exists l. split; [exact H|]. destruct (C84_six _ _ _ _ _ _ _ _ _ _ H Et Eb ltac:(lia)) as (x & E & F). rewrite E. f_equal. apply F. rewrite <- Sc. exact I.
Qed.
(** The 27 lodges (the 28 without 牛) follow each other day by day; the first day of each month. *)
Definition lodges27 : list str := Eval vm_compute in map utf8 ["角"; "亢"; "氐"; "房"; "心"; "尾"; "箕"; "斗"; "女"; "虚"; "危"; "室"; "壁"; "奎"; "娄"; "胃"; "昴"; "毕"; "觜"; "参"; "井"; "鬼"; "柳"; "星"; "张"; "翼"; "轸"]%string.
Definition lodge27 (i : Z) : str := nth (Z.to_nat (i mod 27)) lodges27 [].
Definition first_lodge : list str := Eval vm_compute in map utf8 ["室"; "奎"; "胃"; "毕"; "参"; "鬼"; "张"; "角"; "氐"; "心"; "斗"; "虚"]%string.
Theorem C84_lodges : forall m d, 1 <= Z.abs m <= 12 -> exists i, lodge27 i = nth (Z.to_nat (Z.abs m - 1)) first_lodge [] /\ FotoUtil_getXiu m d = Ok (lodge27 (i + (d - 1))).
Proof.
  intros m d Hm. assert (T : forallb (fun k => match py_index FotoUtil_XIU_OFFSET (k - 1) with Ok o => str_eqb (lodge27 o) (nth (Z.to_nat (k - 1)) first_lodge []) | Raise _ => false end) (zrange 1 13) = true)
    by (vm_compute; reflexivity).
  pose proof (forallb_zrange _ _ _ T (Z.abs m) ltac:(lia)) as X. cbv beta in X. clear T. unfold FotoUtil_getXiu.
  destruct (py_index FotoUtil_XIU_OFFSET (Z.abs m - 1)) as [o|]; [|discriminate]. cbn [bind]. exists o. split; [apply str_eqb_eq; exact X|].
  change (Z.of_nat (List.length FotoUtil_XIU_27)) with 27. replace (o + d - 1) with (o + (d - 1)) by lia.
  assert (T : forallb (fun i => ok_is (py_index FotoUtil_XIU_27 i) (lodge27 i)) (zrange 0 27) = true) by (vm_compute; reflexivity).
  pose proof (forallb_zrange _ _ _ T ((o + (d - 1)) mod 27) (Z.mod_pos_bound _ 27 ltac:(lia))) as Y. cbv beta in Y. apply ok_is_eq in Y. rewrite Y.
  unfold lodge27. now rewrite Z.mod_mod by lia.
Qed.
(** Every accessor derived from the lodge finds its entry. *)
Theorem C84_lookups : forall l, 1 <= Z.abs (l_month l) <= 12 ->
  Forall (fun r => exists v, r = Ok v /\ v <> []) [Foto_getXiu l; Foto_getXiuLuck l; Foto_getXiuSong l; Foto_getZheng l; Foto_getAnimal l; Foto_getGong l; Foto_getShou l].
Proof.
  intros l Hm. destruct (C84_lodges (l_month l) (l_day l) Hm) as (i & _ & E).
  unfold Foto_getShou, Foto_getXiuLuck, Foto_getXiuSong, Foto_getZheng, Foto_getAnimal, Foto_getGong, Foto_getXiu. rewrite E. cbn [bind]. set (k := i + (l_day l - 1)).
  assert (T : forallb (fun k => forallb (fun r => match r with Ok (_ :: _) => true | _ => false end)
    [Ok (lodge27 k); py_dict LunarUtil_XIU_LUCK (lodge27 k); py_dict LunarUtil_XIU_SONG (lodge27 k); py_dict LunarUtil_ZHENG (lodge27 k); py_dict LunarUtil_ANIMAL (lodge27 k);
     py_dict LunarUtil_GONG (lodge27 k); (let! x := py_dict LunarUtil_GONG (lodge27 k) in py_dict LunarUtil_SHOU x)]) (zrange 0 27) = true) by (vm_compute; reflexivity).
  pose proof (forallb_zrange _ _ _ T (k mod 27) (Z.mod_pos_bound _ 27 ltac:(lia))) as X. cbv beta in X. clear T.
  replace (lodge27 (k mod 27)) with (lodge27 k) in X by (unfold lodge27; now rewrite Z.mod_mod by lia).
  apply Forall_forall. intros r I. rewrite forallb_forall in X. specialize (X r I). cbv beta in X. destruct r as [[|c v]|]; [discriminate| |discriminate].
  exists (c :: v). split; [reflexivity|discriminate].
Qed.
Example C84_case : Calendar mean 2023 2032 /\ In nine (lmonths mean_2025) /\ mcount nine = 29 /\
  map (fun d => match (let! l := Lunar_new mean 2025 (-9) d 0 0 0 in isDayZhaiSix mean l) with Ok b => b | Raise _ => false end) [23; 27; 28; 29] = [true; false; true; true] /\
  FotoUtil_getXiu (-9) 1 = Ok (utf8 "氐") /\ FotoUtil_getXiu 12 30 = Ok (utf8 "室").
Proof. split; [exact mean_calendar|]. split; [exact nine_in|]. split; [reflexivity|]. split; [vm_compute; reflexivity|]. split; vm_compute; reflexivity. Qed.

(** ** C85 *)
(** 天赦: 戊寅 in the three months of spring, 甲午 in summer, 戊申 in autumn, 甲子 in winter (the months by their branch, from 寅). *)
Definition pardon (season : Z) : Z := nth (Z.to_nat season) [14; 30; 44; 0] 0.
Lemma pair60_mod n : pair60 n = pair60 (n mod 60).
Proof.
  unfold pair60, stem, branch. replace (n mod 60 mod 10) with (n mod 10) by (clear; Z.div_mod_to_equations; lia).
  replace (n mod 60 mod 12) with (n mod 12) by (clear; Z.div_mod_to_equations; lia). reflexivity.
Qed.
Definition tian_she (mz dgz : str) : bool :=
  if py_in mz (utf8 "寅卯辰"%string) then str_eqb (utf8 "戊寅"%string) dgz
  else if py_in mz (utf8 "巳午未"%string) then str_eqb (utf8 "甲午"%string) dgz
  else if py_in mz (utf8 "申酉戌"%string) then str_eqb (utf8 "戊申"%string) dgz
  else if py_in mz (utf8 "亥子丑"%string) then str_eqb (utf8 "甲子"%string) dgz else false.
Lemma tian_she_table : forallb (fun b => forallb (fun n => Bool.eqb (tian_she (branch b) (pair60 n)) (n =? pardon ((b - 2) mod 12 / 3))) (zrange 0 60)) (zrange 0 12) = true.
Proof. vm_compute. reflexivity. Qed.
Theorem C85_tian_she : forall l b n, Lunar_getMonthZhi l = Ok (branch b) -> Lunar_getDayInGanZhi l = Ok (pair60 n) ->
  isDayTianShe l = Ok (n mod 60 =? pardon ((b - 2) mod 12 / 3)).
Proof.
  intros l b n M D. unfold isDayTianShe. rewrite M, D. cbn [bind]. f_equal. rewrite pair60_mod. change (tian_she (branch b) (pair60 (n mod 60)) = (n mod 60 =? pardon ((b - 2) mod 12 / 3))).
  pose proof (forallb_zrange _ _ _ tian_she_table (b mod 12) (Z.mod_pos_bound b 12 ltac:(lia))) as X. cbv beta in X.
  pose proof (forallb_zrange _ _ _ X (n mod 60) (Z.mod_pos_bound n 60 ltac:(lia))) as Y. cbv beta in Y. apply eqb_prop in Y.
  replace (branch (b mod 12)) with (branch b) in Y by (unfold branch; now rewrite Z.mod_mod by lia). rewrite Y. do 2 f_equal. clear. Z.div_mod_to_equations. lia.
Qed.
(** 八会: eight of the sixty days. *)
Theorem C85_ba_hui : forall l n, Lunar_getDayInGanZhi l = Ok (pair60 n) ->
  isDayBaHui l = Ok (existsb (Z.eqb (n mod 60)) [42; 18; 48; 6; 56; 57; 40; 10]).
Proof.
  intros l n D. unfold isDayBaHui. rewrite D. cbn [bind]. f_equal. rewrite pair60_mod.
  assert (T : forallb (fun n => Bool.eqb (has_key (pair60 n) TaoUtil_BA_HUI) (existsb (Z.eqb n) [42; 18; 48; 6; 56; 57; 40; 10])) (zrange 0 60) = true) by (vm_compute; reflexivity).
  pose proof (forallb_zrange _ _ _ T (n mod 60) (Z.mod_pos_bound n 60 ltac:(lia))) as X. cbv beta in X. apply eqb_prop in X. exact X.
Qed.
(** 明戊: a 戊 day; 暗戊: a day of the branch of the month, 未 戌 辰 寅 午 子 酉 申 巳 亥 卯 丑 from the first on; 戊日: either. *)
Definition hidden : list Z := [7; 10; 4; 2; 6; 0; 9; 8; 5; 11; 3; 1].
Theorem C85_wu : forall fy y m d h mi s l n, Lunar_new fy y m d h mi s = Ok l -> 1 <= Z.abs m <= 12 -> Lunar_getDayInGanZhi l = Ok (pair60 n) ->
  isDayMingWu l = Ok (n mod 10 =? 4) /\ isDayAnWu l = Ok (n mod 12 =? nth (Z.to_nat (Z.abs m - 1)) hidden 0) /\
  isDayWu l = Ok ((n mod 10 =? 4) || (n mod 12 =? nth (Z.to_nat (Z.abs m - 1)) hidden 0)).
Proof.
  intros fy y m d h mi s l n H Hm D. destruct (new_ymd _ _ _ _ _ _ _ _ H) as (_ & Em & _). pose proof (new_indices _ _ _ _ _ _ _ _ H) as I.
  pose proof (pil_gan _ _ (ix_day _ I)) as Bg. pose proof (pil_zhi _ _ (ix_day _ I)) as Bz.
  assert (G : Lunar_getDayGan l = Ok (stem n) /\ Lunar_getDayZhi l = Ok (branch n)).
  { unfold Lunar_getDayInGanZhi in D. unfold Lunar_getDayGan, Lunar_getDayZhi in *. rewrite GAN_ok, ZHI_ok in * by assumption. cbn [cat2 bind] in D. apply Ok_inj in D.
    unfold pair60 in D. assert (L : forall k, List.length (stem k) = 1%nat).
    { intros k. assert (T : forallb (fun k => Nat.eqb (List.length (stem k)) 1) (zrange 0 10) = true) by (vm_compute; reflexivity).
      pose proof (forallb_zrange _ _ _ T (k mod 10) (Z.mod_pos_bound k 10 ltac:(lia))) as X. cbv beta in X. unfold stem in *. rewrite Z.mod_mod in X by lia. apply Nat.eqb_eq. exact X. }
    destruct (app_inj_len _ _ _ _ (eq_trans (L _) (eq_sym (L _))) D) as [-> ->]. split; reflexivity. }
  destruct G as [Gg Gz].
  assert (Tg : str_eqb (utf8 "戊"%string) (stem n) = (n mod 10 =? 4)).
  { assert (T : forallb (fun k => Bool.eqb (str_eqb (utf8 "戊"%string) (stem k)) (k =? 4)) (zrange 0 10) = true) by (vm_compute; reflexivity).
    pose proof (forallb_zrange _ _ _ T (n mod 10) (Z.mod_pos_bound n 10 ltac:(lia))) as X. cbv beta in X. apply eqb_prop in X. rewrite <- X. unfold stem. now rewrite Z.mod_mod by lia. }
  assert (E1 : isDayMingWu l = Ok (n mod 10 =? 4)) by (unfold isDayMingWu; rewrite Gg; cbn [bind]; now rewrite Tg).
  assert (E2 : isDayAnWu l = Ok (n mod 12 =? nth (Z.to_nat (Z.abs m - 1)) hidden 0)).
  { assert (T : forallb (fun q => forallb (fun k => match py_index TaoUtil_AN_WU q with Ok w => Bool.eqb (str_eqb (branch k) w) (k =? nth (Z.to_nat q) hidden 0) | _ => false end) (zrange 0 12)) (zrange 0 12) = true) by (vm_compute; reflexivity).
    pose proof (forallb_zrange _ _ _ T (Z.abs m - 1) ltac:(lia)) as X. cbv beta in X.
    pose proof (forallb_zrange _ _ _ X (n mod 12) (Z.mod_pos_bound n 12 ltac:(lia))) as Y. cbv beta in Y.
    unfold isDayAnWu. rewrite Gz, Em. cbn [bind]. destruct (py_index TaoUtil_AN_WU (Z.abs m - 1)) as [w|e]; [|discriminate Y]. cbn [bind]. apply eqb_prop in Y. rewrite <- Y. unfold branch. now rewrite Z.mod_mod by lia. }
  split; [exact E1|]. split; [exact E2|]. unfold isDayWu. rewrite E1. cbn [bind]. destruct (n mod 10 =? 4); [reflexivity|]. exact E2.
Qed.
(** 八节: exactly the days bearing one of the four beginnings, the equinoxes and the solstices. *)
Lemma has_key_names {A} (k : str) (t : list (str * A)) : has_key k t = existsb (str_eqb k) (map fst t).
Proof.
  unfold has_key. induction t as [|[k' v] t IH]; [reflexivity|]. cbn [assoc map fst existsb]. rewrite <- IH.
  destruct (assoc k t); destruct (str_eqb k k'); reflexivity.
Qed.
Theorem C85_ba_jie : forall l jq, Lunar_getJieQi l = Ok jq ->
  isDayBaJie l = Ok (existsb (str_eqb jq) (map utf8 ["立春"; "春分"; "立夏"; "夏至"; "立秋"; "秋分"; "立冬"; "冬至"]%string)).
Proof.
  intros l jq J. unfold isDayBaJie. rewrite J. cbn [bind]. f_equal. rewrite has_key_names. 
  assert (K : forallb (fun k => existsb (str_eqb k) (map utf8 ["立春"; "春分"; "立夏"; "夏至"; "立秋"; "秋分"; "立冬"; "冬至"]%string)) (map fst TaoUtil_BA_JIE) &&
    forallb (fun k => existsb (str_eqb k) (map fst TaoUtil_BA_JIE)) (map utf8 ["立春"; "春分"; "立夏"; "夏至"; "立秋"; "秋分"; "立冬"; "冬至"]%string) = true) by (vm_compute; reflexivity).
  apply andb_prop in K. destruct K as [K1 K2]. rewrite forallb_forall in K1, K2. apply eq_true_iff_eq. rewrite !existsb_exists.
  split; intros (k & I & E); apply str_eqb_eq in E; subst k; [apply K1 in I|apply K2 in I]; apply existsb_exists in I; exact I.
Qed.
(** 15 March 2024 in the demonstration sky: a 戊寅 day of the month of 卯, a 天赦 and a 明戊; the equinox is a 八节. *)
Example C85_case : exists l y d, Lunar_new demo y 2 d 12 0 0 = Ok l /\ Lunar_getMonthZhi l = Ok (branch 3) /\ Lunar_getDayInGanZhi l = Ok (pair60 14) /\
  isDayTianShe l = Ok true /\ isDayWu l = Ok true /\ isDayAnWu l = Ok false /\ isDayBaHui l = Ok false /\ isDayBaJie l = Ok false /\
  (let! l := getLunar demo (mkSolar 2024 3 20 12 0 0) in isDayBaJie l) = Ok true.
Proof.
  assert (E : (let! l := getLunar demo (mkSolar 2024 3 15 12 0 0) in let! z := Lunar_getMonthZhi l in let! p := Lunar_getDayInGanZhi l in
    let! a := isDayTianShe l in let! b := isDayWu l in let! c := isDayAnWu l in let! e := isDayBaHui l in let! f := isDayBaJie l in Ok (l_month l, z, p, [a; b; c; e; f])) =
    Ok (2, branch 3, pair60 14, [true; true; false; false; false])) by (vm_compute; reflexivity).
  apply bind_ok in E. destruct E as (l & El & E). destruct (getLunar_new _ _ _ El) as (y & m & d & H).
  apply bind_ok in E. destruct E as (z & Z1 & E). apply bind_ok in E. destruct E as (p & Z2 & E). apply bind_ok in E. destruct E as (a & Z3 & E).
  apply bind_ok in E. destruct E as (b & Z4 & E). apply bind_ok in E. destruct E as (c & Z5 & E). apply bind_ok in E. destruct E as (e & Z6 & E). apply bind_ok in E. destruct E as (f & Z7 & E).
  apply Ok_inj in E. apply pair_equal_spec in E. destruct E as [E E4]. apply pair_equal_spec in E. destruct E as [E E3]. apply pair_equal_spec in E. destruct E as [E1 E2].
  injection E4 as -> -> -> -> ->. subst z p. destruct (new_ymd _ _ _ _ _ _ _ _ H) as (_ & Em & _). assert (m = 2) by congruence. clear Em. subst m.
  exists l, y, d. split; [exact H|]. split; [exact Z1|]. split; [exact Z2|]. split; [exact Z3|]. split; [exact Z4|]. split; [exact Z5|].
  split; [exact Z6|]. split; [exact Z7|]. vm_compute. reflexivity.
Qed.
