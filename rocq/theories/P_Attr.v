(** C89: the attributes of a pillar follow from its number in the cycle of sixty.  C90: the lodge, the day and the month name their attributes. *)
From Coq Require Import ZArith Lia Bool ZifyBool List String Floats.
From Verif Require Import Py PyFloat PyStr CalSpec DayNo Solar SolarUnits SolarProofs JulianDay LunarUtil T_LunarUtil T_SolarUtil T_Misc P_Almanac P_Tables
  LunarYear Lunar LunarTime LunarProofs TermProofs YearProofs CalProofs EightChar FotoTao Demo P_Accessors P_Pillars P_Stars P_EightChar P_Luck P_FotoDays.
Import ListNotations.
Open Scope Z_scope.

(** ** What belongs to pair [i] of the cycle *)
Definition pick (i n : Z) (names : list string) : str := nth (Z.to_nat (i mod n)) (map utf8 names) [].
Definition animal (i : Z) : str := pick i 12 ["鼠"; "牛"; "虎"; "兔"; "龙"; "蛇"; "马"; "羊"; "猴"; "鸡"; "狗"; "猪"]%string.
(** the head of the decade of ten pairs holding [i], and the two branches the decade leaves out *)
Definition decade (i : Z) : str := pair60 (10 * (i / 10)).
Definition void (i : Z) : str := branch (10 * (i / 10) + 10) ++ branch (10 * (i / 10) + 11).
Definition sound (i : Z) : str := pick (i / 2) 30
  ["海中金"; "炉中火"; "大林木"; "路旁土"; "剑锋金"; "山头火"; "涧下水"; "城头土"; "白蜡金"; "杨柳木"; "泉中水"; "屋上土"; "霹雳火"; "松柏木"; "长流水";
   "沙中金"; "山下火"; "平地木"; "壁上土"; "金箔金"; "覆灯火"; "天河水"; "大驿土"; "钗钏金"; "桑柘木"; "大溪水"; "沙中土"; "天上火"; "石榴木"; "大海水"]%string.
(** the pair clashing with [i] has the branch six on and the stem four on; the weaker clash pairs stems of one element and opposite kind five on or three on *)
Definition clash (i : Z) : str := lit "(" ++ stem (i + 4) ++ branch (i + 6) ++ lit ")" ++ animal (i + 6).
Definition sha (i : Z) : str := pick i 4 ["南"; "东"; "北"; "西"]%string.
(** the trigram of a branch, and the direction of a trigram *)
Definition place (z : Z) : str := pick z 12 ["坎"; "艮"; "艮"; "震"; "巽"; "巽"; "离"; "坤"; "坤"; "兑"; "乾"; "乾"]%string.
Definition compass (t : str) : str :=
  nth (Z.to_nat (index_of 0 t (map utf8 ["坎"; "艮"; "震"; "巽"; "离"; "坤"; "兑"; "乾"; "中"]%string)))
    (map utf8 ["正北"; "东北"; "正东"; "东南"; "正南"; "西南"; "正西"; "西北"; "中宫"]%string) [].
(** 喜神: 甲己 艮, 乙庚 乾, 丙辛 坤, 丁壬 离, 戊癸 巽.  贵神: the branches 未 申 酉 亥 丑 子 午 寅 卯 巳 by day and 丑 子 亥 酉 未 申 寅 午 巳 卯 by night.
    财神: two stems share one. *)
Definition joy (i : Z) : str := pick i 5 ["艮"; "乾"; "坤"; "离"; "巽"]%string.
Definition noble_day (i : Z) : str := place (nth (Z.to_nat (i mod 10)) [7; 8; 9; 11; 1; 0; 6; 2; 3; 5] 0).
Definition noble_night (i : Z) : str := place (nth (Z.to_nat (i mod 10)) [1; 0; 11; 9; 7; 8; 2; 6; 5; 3] 0).
Definition luck (sect i : Z) : str :=
  if sect =? 1 then pick i 10 ["巽"; "巽"; "震"; "震"; "坎"; "离"; "坤"; "坤"; "乾"; "兑"]%string
  else pick i 5 ["坎"; "坤"; "乾"; "巽"; "艮"]%string.
Definition wealth (i : Z) : str := pick (i mod 10 / 2) 5 ["艮"; "坤"; "坎"; "震"; "离"]%string.
(** The year's Tai Sui stands on its branch; the code puts those of 戌 and 亥 on 坎 instead of 乾. *)
Definition tai_sui_year (i : Z) : str := if 10 <=? i mod 12 then utf8 "坎"%string else place i.
(** The month's: 寅午戌 艮, 申子辰 坤, 巳酉丑 巽, and for 亥卯未 the place of the stem. *)
Definition tai_sui_month (i : Z) : str :=
  if i mod 4 =? 3 then pick (i mod 10 / 2) 5 ["震"; "离"; "中"; "兑"; "坎"]%string else pick i 4 ["坤"; "巽"; "艮"; ""]%string.
(** 胎神: a place for the stem and one for the branch (a doubled place is said once), and the side of the house. *)
Definition foetus_place (i : Z) : str :=
  let s := (nth (Z.to_nat (i mod 5)) ["占门"; "碓磨"; "厨灶"; "仓库"; "房床"] "" ++ nth (Z.to_nat (i mod 6)) ["碓"; "厕"; "炉"; "门"; "栖"; "床"] "")%string in
  utf8 (if string_dec s "碓磨碓" then "占碓磨" else if string_dec s "占门门" then "占大门" else if string_dec s "房床床" then "占房床" else s).
Definition foetus_side (i : Z) : str := utf8 (
  if i <? 2 then "外东南" else if i <? 7 then "外正南" else if i <? 13 then "外西南" else if i <? 18 then "外正西" else if i <? 24 then "外西北" else
  if i <? 29 then "外正北" else if i <? 34 then "房内北" else if i <? 36 then "房内中" else if i <? 39 then "房内南" else if i <? 40 then "房内西" else
  if i <? 44 then "房内东" else if i <? 45 then "房内中" else if i <? 51 then "外东北" else if i <? 56 then "外正东" else "外东南").
Definition foetus (i : Z) : str := foetus_place i ++ lit " " ++ foetus_side i.

(** ** Objects that return the texts of a list *)
Definition agree {A} (x : A) (ps : list ((A -> res str) * str)) : Prop := Forall (fun p => fst p x = Ok (snd p)) ps.
Definition agreeb {A} (x : A) (ps : list ((A -> res str) * str)) : bool := forallb (fun p => ok_is (fst p x) (snd p)) ps.
Lemma agreeb_ok {A} (x : A) ps : agreeb x ps = true -> agree x ps.
Proof. intros T. apply Forall_forall. intros p I. unfold agreeb in T. rewrite forallb_forall in T. apply ok_is_eq, T, I. Qed.
(** a position and the direction it is described by *)
Definition at_place {A} (f : A -> res str) (t : str) : list ((A -> res str) * str) := [(f, t); (fun x => position_desc (f x), compass t)].

Definition of_year (i : Z) : list ((Lunar -> res str) * str) := [
  (Lunar_getYearGan, stem i); (Lunar_getYearZhi, branch i); (Lunar_getYearShengXiao, animal i); (Lunar_getYearNaYin, sound i);
  (Lunar_getYearXun, decade i); (Lunar_getYearXunKong, void i)]
  ++ at_place (fun l => Lunar_getYearPositionTaiSui l 1) (tai_sui_year i).
Definition of_yearL (i : Z) : list ((Lunar -> res str) * str) := [
  (Lunar_getYearGanByLiChun, stem i); (Lunar_getYearZhiByLiChun, branch i); (Lunar_getYearShengXiaoByLiChun, animal i);
  (Lunar_getYearXunByLiChun, decade i); (Lunar_getYearXunKongByLiChun, void i)]
  ++ at_place (fun l => Lunar_getYearPositionTaiSui l 2) (tai_sui_year i).
Definition of_yearE (i : Z) : list ((Lunar -> res str) * str) := [
  (Lunar_getYearGanExact, stem i); (Lunar_getYearZhiExact, branch i); (Lunar_getYearShengXiaoExact, animal i);
  (Lunar_getYearXunExact, decade i); (Lunar_getYearXunKongExact, void i)]
  ++ at_place (fun l => Lunar_getYearPositionTaiSui l 3) (tai_sui_year i).
Definition of_month (i : Z) : list ((Lunar -> res str) * str) := [
  (Lunar_getMonthGan, stem i); (Lunar_getMonthZhi, branch i); (Lunar_getMonthShengXiao, animal i); (Lunar_getMonthNaYin, sound i);
  (Lunar_getMonthXun, decade i); (Lunar_getMonthXunKong, void i)]
  ++ at_place (fun l => Lunar_getMonthPositionTaiSui l 2) (tai_sui_month i).
Definition of_monthE (i : Z) : list ((Lunar -> res str) * str) := [
  (Lunar_getMonthGanExact, stem i); (Lunar_getMonthZhiExact, branch i); (Lunar_getMonthShengXiaoExact, animal i);
  (Lunar_getMonthXunExact, decade i); (Lunar_getMonthXunKongExact, void i)]
  ++ at_place (fun l => Lunar_getMonthPositionTaiSui l 3) (tai_sui_month i).
Definition of_day (sect i : Z) : list ((Lunar -> res str) * str) := [
  (Lunar_getDayGan, stem i); (Lunar_getDayZhi, branch i); (Lunar_getDayShengXiao, animal i); (Lunar_getDayNaYin, sound i);
  (Lunar_getDayXun, decade i); (Lunar_getDayXunKong, void i);
  (Lunar_getDayChong, branch (i + 6)); (Lunar_getDayChongGan, stem (i + 4)); (Lunar_getDayChongGanTie, stem (if Z.even i then i + 5 else i + 3));
  (Lunar_getDayChongShengXiao, animal (i + 6)); (Lunar_getDayChongDesc, clash i); (Lunar_getDaySha, sha i); (Lunar_getDayPositionTai, foetus i)]
  ++ at_place Lunar_getDayPositionXi (joy i) ++ at_place Lunar_getDayPositionYangGui (noble_day i) ++ at_place Lunar_getDayPositionYinGui (noble_night i)
  ++ at_place (fun l => Lunar_getDayPositionFu l sect) (luck sect i) ++ at_place Lunar_getDayPositionCai (wealth i).
Definition of_dayE (i : Z) : list ((Lunar -> res str) * str) := [
  (Lunar_getDayGanExact, stem i); (Lunar_getDayZhiExact, branch i); (Lunar_getDayXunExact, decade i); (Lunar_getDayXunKongExact, void i)].
Definition of_dayE2 (i : Z) : list ((Lunar -> res str) * str) := [
  (Lunar_getDayGanExact2, stem i); (Lunar_getDayZhiExact2, branch i); (Lunar_getDayXunExact2, decade i); (Lunar_getDayXunKongExact2, void i)].
Definition of_time (sect i : Z) : list ((Lunar -> res str) * str) := [
  (Lunar_getTimeGan, stem i); (Lunar_getTimeZhi, branch i); (Lunar_getTimeShengXiao, animal i); (Lunar_getTimeNaYin, sound i);
  (Lunar_getTimeXun, decade i); (Lunar_getTimeXunKong, void i);
  (Lunar_getTimeChong, branch (i + 6)); (Lunar_getTimeChongGan, stem (i + 4)); (Lunar_getTimeChongGanTie, stem (if Z.even i then i + 5 else i + 3));
  (Lunar_getTimeChongShengXiao, animal (i + 6)); (Lunar_getTimeChongDesc, clash i); (Lunar_getTimeSha, sha i)]
  ++ at_place Lunar_getTimePositionXi (joy i) ++ at_place Lunar_getTimePositionYangGui (noble_day i) ++ at_place Lunar_getTimePositionYinGui (noble_night i)
  ++ at_place (fun l => Lunar_getTimePositionFu l sect) (luck sect i) ++ at_place Lunar_getTimePositionCai (wealth i).

(** ** C89 for Lunar *)
Lemma scan_agree {A} (ps : Z -> list ((A -> res str) * str)) (obj : Z -> A) n :
  forallb (fun i => agreeb (obj i) (ps i)) (zrange 0 60) = true -> 0 <= n < 60 -> agree (obj n) (ps n).
Proof. intros T Hn. apply agreeb_ok. exact (forallb_zrange _ _ _ T n Hn). Qed.
Ltac attributes n ps := match goal with |- agree ?o _ =>
  let t := eval pattern n in o in match t with ?g n => apply (scan_agree ps g n); [vm_compute; reflexivity|assumption] end end.
(** the number of the pair that a pillar shows *)
Lemma same_pair g z n i : 0 <= n < 60 -> g = n mod 10 -> z = n mod 12 -> 0 <= i < 60 ->
  cat2 (py_index LunarUtil_GAN (g + 1)) (py_index LunarUtil_ZHI (z + 1)) = Ok (pair60 i) -> n = i.
Proof.
  intros Bn Gn Zn Bi E. rewrite (pillar _ _ n Gn Zn) in E. apply Ok_inj in E. pose proof (C37_index n) as A. pose proof (C37_index i) as B.
  unfold pair60 in E. rewrite E, B in A. rewrite !Z.mod_small in A by assumption. lia.
Qed.
Ltac found_pair I E i := let n := fresh "n" in let Bn := fresh in let Gn := fresh in let Zn := fresh in
  destruct I as (n & Bn & Gn & Zn); assert (n = i) by (apply (same_pair _ _ n i Bn Gn Zn); [assumption|exact E]); subst n.
Ltac spread l := destruct l as [ly lm ld lh lmi ls solar jq yg yz ygl yzl yge yze mg mz mge mze dg dz dge dze dg2 dz2 tg tz w];
  cbn [l_yearGan l_yearZhi l_yearGanByLiChun l_yearZhiByLiChun l_yearGanExact l_yearZhiExact l_monthGan l_monthZhi l_monthGanExact l_monthZhiExact
    l_dayGan l_dayZhi l_dayGanExact l_dayZhiExact l_dayGanExact2 l_dayZhiExact2 l_timeGan l_timeZhi l_week] in *; subst.
Theorem C89_year : forall fromYear y m d h mi s l i, Lunar_new fromYear y m d h mi s = Ok l -> 0 <= i < 60 ->
  Lunar_getYearInGanZhi l = Ok (pair60 i) -> agree l (of_year i).
Proof. intros fy y m d h mi s l i H Hi E. destruct (new_indices _ _ _ _ _ _ _ _ H) as [X _ _ _ _ _ _ _ _ _ _]. found_pair X E i. clear E H. spread l. attributes i of_year. Qed.
Theorem C89_year_lichun : forall fromYear y m d h mi s l i, Lunar_new fromYear y m d h mi s = Ok l -> 0 <= i < 60 ->
  Lunar_getYearInGanZhiByLiChun l = Ok (pair60 i) -> agree l (of_yearL i).
Proof. intros fy y m d h mi s l i H Hi E. destruct (new_indices _ _ _ _ _ _ _ _ H) as [_ X _ _ _ _ _ _ _ _ _]. found_pair X E i. clear E H. spread l. attributes i of_yearL. Qed.
Theorem C89_year_exact : forall fromYear y m d h mi s l i, Lunar_new fromYear y m d h mi s = Ok l -> 0 <= i < 60 ->
  Lunar_getYearInGanZhiExact l = Ok (pair60 i) -> agree l (of_yearE i).
Proof. intros fy y m d h mi s l i H Hi E. destruct (new_indices _ _ _ _ _ _ _ _ H) as [_ _ X _ _ _ _ _ _ _ _]. found_pair X E i. clear E H. spread l. attributes i of_yearE. Qed.
Theorem C89_month : forall fromYear y m d h mi s l i, Lunar_new fromYear y m d h mi s = Ok l -> 0 <= i < 60 ->
  Lunar_getMonthInGanZhi l = Ok (pair60 i) -> agree l (of_month i).
Proof. intros fy y m d h mi s l i H Hi E. destruct (new_indices _ _ _ _ _ _ _ _ H) as [_ _ _ X _ _ _ _ _ _ _]. found_pair X E i. clear E H. spread l. attributes i of_month. Qed.
Theorem C89_month_exact : forall fromYear y m d h mi s l i, Lunar_new fromYear y m d h mi s = Ok l -> 0 <= i < 60 ->
  Lunar_getMonthInGanZhiExact l = Ok (pair60 i) -> agree l (of_monthE i).
Proof. intros fy y m d h mi s l i H Hi E. destruct (new_indices _ _ _ _ _ _ _ _ H) as [_ _ _ _ X _ _ _ _ _ _]. found_pair X E i. clear E H. spread l. attributes i of_monthE. Qed.
Theorem C89_day : forall fromYear y m d h mi s l sect i, Lunar_new fromYear y m d h mi s = Ok l -> 0 <= i < 60 ->
  Lunar_getDayInGanZhi l = Ok (pair60 i) -> agree l (of_day sect i).
Proof.
  intros fy y m d h mi s l sect i H Hi E. destruct (new_indices _ _ _ _ _ _ _ _ H) as [_ _ _ _ _ X _ _ _ _ _]. found_pair X E i. clear E H. spread l.
  split_sect sect; match goal with |- agree _ (of_day ?k _) => attributes i (of_day k) end.
Qed.
Theorem C89_day_exact : forall fromYear y m d h mi s l i, Lunar_new fromYear y m d h mi s = Ok l -> 0 <= i < 60 ->
  Lunar_getDayInGanZhiExact l = Ok (pair60 i) -> agree l (of_dayE i).
Proof. intros fy y m d h mi s l i H Hi E. destruct (new_indices _ _ _ _ _ _ _ _ H) as [_ _ _ _ _ _ X _ _ _ _]. found_pair X E i. clear E H. spread l. attributes i of_dayE. Qed.
Theorem C89_day_exact2 : forall fromYear y m d h mi s l i, Lunar_new fromYear y m d h mi s = Ok l -> 0 <= i < 60 ->
  Lunar_getDayInGanZhiExact2 l = Ok (pair60 i) -> agree l (of_dayE2 i).
Proof. intros fy y m d h mi s l i H Hi E. destruct (new_indices _ _ _ _ _ _ _ _ H) as [_ _ _ _ _ _ _ X _ _ _]. found_pair X E i. clear E H. spread l. attributes i of_dayE2. Qed.
Theorem C89_time : forall fromYear y m d h mi s l sect i, Lunar_new fromYear y m d h mi s = Ok l -> 0 <= i < 60 ->
  Lunar_getTimeInGanZhi l = Ok (pair60 i) -> agree l (of_time sect i).
Proof.
  intros fy y m d h mi s l sect i H Hi E. destruct (new_indices _ _ _ _ _ _ _ _ H) as [_ _ _ _ _ _ _ _ X _ _]. found_pair X E i. clear E H. spread l.
  split_sect sect; match goal with |- agree _ (of_time ?k _) => attributes i (of_time k) end.
Qed.
(** The Tai Sui of any other sect are those of sect 2. *)
Theorem C89_tai_sui_sects : forall l sect, sect <> 1 -> sect <> 3 ->
  Lunar_getYearPositionTaiSui l sect = Lunar_getYearPositionTaiSui l 2 /\ Lunar_getMonthPositionTaiSui l sect = Lunar_getMonthPositionTaiSui l 2 /\
  Lunar_getMonthPositionTaiSui l 1 = Lunar_getMonthPositionTaiSui l 2.
Proof.
  intros l sect H1 H3. unfold Lunar_getYearPositionTaiSui, Lunar_getMonthPositionTaiSui.
  replace (1 =? sect) with false by lia. replace (3 =? sect) with false by lia. repeat split.
Qed.
(** 彭祖百忌: the sayings of the day's stem and branch, which begin with them. *)
Theorem C89_peng_zu : forall fromYear y m d h mi s l i, Lunar_new fromYear y m d h mi s = Ok l -> Lunar_getDayInGanZhi l = Ok (pair60 i) -> 0 <= i < 60 ->
  exists a b, Lunar_getPengZuGan l = Ok (stem i ++ a) /\ Lunar_getPengZuZhi l = Ok (branch i ++ b) /\ slen a = 7 /\ slen b = 7 /\
    slice a 0 1 = utf8 "不"%string /\ slice b 0 1 = utf8 "不"%string.
Proof.
  intros fy y m d h mi s l i H E Hi. destruct (new_indices _ _ _ _ _ _ _ _ H) as [_ _ _ _ _ X _ _ _ _ _]. found_pair X E i.
  set (part := fun (t : list str) k u => match py_index t (k + 1) with Ok v => str_eqb v (u ++ slice_from v 1) && (slen (slice_from v 1) =? 7) && str_eqb (slice (slice_from v 1) 0 1) (utf8 "不"%string) | Raise _ => false end).
  assert (T : forallb (fun i => part LunarUtil_PENG_ZU_GAN (i mod 10) (stem i) && part LunarUtil_PENG_ZU_ZHI (i mod 12) (branch i)) (zrange 0 60) = true) by (vm_compute; reflexivity).
  pose proof (forallb_zrange _ _ _ T i Hi) as F. cbv beta in F. clear T. apply andb_prop in F. destruct F as [F1 F2].
  unfold Lunar_getPengZuGan, Lunar_getPengZuZhi. match goal with G : l_dayGan l = _, Z : l_dayZhi l = _ |- _ => rewrite G, Z end.
  unfold part in F1, F2. destruct (py_index LunarUtil_PENG_ZU_GAN _) as [u|]; [|discriminate]. destruct (py_index LunarUtil_PENG_ZU_ZHI _) as [v|]; [|discriminate].
  apply andb_prop in F1, F2. destruct F1 as [F1 A3], F2 as [F2 B3]. apply andb_prop in F1, F2. destruct F1 as [A1 A2], F2 as [B1 B2].
  apply str_eqb_eq in A1, A3, B1, B3. exists (slice_from u 1), (slice_from v 1). rewrite <- A1, <- B1. repeat split; try assumption; lia.
Qed.

(** ** C89 for LunarTime, LunarYear and LunarMonth *)
Definition of_ltime (sect i : Z) : list ((LTime -> res str) * str) := [
  (LunarTime_getGan, stem i); (LunarTime_getZhi, branch i); (LunarTime_getShengXiao, animal i); (LunarTime_getNaYin, sound i);
  (LunarTime_getXun, decade i); (LunarTime_getXunKong, void i);
  (LunarTime_getChong, branch (i + 6)); (LunarTime_getChongGan, stem (i + 4)); (LunarTime_getChongGanTie, stem (if Z.even i then i + 5 else i + 3));
  (LunarTime_getChongShengXiao, animal (i + 6)); (LunarTime_getChongDesc, clash i); (LunarTime_getSha, sha i)]
  ++ at_place LunarTime_getPositionXi (joy i) ++ at_place LunarTime_getPositionYangGui (noble_day i) ++ at_place LunarTime_getPositionYinGui (noble_night i)
  ++ at_place (fun l => LunarTime_getPositionFu l sect) (luck sect i) ++ at_place LunarTime_getPositionCai (wealth i).
Theorem C89_lunar_time : forall fromYear y m d h mi s t sect i, LunarTime_new fromYear y m d h mi s = Ok t -> 0 <= i < 60 ->
  LunarTime_getGanZhi t = Ok (pair60 i) -> agree t (of_ltime sect i).
Proof.
  intros fy y m d h mi s t sect i H Hi E. unfold LunarTime_new in H. apply bind_ok in H. destruct H as (l & _ & H). cbv zeta in H. apply Ok_inj in H.
  pose proof (timeZhi_bound (fmt0 2 h ++ lit ":" ++ fmt0 2 mi)) as B. set (z := getTimeZhiIndex _) in *. clearbody z.
  assert (P : pil ((l_dayGanExact l mod 5 * 2 + z) mod 10) z).
  { apply pil_parity; [apply Z.mod_pos_bound; lia|exact B|]. clear - B. Z.div_mod_to_equations; lia. }
  subst t. unfold LunarTime_getGanZhi, LunarTime_getGan, LunarTime_getZhi in E. cbn [t_gan t_zhi] in E. destruct P as (n & Bn & Gn & Zn).
  assert (n = i) by (apply (same_pair _ _ n i Bn Gn Zn); [assumption|exact E]). subst n. rewrite Gn. clear E Gn B. subst z.
  split_sect sect; match goal with |- agree _ (of_ltime ?k _) => attributes i (of_ltime k) end.
Qed.
Definition of_lyear (sect i : Z) : list ((LYear -> res str) * str) := [
  (LunarYear_getGan, stem i); (LunarYear_getZhi, branch i)]
  ++ at_place LunarYear_getPositionXi (joy i) ++ at_place LunarYear_getPositionYangGui (noble_day i) ++ at_place LunarYear_getPositionYinGui (noble_night i)
  ++ at_place (fun l => LunarYear_getPositionFu l sect) (luck sect i) ++ at_place LunarYear_getPositionCai (wealth i)
  ++ at_place LunarYear_getPositionTaiSui (tai_sui_year i).
Theorem C89_lunar_year : forall sky y t sect i, LunarYear_new sky y = Ok t -> 0 <= i < 60 -> LunarYear_getGanZhi t = Ok (pair60 i) ->
  agree t (of_lyear sect i).
Proof.
  intros sky y t sect i H Hi E. destruct (LunarYear_new_inv _ _ _ H) as (jq & terms & hs & leap & _ & _ & _ & _ & _ & _ & G & Z & _).
  pose proof (pil_day (y - 4)) as P. rewrite <- G, <- Z in P. found_pair P E i. clear H E G Z. destruct t as [ly g z ms ts]. cbn [lgan lzhi] in *. subst g z.
  split_sect sect; match goal with |- agree _ (of_lyear ?k _) => attributes i (of_lyear k) end.
Qed.
Definition of_lmonth (fromYear : Z -> res LYear) (sect i : Z) : list ((LMonth -> res str) * str) := [
  (LunarMonth_getGan fromYear, stem i); (LunarMonth_getZhi, branch i)]
  ++ at_place (LunarMonth_getPositionXi fromYear) (joy i) ++ at_place (LunarMonth_getPositionYangGui fromYear) (noble_day i)
  ++ at_place (LunarMonth_getPositionYinGui fromYear) (noble_night i)
  ++ at_place (fun l => LunarMonth_getPositionFu fromYear l sect) (luck sect i) ++ at_place (LunarMonth_getPositionCai fromYear) (wealth i).
Theorem C89_lunar_month : forall sky m t sect i, LunarYear_new sky (my m) = Ok t -> 0 <= i < 60 -> LunarMonth_getGanZhi (LunarYear_new sky) m = Ok (pair60 i) ->
  agree m (of_lmonth (LunarYear_new sky) sect i).
Proof.
  intros sky m t sect i H Hi E.
  assert (P : exists n, 0 <= n < 60 /\ LunarMonth_getGanIndex (LunarYear_new sky) m = Ok (n mod 10) /\ LunarMonth_getZhiIndex m = n mod 12).
  { unfold LunarMonth_getGanIndex, LunarMonth_getZhiIndex. rewrite H. cbn [bind]. change LunarUtil_BASE_MONTH_ZHI_INDEX with 2.
    destruct (pil_parity ((mindex m - 1 + (lgan t + 1) mod 5 * 2) mod 10) ((mindex m - 1 + 2) mod 12)) as (n & B & G & Z);
      [apply Z.mod_pos_bound; lia..|Z.div_mod_to_equations; lia|]. exists n. rewrite <- G, <- Z. repeat split; lia. }
  destruct P as (n & B & G & Z).
  assert (n = i).
  { unfold LunarMonth_getGanZhi, LunarMonth_getGan, LunarMonth_getZhi in E. rewrite G, Z in E. exact (same_pair _ _ n i B eq_refl eq_refl Hi E). }
  subst n. clear E B.
  set (places := fun i => [(py_index LunarUtil_GAN (i mod 10 + 1), stem i); (py_index LunarUtil_ZHI (i mod 12 + 1), branch i);
    (py_index LunarUtil_POSITION_XI (i mod 10 + 1), joy i); (position_desc (py_index LunarUtil_POSITION_XI (i mod 10 + 1)), compass (joy i));
    (py_index LunarUtil_POSITION_YANG_GUI (i mod 10 + 1), noble_day i); (position_desc (py_index LunarUtil_POSITION_YANG_GUI (i mod 10 + 1)), compass (noble_day i));
    (py_index LunarUtil_POSITION_YIN_GUI (i mod 10 + 1), noble_night i); (position_desc (py_index LunarUtil_POSITION_YIN_GUI (i mod 10 + 1)), compass (noble_night i));
    (py_index (position_fu sect) (i mod 10 + 1), luck sect i); (position_desc (py_index (position_fu sect) (i mod 10 + 1)), compass (luck sect i));
    (py_index LunarUtil_POSITION_CAI (i mod 10 + 1), wealth i); (position_desc (py_index LunarUtil_POSITION_CAI (i mod 10 + 1)), compass (wealth i))]).
  assert (T : forallb (fun i => forallb (fun p => ok_is (fst p) (snd p)) (places i)) (zrange 0 60) = true) by (split_sect sect; vm_compute; reflexivity).
  pose proof (forallb_zrange _ _ _ T i Hi) as X. clear T. cbv beta in X. unfold places in X. cbn [forallb fst snd] in X. rewrite !andb_true_iff in X.
  destruct X as (X1 & X2 & X3 & X4 & X5 & X6 & X7 & X8 & X9 & X10 & X11 & X12 & _). apply ok_is_eq in X1, X2, X3, X4, X5, X6, X7, X8, X9, X10, X11, X12.
  unfold agree, of_lmonth, at_place. cbn [app].
  unfold LunarMonth_getGan, LunarMonth_getZhi, LunarMonth_getPositionXi, LunarMonth_getPositionYangGui, LunarMonth_getPositionYinGui, LunarMonth_getPositionFu, LunarMonth_getPositionCai.
  repeat (apply Forall_cons; [cbn [fst snd]; rewrite ?G, ?Z; cbn [bind]; assumption|]). apply Forall_nil.
Qed.
(** A LunarMonth's Tai Sui: of the months 1, 5, 9 艮, of 3, 7, 11 坤, of 4, 8, 12 巽, whether leap or not; of the others the place of the stem of the month pillar
    on their first day, which need not be the stem of the LunarMonth itself. *)
Theorem C89_month_tai_sui : forall fromYear a,
  match Z.abs (mm a) mod 4 with
  | 0 => LunarMonth_getPositionTaiSui fromYear a = Ok (utf8 "巽"%string)
  | 1 => LunarMonth_getPositionTaiSui fromYear a = Ok (utf8 "艮"%string)
  | 3 => LunarMonth_getPositionTaiSui fromYear a = Ok (utf8 "坤"%string)
  | _ => forall s l k, fromJulianDay (float_of_Z (mfirst a)) = Ok s -> getLunar fromYear s = Ok l -> 0 <= k < 60 -> Lunar_getMonthInGanZhi l = Ok (pair60 k) ->
      LunarMonth_getPositionTaiSui fromYear a = Ok (pick (k mod 10 / 2) 5 ["震"; "离"; "中"; "兑"; "坎"]%string)
  end.
Proof.
  intros fy a. unfold LunarMonth_getPositionTaiSui. cbv zeta. pose proof (Z.mod_pos_bound (Z.abs (mm a)) 4 ltac:(lia)) as B. set (r := Z.abs (mm a) mod 4) in *. clearbody r.
  assert (R : r = 0 \/ r = 1 \/ r = 2 \/ r = 3) by lia. destruct R as [-> |[-> |[-> | ->]]]; try reflexivity.
  intros s l k Es El Hk Ek. rewrite Es. cbn [bind]. rewrite El. cbn [bind Z.eqb].
  destruct (getLunar_new _ _ _ El) as (y & m & d & H).
  destruct (new_indices _ _ _ _ _ _ _ _ H) as [_ _ _ X _ _ _ _ _ _ _]. found_pair X Ek k. change (2 =? 0) with false.
  match goal with G : l_monthGan l = _ |- _ => rewrite G end.
  assert (T : forallb (fun k => ok_is (py_index LunarUtil_POSITION_GAN (k mod 10)) (pick (k mod 10 / 2) 5 ["震"; "离"; "中"; "兑"; "坎"]%string)) (zrange 0 60) = true) by (vm_compute; reflexivity).
  apply ok_is_eq. exact (forallb_zrange _ _ _ T k Hk).
Qed.

(** ** C89 for EightChar *)
Definition branch_element (i : Z) : str := pick i 12 ["水"; "土"; "木"; "木"; "土"; "火"; "火"; "土"; "金"; "金"; "土"; "水"]%string.
Definition stem_element (i : Z) : str := pick (i mod 10 / 2) 5 ["木"; "火"; "土"; "金"; "水"]%string.
(** the stems hidden in a branch, by number *)
Definition hidden (i : Z) : list Z :=
  nth (Z.to_nat (i mod 12)) [[9]; [5; 9; 7]; [0; 2; 4]; [1]; [4; 1; 9]; [2; 6; 4]; [3; 5]; [5; 3; 1]; [6; 8; 4]; [7]; [4; 7; 3]; [8; 0]] [].
(** the ten gods: what the element of [g] is to that of the day stem [c] -- the same, its child, its prey, its master, its mother -- and whether of the same kind *)
Definition god (c g : Z) : str :=
  pick (if Z.even (c - g) then 0 else 1) 2 (nth (Z.to_nat ((g mod 10 / 2 - c mod 10 / 2) mod 5))
    [["比肩"; "劫财"]; ["食神"; "伤官"]; ["偏财"; "正财"]; ["七杀"; "正官"]; ["偏印"; "正印"]]%string []).
Lemma god_ok c g : dict_get LunarUtil_SHI_SHEN (cat2 (Ok (stem c)) (Ok (stem g))) = Ok (Some (god c g)).
Proof.
  assert (T : forallb (fun c => forallb (fun g => match dict_get LunarUtil_SHI_SHEN (cat2 (Ok (stem c)) (Ok (stem g))) with Ok (Some v) => str_eqb v (god c g) | _ => false end) (zrange 0 10)) (zrange 0 10) = true)
    by (vm_compute; reflexivity).
  assert (S : forall k, stem (k mod 10) = stem k) by (intros k; unfold stem; now rewrite Zmod_mod).
  assert (D : god (c mod 10) (g mod 10) = god c g).
  { unfold god. rewrite !Zmod_mod. replace (Z.even (c mod 10 - g mod 10)) with (Z.even (c - g)); [reflexivity|].
    rewrite (Z_div_mod_eq_full c 10) at 1. rewrite (Z_div_mod_eq_full g 10) at 1.
    replace (10 * (c / 10) + c mod 10 - (10 * (g / 10) + g mod 10)) with (c mod 10 - g mod 10 + 2 * (5 * (c / 10 - g / 10))) by lia. now rewrite Z.even_add_mul_2. }
  pose proof (forallb_zrange _ _ _ T (c mod 10) (Z.mod_pos_bound c 10 ltac:(lia))) as X. cbv beta in X.
  pose proof (forallb_zrange _ _ _ X (g mod 10) (Z.mod_pos_bound g 10 ltac:(lia))) as Y. cbv beta in Y. clear T X. rewrite !S, D in Y.
  destruct (dict_get _ _) as [[v|]|]; try discriminate. apply str_eqb_eq in Y. now rewrite Y.
Qed.
Lemma gods_ok c hs : mapM (fun gan => dict_get LunarUtil_SHI_SHEN (cat2 (Ok (stem c)) (Ok gan))) (map stem hs) = Ok (map (fun g => Some (god c g)) hs).
Proof. induction hs as [|g hs IH]; [reflexivity|]. cbn [map mapM]. rewrite god_ok. cbn [bind]. now rewrite IH. Qed.
Fixpoint strs_eqb (a b : list str) : bool := match a, b with [], [] => true | x :: a, y :: b => str_eqb x y && strs_eqb a b | _, _ => false end.
Lemma strs_eqb_eq a : forall b, strs_eqb a b = true -> a = b.
Proof. induction a as [|x a IH]; intros [|y b]; try discriminate; [reflexivity|]. cbn [strs_eqb]. intros H. apply andb_prop in H. destruct H as [H1 H2]. apply str_eqb_eq in H1. now rewrite H1, (IH b H2). Qed.
Lemma pair_facts i : 0 <= i < 60 -> wuXing (Ok (stem i)) (Ok (branch i)) = Ok (stem_element i ++ branch_element i) /\ naYin (Ok (pair60 i)) = Ok (Some (sound i)) /\
  hideGan (Ok (branch i)) = Ok (Some (map stem (hidden i))) /\ xun_of (Ok (pair60 i)) = Ok (decade i) /\ xunkong_of (Ok (pair60 i)) = Ok (void i).
Proof.
  intros Hi.
  assert (T : forallb (fun i => ok_is (wuXing (Ok (stem i)) (Ok (branch i))) (stem_element i ++ branch_element i) &&
    match naYin (Ok (pair60 i)) with Ok (Some v) => str_eqb v (sound i) | _ => false end &&
    match hideGan (Ok (branch i)) with Ok (Some v) => strs_eqb v (map stem (hidden i)) | _ => false end &&
    ok_is (xun_of (Ok (pair60 i))) (decade i) && ok_is (xunkong_of (Ok (pair60 i))) (void i)) (zrange 0 60) = true) by (vm_compute; reflexivity).
  pose proof (forallb_zrange _ _ _ T i Hi) as X. cbv beta in X. clear T. rewrite !andb_true_iff in X. destruct X as ((((X1 & X2) & X3) & X4) & X5).
  apply ok_is_eq in X1, X4, X5. destruct (naYin _) as [[v|]|]; try discriminate. destruct (hideGan _) as [[w|]|]; try discriminate. apply str_eqb_eq in X2. apply strs_eqb_eq in X3. subst.
  repeat split; assumption.
Qed.
(** what the eight characters say of one pillar, given its number and that of the day *)
Definition says (e : EightChar) (i c : Z) (all gan zhi wuxing xun kong : EightChar -> res str) (nayin : EightChar -> res (option str)) (hide : EightChar -> res (option (list str)))
  (gods : EightChar -> res (list (option str))) : Prop :=
  agree e [(all, pair60 i); (gan, stem i); (zhi, branch i); (wuxing, stem_element i ++ branch_element i); (xun, decade i); (kong, void i)] /\
  nayin e = Ok (Some (sound i)) /\ hide e = Ok (Some (map stem (hidden i))) /\ gods e = Ok (map (fun g => Some (god c g)) (hidden i)).
Theorem C89_eight_char : forall e a b c t, built e -> pillars e a b c t -> 0 <= a < 60 -> 0 <= b < 60 -> 0 <= c < 60 -> 0 <= t < 60 ->
  says e a c EightChar_getYear EightChar_getYearGan EightChar_getYearZhi EightChar_getYearWuXing EightChar_getYearXun EightChar_getYearXunKong
    EightChar_getYearNaYin EightChar_getYearHideGan EightChar_getYearShiShenZhi /\
  says e b c EightChar_getMonth EightChar_getMonthGan EightChar_getMonthZhi EightChar_getMonthWuXing EightChar_getMonthXun EightChar_getMonthXunKong
    EightChar_getMonthNaYin EightChar_getMonthHideGan EightChar_getMonthShiShenZhi /\
  says e c c EightChar_getDay EightChar_getDayGan EightChar_getDayZhi EightChar_getDayWuXing EightChar_getDayXun EightChar_getDayXunKong
    EightChar_getDayNaYin EightChar_getDayHideGan EightChar_getDayShiShenZhi /\
  says e t c EightChar_getTime EightChar_getTimeGan EightChar_getTimeZhi EightChar_getTimeWuXing EightChar_getTimeXun EightChar_getTimeXunKong
    EightChar_getTimeNaYin EightChar_getTimeHideGan EightChar_getTimeShiShenZhi /\
  EightChar_getYearShiShenGan e = Ok (Some (god c a)) /\ EightChar_getMonthShiShenGan e = Ok (Some (god c b)) /\ EightChar_getTimeShiShenGan e = Ok (Some (god c t)).
Proof.
  intros e a b c t I P Ba Bb Bc Bt. destruct (pillars_indices _ _ _ _ _ I P) as ((Ga & Za) & (Gb & Zb) & (Gc & Zc) & (Gt & Zt)).
  destruct P as (Pa & Pb & Pc & Pt). destruct (day_by_sect e) as (D1 & D2 & _ & D4 & D5). rewrite Gc, gan_mod in D1. rewrite Zc, zhi_mod in D2.
  assert (Ya : EightChar_getYearGan e = Ok (stem a)) by (unfold EightChar_getYearGan, Lunar_getYearGanExact; rewrite Ga; apply gan_mod).
  assert (Yz : EightChar_getYearZhi e = Ok (branch a)) by (unfold EightChar_getYearZhi, Lunar_getYearZhiExact; rewrite Za; apply zhi_mod).
  assert (Ma : EightChar_getMonthGan e = Ok (stem b)) by (unfold EightChar_getMonthGan, Lunar_getMonthGanExact; rewrite Gb; apply gan_mod).
  assert (Mz : EightChar_getMonthZhi e = Ok (branch b)) by (unfold EightChar_getMonthZhi, Lunar_getMonthZhiExact; rewrite Zb; apply zhi_mod).
  assert (Ta : EightChar_getTimeGan e = Ok (stem t)) by (unfold EightChar_getTimeGan, Lunar_getTimeGan; rewrite Gt; apply gan_mod).
  assert (Tz : EightChar_getTimeZhi e = Ok (branch t)) by (unfold EightChar_getTimeZhi, Lunar_getTimeZhi; rewrite Zt; apply zhi_mod).
  assert (Gods : forall zhi i, zhi = Ok (branch i) -> 0 <= i < 60 -> shiShenZhi e zhi = Ok (map (fun g => Some (god c g)) (hidden i))).
  { intros zhi i -> Hi. unfold shiShenZhi. destruct (pair_facts i Hi) as (_ & _ & F & _). rewrite F. cbn [bind]. unfold shiShenGan. rewrite D1. apply gods_ok. }
  assert (God : forall i, shiShenGan e (Ok (stem i)) = Ok (Some (god c i))) by (intros i; unfold shiShenGan; rewrite D1; apply god_ok).
  unfold says, agree, EightChar_getYearShiShenGan, EightChar_getMonthShiShenGan, EightChar_getTimeShiShenGan. rewrite Ya, Ma, Ta.
  destruct (pair_facts a Ba) as (A1 & A2 & A3 & A4 & A5), (pair_facts b Bb) as (B1 & B2 & B3 & B4 & B5), (pair_facts c Bc) as (C1 & C2 & C3 & C4 & C5), (pair_facts t Bt) as (T1 & T2 & T3 & T4 & T5).
  split; [|split; [|split; [|split; [|split; [apply God|split; apply God]]]]].
  - split; [|unfold EightChar_getYearNaYin, EightChar_getYearHideGan, EightChar_getYearShiShenZhi; rewrite Pa, Yz; split; [exact A2|split; [exact A3|exact (Gods _ a eq_refl Ba)]]].
    repeat (apply Forall_cons; [|]); [..|apply Forall_nil]; cbn [fst snd]; try assumption.
    + unfold EightChar_getYearWuXing. now rewrite Ya, Yz.
    + unfold EightChar_getYearXun. change (Lunar_getYearXunExact (e_lunar e)) with (xun_of (EightChar_getYear e)). now rewrite Pa.
    + unfold EightChar_getYearXunKong. change (Lunar_getYearXunKongExact (e_lunar e)) with (xunkong_of (EightChar_getYear e)). now rewrite Pa.
  - split; [|unfold EightChar_getMonthNaYin, EightChar_getMonthHideGan, EightChar_getMonthShiShenZhi; rewrite Pb, Mz; split; [exact B2|split; [exact B3|exact (Gods _ b eq_refl Bb)]]].
    repeat (apply Forall_cons; [|]); [..|apply Forall_nil]; cbn [fst snd]; try assumption.
    + unfold EightChar_getMonthWuXing. now rewrite Ma, Mz.
    + unfold EightChar_getMonthXun. change (Lunar_getMonthXunExact (e_lunar e)) with (xun_of (EightChar_getMonth e)). now rewrite Pb.
    + unfold EightChar_getMonthXunKong. change (Lunar_getMonthXunKongExact (e_lunar e)) with (xunkong_of (EightChar_getMonth e)). now rewrite Pb.
  - split; [|unfold EightChar_getDayNaYin, EightChar_getDayHideGan, EightChar_getDayShiShenZhi; rewrite Pc, D2; split; [exact C2|split; [exact C3|exact (Gods _ c eq_refl Bc)]]].
    repeat (apply Forall_cons; [|]); [..|apply Forall_nil]; cbn [fst snd]; try assumption.
    + unfold EightChar_getDayWuXing. now rewrite D1, D2.
    + now rewrite D4, Pc.
    + now rewrite D5, Pc.
  - split; [|unfold EightChar_getTimeNaYin, EightChar_getTimeHideGan, EightChar_getTimeShiShenZhi; rewrite Pt, Tz; split; [exact T2|split; [exact T3|exact (Gods _ t eq_refl Bt)]]].
    repeat (apply Forall_cons; [|]); [..|apply Forall_nil]; cbn [fst snd]; try assumption.
    + unfold EightChar_getTimeWuXing. now rewrite Ta, Tz.
    + unfold EightChar_getTimeXun. change (Lunar_getTimeXun (e_lunar e)) with (xun_of (EightChar_getTime e)). now rewrite Pt.
    + unfold EightChar_getTimeXunKong. change (Lunar_getTimeXunKong (e_lunar e)) with (xunkong_of (EightChar_getTime e)). now rewrite Pt.
Qed.
(** The lists of Lunar: the four pillars, their elements, sounds, gods of the stems (the day's own is 日主) and of the first hidden stems. *)
Theorem C89_lists : forall e a b c t, built e -> pillars e a b c t -> 0 <= a < 60 -> 0 <= b < 60 -> 0 <= c < 60 -> 0 <= t < 60 ->
  Lunar_getBaZi e = Ok (map pair60 [a; b; c; t]) /\ Lunar_getBaZiWuXing e = Ok (map (fun i => stem_element i ++ branch_element i) [a; b; c; t]) /\
  Lunar_getBaZiNaYin e = Ok (map (fun i => Some (sound i)) [a; b; c; t]) /\
  Lunar_getBaZiShiShenGan e = Ok [Some (god c a); Some (god c b); Some (utf8 "日主"%string); Some (god c t)] /\
  Lunar_getBaZiShiShenZhi e = Ok (map (fun i => Some (god c (hd 0 (hidden i)))) [a; b; c; t]) /\
  EightChar_toString e = Ok (pair60 a ++ lit " " ++ pair60 b ++ lit " " ++ pair60 c ++ lit " " ++ pair60 t).
Proof.
  intros e a b c t I P Ba Bb Bc Bt.
  destruct (C89_eight_char e a b c t I P Ba Bb Bc Bt) as ((A & A2 & _ & A3) & (B & B2 & _ & B3) & (C & C2 & _ & C3) & (T & T2 & _ & T3) & G1 & G2 & G3).
  assert (W : forall all gan zhi w x k i, agree e [(all, pair60 i); (gan, stem i); (zhi, branch i); (w, stem_element i ++ branch_element i); (x, decade i); (k, void i)] -> w e = Ok (stem_element i ++ branch_element i)).
  { intros all gan zhi w x k i F. unfold agree in F. rewrite Forall_forall in F. apply (F (w, stem_element i ++ branch_element i)). cbn [In]. tauto. }
  assert (F : forall i, 0 <= i < 60 -> py_index (map (fun g => Some (god c g)) (hidden i)) 0 = Ok (Some (god c (hd 0 (hidden i))))).
  { intros i Hi. assert (N : hidden i <> []).
    { assert (X : forallb (fun i => match hidden i with [] => false | _ => true end) (zrange 0 60) = true) by (vm_compute; reflexivity).
      pose proof (forallb_zrange _ _ _ X i Hi) as Y. cbv beta in Y. destruct (hidden i); [discriminate|discriminate]. }
    destruct (hidden i) as [|g hs]; [contradiction|]. reflexivity. }
  destruct P as (Pa & Pb & Pc & Pt).
  unfold Lunar_getBaZi, Lunar_getBaZiWuXing, Lunar_getBaZiNaYin, Lunar_getBaZiShiShenGan, Lunar_getBaZiShiShenZhi, EightChar_toString. cbn [mapM map].
  rewrite Pa, Pb, Pc, Pt, (W _ _ _ _ _ _ _ A), (W _ _ _ _ _ _ _ B), (W _ _ _ _ _ _ _ C), (W _ _ _ _ _ _ _ T), A2, B2, C2, T2, A3, B3, C3, T3, G1, G2, G3.
  cbn [bind EightChar_getDayShiShenGan]. rewrite !F by assumption. repeat split.
Qed.
(** The sounds of the derived pillars. *)
Theorem C89_derived : forall e k, 0 <= k < 60 ->
  (EightChar_getTaiYuan e = Ok (pair60 k) -> EightChar_getTaiYuanNaYin e = Ok (Some (sound k))) /\
  (EightChar_getTaiXi e = Ok (pair60 k) -> EightChar_getTaiXiNaYin e = Ok (Some (sound k))) /\
  (EightChar_getMingGong e = Ok (pair60 k) -> EightChar_getMingGongNaYin e = Ok (Some (sound k))) /\
  (EightChar_getShenGong e = Ok (pair60 k) -> EightChar_getShenGongNaYin e = Ok (Some (sound k))).
Proof.
  intros e k Hk. destruct (pair_facts k Hk) as (_ & F & _).
  unfold EightChar_getTaiYuanNaYin, EightChar_getTaiXiNaYin, EightChar_getMingGongNaYin, EightChar_getShenGongNaYin.
  split; [|split; [|split]]; intros ->; exact F.
Qed.
(** The decades of the periods of a life. *)
Theorem C89_periods : forall fy d x k j, 0 <= k < 60 ->
  (DaYun_getGanZhi d = Ok (pair60 k) -> DaYun_getXun d = Ok (decade k) /\ DaYun_getXunKong d = Ok (void k)) /\
  (LiuNian_getGanZhi fy x = Ok (pair60 k) -> LiuNian_getXun fy x = Ok (decade k) /\ LiuNian_getXunKong fy x = Ok (void k)) /\
  (XiaoYun_getGanZhi x = Ok (pair60 k) -> XiaoYun_getXun x = Ok (decade k) /\ XiaoYun_getXunKong x = Ok (void k)) /\
  (LiuYue_getGanZhi fy x j = Ok (pair60 k) -> LiuYue_getXun fy x j = Ok (decade k) /\ LiuYue_getXunKong fy x j = Ok (void k)).
Proof.
  intros fy d x k j Hk. destruct (pair_facts k Hk) as (_ & _ & _ & F & F').
  unfold DaYun_getXun, DaYun_getXunKong, LiuNian_getXun, LiuNian_getXunKong, XiaoYun_getXun, XiaoYun_getXunKong, LiuYue_getXun, LiuYue_getXunKong.
  split; [|split; [|split]]; intros ->; split; assumption.
Qed.
(** The time before the first decade of luck has no pillar, and still a decade of the cycle. *)
Theorem C89_first_period_refuted : forall d, d_index d < 1 -> DaYun_getGanZhi d = Ok [] /\ DaYun_getXun d = Ok (utf8 "甲子"%string) /\ DaYun_getXunKong d = Ok (utf8 "戌亥"%string).
Proof.
  intros d H. assert (E : DaYun_getGanZhi d = Ok []) by (unfold DaYun_getGanZhi; now replace (d_index d <? 1) with true by lia).
  unfold DaYun_getXun, DaYun_getXunKong. rewrite E. repeat split; vm_compute; reflexivity.
Qed.
(** 1 February 2024 was a day 乙未 in the month 乙丑 of the year 癸卯; 13:00 is in the hour 癸未. *)
Example C89_case : exists l, getLunar demo (mkSolar 2024 2 1 13 0 0) = Ok l /\ Lunar_getDayInGanZhi l = Ok (pair60 31) /\ Lunar_getTimeInGanZhi l = Ok (pair60 19) /\
  Lunar_getDayChongDesc l = Ok (utf8 "(己丑)牛"%string) /\ Lunar_getDayPositionTai l = Ok (utf8 "碓磨厕 房内北"%string) /\
  Lunar_getTimeChongDesc l = Ok (utf8 "(丁丑)牛"%string) /\ Lunar_getYearShengXiao l = Ok (utf8 "兔"%string) /\
  Lunar_getBaZiShiShenGan (mkEightChar 2 l) = Ok [Some (utf8 "偏印"); Some (utf8 "比肩"); Some (utf8 "日主"); Some (utf8 "偏印")]%string.
Proof. eexists. split; [vm_compute; reflexivity|]. repeat split; vm_compute; reflexivity. Qed.

(** ** C90: the lodge *)
Definition planet (k : Z) : str := pick k 7 ["木"; "金"; "土"; "日"; "月"; "火"; "水"]%string.
Definition beast (k : Z) : str := pick k 28
  ["蛟"; "龙"; "貉"; "兔"; "狐"; "虎"; "豹"; "獬"; "牛"; "蝠"; "鼠"; "燕"; "猪"; "獝"; "狼"; "狗"; "彘"; "鸡"; "乌"; "猴"; "猿"; "犴"; "羊"; "獐"; "马"; "鹿"; "蛇"; "蚓"]%string.
Definition quarter (k : Z) : str := pick (k mod 28 / 7) 4 ["东"; "北"; "西"; "南"]%string.
Definition guardian (k : Z) : str := pick (k mod 28 / 7) 4 ["青龙"; "玄武"; "白虎"; "朱雀"]%string.
(** fourteen lodges are lucky: 角房尾箕斗室壁娄胃毕参井张轸 *)
Definition lodge_luck (k : Z) : str := utf8 (if existsb (Z.eqb (k mod 28)) [0; 3; 5; 6; 7; 12; 13; 15; 16; 18; 20; 21; 25; 27] then "吉" else "凶")%string.
Definition of_lodge (xiu zheng animal gong shou luck song : Lunar -> res str) (l : Lunar) (k : Z) : Prop := xiu l = Ok (lodge k) ->
  agree l [(zheng, planet k); (animal, beast k); (gong, quarter k); (shou, guardian k); (luck, lodge_luck k)] /\
  exists s, song l = Ok (lodge k ++ s) /\ slen s = 63.
Lemma lodge_mod k : lodge (k mod 28) = lodge k.
Proof. unfold lodge. now rewrite Zmod_mod. Qed.
Lemma lodge_facts k : py_dict LunarUtil_ZHENG (lodge k) = Ok (planet k) /\ py_dict LunarUtil_ANIMAL (lodge k) = Ok (beast k) /\ py_dict LunarUtil_GONG (lodge k) = Ok (quarter k) /\
  py_dict LunarUtil_SHOU (quarter k) = Ok (guardian k) /\ py_dict LunarUtil_XIU_LUCK (lodge k) = Ok (lodge_luck k) /\
  exists s, py_dict LunarUtil_XIU_SONG (lodge k) = Ok (lodge k ++ s) /\ slen s = 63.
Proof.
  assert (T : forallb (fun k => ok_is (py_dict LunarUtil_ZHENG (lodge k)) (planet k) && ok_is (py_dict LunarUtil_ANIMAL (lodge k)) (beast k) &&
    ok_is (py_dict LunarUtil_GONG (lodge k)) (quarter k) && ok_is (py_dict LunarUtil_SHOU (quarter k)) (guardian k) && ok_is (py_dict LunarUtil_XIU_LUCK (lodge k)) (lodge_luck k) &&
    match py_dict LunarUtil_XIU_SONG (lodge k) with Ok v => str_eqb v (lodge k ++ slice_from v 1) && (slen (slice_from v 1) =? 63) | Raise _ => false end) (zrange 0 28) = true) by (vm_compute; reflexivity).
  pose proof (forallb_zrange _ _ _ T (k mod 28) (Z.mod_pos_bound k 28 ltac:(lia))) as X. cbv beta in X. clear T. rewrite lodge_mod in X. rewrite !andb_true_iff in X.
  replace (planet (k mod 28)) with (planet k) in X by (unfold planet, pick; do 2 f_equal; Z.div_mod_to_equations; lia).
  replace (beast (k mod 28)) with (beast k) in X by (unfold beast, pick; now rewrite Zmod_mod).
  replace (quarter (k mod 28)) with (quarter k) in X by (unfold quarter; now rewrite Zmod_mod).
  replace (guardian (k mod 28)) with (guardian k) in X by (unfold guardian; now rewrite Zmod_mod).
  replace (lodge_luck (k mod 28)) with (lodge_luck k) in X by (unfold lodge_luck; now rewrite Zmod_mod).
  destruct X as (((((X1 & X2) & X3) & X4) & X5) & X6). apply ok_is_eq in X1, X2, X3, X4, X5.
  repeat (split; [assumption|]). destruct (py_dict LunarUtil_XIU_SONG (lodge k)) as [v|]; [|discriminate]. apply andb_prop in X6. destruct X6 as [Y1 Y2].
  apply str_eqb_eq in Y1. exists (slice_from v 1). rewrite <- Y1. split; [reflexivity|lia].
Qed.
Theorem C90_lodge : forall l k, of_lodge Lunar_getXiu Lunar_getZheng Lunar_getAnimal Lunar_getGong Lunar_getShou Lunar_getXiuLuck Lunar_getXiuSong l k.
Proof.
  intros l k E. destruct (lodge_facts k) as (A & B & C & D & F & s & G & L). unfold agree, Lunar_getZheng, Lunar_getAnimal, Lunar_getShou, Lunar_getGong, Lunar_getXiuLuck, Lunar_getXiuSong. rewrite E. cbn [bind].
  split; [|exists s; split; assumption]. repeat (apply Forall_cons; [|]); [..|apply Forall_nil]; cbn [fst snd]; rewrite ?E; cbn [bind]; rewrite ?C; cbn [bind]; try assumption. reflexivity.
Qed.
Theorem C90_foto_lodge : forall l k, of_lodge Foto_getXiu Foto_getZheng Foto_getAnimal Foto_getGong Foto_getShou Foto_getXiuLuck Foto_getXiuSong l k.
Proof.
  intros l k E. destruct (lodge_facts k) as (A & B & C & D & F & s & G & L). unfold agree, Foto_getZheng, Foto_getAnimal, Foto_getShou, Foto_getGong, Foto_getXiuLuck, Foto_getXiuSong. rewrite E. cbn [bind].
  split; [|exists s; split; assumption]. repeat (apply Forall_cons; [|]); [..|apply Forall_nil]; cbn [fst snd]; rewrite ?E; cbn [bind]; rewrite ?C; cbn [bind]; try assumption. reflexivity.
Qed.
(** The planet of the day's lodge is that of the weekday: 日 on Sundays, 月 on Mondays, ... *)
Theorem C90_weekday : forall fromYear y m d h mi s l, Lunar_new fromYear y m d h mi s = Ok l ->
  Lunar_getZheng l = Ok (pick (l_week l) 7 ["日"; "月"; "火"; "水"; "木"; "金"; "土"]%string) /\
  Lunar_getWeekInChinese l = Ok (pick (l_week l) 7 ["日"; "一"; "二"; "三"; "四"; "五"; "六"]%string).
Proof.
  intros fy y m d h mi s l H. destruct (new_indices _ _ _ _ _ _ _ _ H) as [_ _ _ _ _ I _ _ _ W _]. apply pil_zhi in I.
  assert (T : forallb (fun z => forallb (fun w => ok_is (let! x := (let! z := py_index LunarUtil_ZHI (z + 1) in py_dict LunarUtil_XIU (z ++ str_of_Z w)) in py_dict LunarUtil_ZHENG x)
    (pick w 7 ["日"; "月"; "火"; "水"; "木"; "金"; "土"]%string) && ok_is (py_index SolarUtil_WEEK w) (pick w 7 ["日"; "一"; "二"; "三"; "四"; "五"; "六"]%string)) (zrange 0 7)) (zrange 0 12) = true) by (vm_compute; reflexivity).
  pose proof (forallb_zrange _ _ _ T (l_dayZhi l) I) as X. cbv beta in X. pose proof (forallb_zrange _ _ _ X (l_week l) W) as Y. cbv beta in Y. apply andb_prop in Y. destruct Y as [Y1 Y2].
  split; [exact (ok_is_eq _ _ Y1)|exact (ok_is_eq _ _ Y2)].
Qed.

(** ** C90: the month and the day *)
Theorem C90_season : forall l, 1 <= Z.abs (l_month l) <= 12 ->
  Lunar_getSeason l = Ok (pick (Z.abs (l_month l) - 1) 3 ["孟"; "仲"; "季"]%string ++ pick ((Z.abs (l_month l) - 1) / 3) 4 ["春"; "夏"; "秋"; "冬"]%string).
Proof.
  intros l H.
  assert (T : forallb (fun m => ok_is (py_index LunarUtil_SEASON m) (pick (m - 1) 3 ["孟"; "仲"; "季"]%string ++ pick ((m - 1) / 3) 4 ["春"; "夏"; "秋"; "冬"]%string)) (zrange 1 13) = true) by (vm_compute; reflexivity).
  exact (ok_is_eq _ _ (forallb_zrange _ _ _ T (Z.abs (l_month l)) ltac:(lia))).
Qed.
(** The names of the phases: the new moon 朔 on the first, the full moon 望 on the fifteenth, the quarters on two days each, and 晦 on the thirtieth only: a month of 29 days ends without it. *)
Theorem C90_phase : forall l, 1 <= l_day l <= 30 -> exists s, Lunar_getYueXiang l = Ok s /\
  (s = utf8 "朔"%string <-> l_day l = 1) /\ (s = utf8 "望"%string <-> l_day l = 15) /\ (s = utf8 "晦"%string <-> l_day l = 30) /\
  (s = utf8 "上弦"%string <-> 7 <= l_day l <= 8) /\ (s = utf8 "下弦"%string <-> 22 <= l_day l <= 23).
Proof.
  intros l H. unfold Lunar_getYueXiang.
  assert (T : forallb (fun d => match py_index LunarUtil_YUE_XIANG d with
    | Ok s => Bool.eqb (str_eqb s (utf8 "朔"%string)) (d =? 1) && Bool.eqb (str_eqb s (utf8 "望"%string)) (d =? 15) && Bool.eqb (str_eqb s (utf8 "晦"%string)) (d =? 30)
        && Bool.eqb (str_eqb s (utf8 "上弦"%string)) ((7 <=? d) && (d <=? 8)) && Bool.eqb (str_eqb s (utf8 "下弦"%string)) ((22 <=? d) && (d <=? 23))
    | Raise _ => false end) (zrange 1 31) = true) by (vm_compute; reflexivity).
  pose proof (forallb_zrange _ _ _ T (l_day l) ltac:(lia)) as X. cbv beta in X. clear T. destruct (py_index LunarUtil_YUE_XIANG (l_day l)) as [s|]; [|discriminate].
  rewrite !andb_true_iff in X. destruct X as ((((X1 & X2) & X3) & X4) & X5). apply eqb_prop in X1, X2, X3, X4, X5. exists s. split; [reflexivity|].
  assert (Q : forall t b (P : Prop), str_eqb s t = b -> (b = true <-> P) -> (s = t <-> P)).
  { intros t b P E Hb. rewrite <- Hb, <- E. symmetry. apply str_eqb_eq. }
  split; [|split; [|split; [|split]]]; eapply Q; try eassumption; lia.
Qed.
(** 胎神 of a month; none for a leap month. *)
Theorem C90_month_foetus : forall l, 1 <= Z.abs (l_month l) <= 12 -> Lunar_getMonthPositionTai l =
  Ok (if l_month l <? 0 then [] else pick (l_month l - 1) 12 ["占房床"; "占户窗"; "占门堂"; "占厨灶"; "占房床"; "占床仓"; "占碓磨"; "占厕户"; "占门房"; "占房床"; "占灶炉"; "占房床"]%string).
Proof.
  intros l H. unfold Lunar_getMonthPositionTai. destruct (Z.ltb_spec (l_month l) 0); [reflexivity|].
  assert (T : forallb (fun m => ok_is (py_index LunarUtil_POSITION_TAI_MONTH (m - 1)) (pick (m - 1) 12 ["占房床"; "占户窗"; "占门堂"; "占厨灶"; "占房床"; "占床仓"; "占碓磨"; "占厕户"; "占门房"; "占房床"; "占灶炉"; "占房床"]%string)) (zrange 1 13) = true) by (vm_compute; reflexivity).
  exact (ok_is_eq _ _ (forallb_zrange _ _ _ T (l_month l) ltac:(lia))).
Qed.
Example C90_case : exists l, getLunar demo (mkSolar 2024 2 1 13 0 0) = Ok l /\ Lunar_getXiu l = Ok (lodge 21) /\ l_week l = 4 /\ Lunar_getZheng l = Ok (utf8 "木"%string) /\
  Lunar_getSeason l = Ok (utf8 "季冬"%string) /\ Lunar_getYueXiang l = Ok (utf8 "下弦"%string).
Proof. eexists. split; [vm_compute; reflexivity|]. repeat split; vm_compute; reflexivity. Qed.
