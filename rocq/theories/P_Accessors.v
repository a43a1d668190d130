(** C43: the accessors of Lunar, LunarTime and EightChar find an entry in their tables. *)
From Coq Require Import ZArith Lia Bool ZifyBool List String Floats.
From Verif Require Import Py PyFloat PyStr CalSpec DayNo Solar SolarUnits SolarProofs JulianDay LunarUtil T_LunarUtil T_SolarUtil T_Misc P_Almanac P_Tables
  LunarYear Lunar LunarTime LunarProofs TermProofs YearProofs CalProofs EightChar Demo.
Import ListNotations.
Open Scope Z_scope.

(** An accessor that returns a text; the tables start with an empty entry, so an empty text would be a wrong index. *)
Definition found (r : res str) : Prop := exists s, r = Ok s /\ s <> [].
Definition foundb (r : res str) : bool := match r with Ok (_ :: _) => true | _ => false end.
Lemma foundb_ok r : foundb r = true -> found r.
Proof. destruct r as [[|c s]|]; try discriminate. intros _. exists (c :: s). split; [reflexivity|discriminate]. Qed.

(** ** The indices a Lunar can have *)
Definition pil (g z : Z) : Prop := exists n, 0 <= n < 60 /\ g = n mod 10 /\ z = n mod 12.
Lemma pil_parity g z : 0 <= g < 10 -> 0 <= z < 12 -> (g - z) mod 2 = 0 -> pil g z.
Proof. intros Hg Hz P. exists ((6 * g - 5 * z) mod 60). Z.div_mod_to_equations. lia. Qed.
Lemma pil_zhi g z : pil g z -> 0 <= z < 12.
Proof. intros (n & _ & _ & ->). apply Z.mod_pos_bound. lia. Qed.
Lemma pil_gan g z : pil g z -> 0 <= g < 10.
Proof. intros (n & _ & -> & _). apply Z.mod_pos_bound. lia. Qed.
Record indices (l : Lunar) : Prop := mkIndices {
  ix_year : pil (l_yearGan l) (l_yearZhi l);
  ix_yearL : pil (l_yearGanByLiChun l) (l_yearZhiByLiChun l);
  ix_yearE : pil (l_yearGanExact l) (l_yearZhiExact l);
  ix_month : pil (l_monthGan l) (l_monthZhi l);
  ix_monthE : pil (l_monthGanExact l) (l_monthZhiExact l);
  ix_day : pil (l_dayGan l) (l_dayZhi l);
  ix_dayE : pil (l_dayGanExact l) (l_dayZhiExact l);
  ix_dayE2 : pil (l_dayGanExact2 l) (l_dayZhiExact2 l);
  ix_time : pil (l_timeGan l) (l_timeZhi l);
  ix_week : 0 <= l_week l < 7;
  ix_five : l_timeGan l = (l_dayGanExact l mod 5 * 2 + l_timeZhi l) mod 10
}.

Lemma pil_wrap y d : -1 <= d <= 1 -> pil (wrap 10 (y mod 10 + d)) (wrap 12 (y mod 12 + d)).
Proof.
  intros Hd. unfold wrap. apply pil_parity; [apply Z.mod_pos_bound; lia..|].
  destruct (Z.ltb_spec (y mod 10 + d) 0), (Z.ltb_spec (y mod 12 + d) 0); Z.div_mod_to_equations; lia.
Qed.
Lemma pil_month g i : pil (month_gan g i) (month_zhi i).
Proof.
  unfold month_gan, month_zhi. change LunarUtil_BASE_MONTH_ZHI_INDEX with 2. apply pil_parity; [apply Z.mod_pos_bound; lia..|].
  destruct (i <? 0); Z.div_mod_to_equations; lia.
Qed.
Lemma pil_day n : pil (n mod 10) (n mod 12).
Proof. apply pil_parity; [apply Z.mod_pos_bound; lia..|]. Z.div_mod_to_equations; lia. Qed.
Lemma timeZhi_loop hm l k : 1 <= k -> k + Z.of_nat (List.length l) <= 12 -> 0 <= getTimeZhiIndex_loop hm l k < 12.
Proof.
  revert k. induction l as [|i l IH]; intros k K L; cbn [getTimeZhiIndex_loop]; [lia|].
  cbn [List.length] in L. destruct (_ && _); [lia|apply IH; lia].
Qed.
Lemma timeZhi_bound hm : 0 <= getTimeZhiIndex hm < 12.
Proof. apply timeZhi_loop; cbn [List.length]; lia. Qed.
Lemma new_indices fy y m d h mi s l : Lunar_new fy y m d h mi s = Ok l -> indices l.
Proof.
  intros H. destruct (Lunar_new_inv _ _ _ _ _ _ _ _ H) as (t & mo & noon & t2 & _ & _ & _ & _ & _ & _ & _ & [_ _ _ _ Cy Cm Cd C2 Ct Cw]).
  unfold computeYear in Cy. apply bind_ok in Cy. destruct Cy as (lc & _ & Cy). apply bind_ok in Cy. destruct Cy as (lc' & _ & Cy). cbv zeta in Cy.
  apply Ok_inj in Cy. repeat (apply pair_equal_spec in Cy; destruct Cy as [Cy ?]).
  unfold computeMonth in Cm. apply bind_ok in Cm. destruct Cm as (ends & _ & Cm). cbv zeta in Cm.
  apply Ok_inj in Cm. repeat (apply pair_equal_spec in Cm; destruct Cm as [Cm ?]).
  unfold computeDay in Cd. apply bind_ok in Cd. destruct Cd as (no & _ & Cd). apply bind_ok in Cd. destruct Cd as (jd & _ & Cd).
  apply bind_ok in Cd. destruct Cd as (n & _ & Cd). cbv zeta in Cd.
  assert (D : pil (l_dayGan l) (l_dayZhi l) /\ pil (l_dayGanExact l) (l_dayZhiExact l)).
  { destruct (_ && _); apply Ok_inj in Cd; apply pair_equal_spec in Cd; destruct Cd as [Cd E4];
      apply pair_equal_spec in Cd; destruct Cd as [Cd E3]; apply pair_equal_spec in Cd; destruct Cd as [E1 E2];
      rewrite <- E1, <- E2, <- E3, <- E4; (split; [apply pil_day|]); [|apply pil_day].
    clear. apply pil_parity.
    - destruct (Z.leb_spec 10 ((n - 11) mod 10 + 1)); Z.div_mod_to_equations; lia.
    - destruct (Z.leb_spec 12 ((n - 11) mod 12 + 1)); Z.div_mod_to_equations; lia.
    - destruct (Z.leb_spec 10 ((n - 11) mod 10 + 1)), (Z.leb_spec 12 ((n - 11) mod 12 + 1)); Z.div_mod_to_equations; lia. }
  destruct D as [D DE].
  destruct C2 as [C2 C3]. unfold computeTime in Ct. cbv zeta in Ct. apply pair_equal_spec in Ct. destruct Ct as [Ct1 Ct2].
  unfold getWeek in Cw. apply bind_ok in Cw. destruct Cw as (j & _ & Cw). apply bind_ok in Cw. destruct Cw as (w & _ & Cw). apply Ok_inj in Cw.
  constructor.
  - rewrite <- Cy, <- H4. apply pil_day.
  - rewrite <- H3, <- H2. apply pil_wrap. repeat match goal with |- context [if ?b then _ else _] => destruct b end; lia.
  - rewrite <- H1, <- H0. apply pil_wrap. repeat match goal with |- context [if ?b then _ else _] => destruct b end; lia.
  - rewrite <- Cm, <- H7. apply pil_month.
  - rewrite <- H6, <- H5. apply pil_month.
  - exact D.
  - exact DE.
  - rewrite C2, C3. exact D.
  - rewrite <- Ct1, <- Ct2. pose proof (timeZhi_bound (hm_str h mi)) as B. apply pil_parity; [apply Z.mod_pos_bound; lia|lia|].
    clear - B. Z.div_mod_to_equations; lia.
  - rewrite <- Cw. apply Z.mod_pos_bound. lia.
  - rewrite <- Ct1, <- Ct2. reflexivity.
Qed.

(** ** The accessors, by what they depend on; [desc] marks a position whose description (get...Desc) is looked up too *)
Definition desc (f : Lunar -> res str) : list (Lunar -> res str) := [f; fun l => position_desc (f l)].
Definition year_accessors : list (Lunar -> res str) := [
  Lunar_getYearGan; Lunar_getYearZhi; Lunar_getYearInGanZhi; Lunar_getYearShengXiao; Lunar_getYearNaYin;
  Lunar_getYearXun; Lunar_getYearXunKong].
Definition yearL_accessors : list (Lunar -> res str) := [
  Lunar_getYearGanByLiChun; Lunar_getYearZhiByLiChun; Lunar_getYearInGanZhiByLiChun; Lunar_getYearShengXiaoByLiChun;
  Lunar_getYearXunByLiChun; Lunar_getYearXunKongByLiChun].
Definition yearE_accessors : list (Lunar -> res str) := [
  Lunar_getYearGanExact; Lunar_getYearZhiExact; Lunar_getYearInGanZhiExact; Lunar_getYearShengXiaoExact;
  Lunar_getYearXunExact; Lunar_getYearXunKongExact].
Definition month_accessors : list (Lunar -> res str) := [
  Lunar_getMonthGan; Lunar_getMonthZhi; Lunar_getMonthInGanZhi; Lunar_getMonthShengXiao; Lunar_getMonthNaYin;
  Lunar_getMonthXun; Lunar_getMonthXunKong].
Definition monthE_accessors : list (Lunar -> res str) := [
  Lunar_getMonthGanExact; Lunar_getMonthZhiExact; Lunar_getMonthInGanZhiExact; Lunar_getMonthShengXiaoExact;
  Lunar_getMonthXunExact; Lunar_getMonthXunKongExact].
Definition day_accessors (sect : Z) : list (Lunar -> res str) := [
  Lunar_getDayGan; Lunar_getDayZhi; Lunar_getDayInGanZhi; Lunar_getDayShengXiao; Lunar_getDayNaYin;
  Lunar_getDayXun; Lunar_getDayXunKong; Lunar_getPengZuGan; Lunar_getPengZuZhi;
  Lunar_getDayChong; Lunar_getDayChongGan; Lunar_getDayChongGanTie; Lunar_getDayChongShengXiao; Lunar_getDayChongDesc;
  Lunar_getDaySha; Lunar_getDayPositionTai]
  ++ desc Lunar_getDayPositionXi ++ desc Lunar_getDayPositionYangGui ++ desc Lunar_getDayPositionYinGui
  ++ desc (fun l => Lunar_getDayPositionFu l sect) ++ desc Lunar_getDayPositionCai.
Definition dayE_accessors : list (Lunar -> res str) := [
  Lunar_getDayGanExact; Lunar_getDayZhiExact; Lunar_getDayInGanZhiExact; Lunar_getDayXunExact; Lunar_getDayXunKongExact].
Definition dayE2_accessors : list (Lunar -> res str) := [
  Lunar_getDayGanExact2; Lunar_getDayZhiExact2; Lunar_getDayInGanZhiExact2; Lunar_getDayXunExact2; Lunar_getDayXunKongExact2].
Definition time_accessors (sect : Z) : list (Lunar -> res str) := [
  Lunar_getTimeGan; Lunar_getTimeZhi; Lunar_getTimeInGanZhi; Lunar_getTimeShengXiao; Lunar_getTimeNaYin;
  Lunar_getTimeXun; Lunar_getTimeXunKong;
  Lunar_getTimeChong; Lunar_getTimeChongGan; Lunar_getTimeChongGanTie; Lunar_getTimeChongShengXiao; Lunar_getTimeChongDesc;
  Lunar_getTimeSha]
  ++ desc Lunar_getTimePositionXi ++ desc Lunar_getTimePositionYangGui ++ desc Lunar_getTimePositionYinGui
  ++ desc (fun l => Lunar_getTimePositionFu l sect) ++ desc Lunar_getTimePositionCai.
(** day and month branch; day branch and weekday; time and day branch; Tai Sui *)
Definition daymonth_accessors : list (Lunar -> res str) := [
  Lunar_getZhiXing; Lunar_getDayTianShen; Lunar_getDayTianShenType; Lunar_getDayTianShenLuck].
Definition lodge_accessors : list (Lunar -> res str) := [
  Lunar_getWeekInChinese; Lunar_getXiu; Lunar_getXiuLuck; Lunar_getXiuSong; Lunar_getZheng; Lunar_getAnimal; Lunar_getGong; Lunar_getShou].
Definition daytime_accessors : list (Lunar -> res str) := [
  Lunar_getTimeTianShen; Lunar_getTimeTianShenType; Lunar_getTimeTianShenLuck].
Definition taisui_accessors (sect : Z) : list (Lunar -> res str) :=
  desc (fun l => Lunar_getYearPositionTaiSui l sect) ++ desc (fun l => Lunar_getMonthPositionTaiSui l sect)
  ++ desc (fun l => Lunar_getDayPositionTaiSui l sect).
(** the numbers of the month and of the day *)
Definition date_accessors : list (Lunar -> res str) := [
  Lunar_getMonthInChinese; Lunar_getSeason; Lunar_getDayInChinese; Lunar_getYueXiang; Lunar_getLiuYao].
Definition text_accessors (sect : Z) : list (Lunar -> res str) :=
  year_accessors ++ yearL_accessors ++ yearE_accessors ++ month_accessors ++ monthE_accessors ++ day_accessors sect ++ dayE_accessors
  ++ dayE2_accessors ++ time_accessors sect ++ daymonth_accessors ++ lodge_accessors ++ daytime_accessors ++ taisui_accessors sect
  ++ date_accessors.

(** ** Trying every value of an index *)
Lemma scan {A} (fs : list (A -> res str)) (obj : Z -> A) k n :
  forallb (fun i => forallb (fun f => foundb (f (obj i))) fs) (zrange 0 k) = true -> 0 <= n < k ->
  Forall (fun f => found (f (obj n))) fs.
Proof.
  intros T Hn. pose proof (forallb_zrange _ _ _ T n Hn) as B. cbv beta in B. apply Forall_forall. intros f I.
  rewrite forallb_forall in B. apply foundb_ok, B, I.
Qed.
Lemma scan2 {A} (fs : list (A -> res str)) (obj : Z -> Z -> A) j k m n :
  forallb (fun h => forallb (fun i => forallb (fun f => foundb (f (obj h i))) fs) (zrange 0 k)) (zrange 0 j) = true ->
  0 <= m < j -> 0 <= n < k -> Forall (fun f => found (f (obj m n))) fs.
Proof. intros T Hm Hn. apply (scan fs (obj m) k); [exact (forallb_zrange _ _ _ T m Hm)|exact Hn]. Qed.
Ltac over n k := match goal with |- Forall (fun f => found (f ?o)) ?fs =>
  let t := eval pattern n in o in match t with ?g n => apply (scan fs g k n); [vm_compute; reflexivity|assumption] end end.
Ltac over2 m j n k := match goal with |- Forall (fun f => found (f ?o)) ?fs =>
  let t := eval pattern m, n in o in match t with ?g m n => apply (scan2 fs g j k m n); [timeout 100 vm_compute; reflexivity|assumption|assumption] end end.
Ltac split_sect s := destruct s as [|[[?|?|]|[?|?|]|]|?].

Lemma day_taisui p z : 0 <= z < 12 -> found (dayPositionTaiSui p z) /\ found (position_desc (dayPositionTaiSui p z)).
Proof.
  intros Hz. unfold dayPositionTaiSui. do 5 match goal with |- found (if ?b then _ else _) /\ _ => destruct b; [split; apply foundb_ok; vm_compute; reflexivity|] end.
  assert (T : forallb (fun z => foundb (py_index LunarUtil_POSITION_TAI_SUI_YEAR z) && foundb (position_desc (py_index LunarUtil_POSITION_TAI_SUI_YEAR z))) (zrange 0 12) = true) by (vm_compute; reflexivity).
  pose proof (forallb_zrange _ _ _ T z Hz) as X. apply andb_prop in X. destruct X as [X Y]. split; apply foundb_ok; assumption.
Qed.
Theorem C43_lunar : forall fromYear y m d h mi s l, Lunar_new fromYear y m d h mi s = Ok l ->
  1 <= Z.abs m <= 12 -> 1 <= d <= 30 -> forall sect, Forall (fun f => found (f l)) (text_accessors sect).
Proof.
  intros fy y m d h mi s l H Hm Hd sect. pose proof (new_indices _ _ _ _ _ _ _ _ H) as I.
  assert (Em : l_month l = m /\ l_day l = d).
  { destruct (Lunar_new_inv _ _ _ _ _ _ _ _ H) as (t & mo & noon & t2 & _ & _ & _ & _ & _ & _ & _ & Cc). destruct (cp_ymd _ _ _ _ _ _ _ _ _ Cc) as (_ & A & B). split; assumption. }
  clear H.
  destruct l as [ly lm ld lh lmi ls solar jq yg yz ygl yzl yge yze mg mz mge mze dg dz dge dze dg2 dz2 tg tz w].
  cbn [l_month l_day] in Em. destruct Em as [-> ->].
  destruct I as [I1 I2 I3 I4 I5 I6 I7 I8 I9 W _].
  cbn [l_yearGan l_yearZhi l_yearGanByLiChun l_yearZhiByLiChun l_yearGanExact l_yearZhiExact l_monthGan l_monthZhi l_monthGanExact l_monthZhiExact
    l_dayGan l_dayZhi l_dayGanExact l_dayZhiExact l_dayGanExact2 l_dayZhiExact2 l_timeGan l_timeZhi l_week] in *.
  unfold text_accessors.
  apply Forall_app; split; [destruct I1 as (n & B & -> & ->); over n 60|].
  apply Forall_app; split; [destruct I2 as (n & B & -> & ->); over n 60|].
  apply Forall_app; split; [destruct I3 as (n & B & -> & ->); over n 60|].
  apply Forall_app; split; [destruct I4 as (n & B & -> & ->); over n 60|].
  apply Forall_app; split; [destruct I5 as (n & B & -> & ->); over n 60|].
  apply Forall_app; split; [destruct I6 as (n & B & -> & ->); split_sect sect; over n 60|].
  apply Forall_app; split; [destruct I7 as (n & B & -> & ->); over n 60|].
  apply Forall_app; split; [destruct I8 as (n & B & -> & ->); over n 60|].
  apply Forall_app; split; [destruct I9 as (n & B & -> & ->); split_sect sect; over n 60|].
  apply pil_zhi in I1 as Z1. apply pil_zhi in I2 as Z2. apply pil_zhi in I3 as Z3. apply pil_zhi in I4 as Z4.
  apply pil_zhi in I6 as Z6. apply pil_zhi in I7 as Z7. apply pil_zhi in I9 as Z9.
  apply Forall_app; split; [over2 dz 12 mz 12|].
  apply Forall_app; split; [over2 dz 12 w 7|].
  apply Forall_app; split; [over2 dze 12 tz 12|].
  apply Forall_app; split; [apply Forall_app; split; [|apply Forall_app; split]|].
  - split_sect sect; [over yzl 12|over yzl 12|over yzl 12|over yze 12|over yzl 12|over yzl 12|over yzl 12|over yz 12|over yzl 12].
  - destruct I4 as (n & B & -> & ->), I5 as (k & K & -> & ->).
    split_sect sect; [over n 60|over n 60|over n 60|over k 60|over n 60|over n 60|over n 60|over n 60|over n 60].
  - destruct I6 as (n & B & -> & ->), I8 as (k & K & -> & ->).
    apply Forall_cons; [|apply Forall_cons; [|apply Forall_nil]]; unfold Lunar_getDayPositionTaiSui;
      unfold Lunar_getDayInGanZhi, Lunar_getDayGan, Lunar_getDayZhi, Lunar_getDayInGanZhiExact2, Lunar_getDayGanExact2, Lunar_getDayZhiExact2;
      cbn [l_dayGan l_dayZhi l_dayGanExact2 l_dayZhiExact2 l_yearZhi l_yearZhiExact l_yearZhiByLiChun];
      rewrite (pillar _ _ n eq_refl eq_refl), (pillar _ _ k eq_refl eq_refl); cbn [bind];
      destruct (1 =? sect); [|destruct (3 =? sect)| |destruct (3 =? sect)]; apply day_taisui; assumption.
  - assert (Tm : forallb (fun i => forallb (fun t => foundb (py_index t i)) [LunarUtil_MONTH; LunarUtil_SEASON]) (zrange 1 13) = true) by (vm_compute; reflexivity).
    assert (Td : forallb (fun i => forallb (fun t => foundb (py_index t i)) [LunarUtil_DAY; LunarUtil_YUE_XIANG]) (zrange 1 31) = true) by (vm_compute; reflexivity).
    assert (Tl : forallb (fun i => foundb (py_index LunarUtil_LIU_YAO i)) (zrange 0 6) = true) by (vm_compute; reflexivity).
    pose proof (forallb_zrange _ _ _ Tm (Z.abs m) ltac:(lia)) as Fm. pose proof (forallb_zrange _ _ _ Td d ltac:(lia)) as Fd.
    pose proof (forallb_zrange _ _ _ Tl ((Z.abs m + d - 2) mod 6) ltac:(apply Z.mod_pos_bound; lia)) as Fl. clear Tm Td Tl.
    cbv beta in Fm, Fd, Fl. cbn [forallb] in Fm, Fd. apply andb_prop in Fm, Fd. destruct Fm as [F1 F2], Fd as [F3 F4].
    rewrite andb_true_r in F2, F4. apply foundb_ok in F1, F2, F3, F4, Fl.
    unfold date_accessors. apply Forall_cons; [|apply Forall_cons; [exact F2|apply Forall_cons; [exact F3|apply Forall_cons; [exact F4|apply Forall_cons; [exact Fl|apply Forall_nil]]]]].
    destruct F1 as (x & E & N). exists ((if m <? 0 then utf8 "闰"%string else []) ++ x). unfold Lunar_getMonthInChinese. cbn [l_month]. rewrite E.
    split; [reflexivity|]. destruct (m <? 0); [discriminate|exact N].
Qed.

(** ** The lists of the almanac *)
Definition list_accessors (sect : Z) : list (Lunar -> res (list str)) := [
  fun l => Lunar_getDayYi l sect; fun l => Lunar_getDayJi l sect; Lunar_getTimeYi; Lunar_getTimeJi;
  Lunar_getDayJiShen; Lunar_getDayXiongSha].
Definition listed_all (r : res (list str)) : Prop := exists xs, r = Ok xs /\ xs <> [].
Lemma JZ_pair n : 0 <= n < 60 -> pair60 n = JZ n.
Proof.
  assert (T : forallb (fun i => str_eqb (pair60 i) (JZ i)) (zrange 0 60) = true) by (vm_compute; reflexivity).
  intros Hn. apply str_eqb_eq. exact (forallb_zrange _ _ _ T n Hn).
Qed.
Lemma or_none_ne xs : or_none xs <> [].
Proof. destruct xs; discriminate. Qed.
Lemma listed_of r xs : r = Ok (or_none xs) -> listed_all r.
Proof. intros E. exists (or_none xs). split; [exact E|apply or_none_ne]. Qed.
Lemma time_lists d t z : 0 <= d < 60 -> 0 <= t < 60 -> 0 <= z < 12 -> t mod 10 = (d mod 10 mod 5 * 2 + z) mod 10 -> t mod 12 = z ->
  listed_all (LunarUtil_getTimeYi (JZ d) (JZ t)) /\ listed_all (LunarUtil_getTimeJi (JZ d) (JZ t)).
Proof.
  intros Hd Ht Hz E E2. destruct (proj2 (C40_time_cover d t Hd Ht)) as (a & b & I).
  { exists z. split; [exact Hz|]. clear - Hd Ht Hz E E2. Z.div_mod_to_equations. lia. }
  destruct (C40_time d t a b I) as [X Y]. split; [exact (listed_of _ _ X)|exact (listed_of _ _ Y)].
Qed.
Lemma day_lists d m : 0 <= d < 60 -> 0 <= m < 60 ->
  listed_all (LunarUtil_getDayYi (JZ m) (JZ d)) /\ listed_all (LunarUtil_getDayJi (JZ m) (JZ d)).
Proof.
  intros Hd Hm. destruct (C40_day d m Hd Hm) as (a & b & _ & _ & X & Y). split; [exact (listed_of _ _ X)|exact (listed_of _ _ Y)].
Qed.
Theorem C43_lists : forall fromYear y m d h mi s l, Lunar_new fromYear y m d h mi s = Ok l ->
  1 <= Z.abs m <= 12 -> forall sect, Forall (fun f => listed_all (f l)) (list_accessors sect).
Proof.
  intros fy y m d h mi s l H Hm sect. pose proof (new_indices _ _ _ _ _ _ _ _ H) as I.
  assert (Em : l_month l = m).
  { destruct (Lunar_new_inv _ _ _ _ _ _ _ _ H) as (t & mo & noon & t2 & _ & _ & _ & _ & _ & _ & _ & Cc). apply (cp_ymd _ _ _ _ _ _ _ _ _ Cc). }
  destruct I as [_ _ _ (a & Ba & Ga & Za) (b & Bb & Gb & Zb) (c & Bc & Gc & Zc) (e & Be & Ge & Ze) _ (t & Bt & Gt & Zt) _ F].
  assert (P1 : Lunar_getMonthInGanZhi l = Ok (JZ a)) by (rewrite <- JZ_pair by exact Ba; apply pillar; assumption).
  assert (P2 : Lunar_getMonthInGanZhiExact l = Ok (JZ b)) by (rewrite <- JZ_pair by exact Bb; apply pillar; assumption).
  assert (P3 : Lunar_getDayInGanZhi l = Ok (JZ c)) by (rewrite <- JZ_pair by exact Bc; apply pillar; assumption).
  assert (P4 : Lunar_getDayInGanZhiExact l = Ok (JZ e)) by (rewrite <- JZ_pair by exact Be; apply pillar; assumption).
  assert (P5 : Lunar_getTimeInGanZhi l = Ok (JZ t)) by (rewrite <- JZ_pair by exact Bt; apply pillar; assumption).
  rewrite Ge, Gt, Zt in F.
  destruct (time_lists e t (t mod 12) Be Bt ltac:(apply Z.mod_pos_bound; lia) F eq_refl) as [T1 T2].
  destruct (day_lists c a Bc Ba) as [D1 D2]. destruct (day_lists c b Bc Bb) as [D3 D4].
  destruct (C40_shensha_cover m c Hm Bc) as (u & v & Iuv). destruct (C40_shensha m c u v Iuv) as [S1 S2].
  unfold list_accessors.
  apply Forall_cons; [unfold Lunar_getDayYi; rewrite P1, P2, P3; destruct (2 =? sect); [exact D3|exact D1]|].
  apply Forall_cons; [unfold Lunar_getDayJi; rewrite P1, P2, P3; destruct (2 =? sect); [exact D4|exact D2]|].
  apply Forall_cons; [unfold Lunar_getTimeYi; rewrite P4, P5; exact T1|].
  apply Forall_cons; [unfold Lunar_getTimeJi; rewrite P4, P5; exact T2|].
  apply Forall_cons; [unfold Lunar_getDayJiShen; rewrite P3, Em; exact (listed_of _ _ S1)|].
  apply Forall_cons; [unfold Lunar_getDayXiongSha; rewrite P3, Em; exact (listed_of _ _ S2)|apply Forall_nil].
Qed.

(** The year in Chinese digits. *)
Lemma digs_ne f n : digs (Datatypes.S f) n <> [].
Proof. cbn [digs]. destruct (n <? 10); [discriminate|]. intros E. apply app_eq_nil in E. destruct E. discriminate. Qed.
Theorem C43_year_in_chinese : forall l, 0 <= l_year l -> found (Lunar_getYearInChinese l).
Proof.
  intros l Hy. unfold Lunar_getYearInChinese, str_of_Z. replace (l_year l <? 0) with false by lia.
  pose proof (digs_nonneg_chars (dec_fuel (l_year l)) (l_year l) Hy) as F. pose proof (digs_ne (Z.to_nat (Z.log2 (l_year l))) (l_year l)) as N.
  unfold dec_fuel in *. set (ds := digs _ _) in *. clearbody ds.
  assert (T : forallb (fun c => foundb (py_index LunarUtil_NUMBER (c - 48))) (zrange 48 58) = true) by (vm_compute; reflexivity).
  assert (M : forall ds, Forall (fun c => 48 <= c <= 57) ds -> exists cs, mapM (fun c => py_index LunarUtil_NUMBER (c - 48)) ds = Ok cs /\ (ds <> [] -> concat cs <> [])).
  { induction 1 as [|c ds' Hc _ (cs & E & _)].
    - exists []. split; [reflexivity|]. intros X _. now apply X.
    - pose proof (forallb_zrange _ _ _ T c ltac:(lia)) as X. apply foundb_ok in X. destruct X as (v & Ev & Nv). exists (v :: cs).
      cbn [mapM]. rewrite Ev. cbn [bind]. rewrite E. cbn [bind]. split; [reflexivity|]. intros _ X. cbn [concat] in X. apply app_eq_nil in X. now apply Nv. }
  destruct (M ds F) as (cs & E & X). exists (concat cs). rewrite E. split; [reflexivity|]. apply X, N.
Qed.
(** The place of the foetus god of a month: empty for leap months. *)
Theorem C43_month_tai : forall l, 1 <= Z.abs (l_month l) <= 12 ->
  if l_month l <? 0 then Lunar_getMonthPositionTai l = Ok [] else found (Lunar_getMonthPositionTai l).
Proof.
  intros l Hm. unfold Lunar_getMonthPositionTai. destruct (Z.ltb_spec (l_month l) 0); [reflexivity|].
  assert (T : forallb (fun i => foundb (py_index LunarUtil_POSITION_TAI_MONTH i)) (zrange 0 12) = true) by (vm_compute; reflexivity).
  apply foundb_ok. exact (forallb_zrange _ _ _ T (l_month l - 1) ltac:(lia)).
Qed.

(** ** LunarTime *)
Definition tdesc (f : LTime -> res str) : list (LTime -> res str) := [f; fun t => position_desc (f t)].
Definition ltime_accessors (sect : Z) : list (LTime -> res str) := [
  LunarTime_getGan; LunarTime_getZhi; LunarTime_getGanZhi; LunarTime_getShengXiao; LunarTime_getNaYin; LunarTime_getXun; LunarTime_getXunKong;
  LunarTime_getChong; LunarTime_getChongGan; LunarTime_getChongGanTie; LunarTime_getChongShengXiao; LunarTime_getChongDesc; LunarTime_getSha]
  ++ tdesc LunarTime_getPositionXi ++ tdesc LunarTime_getPositionYangGui ++ tdesc LunarTime_getPositionYinGui
  ++ tdesc (fun t => LunarTime_getPositionFu t sect) ++ tdesc LunarTime_getPositionCai.
Definition ltime_accessors2 : list (LTime -> res str) := [
  LunarTime_getTianShen; LunarTime_getTianShenType; LunarTime_getTianShenLuck].
Theorem C43_time : forall fromYear y m d h mi s t, LunarTime_new fromYear y m d h mi s = Ok t ->
  (forall sect, Forall (fun f => found (f t)) (ltime_accessors sect ++ ltime_accessors2)) /\
  listed_all (LunarTime_getYi t) /\ listed_all (LunarTime_getJi t).
Proof.
  intros fy y m d h mi s t H. unfold LunarTime_new in H. apply bind_ok in H. destruct H as (l & El & H). cbv zeta in H. apply Ok_inj in H.
  pose proof (new_indices _ _ _ _ _ _ _ _ El) as I. destruct I as [_ _ _ _ _ _ (e & Be & Ge & Ze) _ _ _ _].
  pose proof (timeZhi_bound (fmt0 2 h ++ lit ":" ++ fmt0 2 mi)) as B. set (z := getTimeZhiIndex _) in *. clearbody z.
  assert (P : pil ((l_dayGanExact l mod 5 * 2 + z) mod 10) z).
  { apply pil_parity; [apply Z.mod_pos_bound; lia|exact B|]. clear - B. Z.div_mod_to_equations; lia. }
  assert (ZE : 0 <= l_dayZhiExact l < 12) by (rewrite Ze; apply Z.mod_pos_bound; lia).
  subst t. split.
  - intros sect. apply Forall_app. split.
    + destruct P as (n & Bn & -> & ->). split_sect sect; over n 60.
    + destruct l as [ly lm ld lh lmi ls solar jq yg yz ygl yzl yge yze mg mz mge mze dg dz dge dze dg2 dz2 tg tz w]. cbn [l_dayZhiExact] in ZE.
      over2 dze 12 z 12.
  - assert (P4 : Lunar_getDayInGanZhiExact l = Ok (JZ e)) by (rewrite <- JZ_pair by exact Be; apply pillar; assumption).
    destruct P as (n & Bn & Gn & Zn).
    assert (P5 : LunarTime_getGanZhi (mkLTime l z ((l_dayGanExact l mod 5 * 2 + z) mod 10)) = Ok (JZ n)).
    { rewrite <- JZ_pair by exact Bn. unfold LunarTime_getGanZhi, LunarTime_getGan, LunarTime_getZhi. cbn [t_gan t_zhi]. apply pillar; assumption. }
    unfold LunarTime_getYi, LunarTime_getJi. cbn [t_lunar]. rewrite P4, P5. cbn [bind]. rewrite Ge in Gn. apply (time_lists e n z Be Bn B); congruence.
Qed.

(** ** EightChar: [get] gives None for a missing key, so the entry must be there *)
Definition known (r : res (option str)) : Prop := exists s, r = Ok (Some s) /\ s <> [].
Definition known_all (r : res (list (option str))) : Prop :=
  exists xs, r = Ok xs /\ xs <> [] /\ Forall (fun o => exists s, o = Some s /\ s <> []) xs.
Definition hidden_all (r : res (option (list str))) : Prop := exists xs, r = Ok (Some xs) /\ xs <> [] /\ Forall (fun s => s <> []) xs.
Definition eight_texts : list (EightChar -> res str) := [
  EightChar_getYear; EightChar_getYearGan; EightChar_getYearZhi; EightChar_getMonth; EightChar_getMonthGan; EightChar_getMonthZhi;
  EightChar_getDay; EightChar_getDayGan; EightChar_getDayZhi; EightChar_getTime; EightChar_getTimeGan; EightChar_getTimeZhi;
  EightChar_getYearWuXing; EightChar_getMonthWuXing; EightChar_getDayWuXing; EightChar_getTimeWuXing;
  EightChar_getYearXun; EightChar_getYearXunKong; EightChar_getMonthXun; EightChar_getMonthXunKong;
  EightChar_getDayXun; EightChar_getDayXunKong; EightChar_getTimeXun; EightChar_getTimeXunKong].
Definition eight_options : list (EightChar -> res (option str)) := [
  EightChar_getYearNaYin; EightChar_getMonthNaYin; EightChar_getDayNaYin; EightChar_getTimeNaYin;
  EightChar_getYearShiShenGan; EightChar_getMonthShiShenGan; EightChar_getTimeShiShenGan].
Definition eight_hidden : list (EightChar -> res (option (list str))) := [
  EightChar_getYearHideGan; EightChar_getMonthHideGan; EightChar_getDayHideGan; EightChar_getTimeHideGan].
Definition eight_gods : list (EightChar -> res (list (option str))) := [
  EightChar_getYearShiShenZhi; EightChar_getMonthShiShenZhi; EightChar_getDayShiShenZhi; EightChar_getTimeShiShenZhi].

(** The pillars of an EightChar; all its accessors are functions of them. *)
Lemma eight_pillars e : indices (e_lunar e) -> exists a b c d, 0 <= a < 60 /\ 0 <= b < 60 /\ 0 <= c < 60 /\ 0 <= d < 60 /\
  (l_yearGanExact (e_lunar e) = a mod 10 /\ l_yearZhiExact (e_lunar e) = a mod 12) /\
  (l_monthGanExact (e_lunar e) = b mod 10 /\ l_monthZhiExact (e_lunar e) = b mod 12) /\
  (EightChar_getDayGanIndex e = c mod 10 /\ EightChar_getDayZhiIndex e = c mod 12) /\
  (l_timeGan (e_lunar e) = d mod 10 /\ l_timeZhi (e_lunar e) = d mod 12).
Proof.
  intros [_ _ (a & Ba & Ga & Za) _ (b & Bb & Gb & Zb) _ (c & Bc & Gc & Zc) (c' & Bc' & Gc' & Zc') (d & Bd & Gd & Zd) _ _].
  exists a, b, (if 2 =? e_sect e then c' else c), d. unfold EightChar_getDayGanIndex, EightChar_getDayZhiIndex, by_sect.
  destruct (2 =? e_sect e); repeat split; assumption || lia.
Qed.
Lemma day_by_sect e : EightChar_getDayGan e = py_index LunarUtil_GAN (EightChar_getDayGanIndex e + 1) /\
  EightChar_getDayZhi e = py_index LunarUtil_ZHI (EightChar_getDayZhiIndex e + 1) /\
  EightChar_getDay e = cat2 (py_index LunarUtil_GAN (EightChar_getDayGanIndex e + 1)) (py_index LunarUtil_ZHI (EightChar_getDayZhiIndex e + 1)) /\
  EightChar_getDayXun e = xun_of (EightChar_getDay e) /\ EightChar_getDayXunKong e = xunkong_of (EightChar_getDay e).
Proof.
  unfold EightChar_getDayXun, EightChar_getDayXunKong, EightChar_getDay, EightChar_getDayGan, EightChar_getDayZhi, EightChar_getDayGanIndex, EightChar_getDayZhiIndex, by_sect.
  destruct (2 =? e_sect e); repeat split; reflexivity.
Qed.
Definition optb (r : res (option str)) : bool := match r with Ok (Some (_ :: _)) => true | _ => false end.
Lemma optb_ok r : optb r = true -> known r.
Proof. destruct r as [[[|c s]|]|]; try discriminate. intros _. exists (c :: s). split; [reflexivity|discriminate]. Qed.
Definition some_ne (o : option str) : bool := match o with Some (_ :: _) => true | _ => false end.
Definition allb (r : res (list (option str))) : bool := match r with Ok (x :: xs) => forallb some_ne (x :: xs) | _ => false end.
Lemma allb_ok r : allb r = true -> known_all r.
Proof.
  destruct r as [[|x xs]|]; try discriminate. intros T. exists (x :: xs). split; [reflexivity|]. split; [discriminate|].
  apply Forall_forall. intros o I. unfold allb in T. rewrite forallb_forall in T. specialize (T o I).
  destruct o as [[|c s]|]; try discriminate. exists (c :: s). split; [reflexivity|discriminate].
Qed.
Definition hidb (r : res (option (list str))) : bool :=
  match r with Ok (Some (x :: xs)) => forallb (fun s => match s with [] => false | _ => true end) (x :: xs) | _ => false end.
Lemma hidb_ok r : hidb r = true -> hidden_all r.
Proof.
  destruct r as [[[|x xs]|]|]; try discriminate. intros T. exists (x :: xs). split; [reflexivity|]. split; [discriminate|].
  apply Forall_forall. intros s I. unfold hidb in T. rewrite forallb_forall in T. specialize (T s I). destruct s; [discriminate|discriminate].
Qed.

(** The names as functions of the indices. *)
Lemma pil_tables : forallb (fun n =>
  let g := py_index LunarUtil_GAN (n mod 10 + 1) in let z := py_index LunarUtil_ZHI (n mod 12 + 1) in let p := cat2 g z in
  foundb g && foundb z && foundb p && foundb (wuXing g z) && foundb (xun_of p) && foundb (xunkong_of p) && optb (naYin p) && hidb (hideGan z)) (zrange 0 60) = true.
Proof. vm_compute. reflexivity. Qed.
Lemma pil_facts g z n : 0 <= n < 60 -> g = n mod 10 -> z = n mod 12 ->
  let g := py_index LunarUtil_GAN (g + 1) in let z := py_index LunarUtil_ZHI (z + 1) in let p := cat2 g z in
  found g /\ found z /\ found p /\ found (wuXing g z) /\ found (xun_of p) /\ found (xunkong_of p) /\ known (naYin p) /\ hidden_all (hideGan z).
Proof.
  intros B -> ->. pose proof (forallb_zrange _ _ _ pil_tables n B) as T. cbv beta zeta in T. cbv zeta.
  apply andb_prop in T. destruct T as [T T8]. apply andb_prop in T. destruct T as [T T7]. apply andb_prop in T. destruct T as [T T6].
  apply andb_prop in T. destruct T as [T T5]. apply andb_prop in T. destruct T as [T T4]. apply andb_prop in T. destruct T as [T T3]. apply andb_prop in T. destruct T as [T1 T2].
  split; [apply foundb_ok, T1|]. split; [apply foundb_ok, T2|]. split; [apply foundb_ok, T3|]. split; [apply foundb_ok, T4|].
  split; [apply foundb_ok, T5|]. split; [apply foundb_ok, T6|]. split; [apply optb_ok, T7|apply hidb_ok, T8].
Qed.
Lemma god_tables : forallb (fun c => forallb (fun g => optb (dict_get LunarUtil_SHI_SHEN (cat2 (py_index LunarUtil_GAN (c + 1)) (py_index LunarUtil_GAN (g + 1))))) (zrange 0 10)) (zrange 0 10) = true.
Proof. vm_compute. reflexivity. Qed.
Lemma branch_tables : forallb (fun c => forallb (fun z =>
  allb (let! h := hideGan (py_index LunarUtil_ZHI (z + 1)) in
        match h with None => Raise ExcType | Some gans => mapM (fun gan => dict_get LunarUtil_SHI_SHEN (cat2 (py_index LunarUtil_GAN (c + 1)) (Ok gan))) gans end))
  (zrange 0 12)) (zrange 0 10) = true.
Proof. vm_compute. reflexivity. Qed.
Theorem C43_eight : forall fromYear y m d h mi s l sect, Lunar_new fromYear y m d h mi s = Ok l ->
  let e := mkEightChar sect l in
  Forall (fun f => found (f e)) eight_texts /\ Forall (fun f => known (f e)) eight_options /\
  Forall (fun f => hidden_all (f e)) eight_hidden /\ Forall (fun f => known_all (f e)) eight_gods.
Proof.
  intros fy y m d h mi s l sect H e. pose proof (new_indices _ _ _ _ _ _ _ _ H) as I. change l with (e_lunar e) in I.
  destruct (eight_pillars e I) as (na & nb & nc & nd & Ba & Bb & Bc & Bd & (Ga & Za) & (Gb & Zb) & (Gc & Zc) & (Gd & Zd)).
  destruct (day_by_sect e) as (D1 & D2 & D3 & D4 & D5).
  destruct (pil_facts _ _ _ Ba Ga Za) as (A1 & A2 & A3 & A4 & A5 & A6 & A7 & A8).
  destruct (pil_facts _ _ _ Bb Gb Zb) as (B1 & B2 & B3 & B4 & B5 & B6 & B7 & B8).
  destruct (pil_facts _ _ _ Bc Gc Zc) as (C1 & C2 & C3 & C4 & C5 & C6 & C7 & C8).
  destruct (pil_facts _ _ _ Bd Gd Zd) as (E1 & E2 & E3 & E4 & E5 & E6 & E7 & E8).
  rewrite <- D1 in C1. rewrite <- D2 in C2. rewrite <- D3 in C3. rewrite <- D1, <- D2 in C4. rewrite <- D3, <- D4 in C5. rewrite <- D3, <- D5 in C6.
  rewrite <- D3 in C7. rewrite <- D2 in C8.
  assert (Gods : forall g, 0 <= g < 10 -> known (shiShenGan e (py_index LunarUtil_GAN (g + 1)))).
  { intros g Hg. apply optb_ok. unfold shiShenGan. rewrite D1. exact (forallb_zrange _ _ _ (forallb_zrange _ _ _ god_tables (EightChar_getDayGanIndex e) ltac:(rewrite Gc; apply Z.mod_pos_bound; lia)) g Hg). }
  assert (Branch : forall z, 0 <= z < 12 -> known_all (shiShenZhi e (py_index LunarUtil_ZHI (z + 1)))).
  { intros z Hz. apply allb_ok. unfold shiShenZhi, shiShenGan. rewrite D1. exact (forallb_zrange _ _ _ (forallb_zrange _ _ _ branch_tables (EightChar_getDayGanIndex e) ltac:(rewrite Gc; apply Z.mod_pos_bound; lia)) z Hz). }
  assert (R10 : forall n, 0 <= n mod 10 < 10) by (intros; apply Z.mod_pos_bound; lia).
  assert (R12 : forall n, 0 <= n mod 12 < 12) by (intros; apply Z.mod_pos_bound; lia).
  clear D3 D4 D5.
  split; [|split; [|split]].
  - unfold eight_texts. 
    repeat (apply Forall_cons; [first [exact A1|exact A2|exact A3|exact A4|exact A5|exact A6|exact B1|exact B2|exact B3|exact B4|exact B5|exact B6|exact C1|exact C2|exact C3|exact C4|exact C5|exact C6|exact E1|exact E2|exact E3|exact E4|exact E5|exact E6]|]); apply Forall_nil.
  - unfold eight_options. repeat (apply Forall_cons; [first [exact A7|exact B7|exact C7|exact E7]|]).
    apply Forall_cons; [apply (Gods (l_yearGanExact (e_lunar e))); rewrite Ga; apply R10|].
    apply Forall_cons; [apply (Gods (l_monthGanExact (e_lunar e))); rewrite Gb; apply R10|].
    apply Forall_cons; [apply (Gods (l_timeGan (e_lunar e))); rewrite Gd; apply R10|apply Forall_nil].
  - unfold eight_hidden. repeat (apply Forall_cons; [first [exact A8|exact B8|exact C8|exact E8]|]); apply Forall_nil.
  - unfold eight_gods.
    apply Forall_cons; [apply (Branch (l_yearZhiExact (e_lunar e))); rewrite Za; apply R12|].
    apply Forall_cons; [apply (Branch (l_monthZhiExact (e_lunar e))); rewrite Zb; apply R12|].
    apply Forall_cons; [unfold EightChar_getDayShiShenZhi; rewrite D2; apply Branch; rewrite Zc; apply R12|].
    apply Forall_cons; [apply (Branch (l_timeZhi (e_lunar e))); rewrite Zd; apply R12|apply Forall_nil].
Qed.

(** ** LunarMonth and LunarYear *)
Section Months.
Variable fromYear : Z -> res LYear.
Definition mdesc (f : LMonth -> res str) : list (LMonth -> res str) := [f; fun t => position_desc (f t)].
Definition lmonth_accessors (sect : Z) : list (LMonth -> res str) := [
  LunarMonth_getGan fromYear; LunarMonth_getZhi; LunarMonth_getGanZhi fromYear]
  ++ mdesc (LunarMonth_getPositionXi fromYear) ++ mdesc (LunarMonth_getPositionYangGui fromYear) ++ mdesc (LunarMonth_getPositionYinGui fromYear)
  ++ mdesc (fun t => LunarMonth_getPositionFu fromYear t sect) ++ mdesc (LunarMonth_getPositionCai fromYear).
End Months.
Definition ydesc (f : LYear -> res str) : list (LYear -> res str) := [f; fun t => position_desc (f t)].
Definition lyear_accessors (sect : Z) : list (LYear -> res str) := [
  LunarYear_getGan; LunarYear_getZhi; LunarYear_getGanZhi]
  ++ ydesc LunarYear_getPositionXi ++ ydesc LunarYear_getPositionYangGui ++ ydesc LunarYear_getPositionYinGui
  ++ ydesc (fun t => LunarYear_getPositionFu t sect) ++ ydesc LunarYear_getPositionCai ++ ydesc LunarYear_getPositionTaiSui.
Theorem C43_year : forall sky y t sect, LunarYear_new sky y = Ok t -> Forall (fun f => found (f t)) (lyear_accessors sect).
Proof.
  intros sky y t sect H. destruct (LunarYear_new_inv _ _ _ H) as (jq & terms & hs & leap & _ & _ & _ & _ & _ & _ & G & Z & _).
  destruct (pil_day (y - 4)) as (n & B & G' & Z'). rewrite G' in G. rewrite Z' in Z. clear H G' Z'. destruct t as [ly g z ms ts]. cbn [lgan lzhi] in G, Z. subst g z.
  split_sect sect; over n 60.
Qed.
(** A month's stem and branch, for any index of the month. *)
Theorem C43_month : forall sky m t sect, LunarYear_new sky (my m) = Ok t -> Forall (fun f => found (f m)) (lmonth_accessors (LunarYear_new sky) sect).
Proof.
  intros sky m t sect H.
  assert (E : exists n, 0 <= n < 60 /\ LunarMonth_getGanIndex (LunarYear_new sky) m = Ok (n mod 10) /\ LunarMonth_getZhiIndex m = n mod 12).
  { unfold LunarMonth_getGanIndex, LunarMonth_getZhiIndex. rewrite H. cbn [bind]. change LunarUtil_BASE_MONTH_ZHI_INDEX with 2.
    destruct (pil_parity ((mindex m - 1 + (lgan t + 1) mod 5 * 2) mod 10) ((mindex m - 1 + 2) mod 12)) as (n & B & G & Z);
      [apply Z.mod_pos_bound; lia..|Z.div_mod_to_equations; lia|]. exists n. rewrite <- G, <- Z. repeat split; lia. }
  destruct E as (n & B & G & Z). unfold lmonth_accessors, mdesc, LunarMonth_getGanZhi, LunarMonth_getGan, LunarMonth_getZhi,
    LunarMonth_getPositionXi, LunarMonth_getPositionYangGui, LunarMonth_getPositionYinGui, LunarMonth_getPositionFu, LunarMonth_getPositionCai.
  set (names := fun g z => [py_index LunarUtil_GAN (g + 1); py_index LunarUtil_ZHI (z + 1); cat2 (py_index LunarUtil_GAN (g + 1)) (py_index LunarUtil_ZHI (z + 1))]).
  set (places := fun g => [py_index LunarUtil_POSITION_XI (g + 1); py_index LunarUtil_POSITION_YANG_GUI (g + 1); py_index LunarUtil_POSITION_YIN_GUI (g + 1);
    py_index LunarUtil_POSITION_FU (g + 1); py_index LunarUtil_POSITION_FU_2 (g + 1); py_index LunarUtil_POSITION_CAI (g + 1)]).
  assert (T : forallb (fun n => forallb foundb (names (n mod 10) (n mod 12)) && forallb foundb (places (n mod 10)) && forallb (fun r => foundb (position_desc r)) (places (n mod 10)))
    (zrange 0 60) = true) by (vm_compute; reflexivity).
  pose proof (forallb_zrange _ _ _ T n B) as X. clear T. cbv beta in X. apply andb_prop in X. destruct X as [X X3]. apply andb_prop in X. destruct X as [X1 X2].
  rewrite forallb_forall in X1, X2, X3.
  assert (F1 : forall r, In r (names (n mod 10) (n mod 12)) -> found r) by (intros r I; apply foundb_ok, X1, I).
  assert (F2 : forall r, In r (places (n mod 10)) -> found r /\ found (position_desc r)) by (intros r I; split; apply foundb_ok; [apply X2, I|apply X3, I]).
  clear X1 X2 X3. unfold names in F1. unfold places in F2. cbn [In] in F1, F2.
  assert (PF : found (py_index (position_fu sect) (n mod 10 + 1)) /\ found (position_desc (py_index (position_fu sect) (n mod 10 + 1)))).
  { unfold position_fu. destruct (1 =? sect); apply F2; tauto. }
  cbn [app].
  apply Forall_cons; [rewrite G; apply F1; tauto|].
  apply Forall_cons; [rewrite Z; apply F1; tauto|].
  apply Forall_cons; [rewrite G, Z; apply F1; tauto|].
  do 6 (apply Forall_cons; [rewrite G; cbn [bind]; apply F2; tauto|]).
  do 2 (apply Forall_cons; [rewrite G; cbn [bind]; apply PF|]).
  do 2 (apply Forall_cons; [rewrite G; cbn [bind]; apply F2; tauto|]).
  apply Forall_nil.
Qed.

(** ** Every date of a calendar *)
Theorem C43_any_date : forall fy lo hi s, Calendar fy lo hi -> valid_solar s -> lo < sy s < hi -> exists l, getLunar fy s = Ok l /\
  forall sect, Forall (fun f => found (f l)) (text_accessors sect) /\ Forall (fun f => listed_all (f l)) (list_accessors sect) /\
  Forall (fun f => found (f (mkEightChar sect l))) eight_texts /\ Forall (fun f => known (f (mkEightChar sect l))) eight_options /\
  Forall (fun f => hidden_all (f (mkEightChar sect l))) eight_hidden /\ Forall (fun f => known_all (f (mkEightChar sect l))) eight_gods.
Proof.
  intros fy lo hi s C V B. destruct (getLunar_spec C s V B) as (l & t & a & El & Et & Ia & Ha & _ & Em & Ed & _).
  exists l. split; [exact El|]. intros sect. unfold getLunar in El. rewrite Et in El. cbn [bind] in El. apply bind_ok in El. destruct El as ([[y m] d] & _ & El).
  destruct (wf_month _ _ (cal_wf C (sy s) t ltac:(lia) Et) a Ia) as (W1 & W2 & _). unfold mend in Ha.
  assert (E : l_month l = m /\ l_day l = d).
  { destruct (Lunar_new_inv _ _ _ _ _ _ _ _ El) as (t' & mo & noon & t2 & _ & _ & _ & _ & _ & _ & _ & Cc). destruct (cp_ymd _ _ _ _ _ _ _ _ _ Cc) as (_ & X & Y). split; assumption. }
  destruct E as [E1 E2].
  split; [exact (C43_lunar _ _ _ _ _ _ _ _ El ltac:(lia) ltac:(lia) sect)|].
  split; [exact (C43_lists _ _ _ _ _ _ _ _ El ltac:(lia) sect)|].
  exact (C43_eight _ _ _ _ _ _ _ _ sect El).
Qed.
Example C43_case : 2023 < 2024 < 2025 /\
  (let! l := getLunar demo (mkSolar 2024 2 29 23 0 0) in Ok (forallb (fun f => foundb (f l)) (text_accessors 2), List.length (text_accessors 2),
    map (fun f => f l) [Lunar_getXiu; Lunar_getDayTianShen; Lunar_getDayNaYin])) =
  Ok (true, 117%nat, map (fun s => Ok (utf8 s)) ["井"; "勾陈"; "大海水"]%string).
Proof. split; [lia|]. vm_compute. reflexivity. Qed.
