(** C92: fast days and festivals of the Buddhist and the Taoist calendar. *)
From Coq Require Import ZArith Lia Bool ZifyBool List String Floats.
From Verif Require Import Py PyFloat PyStr CalSpec DayNo Solar SolarProofs JulianDay P_JD P_Solar LunarUtil T_LunarUtil T_Misc T_Festivals P_Tables P_Almanac
  LunarYear ShouXing Lunar LunarTime LunarProofs TermProofs YearProofs CalProofs P_Accessors P_Pillars P_LunarYears P_LunarCal FotoTao P_NewYear P_Stars P_Day P_Year P_HolidayFix P_Text Demo.
Import ListNotations.
Open Scope Z_scope.

(** ** Reading a table keyed by month and day *)
Definition at_md {A} (m d : Z) (t : list (str * list A)) : list A :=
  match assoc (str_of_Z m ++ lit "-" ++ str_of_Z d) t with Some fs => fs | None => [] end.
Definition mdb (P : Z -> Z -> bool) : bool := forallb (fun m => forallb (P m) (zrange 1 31)) (zrange 1 13).
Lemma mdb_all P m d : mdb P = true -> 1 <= m <= 12 -> 1 <= d <= 30 -> P m d = true.
Proof.
  intros H Hm Hd. pose proof (forallb_zrange _ _ _ H m ltac:(lia)) as X. cbv beta in X.
  exact (forallb_zrange _ _ _ X d ltac:(lia)).
Qed.
Definition mdb_leap (P : Z -> Z -> bool) : bool := forallb (fun m => forallb (P m) (zrange 1 31)) (zrange (-12) 0).
Lemma mdb_signed P m d : mdb P = true -> mdb_leap P = true -> 1 <= Z.abs m <= 12 -> 1 <= d <= 30 -> P m d = true.
Proof.
  intros H H' Hm Hd. destruct (Z.le_gt_cases 0 m) as [L|L]; [apply mdb_all; [exact H|lia|exact Hd]|].
  pose proof (forallb_zrange _ _ _ H' m ltac:(lia)) as X. cbv beta in X. exact (forallb_zrange _ _ _ X d ltac:(lia)).
Qed.
Definition mem (n : str) (l : list str) : bool := existsb (str_eqb n) l.
Lemma mem_In n l : mem n l = true <-> In n l.
Proof.
  unfold mem. rewrite existsb_exists. split.
  - intros (x & I & E). apply str_eqb_eq in E. now subst.
  - intros I. exists n. split; [exact I|apply str_eqb_refl].
Qed.
Lemma inb d ds : existsb (Z.eqb d) ds = true <-> In d ds.
Proof.
  rewrite existsb_exists. split.
  - intros (x & I & E). apply Z.eqb_eq in E. now subst.
  - intros I. exists d. split; [exact I|apply Z.eqb_refl].
Qed.

(** ** Buddhist days *)
Definition names (l : Lunar) : list str := map (fun f => fst (fst (fst f))) (Foto_getFestivals l).
Lemma names_at l : names l = map (fun f => fst (fst (fst f))) (at_md (Z.abs (l_month l)) (l_day l) FotoUtil_FESTIVAL).
Proof. reflexivity. Qed.

(** 杨公忌: 13 days, going back by two from month to month. *)
Theorem C92_yang_gong : forall l, date_in_range l ->
  isDayYangGong l = true <-> (Z.abs (l_month l) <= 7 /\ l_day l = 15 - 2 * Z.abs (l_month l)) \/
                             (7 <= Z.abs (l_month l) /\ l_day l = 43 - 2 * Z.abs (l_month l)).
Proof.
  intros l [Hm Hd].
  assert (T : mdb (fun m d => Bool.eqb (existsb (fun f => str_eqb (utf8 "杨公忌"%string) (fst (fst (fst f)))) (at_md m d FotoUtil_FESTIVAL))
    (((m <=? 7) && (d =? 15 - 2 * m)) || ((7 <=? m) && (d =? 43 - 2 * m)))) = true) by (vm_compute; reflexivity).
  pose proof (mdb_all _ _ _ T Hm Hd) as X. cbv beta in X. apply eqb_prop in X.
  unfold isDayYangGong. unfold Foto_getFestivals. unfold at_md in X. rewrite X. lia.
Qed.

(** Fasts by the day of the month. *)
Theorem C92_days : forall l,
  (isDayZhaiShuoWang l = true <-> l_day l = 1 \/ l_day l = 15) /\
  (isDayZhaiTen l = true <-> In (l_day l) [1; 8; 14; 15; 18; 23; 24; 28; 29; 30]) /\
  (isMonthZhai l = true <-> l_month l = 1 \/ l_month l = 5 \/ l_month l = 9).
Proof.
  intros l. split; [unfold isDayZhaiShuoWang; lia|]. split; [apply inb|]. unfold isMonthZhai. lia.
Qed.
(** The days of the new and full moon and the six fast days are among the ten. *)
Theorem C92_six_in_ten : forall fy l, (isDayZhaiSix fy l = Ok true \/ isDayZhaiShuoWang l = true) -> isDayZhaiTen l = true.
Proof.
  intros fy l H. apply inb. cbn [In]. destruct H as [H|H].
  - unfold isDayZhaiSix in H. cbv zeta in H.
    destruct ((8 =? l_day l) || (14 =? l_day l) || (15 =? l_day l) || (23 =? l_day l) || (29 =? l_day l) || (30 =? l_day l)) eqn:E; [lia|].
    destruct (Z.eqb_spec 28 (l_day l)); [lia|]. discriminate.
  - unfold isDayZhaiShuoWang in H. lia.
Qed.

(** 观音斋: month by month; never in a leap month. *)
Definition guan_yin : list (list Z) :=
  [[8]; [7; 9; 19]; [3; 6; 13]; [22]; [3; 17]; [16; 18; 19; 23]; [13]; [16]; [19; 23]; [2]; [19; 24]; [25]].
Theorem C92_guan_yin : forall l, date_in_range l ->
  isDayZhaiGuanYin l = true <-> 0 < l_month l /\ In (l_day l) (nth (Z.to_nat (l_month l - 1)) guan_yin []).
Proof.
  intros l [Hm Hd]. rewrite <- inb, <- Z.ltb_lt, <- andb_true_iff. apply eq_iff_eq_true.
  set (P m d := Bool.eqb (existsb (str_eqb (str_of_Z m ++ lit "-" ++ str_of_Z d)) FotoUtil_DAY_ZHAI_GUAN_YIN)
    ((0 <? m) && existsb (Z.eqb d) (nth (Z.to_nat (m - 1)) guan_yin []))).
  assert (T : mdb P = true) by (vm_compute; reflexivity). assert (T' : mdb_leap P = true) by (vm_compute; reflexivity).
  pose proof (mdb_signed _ _ _ T T' Hm Hd) as X. unfold P in X. apply eqb_prop in X. exact X.
Qed.

(** Festivals of every month, with their days; what the table leaves out and what it adds. *)
Definition monthly : list (str * list Z) := Eval vm_compute in map (fun p => (utf8 (fst p), snd p))
  [("月朔"%string, [1]); ("斗降"%string, [3; 27]); ("雷斋日"%string, [6]); ("四天王巡行"%string, [8; 14; 15; 23; 29; 30]); ("月望"%string, [15]);
   ("月晦"%string, [25; 30]); ("人神在阴"%string, [28]); ("司命奏事"%string, [30])].
Definition left_out : list (str * Z * Z) := Eval vm_compute in map (fun p => let '(n, m, d) := p in (utf8 n, m, d))
  [("雷斋日"%string, 11, 6); ("四天王巡行"%string, 12, 30); ("月晦"%string, 12, 30); ("司命奏事"%string, 12, 30)].
Definition added : list (str * Z * Z) := Eval vm_compute in map (fun p => let '(n, m, d) := p in (utf8 n, m, d)) [("四天王巡行"%string, 10, 16)].
Definition listed (n : str) (m d : Z) (l : list (str * Z * Z)) : bool :=
  existsb (fun p => let '(n', m', d') := p in str_eqb n n' && (m =? m') && (d =? d')) l.
Lemma listed_In n m d l : listed n m d l = true <-> In (n, m, d) l.
Proof.
  unfold listed. rewrite existsb_exists. split.
  - intros ([[n' m'] d'] & I & E). apply andb_prop in E. destruct E as [E E3]. apply andb_prop in E. destruct E as [E1 E2].
    apply str_eqb_eq in E1. apply Z.eqb_eq in E2, E3. now subst.
  - intros I. exists (n, m, d). split; [exact I|]. now rewrite str_eqb_refl, !Z.eqb_refl.
Qed.
Theorem C92_monthly : forall l n ds, date_in_range l -> In (n, ds) monthly ->
  In n (names l) <-> (In (l_day l) ds /\ ~ In (n, Z.abs (l_month l), l_day l) left_out) \/ In (n, Z.abs (l_month l), l_day l) added.
Proof.
  intros l n ds [Hm Hd] I. rewrite names_at.
  assert (T : mdb (fun m d => forallb (fun p => Bool.eqb (mem (fst p) (map (fun f => fst (fst (fst f))) (at_md m d FotoUtil_FESTIVAL)))
    ((existsb (Z.eqb d) (snd p) && negb (listed (fst p) m d left_out)) || listed (fst p) m d added)) monthly) = true) by (vm_compute; reflexivity).
  pose proof (mdb_all _ _ _ T Hm Hd) as X. cbv beta in X. rewrite forallb_forall in X. specialize (X _ I). cbn [fst snd] in X. apply eqb_prop in X.
  rewrite <- mem_In, X, orb_true_iff, andb_true_iff, negb_true_iff, inb, listed_In.
  assert (N : listed n (Z.abs (l_month l)) (l_day l) left_out = false <-> ~ In (n, Z.abs (l_month l), l_day l) left_out).
  { rewrite <- listed_In. symmetry. apply not_true_iff_false. }
  rewrite N. tauto.
Qed.
(** A festival that says of itself that it returns every month is one of these; and they all say so, except on the 15th of month 11. *)
Theorem C92_every_month : forall l n r e k, date_in_range l -> In (n, r, e, k) (Foto_getFestivals l) ->
  e = true <-> In n (map fst monthly) /\ ~ (Z.abs (l_month l) = 11 /\ l_day l = 15).
Proof.
  intros l n r e k [Hm Hd] I.
  assert (T : mdb (fun m d => forallb (fun f => Bool.eqb (snd (fst f)) (mem (fst (fst (fst f))) (map fst monthly) && negb ((m =? 11) && (d =? 15)))) (at_md m d FotoUtil_FESTIVAL)) = true)
    by (vm_compute; reflexivity).
  pose proof (mdb_all _ _ _ T Hm Hd) as X. cbv beta in X. rewrite forallb_forall in X. specialize (X _ I). cbn [fst snd] in X. apply eqb_prop in X.
  rewrite X, andb_true_iff, negb_true_iff, mem_In. split; intros [A B]; (split; [exact A|]); lia.
Qed.
(** Defect: a festival that says of itself that it returns every month need not: 雷斋日, the 6th of month 10, is missing on the 6th of month 11. *)
Theorem C92_every_month_refuted : exists l l' n r k,
  Lunar_new demo 2024 10 6 0 0 0 = Ok l /\ Lunar_new demo 2024 11 6 0 0 0 = Ok l' /\
  In (n, r, true, k) (Foto_getFestivals l) /\ ~ In n (names l').
Proof.
  assert (A : exists l, Lunar_new demo 2024 10 6 0 0 0 = Ok l) by (eexists; vm_compute; reflexivity).
  assert (B : exists l, Lunar_new demo 2024 11 6 0 0 0 = Ok l) by (eexists; vm_compute; reflexivity).
  destruct A as (l & A). destruct B as (l' & B).
  destruct (new_ymd _ _ _ _ _ _ _ _ A) as (_ & M & D). destruct (new_ymd _ _ _ _ _ _ _ _ B) as (_ & M' & D').
  set (n := utf8 "雷斋日"%string).
  assert (I : existsb (fun f => str_eqb n (fst (fst (fst f))) && snd (fst f)) (Foto_getFestivals l) = true)
    by (unfold Foto_getFestivals; rewrite M, D; vm_compute; reflexivity).
  apply existsb_exists in I. destruct I as ([[[n0 r] e] k] & I & E). cbn [fst snd] in E. apply andb_prop in E. destruct E as [E ->].
  apply str_eqb_eq in E. subst n0.
  exists l, l', n, r, k. split; [exact A|]. split; [exact B|]. split; [exact I|].
  intros J. apply mem_In in J. rewrite names_at, M', D' in J. vm_compute in J. discriminate.
Qed.

(** ** Taoist days *)
Definition at_days (l : Lunar) (ds : list (Z * Z)) : Prop := In (l_month l, l_day l) ds.
Lemma days_key days ds : 
  mdb (fun m d => Bool.eqb (existsb (str_eqb (str_of_Z m ++ lit "-" ++ str_of_Z d)) days) (existsb (fun p => (m =? fst p) && (d =? snd p)) ds)) = true ->
  mdb_leap (fun m d => Bool.eqb (existsb (str_eqb (str_of_Z m ++ lit "-" ++ str_of_Z d)) days) (existsb (fun p => (m =? fst p) && (d =? snd p)) ds)) = true ->
  forall l, date_in_range l -> isDayIn l days = true <-> at_days l ds.
Proof.
  intros T T' l [Hm Hd]. pose proof (mdb_signed _ _ _ T T' Hm Hd) as X. cbv beta in X. apply eqb_prop in X.
  unfold isDayIn, md_key. rewrite X, existsb_exists. unfold at_days. split.
  - intros ([m d] & I & E). cbn [fst snd] in E. replace (l_month l) with m by lia. replace (l_day l) with d by lia. exact I.
  - intros I. eexists. split; [exact I|]. cbn [fst snd]. lia.
Qed.
Theorem C92_tao_days : forall l, date_in_range l ->
  (isDaySanHui l = true <-> at_days l [(1, 7); (7, 7); (10, 15)]) /\
  (isDaySanYuan l = true <-> at_days l [(1, 15); (7, 15); (10, 15)]) /\
  (isDayWuLa l = true <-> at_days l [(1, 1); (5, 5); (7, 7); (10, 1); (12, 8)]).
Proof. intros l R. split; [|split]; (apply days_key; [vm_compute; reflexivity|vm_compute; reflexivity|exact R]). Qed.

(** The festivals by a property of their name and remark. *)
Definition fixed (l : Lunar) : list (str * str) := at_md (l_month l) (l_day l) TaoUtil_FESTIVAL.
Definition solstice (jq : str) : list (str * str) :=
  if str_eqb (utf8 "冬至"%string) jq then [(utf8 "元始天尊圣诞"%string, [])] else if str_eqb (utf8 "夏至"%string) jq then [(utf8 "灵宝天尊圣诞"%string, [])] else [].
Definition of_key (k : str) (t : list (str * str)) : list (str * str) := map (fun n => (n, [])) (opt_list (assoc k t)).
Lemma tao_parts l fs Q : Tao_getFestivals l = Ok fs -> exists jq gz, Lunar_getJieQi l = Ok jq /\ Lunar_getDayInGanZhi l = Ok gz /\
  existsb Q fs = existsb Q (fixed l) || existsb Q (solstice jq) || existsb Q (of_key jq TaoUtil_BA_JIE) || existsb Q (of_key gz TaoUtil_BA_HUI).
Proof.
  unfold Tao_getFestivals. intros H. apply bind_ok in H. destruct H as (jq & J & H). apply bind_ok in H. destruct H as (gz & G & H).
  apply Ok_inj in H. subst fs. exists jq, gz. split; [exact J|]. split; [exact G|]. rewrite !existsb_app. reflexivity.
Qed.
Lemma assoc_In {A} k (d : list (str * A)) v : assoc k d = Some v -> In (k, v) d.
Proof.
  induction d as [|[k' v'] d IH]; cbn [assoc]; [discriminate|]. destruct (assoc k d) as [w|]; [intros H; right; apply IH; exact H|].
  destruct (str_eqb k k') eqn:E; [|discriminate]. intros H. left. apply str_eqb_eq in E. congruence.
Qed.
Lemma of_key_none Q k t : forallb (fun p => negb (Q (snd p, []))) t = true -> existsb Q (of_key k t) = false.
Proof.
  intros H. unfold of_key. destruct (assoc k t) as [v|] eqn:E; [|reflexivity]. cbn [opt_list map existsb]. apply assoc_In in E.
  rewrite forallb_forall in H. specialize (H _ E). cbn [snd] in H. destruct (Q (v, [])); [discriminate|reflexivity].
Qed.
Lemma of_key_one Q k key t : forallb (fun p => Bool.eqb (Q (snd p, [])) (str_eqb key (fst p))) t = true -> has_key key t = true ->
  existsb Q (of_key k t) = str_eqb key k.
Proof.
  intros H K. unfold of_key. destruct (assoc k t) as [v|] eqn:E.
  - cbn [opt_list map existsb]. apply assoc_In in E. rewrite forallb_forall in H. specialize (H _ E). cbn [fst snd] in H. apply eqb_prop in H. rewrite H. apply orb_false_r.
  - cbn [opt_list map existsb]. destruct (str_eqb key k) eqn:F; [|reflexivity]. apply str_eqb_eq in F. subst. unfold has_key in K. rewrite E in K. discriminate.
Qed.
Lemma solstice_none Q jq : Q (utf8 "元始天尊圣诞"%string, []) = false -> Q (utf8 "灵宝天尊圣诞"%string, []) = false -> existsb Q (solstice jq) = false.
Proof. intros A B. unfold solstice. destruct (str_eqb _ jq); [cbn [existsb]; now rewrite A|]. destruct (str_eqb _ jq); [cbn [existsb]; now rewrite B|reflexivity]. Qed.
Lemma fixed_none Q l : forallb (fun p => forallb (fun f => negb (Q f)) (snd p)) TaoUtil_FESTIVAL = true -> existsb Q (fixed l) = false.
Proof.
  intros H. unfold fixed, at_md. destruct (assoc _ _) as [v|] eqn:E; [|reflexivity]. apply assoc_In in E. rewrite forallb_forall in H. specialize (H _ E). cbn [snd] in H. clear E.
  induction v as [|f v IH]; [reflexivity|]. cbn [forallb existsb] in *. destruct (Q f); [discriminate|]. now apply IH.
Qed.

Definition begins (p s : str) : bool := str_eqb (firstn (List.length p) s) p.
Definition ends (p s : str) : bool := str_eqb (skipn (List.length s - List.length p) s) p.
Lemma begins_spec p s : begins p s = true <-> exists r, s = p ++ r.
Proof.
  unfold begins. split.
  - intros E. apply str_eqb_eq in E. exists (skipn (List.length p) s). rewrite <- E at 1. symmetry. apply firstn_skipn.
  - intros (r & ->). rewrite firstn_app, Nat.sub_diag, firstn_all. cbn [firstn]. rewrite app_nil_r. apply str_eqb_refl.
Qed.
Lemma ends_spec p s : ends p s = true <-> exists r, s = r ++ p.
Proof.
  unfold ends. split.
  - intros E. apply str_eqb_eq in E. exists (firstn (List.length s - List.length p) s). rewrite <- E at 2. symmetry. apply firstn_skipn.
  - intros (r & ->). rewrite app_length, Nat.add_sub, skipn_app, skipn_all, Nat.sub_diag. cbn [skipn app]. apply str_eqb_refl.
Qed.

(** The five 腊 days are those with a festival named so, the three 会 days those on which sins are judged, the three 元 days those of the three officers. *)
Lemma tao_fixed days Q :
  mdb (fun m d => Bool.eqb (existsb (str_eqb (str_of_Z m ++ lit "-" ++ str_of_Z d)) days) (existsb Q (at_md m d TaoUtil_FESTIVAL))) = true ->
  mdb_leap (fun m d => Bool.eqb (existsb (str_eqb (str_of_Z m ++ lit "-" ++ str_of_Z d)) days) (existsb Q (at_md m d TaoUtil_FESTIVAL))) = true ->
  Q (utf8 "元始天尊圣诞"%string, []) = false -> Q (utf8 "灵宝天尊圣诞"%string, []) = false ->
  forallb (fun p => negb (Q (snd p, []))) (TaoUtil_BA_JIE ++ TaoUtil_BA_HUI) = true ->
  forall l fs, date_in_range l -> Tao_getFestivals l = Ok fs -> isDayIn l days = true <-> exists f, In f fs /\ Q f = true.
Proof.
  intros T T' A B C l fs [Hm Hd] H. rewrite <- existsb_exists. destruct (tao_parts _ _ Q H) as (jq & gz & _ & _ & ->).
  rewrite forallb_app in C. apply andb_prop in C. destruct C as [C D].
  rewrite solstice_none, !of_key_none, !orb_false_r by assumption.
  pose proof (mdb_signed _ _ _ T T' Hm Hd) as X. cbv beta in X. apply eqb_prop in X. unfold isDayIn, md_key. rewrite X. reflexivity.
Qed.
Theorem C92_tao_named : forall l fs, date_in_range l -> Tao_getFestivals l = Ok fs ->
  (isDayWuLa l = true <-> exists n k, In (n ++ utf8 "腊之辰"%string, k) fs) /\
  (isDaySanHui l = true <-> exists n k, In (n, k ++ utf8 "考校罪福"%string) fs) /\
  (isDaySanYuan l = true <-> exists w n k, In w [utf8 "上元"%string; utf8 "中元"%string; utf8 "下元"%string] /\ In (w ++ n, k) fs).
Proof.
  intros l fs R H. split; [|split].
  - unfold isDayWuLa. rewrite (tao_fixed TaoUtil_WU_LA (fun f => ends (utf8 "腊之辰"%string) (fst f))) with (fs := fs);
      [|vm_compute; reflexivity|vm_compute; reflexivity|vm_compute; reflexivity|vm_compute; reflexivity|vm_compute; reflexivity|exact R|exact H].
    split.
    + intros ([n k] & I & E). apply ends_spec in E. cbn [fst] in E. destruct E as (r & ->). eauto.
    + intros (n & k & I). eexists. split; [exact I|]. apply ends_spec. cbn [fst]. eauto.
  - unfold isDaySanHui. rewrite (tao_fixed TaoUtil_SAN_HUI (fun f => ends (utf8 "考校罪福"%string) (snd f))) with (fs := fs);
      [|vm_compute; reflexivity|vm_compute; reflexivity|vm_compute; reflexivity|vm_compute; reflexivity|vm_compute; reflexivity|exact R|exact H].
    split.
    + intros ([n k] & I & E). apply ends_spec in E. cbn [snd] in E. destruct E as (r & ->). eauto.
    + intros (n & k & I). eexists. split; [exact I|]. apply ends_spec. cbn [snd]. eauto.
  - unfold isDaySanYuan. set (ws := [utf8 "上元"%string; utf8 "中元"%string; utf8 "下元"%string]).
    rewrite (tao_fixed TaoUtil_SAN_YUAN (fun f => existsb (fun w => begins w (fst f)) ws)) with (fs := fs);
      [|vm_compute; reflexivity|vm_compute; reflexivity|vm_compute; reflexivity|vm_compute; reflexivity|vm_compute; reflexivity|exact R|exact H].
    split.
    + intros ([n k] & I & E). apply existsb_exists in E. destruct E as (w & W & E). apply begins_spec in E. cbn [fst] in E. destruct E as (r & ->). exists w, r, k. auto.
    + intros (w & n & k & W & I). eexists. split; [exact I|]. apply existsb_exists. exists w. split; [exact W|]. apply begins_spec. cbn [fst]. eauto.
Qed.

(** The two solstices, the eight 节 with their quarters of the sky, and the eight 会. *)
Definition quarters : list (str * str) := Eval vm_compute in map (fun p => (utf8 (fst p), utf8 (snd p)))
  [("立春"%string, "东北方"%string); ("春分"%string, "东方"%string); ("立夏"%string, "东南方"%string); ("夏至"%string, "南方"%string);
   ("立秋"%string, "西南方"%string); ("秋分"%string, "西方"%string); ("立冬"%string, "西北方"%string); ("冬至"%string, "北方"%string)].
Definition descends : str := Eval vm_compute in utf8 "天君下降"%string.
Definition meetings : list (str * str) := Eval vm_compute in map (fun p => (utf8 (fst p), utf8 (snd p)))
  [("丙午"%string, "天会"%string); ("壬午"%string, "地会"%string); ("壬子"%string, "人会"%string); ("庚午"%string, "日会"%string);
   ("庚申"%string, "月会"%string); ("辛酉"%string, "星辰会"%string); ("甲辰"%string, "五行会"%string); ("甲戌"%string, "四时会"%string)].
Lemma named n (fs : list (str * str)) : existsb (fun f => str_eqb n (fst f)) fs = true <-> In n (map fst fs).
Proof.
  rewrite existsb_exists, in_map_iff. split.
  - intros (f & I & E). apply str_eqb_eq in E. eauto.
  - intros (f & <- & I). exists f. split; [exact I|apply str_eqb_refl].
Qed.
Lemma Ok_iff {A} (x : res A) y z : x = Ok y -> (x = Ok z <-> z = y).
Proof. intros ->. split; [intros H; apply Ok_inj in H; congruence|now intros ->]. Qed.
Theorem C92_tao_solstice : forall l fs, Tao_getFestivals l = Ok fs ->
  (In (utf8 "元始天尊圣诞"%string) (map fst fs) <-> Lunar_getJieQi l = Ok (utf8 "冬至"%string)) /\
  (In (utf8 "灵宝天尊圣诞"%string) (map fst fs) <-> Lunar_getJieQi l = Ok (utf8 "夏至"%string)).
Proof.
  intros l fs H. rewrite <- !named.
  set (w := utf8 "元始天尊圣诞"%string). set (s := utf8 "灵宝天尊圣诞"%string).
  destruct (tao_parts _ _ (fun f => str_eqb w (fst f)) H) as (jq & gz & J & G & ->).
  destruct (tao_parts _ _ (fun f => str_eqb s (fst f)) H) as (jq' & gz' & J' & G' & ->).
  assert (jq' = jq) by congruence. assert (gz' = gz) by congruence. subst jq' gz'.
  rewrite !(fixed_none _ l), !of_key_none by (vm_compute; reflexivity). cbn [orb]. rewrite !orb_false_r.
  rewrite !(Ok_iff _ _ _ J), <- !str_eqb_eq. unfold solstice.
  destruct (str_eqb (utf8 "冬至"%string) jq) eqn:E; [apply str_eqb_eq in E; subst jq; vm_compute; tauto|].
  destruct (str_eqb (utf8 "夏至"%string) jq) eqn:F; vm_compute; split; split; congruence.
Qed.
Theorem C92_tao_ba_jie : forall l fs term side, Tao_getFestivals l = Ok fs -> In (term, side) quarters ->
  Lunar_getJieQi l = Ok term <-> exists n k, In (side ++ n ++ descends, k) fs.
Proof.
  intros l fs term side H I.
  set (Q := fun f : str * str => begins side (fst f) && ends descends (skipn (List.length side) (fst f))).
  assert (E : existsb Q fs = true <-> exists n k, In (side ++ n ++ descends, k) fs).
  { rewrite existsb_exists. unfold Q. split.
    - intros ([n k] & J & E). cbn [fst] in E. apply andb_prop in E. destruct E as [E F]. apply begins_spec in E. destruct E as (r & ->).
      rewrite skipn_app, skipn_all, Nat.sub_diag in F. cbn [skipn app] in F. apply ends_spec in F. destruct F as (r' & ->). eauto.
    - intros (n & k & J). eexists. split; [exact J|]. cbn [fst]. apply andb_true_intro. split; [apply begins_spec; eauto|].
      rewrite skipn_app, skipn_all, Nat.sub_diag. cbn [skipn app]. apply ends_spec. eauto. }
  rewrite <- E. destruct (tao_parts _ _ Q H) as (jq & gz & J & G & ->). rewrite (Ok_iff _ _ _ J), <- str_eqb_eq. clear E H J G.
  unfold quarters in I. cbn [In] in I.
  repeat (destruct I as [I|I]; [apply pair_equal_spec in I; destruct I; subst term side; unfold Q;
    rewrite fixed_none, solstice_none, (of_key_none _ gz) by (vm_compute; reflexivity); cbn [orb]; rewrite orb_false_r;
    match goal with |- str_eqb ?t ?k = true <-> _ => rewrite (of_key_one _ k t) by (vm_compute; reflexivity) end; tauto|]).
  destruct I.
Qed.
Theorem C92_tao_ba_hui : forall l fs pair name, Tao_getFestivals l = Ok fs -> In (pair, name) meetings ->
  Lunar_getDayInGanZhi l = Ok pair <-> In name (map fst fs).
Proof.
  intros l fs pair name H I. rewrite <- named. set (Q := fun f : str * str => str_eqb name (fst f)).
  destruct (tao_parts _ _ Q H) as (jq & gz & J & G & ->). rewrite (Ok_iff _ _ _ G), <- str_eqb_eq. clear H J G.
  unfold meetings in I. cbn [In] in I.
  repeat (destruct I as [I|I]; [apply pair_equal_spec in I; destruct I; subst pair name; unfold Q;
    rewrite fixed_none, solstice_none, of_key_none by (vm_compute; reflexivity); cbn [orb];
    match goal with |- str_eqb ?t ?k = true <-> _ => rewrite (of_key_one _ k t) by (vm_compute; reflexivity) end; tauto|]).
  destruct I.
Qed.

(** In the demonstration sky: the first days of months 1 and 7 of 2024, and the winter solstice of that year. *)
Lemma new_date l y m d : Lunar_new demo y m d 12 0 0 = Ok l -> 1 <= Z.abs m <= 12 -> 1 <= d <= 30 -> date_in_range l.
Proof. intros E. destruct (new_ymd _ _ _ _ _ _ _ _ E) as (_ & M & D). unfold date_in_range. rewrite M, D. auto. Qed.
Example C92_case : exists l l' w fs,
  Lunar_new demo 2024 1 1 12 0 0 = Ok l /\ date_in_range l /\ isDayWuLa l = true /\ isDayZhaiTen l = true /\ isMonthZhai l = true /\
  In (utf8 "月朔"%string, [1]) monthly /\ In (utf8 "月朔"%string) (names l) /\
  Lunar_new demo 2024 7 1 12 0 0 = Ok l' /\ date_in_range l' /\ isDayYangGong l' = true /\
  getLunar demo (mkSolar 2024 12 21 12 0 0) = Ok w /\ Tao_getFestivals w = Ok fs /\ In (utf8 "冬至"%string, utf8 "北方"%string) quarters /\
  map fst fs = [utf8 "元始天尊圣诞"%string; utf8 "北方玄上玉宸天尊同黑帝五炁天君下降"%string].
Proof.
  assert (A : exists l, Lunar_new demo 2024 1 1 12 0 0 = Ok l) by (eexists; vm_compute; reflexivity).
  assert (B : exists l, Lunar_new demo 2024 7 1 12 0 0 = Ok l) by (eexists; vm_compute; reflexivity).
  assert (C : (let! w := getLunar demo (mkSolar 2024 12 21 12 0 0) in let! fs := Tao_getFestivals w in Ok (map fst fs)) =
    Ok [utf8 "元始天尊圣诞"%string; utf8 "北方玄上玉宸天尊同黑帝五炁天君下降"%string]) by (vm_compute; reflexivity).
  destruct A as (l & A). destruct B as (l' & B). apply bind_ok in C. destruct C as (w & W & C). apply bind_ok in C. destruct C as (fs & F & C). apply Ok_inj in C.
  destruct (new_ymd _ _ _ _ _ _ _ _ A) as (_ & M & D). destruct (new_ymd _ _ _ _ _ _ _ _ B) as (_ & M' & D').
  exists l, l', w, fs. split; [exact A|]. split; [exact (new_date _ _ _ _ A ltac:(lia) ltac:(lia))|].
  split; [unfold isDayWuLa, isDayIn, md_key; rewrite M, D; vm_compute; reflexivity|].
  split; [unfold isDayZhaiTen; rewrite D; reflexivity|]. split; [unfold isMonthZhai; rewrite M; reflexivity|].
  split; [now left|]. split; [apply mem_In; rewrite names_at, M, D; vm_compute; reflexivity|].
  split; [exact B|]. split; [exact (new_date _ _ _ _ B ltac:(lia) ltac:(lia))|].
  split; [unfold isDayYangGong, Foto_getFestivals; rewrite M', D'; vm_compute; reflexivity|].
  split; [exact W|]. split; [exact F|]. split; [vm_compute; tauto|exact C].
Qed.
