(** C67: the moments found by fromBaZi.  C76: it finds every full double hour. *)
From Coq Require Import ZArith Lia Bool ZifyBool List String Floats Sorted.
From Verif Require Import Py PyFloat FloatFacts PyStr CalSpec DayNo Solar SolarProofs SolarProofs2 JulianDay P_JD P_Solar UnitsProofs SolarUnits LunarUtil T_LunarUtil T_Misc AlmanacProofs P_Tables
  LunarYear Lunar LunarTime LunarProofs TermProofs P_Terms YearProofs CalProofs P_LunarYears P_LunarCal P_Pillars P_Stars P_NewYear EightChar P_EightChar P_Luck FotoTao Demo.
Import ListNotations.
Open Scope Z_scope.

(** ** C67: soundness *)
Lemma mapM_inv {A B} (f : A -> res B) l rs : mapM f l = Ok rs -> Forall2 (fun a r => f a = Ok r) l rs.
Proof.
  revert rs. induction l as [|a l IH]; intros rs H; cbn in H; [apply Ok_inj in H; subst; constructor|].
  apply bind_ok in H. destruct H as (r & E & H). apply bind_ok in H. destruct H as (rs' & E' & H). apply Ok_inj in H. subst rs. constructor; auto.
Qed.
Lemma in_mapM {A B} (f : A -> res (list B)) l rs x : mapM f l = Ok rs -> In x (concat rs) -> exists a r, In a l /\ f a = Ok r /\ In x r.
Proof.
  intros H. apply mapM_inv in H. induction H as [|a r l rs E _ IH]; cbn [concat]; [intros []|].
  intros I. apply in_app_or in I. destruct I as [I|I]; [exists a, r; cbn; auto|]. destruct (IH I) as (a' & r' & Ia & E' & I'). exists a', r'. cbn. auto.
Qed.
(** the sect that fromBaZi and EightChar.setSect make of a number *)
Definition sect_of (sect : Z) : Z := if 1 =? sect then 1 else 2.

(** the moment tried for one hour of the day [st] *)
Definition candidate (st : Solar) (d hour : Z) : Solar :=
  let exact := (d =? 0) && (hour =? sh st) in mkSolar (sy st) (sm st) (sd st) hour (if exact then smi st else 0) (if exact then ss st else 0).
Lemma fromYmdHms_eq y m d h mi s x : fromYmdHms y m d h mi s = Ok x -> x = mkSolar y m d h mi s.
Proof.
  intros E. unfold fromYmdHms in E. repeat match type of E with context [if ?c then _ else _] => destruct c; [discriminate|] end. apply Ok_inj in E. now symmetry.
Qed.
Lemma check_inv fy ygz mgz dgz tgz sect st d hour r x : bazi_check fy ygz mgz dgz tgz sect st d hour = Ok r -> In x r ->
  exists l, (x = candidate st d hour) /\ getLunar fy x = Ok l /\
    Lunar_getYearInGanZhiExact l = Ok ygz /\ Lunar_getMonthInGanZhiExact l = Ok mgz /\
    (if 2 =? sect then Lunar_getDayInGanZhiExact2 l else Lunar_getDayInGanZhiExact l) = Ok dgz /\ Lunar_getTimeInGanZhi l = Ok tgz.
Proof.
  intros H I. unfold bazi_check in H.
  assert (K : (if (d =? 0) && (hour =? sh st) then (smi st, ss st) else (0, 0)) = (smi (candidate st d hour), ss (candidate st d hour)))
    by (unfold candidate; cbn [smi ss]; now destruct ((d =? 0) && (hour =? sh st))). rewrite K in H. clear K.
  apply bind_ok in H. destruct H as (so & E1 & H). apply bind_ok in H. destruct H as (l & E2 & H). apply bind_ok in H. destruct H as (a & E3 & H).
  apply bind_ok in H. destruct H as (b & E4 & H). apply bind_ok in H. destruct H as (e & E5 & H). apply bind_ok in H. destruct H as (g & E6 & H). apply Ok_inj in H. subst r.
  destruct (str_eqb b ygz && str_eqb e mgz && str_eqb a dgz && str_eqb g tgz) eqn:Q; [|destruct I]. destruct I as [<-|[]].
  apply andb_prop in Q. destruct Q as [Q Q4]. apply andb_prop in Q. destruct Q as [Q Q3]. apply andb_prop in Q. destruct Q as [Q1 Q2].
  apply str_eqb_eq in Q1, Q2, Q3, Q4. subst. exists l. split; [|repeat (split; [assumption|]); assumption].
  apply fromYmdHms_eq in E1. exact E1.
Qed.
Theorem C67_sound : forall fy ygz mgz dgz tgz sect base_year end_year rs x, fromBaZi fy ygz mgz dgz tgz sect base_year end_year = Ok rs -> In x rs ->
  exists l, getLunar fy x = Ok l /\ let e := mkEightChar (sect_of sect) l in
    EightChar_getYear e = Ok ygz /\ EightChar_getMonth e = Ok mgz /\ EightChar_getDay e = Ok dgz /\ EightChar_getTime e = Ok tgz.
Proof.
  intros fy ygz mgz dgz tgz sect base_year end_year rs x H I. unfold fromBaZi in H. cbv zeta in H. fold (sect_of sect) in H.
  set (m := if _ <? 0 then _ else _) in H. clearbody m.
  destruct (negb _); [apply Ok_inj in H; subst rs; destruct I|]. apply bind_ok in H. destruct H as (rss & H & E). apply Ok_inj in E. subst rs.
  destruct (in_mapM _ _ _ _ H I) as (y & r & _ & Er & Ir). unfold bazi_year in Er.
  destruct (base_year - 1 <=? y); [|apply Ok_inj in Er; subst r; destruct Ir].
  apply bind_ok in Er. destruct Er as (l0 & _ & Er). apply bind_ok in Er. destruct Er as (name & _ & Er). apply bind_ok in Er. destruct Er as (st & _ & Er).
  destruct (base_year <=? sy st); [|apply Ok_inj in Er; subst r; destruct Ir].
  apply bind_ok in Er. destruct Er as (t & _ & Er). apply bind_ok in Er. destruct Er as (p & _ & Er). cbv zeta in Er.
  set (d := if _ <? 0 then _ else _) in Er. apply bind_ok in Er. destruct Er as (st' & _ & Er). apply bind_ok in Er. destruct Er as (rs' & Er & E). apply Ok_inj in E. subst r.
  destruct (in_mapM _ _ _ _ Er Ir) as (hour & r & _ & Eh & Ih).
  destruct (check_inv _ _ _ _ _ _ _ _ _ _ _ Eh Ih) as (l & _ & El & P1 & P2 & P3 & P4). exists l. split; [exact El|].
  unfold EightChar_getYear, EightChar_getMonth, EightChar_getDay, EightChar_getTime, by_sect. cbn [e_lunar e_sect].
  split; [exact P1|]. split; [exact P2|]. split; [|exact P4]. exact P3.
Qed.

(** ** Tables of solar terms that fit together *)
Record Seasons (fy : Z -> res LYear) (lo hi : Z) : Prop := mkSeasons {
  sn_good : forall y t jq, lo <= y <= hi -> fy y = Ok t -> computeJieQi (lterms t) = Ok jq -> good_terms y jq;
  sn_last : forall y t jq, lo <= y <= hi -> fy y = Ok t -> computeJieQi (lterms t) = Ok jq -> sy (term_at jq 26) <= y + 1;
  sn_gap : forall y t jq i, lo <= y <= hi -> fy y = Ok t -> computeJieQi (lterms t) = Ok jq -> 0 <= i < 29 ->
    dayno (sdate (term_at jq (i + 2))) - dayno (sdate (term_at jq i)) < 60;
  sn_agree : forall y t jq t' jq' i, lo <= y -> y + 1 <= hi -> fy y = Ok t -> computeJieQi (lterms t) = Ok jq ->
    fy (y + 1) = Ok t' -> computeJieQi (lterms t') = Ok jq' -> 0 <= i < 7 -> term_at jq (24 + i) = term_at jq' i
}.
(** ... and the first day of each lunar year lies in the solar year of the same number *)
Record YearSeasons (fy : Z -> res LYear) (lo hi : Z) : Prop := mkYearSeasons {
  ys_seasons : Seasons fy lo hi;
  ys_new_year : forall y, lo < y < hi -> exists l, Lunar_fromYmd fy y 1 1 = Ok l /\ sy (l_solar l) = y
}.

Section BaZi.
Context {fy : Z -> res LYear} {lo hi : Z} (C : Calendar fy lo hi) (Ys : YearSeasons fy lo hi).
Notation Sn := (ys_seasons _ _ _ Ys).

(** the instant of term [i] of the year *)
Definition is_term (y i : Z) (x : Solar) : Prop := exists t jq, fy y = Ok t /\ computeJieQi (lterms t) = Ok jq /\ term_at jq i = x.
Lemma term_ok y i : lo <= y <= hi -> 0 <= i < 31 -> exists x, is_term y i x /\ valid_solar x /\ 0 <= sy x <= 9999.
Proof.
  intros Hy Hi. destruct (cal_ok _ _ _ C y Hy) as (t & jq & Et & Ej). exists (term_at jq i). split; [exists t, jq; auto|].
  pose proof (sn_good _ _ _ Sn y t jq Hy Et Ej) as G. split; [apply (gt_valid _ _ G); exact Hi|apply (gt_years _ _ G); exact Hi].
Qed.
Lemma term_year y i x : lo <= y <= hi -> 4 <= i <= 26 -> is_term y i x -> y <= sy x <= y + 1.
Proof.
  intros Hy Hi (t & jq & Et & Ej & <-). pose proof (sn_good _ _ _ Sn y t jq Hy Et Ej) as G. pose proof (sn_last _ _ _ Sn y t jq Hy Et Ej) as L.
  pose proof (gt_lichun _ _ G) as F. pose proof (gt_valid _ _ G 4 ltac:(lia)) as V4. pose proof (gt_valid _ _ G 26 ltac:(lia)) as V26. pose proof (gt_valid _ _ G i ltac:(lia)) as V.
  split.
  - destruct (Z.eq_dec i 4) as [->|N]; [lia|]. pose proof (gt_sorted _ _ G 4 i ltac:(lia) ltac:(lia)).
    destruct (Z.le_gt_cases y (sy (term_at jq i))) as [X|X]; [exact X|]. pose proof (year_lt_dayno _ _ V V4 ltac:(lia)). lia.
  - destruct (Z.eq_dec i 26) as [->|N]; [lia|]. pose proof (gt_sorted _ _ G i 26 ltac:(lia) ltac:(lia)).
    destruct (Z.le_gt_cases (sy (term_at jq i)) (y + 1)) as [X|X]; [exact X|]. pose proof (year_lt_dayno _ _ V26 V ltac:(lia)). lia.
Qed.
Lemma term_fun y i x x' : is_term y i x -> is_term y i x' -> x = x'.
Proof. intros (t & jq & Et & Ej & <-) (t' & jq' & Et' & Ej' & <-). congruence. Qed.

(** the steps of one year: the term, the day found from it and the hours tried on that day *)
Definition steps (dgz : str) (y m : Z) (T D : Solar) (d : Z) : Prop :=
  is_term y (4 + 2 * m) T /\ d = (getJiaZiIndex dgz - (dayno (sdate T) - 11) mod 60) mod 60 /\
  valid_solar D /\ same_time D T /\ dayno (sdate D) = dayno (sdate T) + d.

Lemma index_range x : -1 <= getJiaZiIndex x < 60.
Proof.
  unfold getJiaZiIndex. assert (G : forall l k, 0 <= k -> index_of k x l = -1 \/ k <= index_of k x l < k + Z.of_nat (List.length l)).
  { induction l as [|a l IH]; intros k Hk; cbn [index_of]; [left; reflexivity|]. destruct (str_eqb a x); [right; cbn [List.length]; lia|].
    destruct (IH (k + 1) ltac:(lia)); [left; assumption|right; cbn [List.length]; lia]. }
  destruct (G LunarUtil_JIA_ZI 0 ltac:(lia)) as [->|H]; [lia|]. change (Z.of_nat (List.length LunarUtil_JIA_ZI)) with 60 in H. lia.
Qed.
Lemma day_pillar x l : valid_solar x -> lo < sy x < hi -> getLunar fy x = Ok l -> l_solar l = x /\
  Lunar_getDayInGanZhiExact2 l = Ok (pair60 (dayno (sdate x) - 11)) /\
  Lunar_getDayInGanZhiExact l = Ok (pair60 (dayno (sdate x) - 11 + (if sh x =? 23 then 1 else 0))).
Proof.
  intros V B E. destruct (getLunar_spec C x V B) as (l' & t & a & E' & _ & _ & _ & _ & _ & _ & _ & _ & _ & Es). rewrite E in E'. apply Ok_inj in E'. subst l'.
  split; [exact Es|]. destruct (getLunar_new _ _ _ E) as (y & m & d & H). pose proof (cal_range _ _ _ C) as R.
  destruct (C53_day_pillar fy y m d _ _ _ l (dayno (sdate x) - 2451545) H ltac:(rewrite Es; exact V) ltac:(rewrite Es; unfold jd_year; lia)) as (_ & P2 & P1).
  { rewrite Es. apply days_later_dayno; [exact valid_2000|apply V|]. rewrite dayno_2000. lia. }
  rewrite Es in P1. rewrite P1, P2. split; f_equal; apply pair60_eq; [|destruct (sh x =? 23)]; clear; Z.div_mod_to_equations; lia.
Qed.
Lemma days_year a b d : valid_solar a -> valid_solar b -> 0 <= d < 60 -> dayno (sdate b) = dayno (sdate a) + d -> sy a <= sy b <= sy a + 1.
Proof.
  intros Va Vb Hd E. split.
  - destruct (Z.le_gt_cases (sy a) (sy b)) as [X|X]; [exact X|]. pose proof (year_lt_dayno _ _ Vb Va ltac:(lia)). lia.
  - destruct (Z.le_gt_cases (sy b) (sy a + 1)) as [X|X]; [exact X|]. destruct Va as [Va _]. destruct Vb as [Vb _]. unfold sdate in *.
    pose proof (dayno_year _ _ _ Va) as A. pose proof (dayno_year _ _ _ Vb) as B. pose proof (ybase_mono (sy a + 1) (sy b) ltac:(lia)). lia.
Qed.
Lemma check_ok ygz mgz dgz tgz sect D d hour : valid_solar D -> lo < sy D < hi -> 0 <= hour <= 23 ->
  exists r, bazi_check fy ygz mgz dgz tgz sect D d hour = Ok r /\ (r = [] \/ r = [candidate D d hour]) /\
    (forall l, getLunar fy (candidate D d hour) = Ok l -> Lunar_getYearInGanZhiExact l = Ok ygz -> Lunar_getMonthInGanZhiExact l = Ok mgz ->
      (if 2 =? sect then Lunar_getDayInGanZhiExact2 l else Lunar_getDayInGanZhiExact l) = Ok dgz -> Lunar_getTimeInGanZhi l = Ok tgz -> r = [candidate D d hour]).
Proof.
  intros V B Hh. unfold bazi_check.
  assert (K : (if (d =? 0) && (hour =? sh D) then (smi D, ss D) else (0, 0)) = (smi (candidate D d hour), ss (candidate D d hour)))
    by (unfold candidate; cbn [smi ss]; now destruct ((d =? 0) && (hour =? sh D))). rewrite K. clear K.
  set (c := candidate D d hour). assert (Vc : valid_solar c /\ sy c = sy D).
  { unfold c, candidate. split; [|reflexivity]. destruct V as [V T]. split; [exact V|]. unfold valid_time in *. cbn [sh smi ss]. destruct ((d =? 0) && (hour =? sh D)); lia. }
  destruct Vc as [Vc Yc].
  assert (Ec : fromYmdHms (sy D) (sm D) (sd D) hour (smi c) (ss c) = Ok c) by (rewrite fromYmdHms_ok; [reflexivity|apply V|apply Vc]).
  rewrite Ec. cbn [bind]. destruct (C47_round_trip _ _ _ c C Vc ltac:(lia)) as (l & El & Sl). rewrite El. cbn [bind].
  destruct (getLunar_new _ _ _ El) as (y & m & dd & H).
  assert (Bt : built (mkEightChar sect l)) by (exists fy, y, m, dd, (sh c), (smi c), (ss c); exact H).
  destruct (pillars_exist _ Bt) as (p1 & p2 & p3 & p4 & _ & _ & _ & _ & (P1 & P2 & P3 & P4)).
  unfold EightChar_getYear, EightChar_getMonth, EightChar_getDay, EightChar_getTime, by_sect in P1, P2, P3, P4. cbn [e_lunar e_sect] in *.
  rewrite P3, P1, P2, P4. cbn [bind]. eexists. split; [reflexivity|]. split.
  - destruct (_ && _); [right|left]; reflexivity.
  - intros l' E1 Q1 Q2 Q3 Q4. apply Ok_inj in E1. subst l'. rewrite P1 in Q1. rewrite P2 in Q2. rewrite P3 in Q3. rewrite P4 in Q4. apply Ok_inj in Q1, Q2, Q3, Q4. subst.
    rewrite !str_eqb_refl. reflexivity.
Qed.
Lemma mapM_total {A B} (f : A -> res B) l : (forall a, In a l -> exists r, f a = Ok r) -> exists rs, mapM f l = Ok rs.
Proof.
  induction l as [|a l IH]; intros H; cbn; [eauto|]. destruct (H a ltac:(now left)) as (r & ->). destruct IH as (rs & ->); [intros; apply H; now right|]. cbn. eauto.
Qed.
Lemma year_steps ygz mgz dgz tgz sect base_year m hours y : 0 <= m <= 11 -> lo < y -> y + 3 < hi -> (forall h, In h hours -> 0 <= h <= 23) -> base_year - 1 <= y ->
  exists T, is_term y (4 + 2 * m) T /\
    ((sy T < base_year /\ bazi_year fy ygz mgz dgz tgz sect base_year (m * 2) hours y = Ok []) \/
     (base_year <= sy T /\ exists D d rss, steps dgz y m T D d /\ mapM (bazi_check fy ygz mgz dgz tgz sect D d) hours = Ok rss /\
        bazi_year fy ygz mgz dgz tgz sect base_year (m * 2) hours y = Ok (concat rss))).
Proof.
  intros Hm L H Hh Hb. destruct (term_ok y (4 + 2 * m) ltac:(lia) ltac:(lia)) as (T & IT & VT & RT). exists T. split; [exact IT|].
  pose proof (term_year y (4 + 2 * m) T ltac:(lia) ltac:(lia) IT) as YT.
  unfold bazi_year. replace (base_year - 1 <=? y) with true by lia.
  destruct (ys_new_year _ _ _ Ys y ltac:(lia)) as (l0 & E0 & Y0). rewrite E0. cbn [bind]. unfold Lunar_fromYmd in E0.
  destruct (new_terms _ _ _ _ _ _ _ _ E0) as (t0 & Et0 & Ej0). rewrite Y0 in Et0.
  assert (T0 : term_at (l_jieQi l0) (4 + 2 * m) = T) by (apply (term_fun y (4 + 2 * m)); [exists t0, (l_jieQi l0); auto|exact IT]).
  assert (Nm : py_index Lunar_JIE_QI_IN_USE (4 + m * 2) = Ok (term_key (4 + 2 * m))).
  { assert (X : forallb (fun m => match py_index Lunar_JIE_QI_IN_USE (4 + m * 2) with Ok s => str_eqb s (term_key (4 + 2 * m)) | _ => false end) (zrange 0 12) = true) by (vm_compute; reflexivity).
    pose proof (forallb_zrange _ _ _ X m ltac:(lia)) as Z. cbv beta in Z. destruct (py_index _ _); [|discriminate]. apply str_eqb_eq in Z. now rewrite Z. }
  rewrite Nm. cbn [bind]. rewrite (dict_at _ (4 + 2 * m) (Lunar_new_named _ _ _ _ _ _ _ _ E0) ltac:(lia)). cbn [bind]. rewrite T0.
  destruct (Z.leb_spec base_year (sy T)) as [Lb|Lb]; [right|left; split; [exact Lb|reflexivity]]. split; [exact Lb|].
  destruct (C47_round_trip _ _ _ T C VT ltac:(lia)) as (lt & Elt & Slt). rewrite Elt. cbn [bind].
  destruct (day_pillar T lt VT ltac:(lia) Elt) as (_ & P2 & _). rewrite P2. cbn [bind]. cbv zeta. rewrite index_pair.
  set (g := getJiaZiIndex dgz). pose proof (index_range dgz) as Rg. fold g in Rg. set (p := (dayno (sdate T) - 11) mod 60).
  assert (Rp : 0 <= p < 60) by (apply Z.mod_pos_bound; lia).
  assert (Ed : (if g - p <? 0 then g - p + 60 else g - p) = (g - p) mod 60) by (destruct (Z.ltb_spec (g - p) 0); clearbody g p; Z.div_mod_to_equations; lia).
  rewrite Ed. set (d := (g - p) mod 60). assert (Rd : 0 <= d < 60) by (apply Z.mod_pos_bound; lia).
  assert (ED : exists D, (if 0 <? d then next T d else Ok T) = Ok D /\ valid_solar D /\ same_time D T /\ dayno (sdate D) = dayno (sdate T) + d).
  { destruct (Z.ltb_spec 0 d) as [P|P].
    - unfold next. destruct (nextDay_spec T d VT) as (D & E & V & S & N). exists D. auto.
    - exists T. split; [reflexivity|]. split; [exact VT|]. split; [unfold same_time; auto|lia]. }
  destruct ED as (D & -> & VD & SD & ND). cbn [bind]. pose proof (days_year T D d VT VD Rd ND) as YD.
  destruct (mapM_total (bazi_check fy ygz mgz dgz tgz sect D d) hours) as (rss & Er).
  { intros h Ih. destruct (check_ok ygz mgz dgz tgz sect D d h VD ltac:(lia) (Hh h Ih)) as (r & E & _). eauto. }
  rewrite Er. cbn [bind]. exists D, d, rss. split; [|split; [exact Er|reflexivity]].
  split; [exact IT|]. split; [reflexivity|]. split; [exact VD|]. split; [exact SD|exact ND].
Qed.

(** ** The whole search, for four pairs of the cycle *)
Definition hours_of (t sect : Z) : list Z := 2 * (t mod 12) :: (if (t mod 12 =? 0) && (2 =? sect_of sect) then [23] else []).
Lemma gan_find a : LunarUtil_find (slice (pair60 a) 0 1) LunarUtil_GAN (-1) = a mod 10.
Proof.
  assert (T : forallb (fun a => LunarUtil_find (slice (pair60 a) 0 1) LunarUtil_GAN (-1) =? a mod 10) (zrange 0 60) = true) by (vm_compute; reflexivity).
  pose proof (Z.mod_pos_bound a 60 ltac:(lia)) as B. pose proof (forallb_zrange _ _ _ T (a mod 60) B) as X. cbv beta in X. rewrite pair60_mod in X. clear T. apply Z.eqb_eq in X. rewrite X. clear. Z.div_mod_to_equations; lia.
Qed.
Lemma zhi_find a : LunarUtil_find (slice_from (pair60 a) 1) LunarUtil_ZHI (-1) = a mod 12.
Proof.
  assert (T : forallb (fun a => LunarUtil_find (slice_from (pair60 a) 1) LunarUtil_ZHI (-1) =? a mod 12) (zrange 0 60) = true) by (vm_compute; reflexivity).
  pose proof (Z.mod_pos_bound a 60 ltac:(lia)) as B. pose proof (forallb_zrange _ _ _ T (a mod 60) B) as X. cbv beta in X. rewrite pair60_mod in X. clear T. apply Z.eqb_eq in X. rewrite X. clear. Z.div_mod_to_equations; lia.
Qed.
Lemma fromBaZi_form a b c t sect base_year end_year :
  fromBaZi fy (pair60 a) (pair60 b) (pair60 c) (pair60 t) sect base_year end_year =
  if (2 * a + 2 + (b - 2) mod 12) mod 10 =? b mod 10 then
    let! rs := mapM (bazi_year fy (pair60 a) (pair60 b) (pair60 c) (pair60 t) (sect_of sect) base_year ((b - 2) mod 12 * 2) (hours_of t sect)) (bazi_years ((a - 57) mod 60 + 1) end_year) in Ok (concat rs)
  else Ok [].
Proof.
  unfold fromBaZi. rewrite !gan_find, !zhi_find, index_pair. fold (sect_of sect). cbv zeta.
  replace (if b mod 12 - 2 <? 0 then b mod 12 - 2 + 12 else b mod 12 - 2) with ((b - 2) mod 12).
  2:{ destruct (Z.ltb_spec (b mod 12 - 2) 0); Z.div_mod_to_equations; lia. }
  replace (if a mod 60 - 57 <? 0 then a mod 60 - 57 + 60 else a mod 60 - 57) with ((a - 57) mod 60).
  2:{ destruct (Z.ltb_spec (a mod 60 - 57) 0); Z.div_mod_to_equations; lia. }
  replace (((a mod 10 + 1) * 2 + (b - 2) mod 12) mod 10) with ((2 * a + 2 + (b - 2) mod 12) mod 10).
  2:{ set (q := (b - 2) mod 12). clearbody q. Z.div_mod_to_equations; lia. }
  replace (t mod 12 * 2 :: (if (0 =? t mod 12 * 2) && (2 =? sect_of sect) then [23] else [])) with (hours_of t sect).
  2:{ unfold hours_of. replace (0 =? t mod 12 * 2) with (t mod 12 =? 0) by lia. f_equal. lia. }
  destruct (_ =? b mod 10); reflexivity.
Qed.
Lemma hours_range t sect h : In h (hours_of t sect) -> 0 <= h <= 23.
Proof.
  unfold hours_of. pose proof (Z.mod_pos_bound t 12 ltac:(lia)). intros [<-|I]; [lia|]. destruct (_ && _); [|destruct I]. destruct I as [<-|[]]. lia.
Qed.
Lemma years_in y0 e y : In y (bazi_years y0 e) -> y0 <= y <= e /\ (y - y0) mod 60 = 0.
Proof.
  unfold bazi_years. intros I. apply in_map_iff in I. destruct I as (k & <- & Hk). apply in_zrange in Hk.
  destruct (Z.leb_spec y0 e); [|lia]. split; [|replace (y0 + 60 * k - y0) with (k * 60) by lia; apply Z.mod_mul; lia]. Z.div_mod_to_equations; lia.
Qed.
Lemma in_years y0 e y : y0 <= y <= e -> (y - y0) mod 60 = 0 -> In y (bazi_years y0 e).
Proof.
  intros H M. unfold bazi_years. apply in_map_iff. exists ((y - y0) / 60). split; [Z.div_mod_to_equations; lia|]. apply in_zrange.
  destruct (Z.leb_spec y0 e); [|lia]. Z.div_mod_to_equations; lia.
Qed.
Lemma years_sorted y0 e : StronglySorted (fun y y' => y + 60 <= y') (bazi_years y0 e).
Proof.
  unfold bazi_years. generalize (if y0 <=? e then (e - y0) / 60 + 1 else 0). intros n.
  assert (G : forall k a, StronglySorted (fun y y' => y + 60 <= y') (map (fun k => y0 + 60 * k) (zseq a k))).
  { induction k as [|k IH]; intros a; cbn [zseq map]; [constructor|]. constructor; [apply IH|]. apply Forall_forall. intros x Ix. apply in_map_iff in Ix. destruct Ix as (j & <- & Hj).
    assert (a + 1 <= j); [|lia]. clear - Hj. revert a Hj. induction k as [|k IH]; intros a Hj; cbn in Hj; [destruct Hj|]. destruct Hj as [<-|Hj]; [lia|]. specialize (IH (a + 1) Hj). lia. }
  apply G.
Qed.
(** what one year of the search returns *)
Lemma year_result ygz mgz dgz t tgz sect base_year m y : 0 <= m <= 11 -> lo + 1 < base_year -> y + 3 < hi ->
  exists r, bazi_year fy ygz mgz dgz tgz (sect_of sect) base_year (m * 2) (hours_of t sect) y = Ok r /\
    StronglySorted (fun x x' => instant x < instant x') r /\
    forall x, In x r -> valid_solar x /\ base_year <= sy x /\ y <= sy x <= y + 2.
Proof.
  intros Hm Hb Hy. destruct (Z.le_gt_cases (base_year - 1) y) as [L|L].
  2:{ exists []. unfold bazi_year. destruct (Z.leb_spec (base_year - 1) y); [lia|]. split; [reflexivity|]. split; [constructor|intros x []]. }
  destruct (year_steps ygz mgz dgz tgz (sect_of sect) base_year m (hours_of t sect) y Hm ltac:(lia) Hy (fun h => hours_range t sect h) L) as (T & IT & [[B E]|(B & D & d & rss & St & Em & E)]).
  - exists []. split; [exact E|]. split; [constructor|intros x []].
  - exists (concat rss). split; [exact E|]. destruct St as (_ & Ed & VD & SD & ND).
    assert (VT : valid_solar T) by (destruct IT as (t0 & jq & Et & Ej & <-); apply (gt_valid _ _ (sn_good _ _ _ Sn y t0 jq ltac:(lia) Et Ej)); lia).
    pose proof (term_year y (4 + 2 * m) T ltac:(lia) ltac:(lia) IT) as YT.
    pose proof (days_year T D d VT VD ltac:(subst d; apply Z.mod_pos_bound; lia) ND) as YD.
    assert (K : forall h r, In h (hours_of t sect) -> bazi_check fy ygz mgz dgz tgz (sect_of sect) D d h = Ok r -> r = [] \/ r = [candidate D d h]).
    { intros h r Ih Er. destruct (check_ok ygz mgz dgz tgz (sect_of sect) D d h VD ltac:(lia) (hours_range _ _ _ Ih)) as (r' & Er' & Rr & _). rewrite Er in Er'. apply Ok_inj in Er'. subst r'. exact Rr. }
    assert (VC : forall h, In h (hours_of t sect) -> valid_solar (candidate D d h)).
    { intros h Ih. pose proof (hours_range _ _ _ Ih). destruct VD as [V1 V2]. unfold candidate. split; [exact V1|]. unfold valid_time in *. cbn [sh smi ss]. destruct (_ && _); lia. }
    split.
    + unfold hours_of in Em, K. apply mapM_inv in Em. destruct ((t mod 12 =? 0) && (2 =? sect_of sect)) eqn:Q.
      * apply andb_prop in Q. destruct Q as [Q _]. apply Z.eqb_eq in Q. inversion Em as [|h1 r1 hs1 rs1 E1 E2]; subst h1 hs1 rss. inversion E2 as [|h2 r2 hs2 rs2 E3 E4]; subst h2 hs2 rs1. inversion E4; subst rs2.
        cbn [concat]. rewrite app_nil_r.
        destruct (K _ _ ltac:(now left) E1) as [->| ->]; destruct (K _ _ ltac:(right; now left) E3) as [->| ->]; cbn [app]; repeat constructor.
        rewrite Q. unfold instant, sod, candidate, sdate. cbn [sy sm sd sh smi ss]. destruct VD as [_ V2]. unfold valid_time in V2. destruct (_ && _), (_ && _); lia.
      * inversion Em as [|h1 r1 hs1 rs1 E1 E2]; subst h1 hs1 rss. inversion E2; subst rs1. cbn [concat]. rewrite app_nil_r.
        destruct (K _ _ ltac:(now left) E1) as [->| ->]; repeat constructor.
    + intros x Ix. destruct (in_mapM _ _ _ _ Em Ix) as (h & r & Ih & Er & Ir). destruct (K _ _ Ih Er) as [->| ->]; [destruct Ir|]. destruct Ir as [<-|[]].
      split; [apply VC; exact Ih|]. cbn [sy candidate]. lia.
Qed.
Lemma sorted_concat {A} (R : A -> A -> Prop) (P : Z -> A -> Prop) ys rs : Forall2 (fun y r => StronglySorted R r /\ forall x, In x r -> P y x) ys rs ->
  StronglySorted (fun y y' => forall x x', P y x -> P y' x' -> R x x') ys -> StronglySorted R (concat rs).
Proof.
  intros F. induction F as [|y r ys rs [Sr Pr] F IH]; intros S; cbn [concat]; [constructor|]. inversion S as [|? ? S' Fy]; subst. specialize (IH S').
  assert (Q : forall x x', In x r -> In x' (concat rs) -> R x x').
  { intros x x' Ix Ix'. apply in_concat in Ix'. destruct Ix' as (r' & Ir' & Ix'). clear - Pr F Fy Ix Ir' Ix'. induction F as [|y' r'' ys rs [_ P'] F IH]; [destruct Ir'|].
    inversion Fy as [|? ? H1 H2]; subst. destruct Ir' as [->|Ir']; [apply H1; [apply Pr; exact Ix|apply P'; exact Ix']|apply IH; assumption]. }
  clear - Sr IH Q. induction Sr as [|x r Sr IHr Fx]; cbn [app]; [exact IH|]. constructor.
  - apply IHr. intros u v Iu Iv. apply Q; [now right|exact Iv].
  - apply Forall_app. split; [exact Fx|]. apply Forall_forall. intros v Iv. apply Q; [now left|exact Iv].
Qed.
End BaZi.

Theorem C67_ordered : forall fy lo hi a b c t sect base_year end_year, Calendar fy lo hi -> YearSeasons fy lo hi -> lo + 1 < base_year -> end_year + 3 < hi ->
  exists rs, fromBaZi fy (pair60 a) (pair60 b) (pair60 c) (pair60 t) sect base_year end_year = Ok rs /\
    StronglySorted (fun x x' => instant x < instant x') rs /\ forall x, In x rs -> valid_solar x /\ base_year <= sy x <= end_year + 2.
Proof.
  intros fy lo hi a b c t sect base_year end_year C Ys Hb He. rewrite fromBaZi_form. destruct (_ =? b mod 10).
  2:{ exists []. split; [reflexivity|]. split; [constructor|intros x []]. }
  set (f := bazi_year _ _ _ _ _ _ _ _ _). set (ys := bazi_years _ _).
  assert (K : forall y, In y ys -> exists r, f y = Ok r /\ StronglySorted (fun x x' => instant x < instant x') r /\ forall x, In x r -> valid_solar x /\ base_year <= sy x /\ y <= sy x <= y + 2).
  { intros y Iy. apply years_in in Iy. apply (year_result C Ys); [pose proof (Z.mod_pos_bound (b - 2) 12); lia|exact Hb|lia]. }
  destruct (mapM_total f ys) as (rs & Er); [intros y Iy; destruct (K y Iy) as (r & E & _); eauto|]. rewrite Er. cbn [bind]. exists (concat rs). split; [reflexivity|]. split.
  - apply (sorted_concat _ (fun y x => valid_solar x /\ y <= sy x <= y + 2) ys).
    + apply mapM_inv in Er. clear - K Er. induction Er as [|y r ys rs E Er IH]; constructor.
      * destruct (K y ltac:(now left)) as (r' & E' & S & Q). rewrite E in E'. apply Ok_inj in E'. subst r'. split; [exact S|]. intros x Ix. destruct (Q x Ix) as (? & ? & ?). auto.
      * apply IH. intros y' I'. apply K. now right.
    + pose proof (years_sorted ((a - 57) mod 60 + 1) end_year) as S. fold ys in S. clearbody ys. clear K Er. induction S as [|y l S IH F]; [constructor|constructor; [exact IH|]].
      eapply Forall_impl; [|exact F]. cbv beta. intros y' L x x' [V X] [V' X']. apply day_lt_instant; [assumption..|]. apply year_lt_dayno; [assumption..|lia].
  - intros x Ix. destruct (in_mapM f ys rs x Er Ix) as (y & r & Iy & E & Ir). destruct (K y Iy) as (r' & E' & _ & Q). rewrite E in E'. apply Ok_inj in E'. subst r'.
    destruct (Q x Ir) as (V & B & Y). apply years_in in Iy. split; [exact V|lia].
Qed.

(** ** C76: every full double hour is found *)
Lemma mapM_in {A B} (f : A -> res (list B)) l rs a r x : mapM f l = Ok rs -> In a l -> f a = Ok r -> In x r -> In x (concat rs).
Proof.
  intros H. apply mapM_inv in H. induction H as [|a' r' l rs E _ IH]; intros Ia Ea Ix; [destruct Ia|]. cbn [concat]. apply in_or_app.
  destruct Ia as [->|Ia]; [left|right; auto]. rewrite E in Ea. apply Ok_inj in Ea. now subst r'.
Qed.
(** The pillars of a moment on the full hour in the middle of its double hour (or 23:00 under sect 2), searched for from a year not after the
    节 that began its month, give the moment back. *)
Theorem C76_found : forall fy lo hi s l sect a b c t jie base_year end_year, Calendar fy lo hi -> civil fy lo hi -> YearSeasons fy lo hi -> valid_solar s -> lo < sy s < hi ->
  smi s = 0 -> ss s = 0 -> (Z.even (sh s) = true \/ sh s = 23 /\ sect <> 1) -> getLunar fy s = Ok l -> pillars (mkEightChar (sect_of sect) l) a b c t ->
  Lunar_getPrevJie l false = Ok (Some jie) -> lo + 1 < base_year -> 2 <= base_year <= sy (jq_solar jie) -> sy s <= end_year -> end_year + 3 < hi ->
  exists rs, fromBaZi fy (pair60 a) (pair60 b) (pair60 c) (pair60 t) sect base_year end_year = Ok rs /\ In s rs.
Proof.
  intros fy lo hi s l sect a b c t jie base_year end_year C Cv Ys V B Z1 Z2 Hh El P EJ Hl Hb He Hhi.
  destruct (C67_ordered fy lo hi a b c t sect base_year end_year C Ys Hl Hhi) as (rs & Ers & _). pose proof (ys_seasons _ _ _ Ys) as Sn. exists rs. split; [exact Ers|].
  destruct (getLunar_spec C s V B) as (l' & _ & _ & El' & _ & _ & _ & _ & _ & _ & _ & _ & _ & Es). rewrite El in El'. apply Ok_inj in El'. subst l'.
  destruct (getLunar_new _ _ _ El) as (y0 & m0 & d0 & H0). destruct (new_terms _ _ _ _ _ _ _ _ H0) as (tY & EtY & EjY). rewrite Es in EtY.
  set (jq := l_jieQi l) in *. set (Y := sy s) in *. pose proof (sn_good _ _ _ Sn Y tY jq ltac:(lia) EtY EjY) as G.
  destruct (good_between Y jq false s G V eq_refl) as (j & Hj & Bj). cbn [clock] in Bj.
  (* the 节 *)
  assert (T : jq_solar jie = term_at jq (2 * j)).
  { destruct (C57_prev _ _ _ _ _ _ _ _ Jie false H0 ltac:(rewrite Es; exact V) ltac:(rewrite Es; exact G)) as (i & Bi & Ki & Ei & X1 & X2).
    cbn [prev_term of_kind] in *. unfold before in *. fold jq in X1, X2, Ei. rewrite Es in X1, X2. rewrite EJ in Ei. apply Ok_inj in Ei. injection Ei as ->. cbn [jq_solar]. f_equal.
    assert (2 * j <= i) by (apply X2; [lia|rewrite Z.even_mul; reflexivity|lia]).
    destruct (Z.le_gt_cases i (2 * j)) as [|Q]; [lia|]. destruct (Z.eq_dec i (2 * j + 1)) as [->|].
    - exfalso. rewrite Z.even_add_mul_2 in Ki || (rewrite Z.even_add, Z.even_mul in Ki). discriminate.
    - exfalso. destruct (Z.eq_dec i (2 * j + 2)) as [->|]; [lia|]. pose proof (good_clock _ _ false (2 * j + 2) i G ltac:(lia) ltac:(lia)) as X. cbn [clock] in X. lia. }
  rewrite T in Hb. clear T EJ. set (T := term_at jq (2 * j)) in *.
  pose proof (gt_valid _ _ G (2 * j) ltac:(lia)) as VT. fold T in VT.
  (* the pillars *)
  destruct P as (P1 & P2 & P3 & P4). unfold EightChar_getYear, EightChar_getMonth, EightChar_getDay, EightChar_getTime, by_sect in P1, P2, P3, P4. cbn [e_lunar e_sect] in *.
  pose proof (civil_year _ _ _ _ _ C Cv V B El) as Ly. fold Y in Ly.
  destruct (C56_month_pillar _ _ _ _ _ _ _ _ j H0 ltac:(rewrite Es; exact V) ltac:(rewrite Es; exact G) ltac:(rewrite Es; exact Ly) Hj) as [M _]. rewrite Es in M. fold jq T Y in M. specialize (M Bj).
  pose proof (dict_at _ 4 (Lunar_new_named _ _ _ _ _ _ _ _ H0) ltac:(lia)) as D4. change (term_key 4) with (utf8 "立春") in D4. fold jq in D4.
  pose proof (gt_years _ _ G 4 ltac:(lia)) as R4. rewrite (gt_lichun _ _ G) in R4.
  destruct (C55_year_pillar _ _ _ _ _ _ _ _ _ H0 ltac:(rewrite Es; exact V) ltac:(rewrite Es; exact R4) D4 (gt_valid _ _ G 4 ltac:(lia)) ltac:(rewrite Es; exact (gt_lichun _ _ G)) ltac:(rewrite Es; exact Ly)) as (_ & _ & _ & YA & YB).
  rewrite Es in YA, YB. fold Y in YA, YB.
  set (yb := if j <? 2 then Y - 1 else Y). set (m := if j <? 2 then j + 10 else j - 2).
  assert (Pa : Lunar_getYearInGanZhiExact l = Ok (pair60 (yb - 4))).
  { unfold yb. destruct (Z.ltb_spec j 2) as [Lj|Lj].
    - apply YA. destruct (Z.eq_dec j 1) as [->|]; [exact (proj2 Bj)|]. pose proof (good_clock _ _ false (2 * j + 2) 4 G ltac:(lia) ltac:(lia)) as X. cbn [clock] in X. lia.
    - apply YB. destruct (Z.eq_dec j 2) as [->|]; [exact (proj1 Bj)|]. pose proof (good_clock _ _ false 4 (2 * j) G ltac:(lia) ltac:(lia)) as X. cbn [clock] in X. fold T in X. lia. }
  assert (Ea : a mod 60 = (yb - 4) mod 60) by (apply C53_cycle_is_sixty; rewrite P1 in Pa; now apply Ok_inj in Pa).
  assert (Eb : b mod 60 = (12 * (yb - 4) + 2 + m) mod 60).
  { rewrite P2 in M. apply Ok_inj in M. apply C53_cycle_is_sixty in M. rewrite M. f_equal. unfold yb, m. destruct (j <? 2); lia. }
  assert (Hm : 0 <= m <= 11) by (unfold m; destruct (Z.ltb_spec j 2); lia).
  destruct (day_pillar C s l V B El) as (_ & Q2 & Q1).
  assert (Ec : c mod 60 = (dayno (sdate s) - 11) mod 60).
  { apply C53_cycle_is_sixty. unfold sect_of in P3. destruct (Z.eqb_spec 1 sect) as [E1|E1].
    - change (2 =? 1) with false in P3. cbv iota in P3. rewrite Q1 in P3. apply Ok_inj in P3. rewrite <- P3. destruct (Z.eqb_spec (sh s) 23) as [E23|]; [|f_equal; lia].
      exfalso. destruct Hh as [Hh|Hh]; [rewrite E23 in Hh; discriminate|lia].
    - change (2 =? 2) with true in P3. cbv iota in P3. rewrite Q2 in P3. apply Ok_inj in P3. now rewrite <- P3. }
  assert (Tm : In (sh s) (hours_of t sect)).
  { pose proof (cal_range _ _ _ C) as R.
    pose proof (C54_hour_pillar _ _ _ _ _ _ _ _ (dayno (sdate s) - 2451545) H0 ltac:(rewrite Es; exact V) ltac:(rewrite Es; unfold jd_year; lia)) as Q.
    rewrite Es in Q. specialize (Q ltac:(apply days_later_dayno; [exact valid_2000|apply V|]; rewrite dayno_2000; lia)). rewrite P4 in Q. apply Ok_inj in Q. apply C53_cycle_is_sixty in Q.
    assert (E12 : t mod 12 = (sh s + 1) / 2 mod 12) by (clear - Q; Z.div_mod_to_equations; lia). unfold hours_of. rewrite E12. destruct V as [_ (Vh & _)].
    destruct Hh as [Hh|[-> Hs]].
    - left. apply Z.even_spec in Hh. destruct Hh as (k & Hk). rewrite Hk in *. clear - Vh. Z.div_mod_to_equations; lia.
    - right. change ((23 + 1) / 2 mod 12) with 0. unfold sect_of. destruct (Z.eqb_spec 1 sect); [lia|]. left. reflexivity. }
  (* the search *)
  rewrite fromBaZi_form in Ers.
  assert (Em : (b - 2) mod 12 = m) by (clear - Eb Hm; Z.div_mod_to_equations; lia). rewrite Em in Ers.
  replace ((2 * a + 2 + m) mod 10 =? b mod 10) with true in Ers.
  2:{ symmetry. apply Z.eqb_eq. clear - Ea Eb. clearbody yb m. Z.div_mod_to_equations; lia. }
  apply bind_ok in Ers. destruct Ers as (rss & Ers & X). apply Ok_inj in X. subst rs.
  (* the year and its term *)
  assert (YT : sy T <= yb + 1).
  { unfold yb. destruct (Z.ltb_spec j 2) as [Lj|Lj].
    - destruct (Z.le_gt_cases (sy T) (Y - 1 + 1)) as [|Q]; [assumption|]. pose proof (year_lt_dayno s T V VT ltac:(unfold Y in *; lia)) as X. pose proof (day_lt_instant _ _ V VT X). lia.
    - destruct (Z.le_gt_cases (sy T) (Y + 1)) as [|Q]; [assumption|]. pose proof (year_lt_dayno s T V VT ltac:(unfold Y in *; lia)) as X. pose proof (day_lt_instant _ _ V VT X). lia. }
  assert (Yb : yb <= Y) by (unfold yb; destruct (j <? 2); lia).
  assert (IT : is_term (fy := fy) yb (4 + 2 * m) T).
  { unfold yb, m. destruct (Z.ltb_spec j 2) as [Lj|Lj].
    - destruct (cal_ok _ _ _ C (Y - 1) ltac:(lia)) as (t' & jq' & Et' & Ej'). exists t', jq'. split; [exact Et'|]. split; [exact Ej'|].
      replace (4 + 2 * (j + 10)) with (24 + 2 * j) by lia. unfold T.
      apply (sn_agree _ _ _ Sn (Y - 1) t' jq' tY jq (2 * j)); try assumption; try lia. replace (Y - 1 + 1) with Y by lia. exact EtY.
    - exists tY, jq. split; [exact EtY|]. split; [exact EjY|]. unfold T. f_equal. lia. }
  assert (Iy : In yb (bazi_years ((a - 57) mod 60 + 1) end_year)).
  { assert (W : (yb - ((a - 57) mod 60 + 1)) mod 60 = 0) by (clear - Ea; clearbody yb; Z.div_mod_to_equations; lia).
    apply in_years; [|exact W]. pose proof (Z.mod_pos_bound (a - 57) 60 ltac:(lia)) as R. split; [|lia].
    set (q := (a - 57) mod 60 + 1) in *. assert (R' : 1 <= q <= 60) by (unfold q; lia). clearbody q. assert (1 <= yb) by lia. clearbody yb. clear - W R' H. Z.div_mod_to_equations; lia. }
  destruct (year_steps C Ys (pair60 a) (pair60 b) (pair60 c) (pair60 t) (sect_of sect) base_year m (hours_of t sect) yb Hm ltac:(lia) ltac:(lia) (fun h => hours_range t sect h) ltac:(lia))
    as (T' & IT' & Q). assert (T' = T) by (apply (term_fun (fy := fy) yb (4 + 2 * m)); assumption). subst T'.
  destruct Q as [[Q _]|(_ & D & d & rs & (_ & Ed & VD & (S1 & S2 & S3) & ND) & Er & Eyr)]; [lia|].
  apply (mapM_in _ _ _ _ _ _ Ers Iy Eyr).
  (* the day *)
  pose proof (sn_gap _ _ _ Sn Y tY jq (2 * j) ltac:(lia) EtY EjY ltac:(lia)) as Gp. fold T in Gp.
  pose proof (gt_valid _ _ G (2 * j + 2) ltac:(lia)) as VN.
  assert (L1 : dayno (sdate T) <= dayno (sdate s)).
  { destruct (Z.le_gt_cases (dayno (sdate T)) (dayno (sdate s))) as [|Q]; [assumption|]. pose proof (day_lt_instant s T V VT Q). lia. }
  assert (L2 : dayno (sdate s) <= dayno (sdate (term_at jq (2 * j + 2)))).
  { destruct (Z.le_gt_cases (dayno (sdate s)) (dayno (sdate (term_at jq (2 * j + 2))))) as [|Q]; [assumption|]. pose proof (day_lt_instant _ s VN V Q). lia. }
  rewrite index_pair, Ec in Ed.
  assert (Dd : d = dayno (sdate s) - dayno (sdate T)).
  { rewrite Ed, <- Zminus_mod. replace (dayno (sdate s) - 11 - (dayno (sdate T) - 11)) with (dayno (sdate s) - dayno (sdate T)) by lia. apply Z.mod_small. lia. }
  assert (Sd : sdate D = sdate s) by (apply dayno_inj; [apply VD|apply V|lia]).
  assert (Cd : candidate D d (sh s) = s).
  { unfold candidate. unfold sdate in Sd. apply pair_equal_spec in Sd. destruct Sd as [Sd Sd3]. apply pair_equal_spec in Sd. destruct Sd as [Sd1 Sd2]. rewrite Sd1, Sd2, Sd3, S1.
    assert (K : (if (d =? 0) && (sh s =? sh T) then smi D else 0) = smi s /\ (if (d =? 0) && (sh s =? sh T) then ss D else 0) = ss s).
    { rewrite Z1, Z2, S2, S3. destruct (Z.eqb_spec d 0) as [D0|]; [|cbn; auto]. destruct (Z.eqb_spec (sh s) (sh T)) as [Q|]; [|cbn; auto]. cbn [andb].
      destruct VT as [_ VT]. unfold valid_time in VT. destruct Bj as [Bj _]. unfold instant, sod in Bj. rewrite Z1, Z2 in Bj. lia. }
    destruct K as [-> ->]. destruct s; reflexivity. }
  destruct (check_ok C (pair60 a) (pair60 b) (pair60 c) (pair60 t) (sect_of sect) D d (sh s) VD) as (r & Erh & _ & Rr); [|apply (hours_range t sect); exact Tm|].
  { unfold sdate in Sd. apply pair_equal_spec in Sd. destruct Sd as [Sd _]. apply pair_equal_spec in Sd. destruct Sd as [-> _]. exact B. }
  rewrite Cd in Rr. specialize (Rr l El P1 P2 P3 P4). apply (mapM_in _ _ _ _ _ _ Er Tm Erh). rewrite Rr. now left.
Qed.

(** Two kinds of moments are missed.  White Dew of 2024 came on 7 September at 11:11, before the middle of the double hour 11:00-13:00: the pillars
    of 11:05 belong to no moment that is tried.  And in the first days of the base year the month began in the year before. *)
Definition pillars_of (fy : Z -> res LYear) (s : Solar) := let! l := getLunar fy s in let e := mkEightChar 2 l in
  let! a := EightChar_getYear e in let! b := EightChar_getMonth e in let! c := EightChar_getDay e in let! t := EightChar_getTime e in Ok (a, b, c, t).
Definition search (fy : Z -> res LYear) (s : Solar) (base_year end_year : Z) := let! p := pillars_of fy s in let '(a, b, c, t) := p in fromBaZi fy a b c t 2 base_year end_year.
Theorem C76_refuted :
  search demo (mkSolar 2024 9 7 11 5 0) 2024 2024 = Ok [] /\ search demo (mkSolar 2024 9 7 9 5 0) 2024 2024 = Ok [mkSolar 2024 9 7 10 0 0] /\
  search demo (mkSolar 2024 1 3 12 0 0) 2024 2024 = Ok [] /\ search demo (mkSolar 2024 1 8 12 0 0) 2024 2024 = Ok [mkSolar 2024 1 8 12 0 0].
Proof. split; [|split; [|split]]; vm_compute; reflexivity. Qed.

(** ** The hypotheses can be met *)
Definition jq_of (r : res LYear) : res (list (str * Solar)) := let! t := r in computeJieQi (lterms t).
Definition mean_terms : list (Z * list (str * Solar)) := Eval vm_compute in map (fun p => (fst p, match jq_of (snd p) with Ok jq => jq | Raise _ => [] end)) mean_years.
Definition terms_of (y : Z) : list (str * Solar) := match jq_of (mean y) with Ok jq => jq | Raise _ => [] end.
Lemma mean_terms_eq : map (fun y => (y, terms_of y)) (zrange 2023 2033) = mean_terms.
Proof.
  transitivity (map (fun p : Z * res LYear => (fst p, match jq_of (snd p) with Ok jq => jq | Raise _ => [] end)) mean_years); [|vm_compute; reflexivity].
  rewrite <- mean_years_eq, map_map. reflexivity.
Qed.
Lemma mean_jq y t jq : mean y = Ok t -> computeJieQi (lterms t) = Ok jq -> terms_of y = jq.
Proof. intros E J. unfold terms_of, jq_of. rewrite E. cbn [bind]. now rewrite J. Qed.
Lemma terms_all (P : Z -> list (str * Solar) -> bool) : forallb (fun p => P (fst p) (snd p)) mean_terms = true -> forall y, 2023 <= y <= 2032 -> P y (terms_of y) = true.
Proof.
  intros H y Hy. rewrite <- mean_terms_eq in H. rewrite forallb_forall in H. apply (H (y, terms_of y)). apply (in_map (fun y => (y, terms_of y))). apply in_zrange. lia.
Qed.
Definition solar_same (a b : Solar) : bool := (sy a =? sy b) && (sm a =? sm b) && (sd a =? sd b) && (sh a =? sh b) && (smi a =? smi b) && (ss a =? ss b).
Lemma solar_same_eq a b : solar_same a b = true -> a = b.
Proof. destruct a, b. unfold solar_same. cbn. intros H. f_equal; lia. Qed.
Lemma mean_seasons : Seasons mean 2023 2032.
Proof.
  pose proof (terms_all (fun y jq => good_termsb y jq)) as A1. pose proof (terms_all (fun y jq => sy (term_at jq 26) <=? y + 1)) as A2.
  pose proof (terms_all (fun y jq => forallb (fun i => dayno (sdate (term_at jq (i + 2))) - dayno (sdate (term_at jq i)) <? 60) (zrange 0 29))) as A3.
  constructor.
  - intros y t jq Hy E J. rewrite <- (mean_jq y t jq E J). apply good_termsb_ok. apply A1; [vm_compute; reflexivity|exact Hy].
  - intros y t jq Hy E J. rewrite <- (mean_jq y t jq E J). apply Z.leb_le. apply A2; [vm_compute; reflexivity|exact Hy].
  - intros y t jq i Hy E J Hi. rewrite <- (mean_jq y t jq E J). specialize (A3 ltac:(vm_compute; reflexivity) y Hy). pose proof (forallb_zrange _ _ _ A3 i Hi) as X. cbv beta in X.
    clear A1 A2 A3. apply Z.ltb_lt. exact X.
  - intros y t jq t' jq' i Hy Hy' E J E' J' Hi. rewrite <- (mean_jq y t jq E J), <- (mean_jq _ _ _ E' J'). clear A1 A2 A3 E J E' J'.
    assert (T : forallb (fun k => forallb (fun i => solar_same (term_at (snd (nth (Z.to_nat k) mean_terms (0, []))) (24 + i)) (term_at (snd (nth (Z.to_nat (k + 1)) mean_terms (0, []))) i))
      (zrange 0 7)) (zrange 0 9) = true) by (vm_compute; reflexivity).
    pose proof (forallb_zrange _ _ _ T (y - 2023) ltac:(lia)) as X. cbv beta in X. clear T. pose proof (forallb_zrange _ _ _ X i ltac:(lia)) as Y. cbv beta in Y. clear X.
    apply solar_same_eq in Y.
    assert (N : forall z, 2023 <= z <= 2032 -> snd (nth (Z.to_nat (z - 2023)) mean_terms (0, [])) = terms_of z).
    { clear. intros z Hz. rewrite <- mean_terms_eq. rewrite (nth_indep _ (0, []) ((fun y => (y, terms_of y)) 0)) by (rewrite map_length, zrange_length; lia).
      rewrite (map_nth (fun y => (y, terms_of y))), zrange_nth by lia. cbn [snd]. f_equal. lia. }
    rewrite N in Y by lia. replace (y - 2023 + 1) with (y + 1 - 2023) in Y by lia. rewrite N in Y by lia. exact Y.
Qed.
Lemma mean_year_seasons : YearSeasons mean 2023 2032.
Proof.
  constructor; [exact mean_seasons|]. intros y Hy.
    assert (T : forallb (fun y => match Lunar_fromYmd mean y 1 1 with Ok l => sy (l_solar l) =? y | Raise _ => false end) (zrange 2024 2032) = true) by (vm_compute; reflexivity).
    pose proof (forallb_zrange _ _ _ T y ltac:(lia)) as X. cbv beta in X. clear T. destruct (Lunar_fromYmd mean y 1 1) as [l|]; [|discriminate]. exists l. split; [reflexivity|lia].
Qed.
Lemma mean_civil : civil mean 2023 2032.
Proof.
  intros y t a Hy E I.
  assert (T : forallb (fun p => forallb (fun a => jan1 (my a) <=? mfirst a) (months_in (snd p))) mean_years = true) by (vm_compute; reflexivity).
  rewrite forallb_forall in T. specialize (T _ (mean_in y Hy)). cbv beta in T. cbn [snd] in T. rewrite E in T. cbn [months_in] in T.
  rewrite forallb_forall in T. specialize (T a I). cbv beta in T. lia.
Qed.

(** 28 February 2026, 14:00, is found from its four pillars 丙午 庚寅 癸酉 己未. *)
Example C76_case : let s := mkSolar 2026 2 28 14 0 0 in valid_solar s /\ 2023 < sy s < 2032 /\ exists l a b c t jie, getLunar mean s = Ok l /\ pillars (mkEightChar (sect_of 2) l) a b c t /\
  Lunar_getPrevJie l false = Ok (Some jie) /\ 2023 + 1 < 2025 /\ 2 <= 2025 <= sy (jq_solar jie) /\ sy s <= 2028 /\ 2028 + 3 < 2032.
Proof.
  cbv zeta. split; [apply valid_solarb_ok; vm_compute; reflexivity|]. split; [cbn; lia|].
  assert (F : (let! l := getLunar mean (mkSolar 2026 2 28 14 0 0) in let e := mkEightChar (sect_of 2) l in
    let! p1 := EightChar_getYear e in let! p2 := EightChar_getMonth e in let! p3 := EightChar_getDay e in let! p4 := EightChar_getTime e in
    let! j := Lunar_getPrevJie l false in Ok (p1, p2, p3, p4, option_map (fun j => sy (jq_solar j)) j)) = Ok (pair60 42, pair60 26, pair60 9, pair60 55, Some 2026))
    by (vm_compute; reflexivity).
  apply bind_ok in F. destruct F as (l & El & F). cbv zeta in F. apply bind_ok in F. destruct F as (p1 & E1 & F). apply bind_ok in F. destruct F as (p2 & E2 & F).
  apply bind_ok in F. destruct F as (p3 & E3 & F). apply bind_ok in F. destruct F as (p4 & E4 & F). apply bind_ok in F. destruct F as (j & Ej & F).
  apply Ok_inj in F. do 4 (apply pair_equal_spec in F; let A := fresh in destruct F as (F & A); subst || idtac).
  destruct j as [jie|]; [|discriminate]. cbn [option_map] in *.
  exists l, 42, 26, 9, 55, jie. split; [exact El|]. unfold pillars. rewrite E1, E2, E3, E4.
  assert (Y : sy (jq_solar jie) = 2026) by congruence. rewrite Y. cbn [sy].
  split; [|split; [exact Ej|lia]]. split; [congruence|]. split; [congruence|]. split; congruence.
Qed.
Example C67_case : search mean (mkSolar 2026 2 28 14 0 0) 2025 2028 = Ok [mkSolar 2026 2 28 14 0 0].
Proof. vm_compute. reflexivity. Qed.
