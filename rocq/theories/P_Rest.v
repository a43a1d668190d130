(** Short accessors not covered elsewhere: descriptions of the Tai Sui directions (C89), LunarYear.next (C44), the month names of LiuYue (C66), texts of festivals and double-hours (C93), JieQi.setSolar (C97). *)
From Coq Require Import ZArith Lia Bool ZifyBool List String.
From Verif Require Import LunarCache P_Cache Py PyStr CalSpec DayNo Solar LunarUtil T_LunarUtil T_Misc AlmanacProofs LunarYear Lunar LunarTime EightChar FotoTao LunarProofs YearProofs Texts LunarState P_State T_Festivals P_Text.
Import ListNotations.
Open Scope Z_scope.

(** The eight trigrams, the middle, and where they lie. *)
Definition trigrams : list (string * string) :=
  [("坎", "正北"); ("艮", "东北"); ("震", "正东"); ("巽", "东南"); ("离", "正南"); ("坤", "西南"); ("兑", "正西"); ("乾", "西北"); ("中", "中宫")]%string.
Lemma trigram_desc p c : In (p, c) trigrams -> position_desc (Ok (utf8 p)) = Ok (utf8 c).
Proof. intros I. cbn [trigrams In] in I. repeat (destruct I as [E|I]; [injection E as <- <-; vm_compute; reflexivity|]). destruct I. Qed.
Theorem C89_tai_sui_desc : forall fy l sect a p c, In (p, c) trigrams ->
  (Lunar_getYearPositionTaiSui l sect = Ok (utf8 p) -> Lunar_getYearPositionTaiSuiDesc l sect = Ok (utf8 c)) /\
  (Lunar_getMonthPositionTaiSui l sect = Ok (utf8 p) -> Lunar_getMonthPositionTaiSuiDesc l sect = Ok (utf8 c)) /\
  (Lunar_getDayPositionTaiSui l sect = Ok (utf8 p) -> Lunar_getDayPositionTaiSuiDesc l sect = Ok (utf8 c)) /\
  (LunarMonth_getPositionTaiSui fy a = Ok (utf8 p) -> LunarMonth_getPositionTaiSuiDesc fy a = Ok (utf8 c)).
Proof.
  intros fy l sect a p c I. pose proof (trigram_desc p c I) as D. repeat split; intros E;
    [unfold Lunar_getYearPositionTaiSuiDesc|unfold Lunar_getMonthPositionTaiSuiDesc|unfold Lunar_getDayPositionTaiSuiDesc|unfold LunarMonth_getPositionTaiSuiDesc]; rewrite E; exact D.
Qed.
(** LunarYear.next moves by years and steps add up. *)
Theorem C44_next : forall sky y t n u, LunarYear_new sky y = Ok t -> LunarYear_next (LunarYear_new sky) t n = Ok u ->
  lyear u = y + n /\ LunarYear_next (LunarYear_new sky) u (- n) = Ok t /\ forall k, LunarYear_next (LunarYear_new sky) u k = LunarYear_next (LunarYear_new sky) t (n + k).
Proof.
  intros sky y t n u H U. unfold LunarYear_next in *. assert (Y : forall y t, LunarYear_new sky y = Ok t -> lyear t = y).
  { intros y0 t0 H0. destruct (LunarYear_new_inv _ _ _ H0) as (? & ? & ? & ? & X). apply X. }
  pose proof (Y _ _ H) as Yt. pose proof (Y _ _ U) as Yu. rewrite Yt in *. rewrite Yu. split; [reflexivity|]. split; [rewrite <- H; f_equal; lia|]. intros k. f_equal. lia.
Qed.
(** The twelve months of a LiuNian are named like lunar months, from 正 on. *)
Theorem C66_month_names : map LiuYue_getMonthInChinese (zrange 0 12) = map (fun s => Ok (utf8 s)) ["正"; "二"; "三"; "四"; "五"; "六"; "七"; "八"; "九"; "十"; "冬"; "腊"]%string.
Proof. vm_compute. reflexivity. Qed.
(** JieQi.setSolar changes the time and nothing else; the last one counts. *)
Theorem C97_setSolar : forall j s n, jq_solar (JieQi_setSolar j s) = s /\ jq_name (JieQi_setSolar j s) = jq_name j /\
  JieQi_setName (JieQi_setSolar j s) n = JieQi_setSolar (JieQi_setName j n) s /\ forall s', JieQi_setSolar (JieQi_setSolar j s) s' = JieQi_setSolar j s'.
Proof. intros j s n. unfold JieQi_setSolar, JieQi_setName. cbn. repeat split. Qed.

(** The texts of the festivals of the Taoist calendar tell name and remark; those of the Buddhist calendar the name. *)
Definition free (c : Z) (s : str) : bool := forallb (fun x => negb (x =? c)) s.
Lemma free_ok c s : free c s = true -> Forall (fun x => x <> c) s.
Proof. unfold free. rewrite forallb_forall, Forall_forall. intros H x I. specialize (H x I). lia. Qed.
Lemma split_or (c : Z) s t u v : Forall (fun x => x <> c) s -> Forall (fun x => x <> c) t -> (u = [] \/ exists w, u = c :: w) -> (v = [] \/ exists w, v = c :: w) -> s ++ u = t ++ v -> s = t /\ u = v.
Proof.
  intros Fs Ft [->|(w & ->)] [->|(x & ->)] E.
  - rewrite !app_nil_r in E. auto.
  - rewrite app_nil_r in E. subst s. apply Forall_elt in Fs. congruence.
  - rewrite app_nil_r in E. subst t. apply Forall_elt in Ft. congruence.
  - apply (split_at c) in E; [|assumption..]. destruct E as [-> ->]. auto.
Qed.
Theorem C93_tao_festival : forall k fs f k' fs' g, In (k, fs) TaoUtil_FESTIVAL -> In f fs -> In (k', fs') TaoUtil_FESTIVAL -> In g fs' -> (TaoFestival_toFullString f = TaoFestival_toFullString g <-> f = g).
Proof.
  assert (T : forallb (fun p => forallb (fun f => free 91 (fst f)) (snd p)) TaoUtil_FESTIVAL = true) by (vm_compute; reflexivity).
  assert (P : forall k fs f, In (k, fs) TaoUtil_FESTIVAL -> In f fs -> Forall (fun x => x <> 91) (fst f)).
  { intros k fs f I If. rewrite forallb_forall in T. specialize (T _ I). cbn [snd] in T. rewrite forallb_forall in T. exact (free_ok _ _ (T _ If)). }
  intros k fs [n r] k' fs' [n' r'] I If I' If'. split; [|intros ->; reflexivity]. pose proof (P _ _ _ I If) as N. pose proof (P _ _ _ I' If') as N'. cbn [fst] in N, N'.
  unfold TaoFestival_toFullString. change (lit "[") with [91]. intros E. apply split_or with (c := 91) in E; [|assumption..| |];
    [|destruct r; [left; reflexivity|right; eexists; reflexivity]|destruct r'; [left; reflexivity|right; eexists; reflexivity]].
  destruct E as [-> E]. f_equal. destruct r as [|a r], r' as [|a' r']; try discriminate E; [reflexivity|]. cbn [app] in E. injection E as -> E. apply app_inj_tail in E. destruct E as [-> _]. reflexivity.
Qed.
Theorem C93_foto_festival : forall k fs f k' fs' g, In (k, fs) FotoUtil_FESTIVAL -> In f fs -> In (k', fs') FotoUtil_FESTIVAL -> In g fs' ->
  FotoFestival_toFullString f = FotoFestival_toFullString g -> fst (fst (fst f)) = fst (fst (fst g)).
Proof.
  assert (T : forallb (fun p => forallb (fun f => free 32 (fst (fst (fst f)))) (snd p)) FotoUtil_FESTIVAL = true) by (vm_compute; reflexivity).
  assert (P : forall k fs f, In (k, fs) FotoUtil_FESTIVAL -> In f fs -> Forall (fun x => x <> 32) (fst (fst (fst f)))).
  { intros k fs f I If. rewrite forallb_forall in T. specialize (T _ I). cbn [snd] in T. rewrite forallb_forall in T. exact (free_ok _ _ (T _ If)). }
  intros k fs [[[n r] e] m] k' fs' [[[n' r'] e'] m'] I If I' If' E. pose proof (P _ _ _ I If) as N. pose proof (P _ _ _ I' If') as N'. cbn [fst] in N, N' |- *.
  unfold FotoFestival_toFullString in E. change (lit " ") with [32] in E. apply split_or with (c := 32) in E; [apply E|assumption..| |].
  - destruct r; [destruct m; [left; reflexivity|right; eexists; reflexivity]|right; eexists; reflexivity].
  - destruct r'; [destruct m'; [left; reflexivity|right; eexists; reflexivity]|right; eexists; reflexivity].
Qed.
(** Two texts of the tables. *)
Example C93_festival_case : existsb (fun p => existsb (fun f => str_eqb (TaoFestival_toFullString f) (utf8 "天腊之辰[天腊，此日五帝会于东方九炁青天]")) (snd p)) TaoUtil_FESTIVAL = true.
Proof. vm_compute. reflexivity. Qed.
(** A double-hour prints as its stem and branch; a day of 数九 or 伏 prints as the name of its period, and in full with the number of the day after it. *)
Theorem C93_short : (forall t s, LunarTime_toString t = Ok s -> exists g z, LunarTime_getGan t = Ok g /\ LunarTime_getZhi t = Ok z /\ s = g ++ z) /\
  (forall f, exists r, ShuJiu_toFullString f = ShuJiu_toString f ++ utf8 "第" ++ r /\ r = str_of_Z (snd f) ++ utf8 "天").
Proof.
  split.
  - intros t s H. unfold LunarTime_toString, LunarTime_getGanZhi in H. apply bind_ok in H. destruct H as (g & Eg & H). apply bind_ok in H. destruct H as (z & Ez & H). apply Ok_inj in H. exists g, z. auto.
  - intros f. eexists. split; [unfold ShuJiu_toFullString, ShuJiu_toString; reflexivity|reflexivity].
Qed.
