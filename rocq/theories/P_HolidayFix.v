(** C30, C32, C33: correcting the holiday database. *)
From Coq Require Import ZArith Lia Bool ZifyBool List String Floats Sorting.Sorted.
From Verif Require Import Py PyFloat PyStr T_Holiday Solar SolarUnits AlmanacProofs Holiday HolidayProofs HolidayRecs P_Holiday.
Import ListNotations.
Open Scope Z_scope.

(** A segment of the [data] argument: set a day, or remove it ([~] in place of the name, then 9 free characters). *)
Inductive seg := Put (r : hrec) | Drop (a : Z * Z * Z) (free : str).
Definition seg_day (s : seg) : Z * Z * Z := match s with Put r => rday r | Drop a _ => a end.
Definition seg_text (s : seg) : str := match s with Put r => rec_text r | Drop a f => day8 a ++ [126] ++ f end.
(** Name 78 would be written as [~] itself. *)
Definition seg_ok (names : list str) (s : seg) : Prop :=
  match s with
  | Put r => rec_fits names r /\ rname r <> 78
  | Drop a f => day_ok a /\ List.length f = 9%nat
  end.

(** What one segment should do: the records afterwards, and the record to append at the end of the call. *)
Definition seg_now (rs : list hrec) (s : seg) : list hrec :=
  match find (on_day (seg_day s)) rs with
  | None => rs
  | Some r0 => match s with
               | Put r => map (fun x => if rec_eqb x r0 then r else x) rs
               | Drop _ _ => filter (fun x => negb (rec_eqb x r0)) rs
               end
  end.
Definition seg_later (rs : list hrec) (s : seg) : list hrec :=
  match find (on_day (seg_day s)) rs, s with None, Put r => [r] | _, _ => [] end.
Fixpoint fix_recs (rs later : list hrec) (segs : list seg) : list hrec :=
  match segs with
  | [] => rs ++ later
  | s :: t => fix_recs (seg_now rs s) (later ++ seg_later rs s) t
  end.

(** The text of the record to be changed occurs only where records begin. *)
Definition findable (rs : list hrec) (a : Z * Z * Z) : Prop :=
  match find (on_day a) rs with
  | None => True
  | Some r0 => aligned_only (rec_text r0) (concat (map rec_text rs))
  end.
Fixpoint all_findable (rs : list hrec) (segs : list seg) : Prop :=
  match segs with
  | [] => True
  | s :: t => findable rs (seg_day s) /\ all_findable (seg_now rs s) t
  end.

Lemma on_day_eq a r : on_day a r = true <-> rday r = a.
Proof. apply day_eqb_eq. Qed.

Lemma app_inj_len {A} (a c : list A) : forall b d, List.length a = List.length c -> a ++ b = c ++ d -> a = c /\ b = d.
Proof.
  revert c; induction a as [|x a IH]; intros [|y c] b d L E; try discriminate L; [auto|].
  injection L as L. injection E as -> E. destruct (IH c b d L E) as [-> ->]. auto.
Qed.

Lemma rec_text_inj names x y : rec_fits names x -> rec_fits names y -> rec_text x = rec_text y -> x = y.
Proof.
  intros (D & T & _) (D' & T' & _) E. unfold rec_text in E.
  destruct (app_inj_len _ _ _ _ ltac:(now rewrite !day8_length) E) as [E1 E2].
  pose proof (f_equal (fun l => tl (tl l)) E2 : day8 (rtarget x) = day8 (rtarget y)) as E4.
  pose proof (f_equal (fun l => hd 0 (tl l)) E2 : (if rwork x then 48 else 49) = (if rwork y then 48 else 49)) as E3.
  apply (f_equal (hd 0)) in E2. change (48 + rname x = 48 + rname y) in E2.
  apply day8_inj in E1; auto. apply day8_inj in E4; auto.
  destruct x as [dx nx wx tx], y as [dy ny wy ty]; cbn [rday rname rwork rtarget] in *. subst. f_equal.
  - lia.
  - destruct wx, wy; congruence.
Qed.

Lemma rec_text_eqb names x y : rec_fits names x -> rec_fits names y -> str_eqb (rec_text x) (rec_text y) = rec_eqb x y.
Proof.
  intros X Y. destruct (rec_eqb x y) eqn:E.
  - apply rec_eqb_eq in E. subst. apply str_eqb_refl.
  - apply str_eqb_neq. intros K. apply (rec_text_inj names) in K; auto. subst.
    assert (rec_eqb y y = true) by now apply rec_eqb_eq. congruence.
Qed.

Lemma name_index_nth (names : list str) : NoDup names -> forall k i, (i < List.length names)%nat ->
  name_index k (nth i names []) names = k + Z.of_nat i.
Proof.
  induction 1 as [|a l N D IH]; intros k i L; cbn [List.length] in L; [lia|]. cbn [name_index].
  destruct i as [|i]; cbn [nth].
  - rewrite str_eqb_refl. lia.
  - destruct (str_eqb_spec a (nth i l [])) as [E|E].
    + exfalso. apply N. rewrite E. apply nth_In. lia.
    + rewrite IH by lia. lia.
Qed.

Lemma seg_text_18 names s : seg_ok names s -> rec18 (seg_text s).
Proof.
  destruct s as [r|a f]; intros H; [apply rec_text_18|]. destruct H as [_ H]. unfold rec18, seg_text.
  rewrite !app_length, day8_length, H. reflexivity.
Qed.

Lemma seg_slices names s : seg_ok names s ->
  slice (seg_text s) 0 8 = day8 (seg_day s) /\
  str_eqb HolidayUtil_TAG_REMOVE (slice (seg_text s) 8 9) = (match s with Put _ => false | Drop _ _ => true end).
Proof.
  destruct s as [r|a f]; intros H; cbn [seg_text seg_day].
  - destruct H as [_ N]. unfold rec_text.
    destruct (slice_8 (day8 (rday r)) (day8 (rtarget r)) (48 + rname r) (if rwork r then 48 else 49)
              (day8_length _) (day8_length _)) as (-> & -> & _). split; [reflexivity|].
    change HolidayUtil_TAG_REMOVE with [126]. cbn [str_eqb]. lia.
  - split; [apply slice_0; now rewrite day8_length|].
    rewrite (slice_mid (day8 a) [126] f); [reflexivity|now rewrite day8_length|now rewrite day8_length].
Qed.

Lemma represents_app db rs rs' : represents db rs -> Forall (rec_fits (hnames db)) rs' ->
  represents (mkHDB (hnames db) (hdata db ++ concat (map rec_text rs'))) (rs ++ rs').
Proof.
  intros [D F] F'. split; cbn [hdata hnames].
  - now rewrite D, map_app, concat_app.
  - apply Forall_app. auto.
Qed.

Lemma seg_now_fits names rs s : Forall (rec_fits names) rs -> seg_ok names s -> Forall (rec_fits names) (seg_now rs s).
Proof.
  intros F S. unfold seg_now. destruct (find _ rs) as [r0|]; [|exact F]. destruct s as [r|a f].
  - destruct S as [S _]. rewrite Forall_map. eapply Forall_impl; [|exact F]. intros x X. destruct (rec_eqb x r0); auto.
  - rewrite Forall_forall in *. intros x I. apply filter_In in I. now apply F.
Qed.

(** One turn of the loop of [fix]. *)
Lemma fix_step_seg db rs s rest app : represents db rs -> NoDup (hnames db) -> seg_ok (hnames db) s ->
  findable rs (seg_day s) ->
  exists db', fix_step (seg_text s ++ rest, app, db) = inl (rest, app ++ concat (map rec_text (seg_later rs s)), db')
    /\ represents db' (seg_now rs s) /\ hnames db' = hnames db.
Proof.
  intros R ND S A. pose proof (seg_text_18 _ _ S) as L18. unfold fix_step.
  assert (HolidayUtil_SIZE <=? slen (seg_text s ++ rest) = true) as ->
    by (rewrite slen_app, (rec18_slen _ L18); pose proof (slen_nonneg rest); unfold HolidayUtil_SIZE; lia).
  cbv zeta. unfold HolidayUtil_SIZE.
  rewrite slice_0, slice_from_app by (rewrite L18; reflexivity).
  destruct (seg_slices _ _ S) as [E1 E2]. rewrite E1, E2.
  assert (day_ok (seg_day s)) as DK by (destruct s as [r|a f]; [exact (proj1 (proj1 S))|exact (proj1 S)]).
  rewrite (getHoliday_text db rs _ R DK).
  fold (on_day (seg_day s)). unfold findable in A. unfold seg_now, seg_later.
  change (find (fun r : hrec => day_eqb (rday r) (seg_day s)) rs) with (find (on_day (seg_day s)) rs).
  destruct (find (on_day (seg_day s)) rs) as [r0|] eqn:F; cbn [option_map].
  - pose proof (find_some _ _ F) as [I0 K0]. apply on_day_eq in K0.
    destruct R as [D FF]. rewrite Forall_forall in FF. pose proof (FF r0 I0) as Fit0.
    destruct Fit0 as (D0 & T0 & N0) eqn:Fit0E. clear Fit0E.
    change (hname (rec_holiday (hnames db) r0)) with (nth (Z.to_nat (rname r0)) (hnames db) []).
    rewrite name_index_nth by (auto; lia). replace (0 + Z.of_nat (Z.to_nat (rname r0))) with (rname r0) by lia.
    replace (-1 <? rname r0) with true by lia.
    assert (day8 (seg_day s) ++ [rname r0 + HolidayUtil_ZERO] ++ lit (if hwork (rec_holiday (hnames db) r0) then "0" else "1")
              ++ undash (htarget (rec_holiday (hnames db) r0)) = rec_text r0) as ->.
    { unfold rec_text. rewrite K0. cbn [rec_holiday hwork htarget]. rewrite undash_dash.
      replace (rname r0 + HolidayUtil_ZERO) with (48 + rname r0) by (unfold HolidayUtil_ZERO; lia).
      destruct (rwork r0); reflexivity. }
    rewrite D. rewrite replace_aligned; [|apply rec_texts_18|apply rec_text_18|exact A].
    cbn [map concat]. rewrite app_nil_r.
    eexists. split; [reflexivity|]. split; [|reflexivity]. split; cbn [hdata hnames].
    + rewrite map_map. destruct s as [r|a f].
      * rewrite map_map. f_equal. apply map_ext_in. intros x I. rewrite (rec_text_eqb (hnames db)) by auto.
        destruct (rec_eqb x r0); reflexivity.
      * assert (forall l, (forall x, In x l -> In x rs) -> concat (map (fun x => if str_eqb (rec_text x) (rec_text r0) then [] else rec_text x) l)
                  = concat (map rec_text (filter (fun x => negb (rec_eqb x r0)) l))) as G; [|apply G; auto].
        induction l as [|x l IH]; intros Sub; [reflexivity|]. cbn [map concat filter].
        rewrite IH by (intros; apply Sub; now right). rewrite (rec_text_eqb (hnames db)) by (auto using in_eq).
        destruct (rec_eqb x r0); reflexivity.
    + apply Forall_forall in FF. pose proof (seg_now_fits (hnames db) rs s FF S) as G. unfold seg_now in G. now rewrite F in G.
  - destruct s as [r|a f]; cbn [seg_text map concat]; rewrite ?app_nil_r; (eexists; split; [reflexivity|]; split; [exact R|reflexivity]).
Qed.

Lemma seg_later_fits names rs s : seg_ok names s -> Forall (rec_fits names) (seg_later rs s).
Proof.
  unfold seg_later. intros S. destruct (find _ rs); [constructor|]. destruct s as [r|]; [|constructor].
  constructor; [apply S|constructor].
Qed.

(** ** The whole call. *)
Theorem C33_fix : forall db rs segs, represents db rs -> NoDup (hnames db) -> Forall (seg_ok (hnames db)) segs ->
  all_findable rs segs ->
  exists db', HolidayUtil_fix db None (Some (concat (map seg_text segs))) = Ok db' /\
    represents db' (fix_recs rs [] segs) /\ hnames db' = hnames db.
Proof.
  intros db rs segs R ND S A. unfold HolidayUtil_fix.
  set (final := fix_recs rs [] segs).
  destruct (loop_rule
    (fun st : str * str * HDB => let '(data, app, db1) := st in exists segs1 rs1 later,
       data = concat (map seg_text segs1) /\ app = concat (map rec_text later) /\
       represents db1 rs1 /\ hnames db1 = hnames db /\ Forall (rec_fits (hnames db)) later /\
       Forall (seg_ok (hnames db)) segs1 /\ all_findable rs1 segs1 /\ fix_recs rs1 later segs1 = final)
    (fun r => exists db', r = Ok db' /\ represents db' final /\ hnames db' = hnames db)
    (fun st => let '(data, _, _) := st in slen data)
    fix_step (slen (concat (map seg_text segs)) + 2) (concat (map seg_text segs), [], db)) as (r & E & db' & -> & H).
  - intros [[data app] db1] _. apply slen_nonneg.
  - intros [[data app] db1] (segs1 & rs1 & later & -> & -> & R1 & N1 & FL & S1 & A1 & E1).
    destruct segs1 as [|s segs1].
    + cbn [map concat fix_recs] in *. subst final. unfold fix_step. change (HolidayUtil_SIZE <=? slen []) with false. cbv iota.
      eexists. split; [reflexivity|]. rewrite <- E1. split; [|exact N1]. apply represents_app; [exact R1|now rewrite N1].
    + cbn [map concat all_findable fix_recs] in *. destruct A1 as [A1 A2]. pose proof (Forall_inv S1) as Ss. apply Forall_inv_tail in S1.
      destruct (fix_step_seg db1 rs1 s (concat (map seg_text segs1)) (concat (map rec_text later)) R1) as (db2 & E2 & R2 & N2);
        [now rewrite N1|now rewrite N1|exact A1|]. unfold str in E2 |- *. rewrite E2.
      split.
      * exists segs1, (seg_now rs1 s), (later ++ seg_later rs1 s). repeat split; auto.
        -- now rewrite map_app, concat_app.
        -- apply R2.
        -- apply R2.
        -- congruence.
        -- apply Forall_app. split; [exact FL|now apply seg_later_fits].
      * rewrite slen_app. rewrite (rec18_slen _ (seg_text_18 _ _ Ss)). lia.
  - exists segs, rs, []. repeat split; auto; apply R.
  - lia.
  - exists db'. split; [|exact H].
    exact (f_equal (fun x => bind x (fun r => r)) E).
Qed.

(** ** C32: one segment changes its own day only. *)
Lemma find_ext_Forall {A} (p q : A -> bool) l : (forall x, In x l -> p x = q x) -> find p l = find q l.
Proof.
  induction l as [|a l IH]; intros H; cbn; [reflexivity|]. rewrite H by now left.
  destruct (q a); [reflexivity|]. apply IH. intros; apply H; now right.
Qed.
Lemma find_app {A} (p : A -> bool) l l' : find p (l ++ l') = match find p l with Some x => Some x | None => find p l' end.
Proof. induction l as [|a l IH]; cbn; [reflexivity|]. destruct (p a); auto. Qed.
Lemma day_eqb_refl a : day_eqb a a = true.
Proof. now apply day_eqb_eq. Qed.
Lemma day_eqb_neq a b : a <> b -> day_eqb a b = false.
Proof. intros N. destruct (day_eqb a b) eqn:E; [|reflexivity]. now apply day_eqb_eq in E. Qed.

Lemma put_lookup rs r a : find (on_day a) (fix_recs rs [] [Put r]) =
  if day_eqb (rday r) a then Some r else find (on_day a) rs.
Proof.
  cbn [fix_recs app]. unfold seg_now, seg_later. cbn [seg_day].
  destruct (find (on_day (rday r)) rs) as [r0|] eqn:F.
  - rewrite app_nil_r. pose proof (find_some _ _ F) as [_ K0]. apply on_day_eq in K0.
    destruct (day_eqb (rday r) a) eqn:E.
    + apply day_eqb_eq in E. subst a. clear -F K0. induction rs as [|x rs IH]; [discriminate|]. cbn [find map] in *.
      destruct (on_day (rday r) x) eqn:O.
      * injection F as ->. assert (rec_eqb r0 r0 = true) as -> by now apply rec_eqb_eq.
        unfold on_day. now rewrite day_eqb_refl.
      * destruct (rec_eqb x r0) eqn:Q; [|rewrite O; now apply IH].
        apply rec_eqb_eq in Q. subst x. unfold on_day in O. rewrite K0, day_eqb_refl in O. discriminate.
    + clear F. induction rs as [|x rs IH]; [reflexivity|]. cbn [find map]. destruct (rec_eqb x r0) eqn:Q.
      * apply rec_eqb_eq in Q. subst x. assert (on_day a r = false) as -> by exact E.
        assert (on_day a r0 = false) as -> by (unfold on_day; now rewrite K0). exact IH.
      * destruct (on_day a x); [reflexivity|exact IH].
  - rewrite find_app. cbn [find]. unfold on_day at 2. destruct (day_eqb (rday r) a) eqn:E.
    + apply day_eqb_eq in E. subst a. now rewrite F.
    + destruct (find (on_day a) rs); reflexivity.
Qed.

Lemma drop_lookup rs b f a : NoDup (map rday rs) -> find (on_day a) (fix_recs rs [] [Drop b f]) =
  if day_eqb b a then None else find (on_day a) rs.
Proof.
  intros ND. cbn [fix_recs app]. unfold seg_now, seg_later. cbn [seg_day].
  destruct (find (on_day b) rs) as [r0|] eqn:F; rewrite app_nil_r.
  - pose proof (find_some _ _ F) as [I0 K0]. apply on_day_eq in K0.
    destruct (day_eqb b a) eqn:E.
    + apply day_eqb_eq in E. subst a.
      destruct (find (on_day b) (filter (fun x => negb (rec_eqb x r0)) rs)) as [x|] eqn:G; [|reflexivity]. exfalso.
      apply find_some in G. destruct G as [G1 G2]. apply filter_In in G1. destruct G1 as [G1 G3]. apply on_day_eq in G2.
      assert (x = r0) as ->.
      { clear -ND I0 G1 K0 G2. induction rs as [|z rs IH]; [easy|]. cbn [map] in ND. inversion ND as [|? ? N1 N2]; subst.
        destruct I0 as [->|I0], G1 as [->|G1]; auto.
        - exfalso. apply N1. rewrite <- G2. now apply in_map.
        - exfalso. apply N1. rewrite G2. now apply in_map. }
      assert (rec_eqb r0 r0 = true) by now apply rec_eqb_eq. rewrite H in G3. discriminate.
    + clear F I0 ND. induction rs as [|x rs IH]; [reflexivity|]. cbn [find filter]. destruct (rec_eqb x r0) eqn:Q; cbn [negb].
      * apply rec_eqb_eq in Q. subst x. assert (on_day a r0 = false) as -> by (unfold on_day; now rewrite K0). exact IH.
      * cbn [find]. destruct (on_day a x); [reflexivity|exact IH].
  - destruct (day_eqb b a) eqn:E; [|reflexivity]. apply day_eqb_eq in E. now subst.
Qed.

(** The day reads back as the segment says; every other day is as before. *)
Theorem C32_put : forall db rs r, represents db rs -> NoDup (hnames db) -> rec_fits (hnames db) r -> rname r <> 78 ->
  findable rs (rday r) ->
  exists db', HolidayUtil_fix db None (Some (rec_text r)) = Ok db' /\
    forall a, day_ok a -> getHoliday db' (dash a) 0 0 =
      if day_eqb (rday r) a then Ok (Some (rec_holiday (hnames db) r)) else getHoliday db (dash a) 0 0.
Proof.
  intros db rs r R ND F N A. destruct (C33_fix db rs [Put r] R ND) as (db' & E & R' & N').
  - constructor; [split; assumption|constructor].
  - cbn. auto.
  - cbn [map concat seg_text] in E. rewrite app_nil_r in E. exists db'. split; [exact E|]. intros a Da.
    rewrite (C28_getHoliday_text db' _ a _ R' Da (or_introl eq_refl)), (C28_getHoliday_text db rs a _ R Da (or_introl eq_refl)).
    rewrite put_lookup, N'. destruct (day_eqb (rday r) a); reflexivity.
Qed.

Theorem C32_remove : forall db rs b free, represents db rs -> NoDup (hnames db) -> day_ok b -> List.length free = 9%nat ->
  NoDup (map rday rs) -> findable rs b ->
  exists db', HolidayUtil_fix db None (Some (day8 b ++ lit "~" ++ free)) = Ok db' /\
    forall a, day_ok a -> getHoliday db' (dash a) 0 0 =
      if day_eqb b a then Ok None else getHoliday db (dash a) 0 0.
Proof.
  intros db rs b free R ND D L U A. destruct (C33_fix db rs [Drop b free] R ND) as (db' & E & R' & N').
  - constructor; [split; assumption|constructor].
  - cbn. auto.
  - cbn [map concat seg_text] in E. rewrite app_nil_r in E. exists db'. split; [exact E|]. intros a Da.
    rewrite (C28_getHoliday_text db' _ a _ R' Da (or_introl eq_refl)), (C28_getHoliday_text db rs a _ R Da (or_introl eq_refl)).
    rewrite (drop_lookup rs b free a U), N'. destruct (day_eqb b a); reflexivity.
Qed.

(** Every shipped record can be changed: its text occurs nowhere else. *)
Fixpoint unaligned_check (k : nat) (cand : list str) (s : str) : bool :=
  match s with
  | [] => true
  | _ :: t =>
      (match k with
       | O => true
       | _ => if (if prefixb [50; 48] s then prefixb [50; 48] (skipn 10 s) else false)
              then negb (existsb (fun r => prefixb r s) cand) else true
       end) && unaligned_check (match k with O => 17 | Datatypes.S j => j end) cand t
  end.

Lemma unaligned_check_ok cand : forall s k, (k < 18)%nat -> unaligned_check k cand s = true ->
  forall r, In r cand -> firstn 2 r = [50; 48] -> firstn 2 (skipn 10 r) = [50; 48] ->
  forall i, prefixb r (skipn i s) = true -> (i mod 18 = k)%nat.
Proof.
  induction s as [|c s IH]; intros k K H r I P1 P2 i Hi.
  - exfalso. rewrite skipn_nil in Hi. destruct r; [discriminate P1|discriminate Hi].
  - cbn [unaligned_check] in H. apply andb_prop in H. destruct H as [H1 H2].
    destruct i as [|i].
    + cbn [skipn] in Hi. destruct k as [|k]; [reflexivity|]. exfalso.
      destruct (if prefixb [50; 48] (c :: s) then prefixb [50; 48] (skipn 10 (c :: s)) else false) eqn:H0; [clear H0|].
      2:{ apply prefixb_firstn in Hi. rewrite <- Hi in P1, P2. clear Hi.
        assert (prefixb [50; 48] (c :: s) && prefixb [50; 48] (skipn 10 (c :: s)) = true) as Q; [|apply andb_prop in Q; destruct Q as [Q1 Q2]; rewrite Q1, Q2 in H0; discriminate].
        apply andb_true_intro. split; apply prefixb_firstn.
        -- rewrite firstn_firstn in P1. cbn [List.length].
           assert (2 <= List.length r)%nat as L2.
           { destruct r as [|? [|? r]]; cbn [List.length Nat.min firstn] in P1; try discriminate; cbn; lia. }
           now rewrite Nat.min_l in P1 by lia.
        -- rewrite skipn_firstn_comm, firstn_firstn in P2. cbn [List.length].
           destruct (Nat.le_gt_cases 2 (List.length r - 10)) as [L2|L2]; [now rewrite Nat.min_l in P2 by lia|].
           exfalso. apply (f_equal (@List.length Z)) in P2. rewrite firstn_length in P2. cbn [List.length] in P2. lia. }
      assert (existsb (fun r => prefixb r (c :: s)) cand = true) as Q by (apply existsb_exists; eauto). now rewrite Q in H1.
    + cbn [skipn] in Hi. specialize (IH (match k with O => 17 | Datatypes.S j => j end)%nat).
      assert (i mod 18 = match k with O => 17 | Datatypes.S j => j end)%nat as E by (apply (IH ltac:(destruct k; lia) H2 r I P1 P2 i Hi)).
      replace (Datatypes.S i) with (i + 1)%nat by lia. rewrite Nat.add_mod by lia. rewrite E.
      destruct k as [|k]; [reflexivity|]. rewrite (Nat.mod_small 1) by lia. rewrite Nat.mod_small by lia. lia.
Qed.

Theorem C32_shipped_findable : forall a, findable shipped a.
Proof.
  intros a. unfold findable. destruct (find (on_day a) shipped) as [r|] eqn:F; [|exact I].
  pose proof (find_some _ _ F) as [I0 _]. clear F.
  assert (unaligned_check 0 (map rec_text shipped) (concat (map rec_text shipped)) = true) as T by (vm_compute; reflexivity).
  assert (forallb (fun r => str_eqb (firstn 2 (rec_text r)) [50; 48] && str_eqb (firstn 2 (skipn 10 (rec_text r))) [50; 48]) shipped = true) as P
    by (vm_compute; reflexivity).
  rewrite forallb_forall in P. specialize (P r I0). apply andb_prop in P. destruct P as [P1 P2].
  intros i Hi. apply (unaligned_check_ok _ _ 0%nat ltac:(lia) T (rec_text r)).
  - now apply in_map.
  - now apply str_eqb_eq.
  - now apply str_eqb_eq.
  - exact Hi.
Qed.

Lemma NoDup_b (l : list str) : (fix go l := match l with [] => true | a :: t => negb (existsb (str_eqb a) t) && go t end) l = true -> NoDup l.
Proof.
  induction l as [|a l IH]; intros H; constructor; apply andb_prop in H; destruct H as [H1 H2]; [|now apply IH].
  intros K. assert (existsb (str_eqb a) l = true) by (apply existsb_exists; exists a; split; [exact K|apply str_eqb_refl]).
  now rewrite H in H1.
Qed.
Lemma shipped_names : NoDup HolidayUtil_NAMES.
Proof. apply NoDup_b. vm_compute. reflexivity. Qed.

Lemma in_order_days rs : in_order rs -> NoDup (map rday rs).
Proof.
  unfold in_order. induction 1 as [|r rs S IH F]; cbn [map]; constructor; [|exact IH].
  intros I. apply in_map_iff in I. destruct I as (x & E & I). rewrite Forall_forall in F. specialize (F x I). rewrite E in F. lia.
Qed.
Lemma shipped_days : NoDup (map rday shipped).
Proof. apply in_order_days, C29_shipped_in_order. Qed.

(** Removing New Year 2020 and turning 2 May 2020 into a working day, on the shipped data. *)
Example C32_case : (exists db', HolidayUtil_fix HDB_shipped None (Some (lit "20200101~000000000")) = Ok db' /\
    getHoliday db' (dash (2020, 1, 1)) 0 0 = Ok None /\
    getHoliday db' (dash (2020, 5, 1)) 0 0 = getHoliday HDB_shipped (dash (2020, 5, 1)) 0 0) /\
  (exists db', HolidayUtil_fix HDB_shipped None (Some (rec_text (mkRec (2020, 5, 2) 3 true (2020, 5, 1)))) = Ok db' /\
    exists h, getHoliday db' (dash (2020, 5, 2)) 0 0 = Ok (Some h) /\ hwork h = true).
Proof.
  split.
  - destruct (C32_remove HDB_shipped shipped (2020, 1, 1) (lit "000000000") C28_shipped shipped_names) as (db' & E & H);
      [unfold day_ok; lia|reflexivity|exact shipped_days|apply C32_shipped_findable|].
    exists db'. split; [exact E|]. split.
    + rewrite H by (unfold day_ok; lia). reflexivity.
    + rewrite H by (unfold day_ok; lia). reflexivity.
  - destruct (C32_put HDB_shipped shipped (mkRec (2020, 5, 2) 3 true (2020, 5, 1)) C28_shipped shipped_names) as (db' & E & H);
      [apply rec_fitsb_ok; vm_compute; reflexivity|cbn; lia|apply C32_shipped_findable|].
    exists db'. split; [exact E|]. eexists. rewrite H by (unfold day_ok; lia). split; reflexivity.
Qed.

(** The database after a call that does not raise. *)
Definition after (db : HDB) (data : str) : HDB := match HolidayUtil_fix db None (Some data) with Ok d => d | Raise _ => db end.
Lemma after_ok db data : is_ok (HolidayUtil_fix db None (Some data)) = true -> HolidayUtil_fix db None (Some data) = Ok (after db data).
Proof. unfold after. destruct (HolidayUtil_fix db None (Some data)); [reflexivity|discriminate]. Qed.

(** Without [findable] a correction can destroy another day.  The database below holds the shipped records of 1 and 2
    January 2012; a record added for 12 October 2010 has the text of characters 4-21 of it, and removing that
    record again removes those characters. *)
Definition db_2012 : HDB := mkHDB HolidayUtil_NAMES (lit "201201010120120101201201020120120101").
Theorem C32_other_day_refuted : exists db1 db2 h,
  represents db_2012 (filter (fun r => (year_of r =? 2012) && (month_of r =? 1) && (snd (rday r) <=? 2)) shipped) /\
  HolidayUtil_fix db_2012 None (Some (lit "201010120120101201")) = Ok db1 /\
  HolidayUtil_fix db1 None (Some (lit "20101012~000000000")) = Ok db2 /\
  getHoliday db1 (lit "2012-01-01") 0 0 = Ok (Some h) /\ getHoliday db2 (lit "2012-01-01") 0 0 = Ok None.
Proof.
  exists (after db_2012 (lit "201010120120101201")), (after (after db_2012 (lit "201010120120101201")) (lit "20101012~000000000")).
  eexists. split; [|split; [apply after_ok; vm_compute; reflexivity|split; [apply after_ok; vm_compute; reflexivity|split; vm_compute; reflexivity]]].
  split; [vm_compute; reflexivity|].
  apply Forall_forall. intros r I. apply filter_In in I. destruct I as [I _]. destruct C28_shipped as [_ F].
  rewrite Forall_forall in F. exact (F r I).
Qed.

(** A record whose flag is neither 0 nor 1 (the documentation allows it: "otherwise holiday") cannot be removed. *)
Theorem C32_flag_refuted : exists db1 db2 h,
  HolidayUtil_fix db_2012 None (Some (lit "209901010220990101")) = Ok db1 /\
  HolidayUtil_fix db1 None (Some (lit "20990101~000000000")) = Ok db2 /\
  getHoliday db2 (lit "2099-01-01") 0 0 = Ok (Some h).
Proof.
  exists (after db_2012 (lit "209901010220990101")), (after (after db_2012 (lit "209901010220990101")) (lit "20990101~000000000")).
  eexists. split; [apply after_ok; vm_compute; reflexivity|split; [apply after_ok; vm_compute; reflexivity|vm_compute; reflexivity]].
Qed.

(** ** C33: one record per day, over any history of calls. *)
Lemma seg_now_days rs s : (exists r, s = Put r) -> map rday (seg_now rs s) = map rday rs.
Proof.
  intros [r ->]. unfold seg_now. cbn [seg_day]. destruct (find _ rs) as [r0|] eqn:F; [|reflexivity].
  apply find_some in F. destruct F as [_ F]. apply on_day_eq in F. rewrite map_map. apply map_ext. intros x.
  destruct (rec_eqb x r0) eqn:E; [|reflexivity]. apply rec_eqb_eq in E. now subst.
Qed.
Lemma seg_now_incl rs s d : In d (map rday (seg_now rs s)) -> In d (map rday rs).
Proof.
  destruct s as [r|a f]; [now rewrite seg_now_days by eauto|]. unfold seg_now. destruct (find _ rs); [|auto].
  intros I. apply in_map_iff in I. destruct I as (x & <- & I). apply filter_In in I. apply in_map, I.
Qed.
Lemma NoDup_filter_map {A B} (f : A -> B) p l : NoDup (map f l) -> NoDup (map f (filter p l)).
Proof.
  induction l as [|a l IH]; intros H; cbn [map filter] in *; [constructor|]. inversion H as [|? ? N1 N2]; subst.
  destruct (p a); [|auto]. cbn [map]. constructor; [|auto]. intros I. apply N1. apply in_map_iff in I.
  destruct I as (x & E & I). apply filter_In in I. apply in_map_iff. exists x. tauto.
Qed.
Lemma NoDup_app_intro {A} (a b : list A) : NoDup a -> NoDup b -> (forall x, In x a -> ~ In x b) -> NoDup (a ++ b).
Proof.
  induction 1 as [|x a N Da IH]; intros Db H; [exact Db|]. cbn. constructor.
  - rewrite in_app_iff. intros [K|K]; [easy|]. apply (H x); [now left|exact K].
  - apply IH; [exact Db|]. intros y Y. apply H. now right.
Qed.
Lemma NoDup_app_inv {A} (a b : list A) : NoDup (a ++ b) -> NoDup a /\ NoDup b /\ (forall x, In x a -> ~ In x b).
Proof.
  induction a as [|x a IH]; cbn; intros H; [repeat split; auto; constructor|]. inversion H as [|? ? N D]; subst.
  destruct (IH D) as (Da & Db & X). rewrite in_app_iff in N. repeat split; auto.
  - constructor; tauto.
  - intros y [->|Y]; [tauto|auto].
Qed.

Lemma fix_recs_days segs : forall rs later, NoDup (map rday (rs ++ later)) -> NoDup (map seg_day segs) ->
  (forall s, In s segs -> ~ In (seg_day s) (map rday later)) -> NoDup (map rday (fix_recs rs later segs)).
Proof.
  induction segs as [|s segs IH]; intros rs later U D X; [exact U|]. cbn [fix_recs]. cbn [map] in D.
  inversion D as [|? ? N D']; subst. rewrite map_app in U. destruct (NoDup_app_inv _ _ U) as (U1 & U2 & U3).
  assert (NoDup (map rday (seg_now rs s))) as V1.
  { destruct s as [r|a f]; [now rewrite seg_now_days by eauto|]. unfold seg_now. destruct (find _ rs); [now apply NoDup_filter_map|exact U1]. }
  assert (forall x, In x (map rday (seg_later rs s)) -> x = seg_day s /\ ~ In x (map rday rs)) as L.
  { unfold seg_later. destruct (find (on_day (seg_day s)) rs) eqn:F; [easy|]. destruct s as [r|]; [|easy].
    intros x [<-|[]]. split; [reflexivity|]. intros I. apply in_map_iff in I. destruct I as (z & E & I).
    apply List.find_none with (x := z) in F; [|exact I]. cbn [seg_day] in F. unfold on_day in F. rewrite E, day_eqb_refl in F. discriminate. }
  assert (NoDup (map rday (seg_later rs s))) as V2.
  { unfold seg_later. destruct (find _ rs); [constructor|]. destruct s; [|constructor]. repeat constructor. easy. }
  apply IH; [|exact D'|].
  - rewrite app_assoc, map_app, map_app. apply NoDup_app_intro; [apply NoDup_app_intro|exact V2|]; auto.
    + intros x I. apply U3. now apply seg_now_incl in I.
    + intros x I J. apply L in J. destruct J as [-> J]. apply in_app_iff in I. destruct I as [I|I].
      * apply J. now apply seg_now_incl in I.
      * exact (X s (or_introl eq_refl) I).
  - intros t T. rewrite map_app, in_app_iff. intros [I|I].
    + exact (X t (or_intror T) I).
    + apply L in I. destruct I as [I _]. apply N. rewrite <- I. now apply in_map.
Qed.

(** A history of calls of [fix(None, data)]. *)
Definition fix_calls (db : HDB) (calls : list (list seg)) : res HDB :=
  foldM (fun db segs => HolidayUtil_fix db None (Some (concat (map seg_text segs)))) db calls.
Fixpoint calls_ok (names : list str) (rs : list hrec) (calls : list (list seg)) : Prop :=
  match calls with
  | [] => True
  | segs :: t => Forall (seg_ok names) segs /\ all_findable rs segs /\ NoDup (map seg_day segs) /\
                 calls_ok names (fix_recs rs [] segs) t
  end.

Theorem C33_history : forall calls db rs, represents db rs -> NoDup (hnames db) -> NoDup (map rday rs) ->
  calls_ok (hnames db) rs calls ->
  exists db' rs', fix_calls db calls = Ok db' /\ represents db' rs' /\ NoDup (map rday rs') /\ hnames db' = hnames db.
Proof.
  induction calls as [|segs calls IH]; intros db rs R ND U C.
  - exists db, rs. auto.
  - destruct C as (S & A & D & C). destruct (C33_fix db rs segs R ND S A) as (db1 & E & R1 & N1).
    destruct (IH db1 (fix_recs rs [] segs) R1) as (db' & rs' & E' & R' & U' & N').
    + now rewrite N1.
    + apply fix_recs_days; [now rewrite app_nil_r|exact D|]. intros s _ [].
    + now rewrite N1.
    + exists db', rs'. split; [|split; [exact R'|split; [exact U'|congruence]]].
      unfold fix_calls in *. cbn [foldM]. rewrite E. exact E'.
Qed.

(** The data stay a sequence of 18-character records: their length. *)
Theorem C33_length : forall db rs, represents db rs -> slen (hdata db) = 18 * Z.of_nat (List.length rs).
Proof.
  intros db rs [-> _]. unfold slen. rewrite concat18_length by apply rec_texts_18. rewrite map_length. lia.
Qed.

(** Two new days on the shipped data, then a third in another call. *)
Example C33_case : exists db' rs', fix_calls HDB_shipped
    [[Put (mkRec (2031, 1, 1) 0 false (2031, 1, 1)); Put (mkRec (2031, 1, 2) 0 false (2031, 1, 1))]; [Drop (1999, 1, 1) (lit "000000000")]]
  = Ok db' /\ represents db' rs' /\ NoDup (map rday rs').
Proof.
  assert (find (on_day (2031, 1, 1)) shipped = None) as F1 by (vm_compute; reflexivity).
  assert (find (on_day (2031, 1, 2)) shipped = None) as F2 by (vm_compute; reflexivity).
  assert (find (on_day (1999, 1, 1)) shipped = None) as F3 by (vm_compute; reflexivity).
  destruct (C33_history [[Put (mkRec (2031, 1, 1) 0 false (2031, 1, 1)); Put (mkRec (2031, 1, 2) 0 false (2031, 1, 1))]; [Drop (1999, 1, 1) (lit "000000000")]]
    HDB_shipped shipped C28_shipped shipped_names shipped_days) as (db' & rs' & E & R & U & _).
  - cbn [calls_ok fix_recs all_findable]. unfold findable, seg_now, seg_later. cbn [seg_day rday]. rewrite F1, F2. cbn [app].
    rewrite find_app, F3. cbn [find on_day day_eqb rday Z.eqb andb map seg_day]. repeat split; auto.
    + repeat constructor; try (apply rec_fitsb_ok; vm_compute; reflexivity); cbn; lia.
    + constructor; [intros [K|[]]; discriminate|]. repeat constructor. intros [].
    + repeat constructor; cbn; lia.
    + repeat constructor. intros [].
  - exists db', rs'. auto.
Qed.

(** One call that adds the same new day twice leaves two records for it. *)
Theorem C33_duplicate_refuted : exists segs db' rs', Forall (seg_ok HolidayUtil_NAMES) segs /\
  HolidayUtil_fix HDB_shipped None (Some (concat (map seg_text segs))) = Ok db' /\
  represents db' rs' /\ ~ NoDup (map rday rs').
Proof.
  exists [Put (mkRec (2031, 1, 1) 0 false (2031, 1, 1)); Put (mkRec (2031, 1, 1) 0 true (2031, 1, 1))].
  assert (Forall (seg_ok HolidayUtil_NAMES) [Put (mkRec (2031, 1, 1) 0 false (2031, 1, 1)); Put (mkRec (2031, 1, 1) 0 true (2031, 1, 1))]) as S.
  { repeat constructor; try (apply rec_fitsb_ok; vm_compute; reflexivity); cbn; lia. }
  assert (find (on_day (2031, 1, 1)) shipped = None) as F by (vm_compute; reflexivity).
  destruct (C33_fix HDB_shipped shipped _ C28_shipped shipped_names S) as (db' & E & R & N).
  - cbn [all_findable seg_day rday]. unfold findable, seg_now. cbn [seg_day rday]. rewrite F. rewrite F. auto.
  - exists db', (fix_recs shipped [] [Put (mkRec (2031, 1, 1) 0 false (2031, 1, 1)); Put (mkRec (2031, 1, 1) 0 true (2031, 1, 1))]).
    split; [exact S|]. split; [exact E|]. split; [exact R|]. cbn [fix_recs]. unfold seg_now, seg_later. cbn [seg_day rday].
    rewrite F. rewrite F. cbn [app]. rewrite map_app. cbn [map rday]. intros U. apply NoDup_app_inv in U.
    destruct U as (_ & U & _). inversion U as [|? ? K _]. apply K. now left.
Qed.

(** ** C30: listing a year after corrections. *)
(** Corrections of days that have a record keep the order, so the listings stay complete. *)
Lemma seg_now_order rs s : in_order rs -> in_order (seg_now rs s).
Proof.
  unfold in_order. intros O. unfold seg_now. destruct (find (on_day (seg_day s)) rs) as [r0|] eqn:F; [|exact O]. destruct s as [r|a f].
  - apply find_some in F. destruct F as [_ F]. apply on_day_eq in F. cbn [seg_day] in F.
    set (g := fun x => if rec_eqb x r0 then r else x).
    assert (forall x, rday (g x) = rday x) as G.
    { intros x. unfold g. destruct (rec_eqb x r0) eqn:E; [|reflexivity]. apply rec_eqb_eq in E. now subst. }
    clearbody g. clear F. induction O as [|x rs O IH H]; cbn [map]; constructor; [exact IH|].
    rewrite Forall_map. eapply Forall_impl; [|exact H]. intros y. rewrite !G. auto.
  - clear F. induction O as [|x rs O IH H]; cbn [filter]; [constructor|]. destruct (negb (rec_eqb x r0)); [|exact IH].
    constructor; [exact IH|]. rewrite Forall_forall in *. intros y I. apply filter_In in I. now apply H.
Qed.

Lemma fix_recs_order segs : forall rs later, in_order rs -> (forall s, In s segs -> In (seg_day s) (map rday rs)) ->
  NoDup (map seg_day segs) -> exists rs', fix_recs rs later segs = rs' ++ later /\ in_order rs'.
Proof.
  induction segs as [|s segs IH]; intros rs later O H D; [exists rs; auto|]. cbn [fix_recs]. cbn [map] in D.
  inversion D as [|? ? N D']; subst.
  assert (exists r0, find (on_day (seg_day s)) rs = Some r0) as [r0 F].
  { destruct (find (on_day (seg_day s)) rs) as [r0|] eqn:F; [eauto|]. exfalso.
    specialize (H s (or_introl eq_refl)). apply in_map_iff in H. destruct H as (z & E & I).
    apply List.find_none with (x := z) in F; [|exact I]. unfold on_day in F. rewrite E, day_eqb_refl in F. discriminate. }
  assert (seg_later rs s = []) as -> by (unfold seg_later; now rewrite F). rewrite app_nil_r.
  apply IH; [now apply seg_now_order| |exact D'].
  intros t T. specialize (H t (or_intror T)). destruct s as [r|a f]; [now rewrite seg_now_days by eauto|].
  unfold seg_now. rewrite F. apply in_map_iff in H. destruct H as (z & E & I). apply in_map_iff. exists z. split; [exact E|].
  apply filter_In. split; [exact I|]. destruct (rec_eqb z r0) eqn:Q; [|reflexivity]. exfalso. apply rec_eqb_eq in Q. subst z.
  apply find_some in F. destruct F as [_ F]. apply on_day_eq in F. cbn [seg_day] in *. apply N. rewrite <- F, E. now apply in_map.
Qed.

Theorem C30_existing_days : forall db rs segs y, represents db rs -> in_order rs -> NoDup (hnames db) ->
  Forall (seg_ok (hnames db)) segs -> all_findable rs segs ->
  (forall s, In s segs -> In (seg_day s) (map rday rs)) -> NoDup (map seg_day segs) -> 1000 <= y <= 9999 ->
  exists db' rs', HolidayUtil_fix db None (Some (concat (map seg_text segs))) = Ok db' /\ represents db' rs' /\
    getHolidays db' (str_of_Z y) 0 = Ok (map (rec_holiday (hnames db)) (filter (fun r => year_of r =? y) rs')).
Proof.
  intros db rs segs y R O ND S A H D Y. destruct (C33_fix db rs segs R ND S A) as (db' & E & R' & N').
  destruct (fix_recs_order segs rs [] O H D) as (rs' & Er & O'). rewrite app_nil_r in Er. rewrite Er in R'.
  exists db', rs'. split; [exact E|]. split; [exact R'|]. rewrite <- N'. now apply C29_year.
Qed.

(** Whatever was appended: the first contiguous run of the year is listed. *)
Theorem C30_first_run : forall db rs y, represents db rs -> 1000 <= y <= 9999 ->
  getHolidays db (str_of_Z y) 0 = Ok (map (rec_holiday (hnames db)) (first_run (fun r => year_of r =? y) rs)).
Proof. exact getHolidays_year_run. Qed.

(** A new day is appended at the end, so a year which already has records does not list it. *)
Theorem C30_appended_refuted : exists db' h l, HolidayUtil_fix HDB_shipped None (Some (lit "201808080020180808")) = Ok db' /\
  getHoliday db' (dash (2018, 8, 8)) 0 0 = Ok (Some h) /\ getHolidays db' (str_of_Z 2018) 0 = Ok l /\ ~ In h l.
Proof.
  set (r := mkRec (2018, 8, 8) 0 true (2018, 8, 8)).
  assert (find (on_day (2018, 8, 8)) shipped = None) as F by (vm_compute; reflexivity).
  destruct (C33_fix HDB_shipped shipped [Put r] C28_shipped shipped_names) as (db' & E & R & N).
  - constructor; [|constructor]. split; [apply rec_fitsb_ok; vm_compute; reflexivity|cbn; lia].
  - cbn [all_findable]. unfold findable. cbn [seg_day rday r]. rewrite F. auto.
  - exists db', (rec_holiday HolidayUtil_NAMES r). eexists. split; [exact E|].
    split; [|split; [apply (C30_first_run _ _ _ R); lia|]].
    + rewrite (C28_getHoliday_text db' _ (2018, 8, 8) _ R ltac:(unfold day_ok; lia) (or_introl eq_refl)).
      rewrite put_lookup, N. reflexivity.
    + cbn [fix_recs]. unfold seg_now, seg_later. cbn [seg_day rday r]. rewrite F. rewrite N. cbn [app].
      intros I. apply in_map_iff in I. destruct I as (x & Ex & I).
      assert (forallb (fun x => negb (day_eqb (rday x) (2018, 8, 8))) (first_run (fun r => year_of r =? 2018) (shipped ++ [r])) = true) as T
        by (vm_compute; reflexivity).
      rewrite forallb_forall in T. specialize (T x I). apply (f_equal hday) in Ex. cbn [rec_holiday hday] in Ex.
      apply (f_equal undash) in Ex. rewrite !undash_dash in Ex. apply day8_inj in Ex.
      * rewrite Ex in T. discriminate.
      * assert (In x (shipped ++ [r])) as I'.
        { unfold first_run in I. clear -I. revert I. generalize (shipped ++ [r]). intros l. induction l as [|z l IH]; [easy|].
          cbn [drop_until]. destruct (year_of z =? 2018) eqn:Z; [|intros; right; auto]. clear IH. revert Z. revert z. induction l as [|w l IH]; intros z Z.
          - cbn. rewrite Z. auto.
          - cbn [take_while]. rewrite Z. intros [->|I]; [now left|]. right. destruct (year_of w =? 2018) eqn:W; [|easy].
            apply IH; [exact W|]. cbn [take_while]. rewrite W. exact I. }
        apply in_app_iff in I'. destruct I' as [I'|[<-|[]]]; [|unfold day_ok; cbn; lia].
        destruct C28_shipped as [_ FF]. rewrite Forall_forall in FF. exact (proj1 (FF x I')).
      * unfold day_ok; cbn; lia.
Qed.

Example C30_case : exists db' rs', HolidayUtil_fix HDB_shipped None (Some (lit "20200101~000000000")) = Ok db' /\ represents db' rs' /\
    getHolidays db' (str_of_Z 2020) 0 = Ok (map (rec_holiday HolidayUtil_NAMES) (filter (fun r => year_of r =? 2020) rs')).
Proof.
  apply (C30_existing_days HDB_shipped shipped [Drop (2020, 1, 1) (lit "000000000")] 2020 C28_shipped C29_shipped_in_order shipped_names).
  - repeat constructor; cbn; lia.
  - cbn [all_findable seg_day]. split; [apply C32_shipped_findable|exact I].
  - intros s [<-|[]]. cbn [seg_day].
    assert (existsb (fun r => day_eqb (rday r) (2020, 1, 1)) shipped = true) as T by (vm_compute; reflexivity).
    apply existsb_exists in T. destruct T as (r & I & E). apply day_eqb_eq in E. rewrite <- E. now apply in_map.
  - repeat constructor. intros [].
  - lia.
Qed.
