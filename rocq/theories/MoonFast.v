(** The month tables of the years after 3002 from one list of new moons: what the code's search for the sixteen new moons of a year
    finds (LunarYear.py:85-90) is a stretch of the list, for every C library that meets [libm]; the tables follow from it and from the
    place of the leap month. *)
From Coq Require Import ZArith Lia Reals Lra Psatz.
From Flocq Require Import Core BinarySingleNaN PrimFloat.
From Coq Require Import Bool ZifyBool List Floats.
From Verif Require Import Py PyFloat FloatFacts FloatTac T_ShouXing ShouXing FloatExpr Trig SunLon SunTerm SunQi SunKb SunYear Cert CertSky MoonLite MoonCut T_LunarUtil T_Misc.
From Verif Require Import CalSpec DayNo Solar SolarProofs LunarYear Lunar LunarProofs YearProofs CalProofs CalCheck P_LunarYears CertZhong CertYears.
Import ListNotations.
Open Scope Z_scope.
Local Set Warnings "-inexact-float".

(** ** The list of new moons *)
Definition cN (k : Z) : res Z := let! t := shuoHighF cert_arith cert_tabs (cc_lit (moon_w k)) in half_floor cert_arith t.
Definition cM (k : Z) : res Z := let! t := shuo_cut cert_cuts (cc_lit (moon_w k)) in half_floor cert_arith t.
Definition moon_next (k N : Z) : option Z :=
  match lite k N with
  | Some M => Some M
  | None => match (match cM k with Ok M => Ok M | Raise _ => cN k end) with Ok M => if (N + 29 <=? M) && (M <=? N + 30) then Some M else None | Raise _ => None end
  end.
Definition in_window (k N : Z) : bool := let d := 10000 * N - 295306 * k in (-60000 <=? d) && (d <=? 200000).
(** the new moons [k .. k + n] after those already found, which are in reverse *)
Fixpoint moons (n : nat) (k N : Z) (acc : list Z) : option (list Z) :=
  if in_window k N then
    match n with
    | O => Some (rev_append (N :: acc) [])
    | S n => match moon_next (k + 1) N with Some M => moons n (k + 1) M (N :: acc) | None => None end
    end
  else None.
(** ** The leap month *)
Definition qi_wk (n : Z) : float := (float_of_Z n * PI / 12)%float.
Definition cQ (n : Z) : res Z := let! t := qiHighF cert_arith cert_tabs (cc_lit (qi_wk n)) in half_floor cert_arith t.
Definition term0 (y : Z) : Z := 24 * (y - 2000) + 18.
Definition fast_step (y : Z) (hs : list Z) (i : Z) : Z + res Z :=
  match py_index hs (i + 1), (if i <? 13 then cQ (term0 y + 2 * i) else Raise ExcIndex) with
  | Ok h, Ok q => if (q <? h) && (i <? 13) then inl (i + 1) else inr (Ok i)
  | Raise e, _ => inr (Raise e)
  | _, Raise e => inr (Raise e)
  end.
Definition fast_leap (y : Z) (hs : list Z) (q24 : Z) : res Z :=
  if existsb (Z.eqb y) LunarYear_LEAP_11 then Ok 13
  else if existsb (Z.eqb y) LunarYear_LEAP_12 then Ok 14
  else
    let! h := py_index hs 13 in
    if h <=? q24 then let! r := loop 20 (fast_step y hs) 1 in r
    else Ok 16.

(** ** The tables: position, year (from the table's), number and index of a month *)
Definition entry : Type := Z * Z * Z * Z.
Definition en0 : entry := (0, 0, 0, 0).
Definition en_i (e : entry) : Z := let '(i, _, _, _) := e in i.
Definition en_y (e : entry) : Z := let '(_, y, _, _) := e in y.
Definition en_m (e : entry) : Z := let '(_, _, m, _) := e in m.
Definition shape_step (leap : Z) (st : Z * Z * Z) (i : Z) : Z * Z * Z * entry :=
  let '(fm, index, y) := st in
  let v2 := if leap <=? i then i - 1 else i in
  let mc := nth (Z.to_nat (v2 mod 12)) YMC 0 in
  let '(fm, index) := if fm =? -1 then (mc, mc) else (fm, index) in
  let '(y, index) := if mc <? fm then (y + 1, 1) else (y, index) in
  (mc, index + 1, y, (i, y, if i =? leap then - mc else mc, index)).
Fixpoint shape_from (leap : Z) (st : Z * Z * Z) (is_ : list Z) : list entry :=
  match is_ with [] => [] | i :: t => let '(st', e) := shape_step leap st i in e :: shape_from leap st' t end.
Definition shape (leap : Z) : list entry := shape_from leap (-1, -1, -1) (zrange 0 15).
Definition hth (hs : list Z) (i : Z) : Z := nth (Z.to_nat i) hs 0.
Definition mk (y : Z) (hs : list Z) (e : entry) : LMonth :=
  let '(i, dy, m, ix) := e in mkLMonth (y + dy) m (hth hs (i + 1) - hth hs i) (hth hs i + 2451545) ix.
Lemma py_hth hs i : 0 <= i < Z.of_nat (List.length hs) -> py_index hs i = Ok (hth hs i).
Proof. intros H. exact (py_index_nth hs i 0 H). Qed.
Lemma months_shape leap hs y is_ : forall fm ix dy, (forall i, In i is_ -> 0 <= i /\ i + 1 < Z.of_nat (List.length hs) /\ 0 <= hth hs i) ->
  months_from leap hs (fm, ix, y + dy) is_ = Ok (map (mk y hs) (shape_from leap (fm, ix, dy) is_)).
Proof.
  induction is_ as [|i is_ IH]; intros fm ix dy H; [reflexivity|]. cbn [months_from shape_from]. destruct (H i (or_introl eq_refl)) as (H1 & H2 & H3).
  unfold month_step, shape_step. rewrite !py_hth by lia. cbn [bind]. set (h := hth hs i) in *. set (h' := hth hs (i + 1)).
  set (v2 := if leap <=? i then i - 1 else i). pose proof (Z.mod_pos_bound v2 12 ltac:(lia)) as B1. pose proof (Z.mod_pos_bound (v2 + 1) 12 ltac:(lia)) as B2.
  rewrite (py_index_nth YMC (v2 mod 12) 0) by (cbn; lia). rewrite (py_index_nth YMC ((v2 + 1) mod 12) 0) by (cbn; lia). cbn [bind].
  replace ((1724360 <=? h + 2451545) && (h + 2451545 <? 1729794)) with false by lia. replace ((1807724 <=? h + 2451545) && (h + 2451545 <? 1808699)) with false by lia.
  replace ((h + 2451545 =? 1729794) || (h + 2451545 =? 1808699)) with false by lia. set (mc := nth (Z.to_nat (v2 mod 12)) YMC 0).
  destruct (fm =? -1); destruct (mc <? _); rewrite ?Z.ltb_irrefl; cbn [bind]; rewrite <- ?Z.add_assoc, IH by (intros j Hj; apply H; now right); reflexivity.
Qed.
Lemma table_shape leap hs y : List.length hs = 16%nat -> (forall i, 0 <= i < 15 -> 0 <= hth hs i) -> months_from leap hs (-1, -1, y - 1) (zrange 0 15) = Ok (map (mk y hs) (shape leap)).
Proof. intros L H. apply (months_shape leap hs y (zrange 0 15) (-1) (-1) (-1)). intros i Hi. apply in_zrange in Hi. rewrite L. cbn. pose proof (H i ltac:(lia)). lia. Qed.

(** ** What the tables of neighbouring years need to agree, in terms of their shapes *)
Definition en_key (e : entry) : Z := 26 * en_y e + 2 * Z.abs (en_m e) + (if en_m e <? 0 then 1 else 0).
Fixpoint en_chain (a : entry) (l : list entry) : bool := match l with [] => true | b :: t => (en_i b =? en_i a + 1) && (en_key a <? en_key b) && en_chain b t end.
Definition leap_ok (leap : Z) : bool := (1 <=? leap) && (leap <=? 16) && negb (leap =? 15).
(** the first month of the table's own year *)
Definition own_first (leap : Z) : Z := if leap <=? 2 then 3 else 2.
Definition en_ok (leap : Z) (e : entry) : bool :=
  (0 <=? en_i e) && (en_i e <? 15) && (1 <=? Z.abs (en_m e)) && (Z.abs (en_m e) <=? 12) &&
  ((en_y e =? -1) || (en_y e =? 0) && (own_first leap <=? en_i e) || (en_y e =? 1) && (leap =? 16) && (en_i e =? 14)).
Definition shape_ok (leap : Z) : bool :=
  match shape leap with
  | [] => false
  | a :: t => (List.length (a :: t) =? 15)%nat && (en_i a =? 0) && en_chain a t && forallb (en_ok leap) (a :: t) && (en_i (last (a :: t) en0) =? 14)
  end.
(** the months from place [s] on are the first ones of the next table *)
Definition en_eq (s : Z) (a b : entry) : bool := (en_i a =? en_i b + s) && (en_m a =? en_m b) && (en_y a =? en_y b + 1).
Fixpoint en_pre (s : Z) (l l' : list entry) : bool :=
  match l, l' with
  | [], _ => true
  | a :: l, b :: l' => en_eq s a b && en_pre s l l'
  | _, [] => false
  end.
Definition compat (leap s leap' : Z) : bool :=
  en_pre s (skipn (Z.to_nat s) (shape leap)) (shape leap') &&
  forallb (fun b => if en_y b =? -1 then existsb (fun a => en_eq s a b) (shape leap) else true) (shape leap') &&
  forallb (fun a => if en_y a =? 1 then existsb (fun b => en_eq s a b) (shape leap') else true) (shape leap).
Definition allow (leap s leap' : Z) : bool :=
  if leap <=? 12 then (s =? 13) && (3 <=? leap') else if leap =? 13 then (s =? 12) && (leap' =? 1) else if leap =? 14 then (s =? 12) && (leap' =? 2) else (s =? 12) && (3 <=? leap').
Lemma shapes_ok : forallb (fun l => if leap_ok l then shape_ok l else true) (zrange 1 17) = true. Proof. vm_compute. reflexivity. Qed.
Lemma compat_ok : forallb (fun l => if leap_ok l then forallb (fun s => forallb (fun l' => if leap_ok l' && allow l s l' then compat l s l' else true) (zrange 1 17)) (zrange 12 14) else true) (zrange 1 17) = true.
Proof. vm_compute. reflexivity. Qed.
Lemma far_ok : forallb (fun l => if leap_ok l then forallb (fun l' => en_key (last (shape l) en0) <? 52 + en_key (hd en0 (shape l'))) (zrange 1 17) else true) (zrange 1 17) = true.
Proof. vm_compute. reflexivity. Qed.

(** ** The tables pass [checked] *)
Definition bounds (y leap : Z) (hs : list Z) : bool :=
  let j := ybase y + 1 in let j1 := ybase (y + 1) + 1 in
  (ybase (y - 1) + 1 <? hth hs 0 + 2451545) && (hth hs 0 + 2451545 <=? j) && (j <=? hth hs (own_first leap) + 2451545) &&
  (j1 <? hth hs 15 + 2451545) && (hth hs 15 + 2451545 <=? ybase (y + 2) + 1) && (if leap =? 16 then j1 <=? hth hs 14 + 2451545 else true).
Definition stepped (hs : list Z) : Prop := forall i, 0 <= i < 15 -> 29 <= hth hs (i + 1) - hth hs i <= 30.
Record well (y leap : Z) (hs : list Z) : Prop := mkWell {
  we_y : 2000 <= y;
  we_leap : leap_ok leap = true;
  we_steps : stepped hs;
  we_bounds : bounds y leap hs = true
}.
Lemma stepped_le hs i j : stepped hs -> 0 <= i <= j -> j <= 15 -> 29 * (j - i) <= hth hs j - hth hs i <= 30 * (j - i).
Proof.
  intros S Hi Hj. replace j with (i + Z.of_nat (Z.to_nat (j - i))) in * by lia. set (n := Z.to_nat (j - i)) in *. clearbody n. induction n as [|n IH]; [rewrite Z.add_0_r; lia|].
  specialize (IH ltac:(lia) ltac:(lia)). pose proof (S (i + Z.of_nat n) ltac:(lia)). replace (i + Z.of_nat (Datatypes.S n)) with (i + Z.of_nat n + 1) by lia. lia.
Qed.
Lemma mk_key y hs e : key (mk y hs e) = 26 * y + en_key e.
Proof. destruct e as [[[i dy] m] ix]. unfold key, en_key, mk, en_y, en_m. cbn [my mm]. lia. Qed.
Lemma mk_first y hs e : mfirst (mk y hs e) = hth hs (en_i e) + 2451545. Proof. destruct e as [[[i dy] m] ix]. reflexivity. Qed.
Lemma mk_count y hs e : mcount (mk y hs e) = hth hs (en_i e + 1) - hth hs (en_i e). Proof. destruct e as [[[i dy] m] ix]. reflexivity. Qed.
Lemma mk_my y hs e : my (mk y hs e) = y + en_y e. Proof. destruct e as [[[i dy] m] ix]. reflexivity. Qed.
Lemma mk_mm y hs e : mm (mk y hs e) = en_m e. Proof. destruct e as [[[i dy] m] ix]. reflexivity. Qed.
Lemma mk_end y hs e : mend (mk y hs e) = hth hs (en_i e + 1) + 2451545. Proof. unfold mend. rewrite mk_first, mk_count. lia. Qed.
Lemma chain_mk y hs l : forall a, en_chain a l = true -> chainb (mk y hs a) (map (mk y hs) l) = true.
Proof.
  induction l as [|b l IH]; intros a H; [reflexivity|]. cbn [en_chain] in H. cbn [map chainb]. apply andb_true_iff in H. destruct H as [H1 H2].
  replace (precedes (mk y hs a) (mk y hs b)) with true; [exact (IH b H2)|]. unfold precedes. rewrite mk_end, mk_first, !mk_key. apply andb_true_iff in H1. destruct H1 as [H1 H3]. apply Z.eqb_eq in H1. rewrite H1. lia.
Qed.
Lemma last_map {X Y} (f : X -> Y) l d d' : l <> [] -> last (map f l) d = f (last l d').
Proof. induction l as [|a l IH]; intros H; [congruence|]. destruct l as [|b l]; [reflexivity|]. cbn [map last]. apply IH. discriminate. Qed.
Lemma shape_facts leap : leap_ok leap = true -> shape_ok leap = true.
Proof. intros H. pose proof (forallb_zrange _ _ _ shapes_ok leap) as G. cbv beta in G. rewrite H in G. apply G. unfold leap_ok in H. lia. Qed.
Section WELL.
Variables (y leap : Z) (hs : list Z).
Hypothesis W : well y leap hs.
Lemma well_table : tableb y (map (mk y hs) (shape leap)) = true.
Proof.
  pose proof (shape_facts leap (we_leap _ _ _ W)) as S. unfold shape_ok in S. destruct (shape leap) as [|a t] eqn:E; [discriminate|]. rewrite !andb_true_iff in S. destruct S as ((((L & I0) & Ch) & F) & Z14).
  apply Z.eqb_eq in I0, Z14. pose proof (we_bounds _ _ _ W) as B. unfold bounds in B. cbv zeta in B. rewrite <- !dayno_jan1 in B. fold (jan1 y) (jan1 (y - 1)) (jan1 (y + 1)) (jan1 (y + 2)) in B. rewrite !andb_true_iff in B. destruct B as (((((B1 & B2) & B3) & B4) & B5) & B6).
  unfold tableb. rewrite (last_map (mk y hs) (a :: t) month0 en0) by discriminate. rewrite map_length, L. cbn [map]. rewrite (chain_mk y hs t a Ch). rewrite mk_first, mk_end, I0, Z14. change (14 + 1) with 15. cbv zeta. rewrite B1, B2, B4, B5.
  rewrite !andb_true_r. cbn [andb]. change (mk y hs a :: map (mk y hs) t) with (map (mk y hs) (a :: t)).
  apply forallb_forall. intros m Hm. apply in_map_iff in Hm. destruct Hm as (e & <- & He). rewrite forallb_forall in F. specialize (F e He). unfold en_ok in F.
  pose proof (we_steps _ _ _ W (en_i e) ltac:(lia)). unfold monthb. rewrite mk_count, mk_mm, mk_my. lia.
Qed.
Lemma well_months : forallb (fun a => if usual_length a then not_ahead a else false) (map (mk y hs) (shape leap)) = true.
Proof.
  pose proof (shape_facts leap (we_leap _ _ _ W)) as S. unfold shape_ok in S. destruct (shape leap) as [|a t] eqn:E; [discriminate|]. rewrite !andb_true_iff in S. destruct S as ((((L & I0) & Ch) & F) & Z14).
  pose proof (we_bounds _ _ _ W) as B. unfold bounds in B. cbv zeta in B. rewrite <- !dayno_jan1 in B. fold (jan1 y) (jan1 (y - 1)) (jan1 (y + 1)) (jan1 (y + 2)) in B. rewrite !andb_true_iff in B. destruct B as (((((B1 & B2) & B3) & B4) & B5) & B6).
  apply forallb_forall. intros m Hm. apply in_map_iff in Hm. destruct Hm as (e & <- & He). rewrite forallb_forall in F. specialize (F e He). unfold en_ok in F.
  pose proof (we_steps _ _ _ W (en_i e) ltac:(lia)) as St. replace (usual_length (mk y hs e)) with true by (unfold usual_length; rewrite mk_count; lia).
  unfold not_ahead. rewrite mk_my, mk_first. apply orb_true_iff. right. pose proof (stepped_le hs 0 (en_i e) (we_steps _ _ _ W) ltac:(lia) ltac:(lia)) as P0.
  assert (C : en_y e = -1 \/ en_y e = 0 /\ own_first leap <= en_i e \/ en_y e = 1 /\ leap = 16 /\ en_i e = 14) by lia. destruct C as [->|[[-> C]|(-> & C & ->)]].
  - replace (y + -1) with (y - 1) by lia. lia.
  - rewrite Z.add_0_r. pose proof (stepped_le hs (own_first leap) (en_i e) (we_steps _ _ _ W) ltac:(unfold own_first in *; destruct (leap <=? 2); lia) ltac:(lia)). lia.
  - rewrite C in B6. cbn [Z.eqb Pos.eqb] in B6. exact B6.
Qed.
End WELL.
Lemma in_range l e : leap_ok l = true -> In e (shape l) -> 0 <= en_i e < 15.
Proof.
  intros L I. pose proof (shape_facts l L) as S. unfold shape_ok in S. destruct (shape l) as [|a t]; [discriminate|]. rewrite !andb_true_iff in S. destruct S as ((_ & F) & _).
  rewrite forallb_forall in F. specialize (F e I). unfold en_ok in F. lia.
Qed.
Lemma align_skip n : forall (ms : list LMonth) ms' b, hd_error ms' = Some b -> (forall i, (i < n)%nat -> mfirst (nth i ms month0) <> mfirst b) -> (n < List.length ms)%nat ->
  mfirst (nth n ms month0) = mfirst b -> prefixb (skipn n ms) ms' = true -> alignb ms ms' = true.
Proof.
  induction n as [|n IH]; intros [|a ms] [|b' ms'] b Hb H L E P; try discriminate; try (cbn in L; lia); cbn in Hb; injection Hb as ->; cbn [alignb].
  - cbn in E. rewrite E, Z.eqb_refl. exact P.
  - pose proof (H 0%nat ltac:(lia)) as H0. cbn [nth] in H0. replace (mfirst a =? mfirst b) with false by lia. apply (IH ms (b :: ms') b); [reflexivity| |cbn in L; lia|exact E|exact P].
    intros i Hi. exact (H (S i) ltac:(lia)).
Qed.
Lemma chain_i l : forall a i, en_chain a l = true -> (i <= List.length l)%nat -> en_i (nth i (a :: l) en0) = en_i a + Z.of_nat i.
Proof.
  induction l as [|b l IH]; intros a i H Hi; [cbn in Hi; replace i with 0%nat by lia; cbn; lia|]. destruct i as [|i]; [cbn; lia|]. cbn [en_chain] in H. change (nth (S i) (a :: b :: l) en0) with (nth i (b :: l) en0).
  rewrite !andb_true_iff in H. destruct H as [[H1 _] H2]. rewrite IH by (try exact H2; cbn in Hi; lia). lia.
Qed.
Lemma shape_i l i : leap_ok l = true -> (i < 15)%nat -> en_i (nth i (shape l) en0) = Z.of_nat i /\ List.length (shape l) = 15%nat.
Proof.
  intros L Hi. pose proof (shape_facts l L) as S. unfold shape_ok in S. destruct (shape l) as [|a t]; [discriminate|]. rewrite !andb_true_iff in S. destruct S as ((((Le & I0) & Ch) & F) & Z14).
  apply Nat.eqb_eq in Le. split; [|exact Le]. rewrite (chain_i t a i Ch) by (cbn in Le; lia). lia.
Qed.
Lemma nth_mk yy h l i : leap_ok l = true -> (i < 15)%nat -> mfirst (nth i (map (mk yy h) (shape l)) month0) = hth h (Z.of_nat i) + 2451545.
Proof.
  intros L Hi. destruct (shape_i l i L Hi) as [E Le]. rewrite (nth_indep _ month0 (mk yy h en0)) by (rewrite map_length, Le; exact Hi). rewrite map_nth, mk_first, E. reflexivity.
Qed.
Section PAIR.
Variables (y leap s leap' : Z) (hs hs' : list Z).
Hypothesis W : well y leap hs.
Hypothesis W' : well (y + 1) leap' hs'.
Hypothesis Hs : 12 <= s <= 13.
Hypothesis Al : allow leap s leap' = true.
Hypothesis Sh : forall i, 0 <= i -> i + s <= 15 -> hth hs' i = hth hs (i + s).
Lemma pair_compat : compat leap s leap' = true.
Proof.
  pose proof (we_leap _ _ _ W) as L. pose proof (we_leap _ _ _ W') as L'.
  pose proof (forallb_zrange _ _ _ compat_ok leap ltac:(unfold leap_ok in L; lia)) as G. cbv beta in G. rewrite L in G. pose proof (forallb_zrange _ _ _ G s ltac:(lia)) as G2. cbv beta in G2.
  pose proof (forallb_zrange _ _ _ G2 leap' ltac:(unfold leap_ok in L'; lia)) as G3. cbv beta in G3. rewrite L', Al in G3. exact G3.
Qed.
Lemma same_mk a b : 0 <= en_i b -> en_i a < 15 -> en_eq s a b = true -> sameb (mk y hs a) (mk (y + 1) hs' b) = true.
Proof.
  intros Hb Ha E. unfold en_eq in E. unfold sameb. rewrite !mk_first, !mk_count, !mk_mm, !mk_my. rewrite (Sh (en_i b)), (Sh (en_i b + 1)) by lia.
  replace (en_i b + 1 + s) with (en_i a + 1) by lia. replace (en_i b + s) with (en_i a) by lia. lia.
Qed.
Lemma pair_prefix l : forall l', (forall a, In a l -> en_i a < 15) -> (forall b, In b l' -> 0 <= en_i b) -> en_pre s l l' = true -> prefixb (map (mk y hs) l) (map (mk (y + 1) hs') l') = true.
Proof.
  induction l as [|a l IH]; intros [|b l'] H H' E; try reflexivity; [discriminate E|]. cbn [en_pre] in E. cbn [map prefixb]. apply andb_true_iff in E. destruct E as [E1 E2].
  rewrite (same_mk a b (H' b (or_introl eq_refl)) (H a (or_introl eq_refl)) E1). apply IH; [intros; apply H; now right|intros; apply H'; now right|exact E2].
Qed.
Lemma pair_align : alignb (map (mk y hs) (shape leap)) (map (mk (y + 1) hs') (shape leap')) = true.
Proof.
  pose proof pair_compat as C. unfold compat in C. rewrite !andb_true_iff in C. destruct C as ((C1 & _) & _). pose proof (we_leap _ _ _ W) as L. pose proof (we_leap _ _ _ W') as L'.
  destruct (shape_i leap' 0 L' ltac:(lia)) as [E0 Le']. destruct (shape_i leap 0 L ltac:(lia)) as [_ Le]. destruct (shape leap') as [|b l'] eqn:E'; [discriminate Le'|]. cbn [nth] in E0. change (Z.of_nat 0) with 0 in E0.
  assert (M : mfirst (mk (y + 1) hs' b) = hth hs s + 2451545) by (rewrite mk_first, E0, (Sh 0) by lia; reflexivity).
  apply (align_skip (Z.to_nat s) _ _ (mk (y + 1) hs' b)); [reflexivity| | | |].
  - intros i Hi. rewrite nth_mk by (try exact L; lia). rewrite M. pose proof (stepped_le hs (Z.of_nat i) s (we_steps _ _ _ W) ltac:(lia) ltac:(lia)). lia.
  - rewrite map_length, Le. lia.
  - rewrite nth_mk by (try exact L; lia). rewrite M, Z2Nat.id by lia. reflexivity.
  - rewrite <- E' in C1 |- *. rewrite skipn_map. apply pair_prefix; [| |exact C1].
    + intros a Ha. assert (In a (shape leap)) by (rewrite <- (firstn_skipn (Z.to_nat s)); apply in_or_app; now right). pose proof (in_range leap a L H). lia.
    + intros c Hc. pose proof (in_range leap' c L' Hc). lia.
Qed.
Lemma pair_own : ownb y (map (mk y hs) (shape leap)) (map (mk (y + 1) hs') (shape leap')) = true.
Proof.
  pose proof pair_compat as C. unfold compat in C. rewrite !andb_true_iff in C. destruct C as ((_ & C1) & C2). pose proof (we_leap _ _ _ W) as L. pose proof (we_leap _ _ _ W') as L'. rewrite forallb_forall in C1, C2.
  assert (Sy : forall a b, sameb a b = true -> sameb b a = true) by (intros a b; unfold sameb; lia).
  unfold ownb. apply andb_true_iff. split; apply forallb_forall; intros m Hm; apply in_map_iff in Hm; destruct Hm as (e & <- & He); rewrite mk_my.
  - destruct (y + 1 + en_y e =? y) eqn:E; [|reflexivity]. specialize (C1 e He). cbv beta in C1. replace (en_y e =? -1) with true in C1 by lia. apply existsb_exists in C1. destruct C1 as (a & Ia & Ea).
    apply existsb_exists. exists (mk y hs a). split; [now apply in_map|]. apply Sy, same_mk; [pose proof (in_range leap' e L' He)|pose proof (in_range leap a L Ia)|exact Ea]; lia.
  - destruct (y + en_y e =? y + 1) eqn:E; [|reflexivity]. specialize (C2 e He). cbv beta in C2. replace (en_y e =? 1) with true in C2 by lia. apply existsb_exists in C2. destruct C2 as (b & Ib & Eb).
    apply existsb_exists. exists (mk (y + 1) hs' b). split; [now apply in_map|]. apply same_mk; [pose proof (in_range leap' b L' Ib)|pose proof (in_range leap e L He)|exact Eb]; lia.
Qed.
End PAIR.
Lemma far_apart y leap leap'' hs hs'' : well y leap hs -> well (y + 2) leap'' hs'' -> hth hs 15 <= hth hs'' 0 -> apart (map (mk y hs) (shape leap)) (map (mk (y + 2) hs'') (shape leap'')) = true.
Proof.
  intros W W'' H. pose proof (we_leap _ _ _ W) as L. pose proof (we_leap _ _ _ W'') as L''. destruct (shape_i leap 0 L ltac:(lia)) as [_ Le]. destruct (shape_i leap'' 0 L'' ltac:(lia)) as [E0 Le''].
  pose proof (forallb_zrange _ _ _ far_ok leap ltac:(unfold leap_ok in L; lia)) as G. cbv beta in G. rewrite L in G. pose proof (forallb_zrange _ _ _ G leap'' ltac:(unfold leap_ok in L''; lia)) as G2. cbv beta in G2.
  unfold apart. rewrite (last_map (mk y hs) (shape leap) month0 en0) by (intros E; rewrite E in Le; discriminate Le). replace (hd month0 (map (mk (y + 2) hs'') (shape leap''))) with (mk (y + 2) hs'' (hd en0 (shape leap''))) by (destruct (shape leap''); [discriminate Le''|reflexivity]).
  cbv zeta. rewrite mk_end, mk_first, !mk_key. assert (E1 : en_i (hd en0 (shape leap'')) = 0) by (destruct (shape leap''); [discriminate Le''|exact E0]). rewrite E1.
  assert (E2 : en_i (last (shape leap) en0) = 14). { pose proof (shape_facts leap L) as S. unfold shape_ok in S. destruct (shape leap); [discriminate|]. lia. } rewrite E2. change (14 + 1) with 15. lia.
Qed.

(** ** For every C library *)
Lemma loopP_mono {S R} (f g : S -> S + res R) (P : S -> Prop) p : (forall s s', P s -> f s = inl s' -> g s = inl s' /\ P s') -> (forall s r, P s -> f s = inr (Ok r) -> g s = inr (Ok r)) ->
  forall s, P s -> (forall s', loopP p f s = inl s' -> loopP p g s = inl s' /\ P s') /\ (forall r, loopP p f s = inr (Ok r) -> loopP p g s = inr (Ok r)).
Proof.
  intros H1 H2. induction p as [q IH|q IH|]; intros s Hs; cbn [loopP].
  - destruct (f s) as [s1|r1] eqn:E1.
    + destruct (H1 _ _ Hs E1) as [-> P1]. destruct (IH s1 P1) as [A1 A2]. destruct (loopP q f s1) as [s2|r2] eqn:E2.
      * destruct (A1 _ eq_refl) as [-> P2]. exact (IH s2 P2).
      * split; [discriminate|]. intros r E. injection E as ->. rewrite (A2 _ eq_refl). reflexivity.
    + split; [discriminate|]. intros r E. injection E as ->. rewrite (H2 _ _ Hs E1). reflexivity.
  - destruct (IH s Hs) as [A1 A2]. destruct (loopP q f s) as [s2|r2] eqn:E2.
    + destruct (A1 _ eq_refl) as [-> P2]. exact (IH s2 P2).
    + split; [discriminate|]. intros r E. injection E as ->. rewrite (A2 _ eq_refl). reflexivity.
  - split; [intros s' E; exact (H1 _ _ Hs E)|intros r E; exact (H2 _ _ Hs E)].
Qed.
(** ** The check of a span of years *)
Fixpoint walk (n : nat) (y d : Z) (l : list Z) (o : option (Z * Z)) : bool :=
  match n with
  | O => true
  | S n =>
    match cQ (term0 (y + 1)) with
    | Raise _ => false
    | Ok d' =>
      let hs := firstn 16 l in
      match fast_leap y hs d' with
      | Raise _ => false
      | Ok leap =>
        if (List.length hs =? 16)%nat && (hth hs 0 <=? d) && (d <? hth hs 1) && leap_ok leap && bounds y leap hs &&
           match o with Some (leap0, s) => allow leap0 s leap | None => true end && zhong_ok y (map (mk y hs) (shape leap))
        then let s := if hth hs 13 <=? d' then 13 else 12 in walk n (y + 1) d' (skipn (Z.to_nat s) l) (Some (leap, s))
        else false
      end
    end
  end.
(** the [n] years from [y] on, whose list begins with new moon [k] *)
Definition span (y : Z) (n : nat) (k : Z) (m : nat) : bool :=
  match cN k, cQ (term0 y) with
  | Ok N, Ok d => match moons m k N [] with Some l => walk n y d l None | None => false end
  | _, _ => false
  end.
Lemma moons_length n : forall k N acc l, moons n k N acc = Some l -> List.length l = (S n + List.length acc)%nat.
Proof.
  induction n as [|n IH]; intros k N acc l E; cbn [moons] in E; destruct (in_window k N); [|discriminate E| |discriminate E].
  - rewrite <- rev_alt in E. injection E as <-. rewrite app_length, rev_length. cbn [List.length]. lia.
  - destruct (moon_next (k + 1) N) as [M|]; [|discriminate E]. rewrite (IH _ _ _ _ E). cbn [List.length]. lia.
Qed.
Section FAST.
Variables fsin fcos : float -> float.
Hypothesis lib : libm fsin fcos.
Local Notation FA := (float_arith fsin fcos).
(** what [calcShuo] answers in the late range for new moon [k], what [calcQi] answers for term [n] *)
Definition newmoon (k : Z) : res Z := let! t := shuoHigh FA (moon_w k) in half_floor FA t.
Definition term_day (n : Z) : res Z := let! t := qiHigh FA (qi_wk n) in half_floor FA t.
Lemma cN_ok k N : cN k = Ok N -> newmoon k = Ok N.
Proof.
  apply (rr_eq (cN k) (newmoon k)). unfold cN. unfold newmoon. apply (rr_bind rel).
  - apply (l_shuoHigh _ _ _ (cert_rel fsin fcos lib) _ (cert_tabs_ok fsin fcos lib)). apply lit_ok.
  - intros u x Q. now apply (l_half _ _ _ (cert_rel fsin fcos lib)).
Qed.
Lemma cM_ok k N : cM k = Ok N -> newmoon k = Ok N.
Proof.
  apply (rr_eq (cM k) (newmoon k)). unfold cM. unfold newmoon. apply (rr_bind rel).
  - apply (shuo_cut_ok fsin fcos lib). apply lit_ok.
  - intros u x Q. now apply (l_half _ _ _ (cert_rel fsin fcos lib)).
Qed.
Lemma cQ_ok n q : cQ n = Ok q -> term_day n = Ok q.
Proof.
  apply (rr_eq (cQ n) (term_day n)). unfold cQ, term_day. apply (rr_bind rel).
  - apply (l_qiHigh _ _ _ (cert_rel fsin fcos lib) _ (cert_tabs_ok fsin fcos lib)). apply lit_ok.
  - intros u x Q. now apply (l_half _ _ _ (cert_rel fsin fcos lib)).
Qed.
Local Opaque newmoon term_day.
Lemma moon_next_ok k N M : 12000 <= k <= 100000 -> 300000 <= N <= 3000000 -> moon_next k N = Some M -> newmoon k = Ok M /\ 29 <= M - N <= 30.
Proof.
  intros Hk HN. unfold moon_next. destruct (lite k N) as [M'|] eqn:E.
  - intros E'. injection E' as ->. exact (lite_ok fsin fcos (libm_q _ _ lib) k N M Hk HN E).
  - assert (G : forall M', match cM k with Ok M => Ok M | Raise _ => cN k end = Ok M' -> newmoon k = Ok M') by (intros M' E2; destruct (cM k) as [M2|] eqn:E3; [rewrite <- E2; exact (cM_ok _ _ E3)|exact (cN_ok _ _ E2)]).
    destruct (match cM k with Ok M => Ok M | Raise _ => cN k end) as [M'|]; [|discriminate]. destruct (_ && _) eqn:B; [|discriminate]. intros E'. injection E' as ->. split; [exact (G M eq_refl)|lia].
Qed.
Fixpoint isL (k : Z) (l : list Z) : Prop := match l with
  | [] => True
  | a :: t => newmoon k = Ok a /\ in_window k a = true /\ match t with b :: _ => 29 <= b - a <= 30 | [] => True end /\ isL (k + 1) t
  end.
Lemma moons_ok n : forall k N acc l, 12000 <= k -> k + Z.of_nat n <= 100000 -> newmoon k = Ok N -> moons n k N acc = Some l -> exists t, l = rev acc ++ N :: t /\ isL k (N :: t).
Proof.
  induction n as [|n IH]; intros k N acc l K1 K2 HN E; cbn [moons] in E; destruct (in_window k N) eqn:Wi; [|discriminate E| |discriminate E].
  - rewrite <- rev_alt in E. injection E as <-. exists []. split; [reflexivity|]. cbn [isL]. auto.
  - destruct (moon_next (k + 1) N) as [M|] eqn:EM; [|discriminate]. assert (B : 300000 <= N <= 3000000) by (unfold in_window in Wi; lia).
    destruct (moon_next_ok (k + 1) N M ltac:(lia) B EM) as [HM D]. destruct (IH (k + 1) M (N :: acc) l ltac:(lia) ltac:(lia) HM E) as (t & -> & L). exists (M :: t). split; [cbn; now rewrite <- app_assoc|].
    cbn [isL] in L |- *. split; [exact HN|]. split; [exact Wi|]. split; [lia|exact L].
Qed.
Lemma isL_skipn n : forall k l, isL k l -> isL (k + Z.of_nat n) (skipn n l).
Proof.
  induction n as [|n IH]; intros k l H; [now rewrite Z.add_0_r|]. destruct l as [|a t]; [exact I|]. cbn [skipn]. replace (k + Z.of_nat (S n)) with (k + 1 + Z.of_nat n) by lia. apply IH. exact (proj2 (proj2 (proj2 H))).
Qed.
Lemma isL_firstn n : forall k l, isL k l -> isL k (firstn n l).
Proof.
  induction n as [|n IH]; intros k l H; [exact I|]. destruct l as [|a t]; [exact I|]. cbn [firstn isL] in H |- *. destruct H as (H1 & H2 & H3 & H4). split; [exact H1|]. split; [exact H2|]. split; [|now apply IH].
  destruct t as [|b t], n as [|n]; try exact I. exact H3.
Qed.
Lemma isL_nth l : forall k i, isL k l -> 0 <= i < Z.of_nat (List.length l) -> newmoon (k + i) = Ok (hth l i) /\ in_window (k + i) (hth l i) = true /\ (i + 1 < Z.of_nat (List.length l) -> 29 <= hth l (i + 1) - hth l i <= 30).
Proof.
  induction l as [|a t IH]; intros k i H Hi; [cbn in Hi; lia|]. cbn [isL] in H. destruct H as (H1 & H2 & H3 & H4). destruct (Z.eq_dec i 0) as [->|N].
  - rewrite Z.add_0_r. change (hth (a :: t) 0) with a. split; [exact H1|]. split; [exact H2|]. intros L. destruct t as [|b t]; [cbn in L; lia|]. exact H3.
  - assert (Sh : forall j, 0 < j -> hth (a :: t) j = hth t (j - 1)) by (intros j Hj; unfold hth; replace (Z.to_nat j) with (S (Z.to_nat (j - 1))) by lia; reflexivity).
    rewrite !Sh by lia. cbn [List.length] in Hi |- *. destruct (IH (k + 1) (i - 1) H4 ltac:(lia)) as (A & B & C). replace (k + 1 + (i - 1)) with (k + i) in * by lia. replace (i + 1 - 1) with (i - 1 + 1) by lia. split; [exact A|]. split; [exact B|]. intros L. apply C. lia.
Qed.
(** the new moon that [calcShuo] takes *)
Local Transparent newmoon.
Local Open Scope R_scope.
Lemma calcShuo_floor X : FIN X -> (0 <= FR X <= 3100000)%R -> exists r, (Rabs (r - (FR X + 8) / 29.5306) <= / 1000000)%R /\ calcShuo FA X = newmoon (Zfloor r).
Proof.
  intros F B. unfold calcShuo. cbv zeta. fval 2451545%float 2451545 e1. flit 2451545%float F1 V1. fval 14%float 14 e14. flit 14%float F14 V14. fval 2451551%float 2451551 e2. flit 2451551%float F2 V2. flit 29.5306%float F3 V3. flit 2436935%float F4 V4.
  destruct (fadd_b X 2451545%float 6000000 F F1 ltac:(lra) ltac:(lra)) as (G1 & _ & M1). rewrite e1 in M1. nea. set (J := (X + 2451545)%float) in *.
  replace (PrimFloat.leb 2436935 J) with true by (symmetry; apply fleb_spec; [assumption..|lra]). rewrite orb_true_r.
  destruct (fadd_b J 14%float 6000000 G1 F14 ltac:(lra) ltac:(lra)) as (G2 & _ & M2). rewrite e14 in M2. nea.
  destruct (fsub_b _ 2451551%float 6000000 G2 F2 ltac:(lra) ltac:(lra)) as (G3 & _ & M3). rewrite e2 in M3. nea. set (U := (J + 14 - 2451551)%float) in *.
  set (v := FR 29.5306%float) in *. set (x := FR U) in *. assert (Vq : (Rabs (v - 29.5306) <= / 10000000000000)%R) by (apply Rabs_le; lra). assert (Vr : (29.53 <= v <= 29.5307)%R) by lra. clear V3.
  assert (Q : (Rabs (x / v) <= 120000)%R) by (apply quot_b; lra). pose proof (quot x v 29.5306 _ _ Q ltac:(lra) ltac:(lra) Vq) as R. apply Rabs_le_inv in Q, R.
  destruct (fdiv_b U 29.5306%float 120001 G3 ltac:(fold v; lra) ltac:(fold v x; lra) ltac:(lra)) as (G4 & _ & M4). fold v x in M4. nea.
  exists (FR (U / 29.5306)%float). split; [apply Rabs_le; lra|]. unfold shuo_w. fold U. rewrite (py_floor_spec _ G4). unfold newmoon, moon_w. cbn [bind n_lit float_arith]. reflexivity.
Qed.
Local Close Scope R_scope.
Local Opaque newmoon.
Lemma calcShuo_at X k u : FIN X -> 12000 <= k <= 100010 -> (u = FR X + 8 - 29.5306 * IZR k)%R -> (1 <= u <= 29)%R -> calcShuo FA X = newmoon k.
Proof.
  intros F K Eu U. assert (HK : (12000 <= IZR k <= 100010)%R) by (split; apply IZR_le; lia). destruct (calcShuo_floor X F ltac:(lra)) as (r & R & ->). f_equal. apply Zfloor_imp. rewrite plus_IZR.
  apply Rabs_le_inv in R. assert (E : ((FR X + 8) / 29.5306 = IZR k + u / 29.5306)%R) by (rewrite Eu; lra). rewrite E in R. lra.
Qed.
Lemma calcShuo_2 d k : 12000 <= k <= 100000 -> 295306 * k - 60000 <= 10000 * d <= 295306 * (k + 1) + 190000 -> calcShuo FA (float_of_Z d) = newmoon k \/ calcShuo FA (float_of_Z d) = newmoon (k + 1).
Proof.
  intros K D. destruct (float_of_Z_spec d ltac:(lia)) as [F E]. destruct D as [D1 D2]. apply IZR_le in D1, D2. rewrite minus_IZR, !mult_IZR in D1. rewrite plus_IZR, !mult_IZR, plus_IZR in D2.
  assert (HK : (12000 <= IZR k <= 100000)%R) by (split; apply IZR_le; lia). destruct (calcShuo_floor (float_of_Z d) F ltac:(rewrite E; lra)) as (r & R & ->). rewrite E in R. apply Rabs_le_inv in R.
  assert (L1 : (IZR k <= r)%R) by lra. assert (L2 : (r < IZR (k + 2))%R) by (rewrite plus_IZR; lra). pose proof (Zfloor_lb r) as Lb. pose proof (Zfloor_ub r) as Ub.
  assert (A1 : k < Zfloor r + 1) by (apply lt_IZR; rewrite plus_IZR; lra). assert (A2 : Zfloor r < k + 2) by (apply lt_IZR; lra). assert (C : Zfloor r = k \/ Zfloor r = k + 1) by lia. destruct C as [-> | ->]; auto.
Qed.
Lemma nth_list (l l' : list Z) : List.length l = List.length l' -> (forall i, 0 <= i < Z.of_nat (List.length l) -> hth l i = hth l' i) -> l = l'.
Proof.
  intros L H. apply (nth_ext _ _ 0 0 L). intros n Hn. specialize (H (Z.of_nat n) ltac:(lia)). unfold hth in H. now rewrite Nat2Z.id in H.
Qed.
Lemma hs_ok jq d k hs : 12000 <= k <= 99900 -> isL k hs -> List.length hs = 16%nat -> py_index jq 0 = Ok d -> hth hs 0 <= d < hth hs 1 -> compute_hs (shouxing fsin fcos) jq = Ok hs.
Proof.
  intros K L Le J D. unfold compute_hs. rewrite J. cbn [bind]. change (sky_shuo (shouxing fsin fcos)) with (calcShuo FA).
  assert (Nth : forall i, 0 <= i < 16 -> newmoon (k + i) = Ok (hth hs i) /\ -60000 <= 10000 * hth hs i - 295306 * (k + i) <= 200000).
  { intros i Hi. destruct (isL_nth hs k i L ltac:(lia)) as (A & B & _). split; [exact A|]. unfold in_window in B. lia. }
  destruct (Nth 0 ltac:(lia)) as [N0 W0]. destruct (Nth 1 ltac:(lia)) as [N1 W1]. rewrite Z.add_0_r in N0, W0.
  assert (G : forall w, FIN w -> (-6 <= FR w - 29.5306 * IZR k <= 20.001)%R -> mapM (fun i => calcShuo FA (w + 29.5306 * float_of_Z i)%float) (zrange 0 16) = Ok hs).
  { intros w Fw Bw. destruct (mapM_ex (fun i => calcShuo FA (w + 29.5306 * float_of_Z i)%float) (fun i q => q = hth hs i) (zrange 0 16)) as (r & Er & Fr).
    - intros i Hi. apply in_zrange in Hi. destruct (Nth i ltac:(lia)) as [Ni _]. exists (hth hs i). split; [|reflexivity]. rewrite <- Ni.
      assert (HK : (12000 <= IZR k <= 99900)%R) by (split; apply IZR_le; lia). assert (Bi : (0 <= IZR i <= 15)%R) by (split; apply IZR_le; lia).
      destruct (float_of_Z_spec i ltac:(lia)) as [Fi Ei]. flit 29.5306%float F1 V1.
      assert (Pi : (Rabs (FR 29.5306%float * IZR i - 29.5306 * IZR i) <= / 1000000)%R). { replace (FR 29.5306%float * IZR i - 29.5306 * IZR i)%R with ((FR 29.5306%float - 29.5306) * IZR i)%R by ring. replace (/ 1000000)%R with (/ 15000000 * 15)%R by lra. apply Rmul_abs; apply Rabs_le; lra. }
      apply Rabs_le_inv in Pi. destruct (fmul_b 29.5306%float (float_of_Z i) 500 F1 Fi) as (F2 & _ & M2); [rewrite Ei; lra|lra|]. rewrite Ei in M2. nea.
      destruct (fadd_b w (29.5306 * float_of_Z i)%float 3000000 Fw F2) as (F3 & _ & M3); [lra|lra|]. nea.
      apply (calcShuo_at _ (k + i) _ F3 ltac:(lia) eq_refl). rewrite plus_IZR. lra.
    - rewrite Er. f_equal. destruct (Forall2_zrange _ 16 r Fr) as [Lr Hr]. apply nth_list; [now rewrite Le|]. intros i Hi. rewrite Lr in Hi. destruct (Hr i Hi) as (b & Eb & ->). rewrite py_hth in Eb by lia. now apply Ok_inj in Eb. }
  assert (HK : (12000 <= IZR k <= 99900)%R) by (split; apply IZR_le; lia).
  destruct (calcShuo_2 d k ltac:(lia) ltac:(lia)) as [-> | ->].
  - rewrite N0. cbn [bind]. replace (d <? hth hs 0) with false by lia. destruct (float_of_Z_spec (hth hs 0) ltac:(lia)) as [F E]. apply G; [exact F|]. rewrite E.
    destruct W0 as [A B]. apply IZR_le in A, B. rewrite minus_IZR, !mult_IZR in A, B. lra.
  - rewrite N1. cbn [bind]. replace (d <? hth hs 1) with true by lia. destruct (float_of_Z_spec (hth hs 1) ltac:(lia)) as [F E]. flit 29.53%float F1 V1.
    destruct W1 as [A B]. apply IZR_le in A, B. rewrite minus_IZR, !mult_IZR, plus_IZR in A, B.
    destruct (fsub_b (float_of_Z (hth hs 1)) 29.53%float 3000000 F F1) as (F2 & _ & M2); [rewrite E; lra|lra|]. rewrite E in M2. nea. apply G; [exact F2|]. lra.
Qed.
Local Transparent term_day.
Local Open Scope R_scope.
Lemma qi_at X k : at_k X k -> k_new k -> PrimFloat.leb 2436935 (X + 2451545)%float = true -> calcQi FA X = term_day k.
Proof.
  intros H K C. pose proof (new_ok k K) as K'. destruct (jd_of X k H K') as (F & N & B). destruct H as [FX H]. apply Rabs_le_inv in N, B. unfold calcQi. cbv zeta. rewrite C, orb_true_r. unfold qi_w. set (J := (X + 2451545)%float) in *.
  fval 7%float 7 e7. flit 7%float F7 V7. fval 2451259%float 2451259 e2. flit 2451259%float F2 V2.
  destruct (fadd_b J 7%float 6000000 F F7 ltac:(lra) ltac:(lra)) as (G1 & _ & M1). rewrite e7 in M1. nea.
  destruct (fsub_b _ 2451259%float 6000000 G1 F2 ltac:(lra) ltac:(lra)) as (G2 & _ & M2). rewrite e2 in M2. nea.
  destruct (div24 _ G2 ltac:(apply Rabs_le; lra)) as [G3 M3]. apply Rabs_le_inv in M3. rewrite (py_floor_spec _ G3). cbn [bind].
  assert (E : Zfloor (FR ((J + 7 - 2451259) / 365.2422 * 24)%float) = k) by (apply Zfloor_imp; rewrite plus_IZR; lra). rewrite E. unfold term_day, qi_wk. cbn [bind n_lit float_arith]. reflexivity.
Qed.
Local Close Scope R_scope.
Local Opaque term_day.
Lemma jq_late y : 3000 <= y <= 9999 -> exists qs, compute_jq (shouxing fsin fcos) y = Ok qs /\ forall i, 0 <= i < 26 -> exists q, py_index qs i = Ok q /\ term_day (term0 y + i) = Ok q.
Proof.
  intros Hy. unfold compute_jq. rewrite (start_ok lib y ltac:(lia)). cbn [bind].
  destruct (mapM_ex (fun i => sky_qi (shouxing fsin fcos) (X0 y - 365.2422 + 15.2184 * float_of_Z i)%float) (fun i q => term_day (term0 y + i) = Ok q) (zrange 0 26)) as (qs & E & F).
  { intros i Hi. apply in_zrange in Hi. destruct (jq_ok lib y i ltac:(lia) ltac:(lia)) as (q & Eq & _). exists q. split; [exact Eq|]. rewrite <- Eq. symmetry.
    destruct (Xi_k y i ltac:(lia) ltac:(lia)) as [Kk Ek]. fold (term0 y) in Kk. apply qi_at; [exact Kk|unfold k_new, term0; lia|].
    destruct (jd_of _ _ Kk ltac:(unfold k_ok, term0; lia)) as (Fj & Nj & _). flit 2436935%float F4 V4. apply fleb_spec; [assumption..|]. apply Rabs_le_inv in Ek, Nj.
    assert (B : (1000 <= IZR (y - 2000))%R) by (apply IZR_le; lia). assert (Bi : (0 <= IZR i)%R) by (apply IZR_le; lia). lra. }
  exists qs. split; [exact E|]. exact (proj2 (Forall2_zrange _ 26 qs F)).
Qed.
Lemma leap_late y hs qs q24 leap : (forall i, 0 <= i < 26 -> exists q, py_index qs i = Ok q /\ term_day (term0 y + i) = Ok q) -> term_day (term0 y + 24) = Ok q24 ->
  fast_leap y hs q24 = Ok leap -> leap_index y hs qs = Ok leap.
Proof.
  intros Q Q24. unfold fast_leap, leap_index. destruct (existsb _ LunarYear_LEAP_11); [easy|]. destruct (existsb _ LunarYear_LEAP_12); [easy|]. destruct (py_index hs 13) as [h|]; [|easy]. cbn [bind].
  destruct (Q 24 ltac:(lia)) as (q & -> & Eq). rewrite Q24 in Eq. apply Ok_inj in Eq. subst q. cbn [bind]. destruct (h <=? q24); [|easy]. unfold loop.
  destruct (loopP_mono (fast_step y hs) (leap_step hs qs) (fun i => 0 <= i) (Z.to_pos 20)) with (s := 1) as [_ M].
  - intros i j Hi. unfold fast_step, leap_step. destruct (py_index hs (i + 1)) as [h'|]; [|discriminate]. destruct (i <? 13) eqn:B; [|discriminate]. destruct (cQ (term0 y + 2 * i)) as [q|] eqn:E; [|discriminate].
    destruct (Q (2 * i) ltac:(lia)) as (q' & -> & Eq). rewrite (cQ_ok _ _ E) in Eq. apply Ok_inj in Eq. subst q'. destruct (_ && _); [|discriminate]. intros X. injection X as <-. split; [reflexivity|lia].
  - intros i r Hi. unfold fast_step, leap_step. destruct (py_index hs (i + 1)) as [h'|]; [|discriminate]. destruct (i <? 13) eqn:B; [|discriminate]. destruct (cQ (term0 y + 2 * i)) as [q|] eqn:E; [|discriminate].
    destruct (Q (2 * i) ltac:(lia)) as (q' & -> & Eq). rewrite (cQ_ok _ _ E) in Eq. apply Ok_inj in Eq. subst q'. destruct (_ && _); [discriminate|]. intros X. exact X.
  - lia.
  - destruct (loopP (Z.to_pos 20) (fast_step y hs) 1) as [s|r]; cbn [bind]; [discriminate|]. intros ->. rewrite (M leap eq_refl). reflexivity.
Qed.
Definition year_is (y k leap : Z) : Prop := exists hs, well y leap hs /\ List.length hs = 16%nat /\ isL k hs /\ months_of fsin fcos y = map (mk y hs) (shape leap) /\ zhong_ok y (map (mk y hs) (shape leap)) = true.
Fixpoint run (n : nat) (y k leap : Z) : Prop := match n with
  | O => True
  | S n => year_is y k leap /\ exists leap' s, 12 <= s <= 13 /\ (n <> O -> allow leap s leap' = true) /\ run n (y + 1) (k + s) leap'
  end.
Lemma isL_range k l i : isL k l -> 0 <= i < Z.of_nat (List.length l) -> -60000 <= 10000 * hth l i - 295306 * (k + i) <= 200000.
Proof. intros H Hi. destruct (isL_nth l k i H Hi) as (_ & B & _). unfold in_window in B. lia. Qed.
Lemma year_late y k hs d d' leap : 3000 <= y <= 9999 -> 12000 <= k <= 99900 -> isL k hs -> List.length hs = 16%nat -> term_day (term0 y) = Ok d -> term_day (term0 (y + 1)) = Ok d' -> hth hs 0 <= d < hth hs 1 ->
  fast_leap y hs d' = Ok leap -> leap_ok leap = true -> bounds y leap hs = true -> zhong_ok y (map (mk y hs) (shape leap)) = true -> year_is y k leap.
Proof.
  intros Hy K L Le Q Q' D FL LO B Zh. exists hs. assert (W : well y leap hs).
  { constructor; [lia|exact LO| |exact B]. intros i Hi. apply (isL_nth hs k i L); lia. }
  split; [exact W|]. split; [exact Le|]. split; [exact L|]. split; [|exact Zh]. destruct (jq_late y Hy) as (jq & Ej & Hj).
  assert (J0 : py_index jq 0 = Ok d). { destruct (Hj 0 ltac:(lia)) as (q & -> & Eq). rewrite Z.add_0_r, Q in Eq. now apply Ok_inj in Eq; subst q. }
  assert (Q24 : term_day (term0 y + 24) = Ok d') by (rewrite <- Q'; f_equal; unfold term0; lia).
  unfold months_of. cbv zeta. rewrite Ej. cbn [bind]. rewrite (hs_ok jq d k hs K L Le J0 D). cbn [bind]. unfold compute_months. rewrite (leap_late y hs jq d' leap Hj Q24 FL). cbn [bind].
  rewrite (table_shape leap hs y Le); [reflexivity|]. intros i Hi. pose proof (isL_range k hs i L ltac:(lia)). lia.
Qed.
Lemma walk_ok n : forall y d l o k, 3000 <= y -> y + Z.of_nat n <= 10000 -> 12000 <= k -> k + Z.of_nat (List.length l) <= 99900 -> isL k l -> term_day (term0 y) = Ok d -> walk n y d l o = true ->
  exists leap, run n y k leap /\ (n <> O -> match o with Some (leap0, s) => allow leap0 s leap = true | None => True end).
Proof.
  induction n as [|n IH]; intros y d l o k Y1 Y2 K1 K2 L Q H; [exists 0; split; [exact I|congruence]|]. cbn [walk] in H.
  destruct (cQ (term0 (y + 1))) as [d'|] eqn:Ed; [|discriminate H]. pose proof (cQ_ok _ _ Ed) as Q'. cbv zeta in H. destruct (fast_leap y (firstn 16 l) d') as [leap|] eqn:EF; [|discriminate H].
  destruct (_ && _) eqn:C in H; [|discriminate H]. rewrite !andb_true_iff in C. destruct C as ((((((C1 & C2) & C3) & C4) & C5) & C6) & C7). apply Nat.eqb_eq in C1. apply Z.leb_le in C2. apply Z.ltb_lt in C3.
  assert (Lf : (16 <= List.length l)%nat) by (rewrite firstn_length in C1; lia).
  pose proof (year_late y k (firstn 16 l) d d' leap ltac:(lia) ltac:(lia) (isL_firstn 16 k l L) C1 Q Q' ltac:(lia) EF C4 C5 C7) as Yr.
  set (s := if hth (firstn 16 l) 13 <=? d' then 13 else 12) in *. assert (Hs : 12 <= s <= 13) by (subst s; destruct (_ <=? d'); lia). exists leap. split.
  - cbn [run]. split; [exact Yr|]. destruct (IH (y + 1) d' (skipn (Z.to_nat s) l) (Some (leap, s)) (k + s)) as (leap' & R & A).
    + lia.
    + lia.
    + lia.
    + rewrite skipn_length. lia.
    + replace (k + s) with (k + Z.of_nat (Z.to_nat s)) by lia. now apply isL_skipn.
    + exact Q'.
    + exact H.
    + exists leap', s. split; [exact Hs|]. split; [exact A|exact R].
  - intros _. destruct o as [[leap0 s0]|]; [exact C6|exact I].
Qed.
Lemma shifted k s hs hs' : 0 <= s <= 15 -> isL k hs -> isL (k + s) hs' -> List.length hs = 16%nat -> List.length hs' = 16%nat -> forall i, 0 <= i -> i + s <= 15 -> hth hs' i = hth hs (i + s).
Proof.
  intros Hs L L' Le Le' i Hi Hj. destruct (isL_nth hs k (i + s) L ltac:(lia)) as (A & _). destruct (isL_nth hs' (k + s) i L' ltac:(lia)) as (A' & _). replace (k + s + i) with (k + (i + s)) in A' by lia.
  rewrite A in A'. apply Ok_inj in A'. congruence.
Qed.
Lemma run_checked n : forall y k leap, run n y k leap -> checked (months_of fsin fcos) y (y + Z.of_nat n - 1).
Proof.
  induction n as [|n IH]; intros y k leap R z Hz; [lia|]. destruct R as (Yr & leap' & s & Hs & A & R). destruct (Z.eq_dec z y) as [->|Nz].
  - destruct Yr as (hs & W & Le & L & -> & _). split; [exact (well_table y leap hs W)|]. split; [exact (well_months y leap hs W)|]. split.
    + intros H1. destruct n as [|n]; [lia|]. destruct R as ((hs' & W' & Le' & L' & -> & _) & _). pose proof (shifted k s hs hs' ltac:(lia) L L' Le Le') as Sh. specialize (A ltac:(lia)).
      split; [exact (pair_align y leap s leap' hs hs' W W' Hs A Sh)|exact (pair_own y leap s leap' hs hs' W W' Hs A Sh)].
    + intros H2. destruct n as [|[|n]]; [lia|lia|]. destruct R as ((hs' & W' & Le' & L' & _) & leap2 & s' & Hs' & _ & R2). destruct R2 as ((hs2 & W2 & Le2 & L2 & E2 & _) & _).
      replace (y + 1 + 1) with (y + 2) in * by lia. rewrite E2. apply (far_apart y leap leap2 hs hs2 W W2).
      pose proof (shifted k s hs hs' ltac:(lia) L L' Le Le' (15 - s) ltac:(lia) ltac:(lia)) as S1. replace (15 - s + s) with 15 in S1 by lia. rewrite <- S1.
      pose proof (shifted (k + s) s' hs' hs2 ltac:(lia) L' L2 Le' Le2 0 ltac:(lia) ltac:(lia)) as S2. rewrite S2. pose proof (stepped_le hs' (15 - s) (0 + s') (we_steps _ _ _ W') ltac:(lia) ltac:(lia)). lia.
  - destruct (IH (y + 1) (k + s) leap' R z ltac:(lia)) as (T & U & V & X). split; [exact T|]. split; [exact U|]. split; intros; [apply V|apply X]; lia.
Qed.
Lemma run_zhong n : forall y k leap z, run n y k leap -> y <= z <= y + Z.of_nat n - 1 -> zhong_ok z (months_of fsin fcos z) = true.
Proof.
  induction n as [|n IH]; intros y k leap z R Hz; [lia|]. destruct R as (Yr & leap' & s & _ & _ & R). destruct (Z.eq_dec z y) as [->|Nz]; [|apply (IH (y + 1) (k + s) leap' z R); lia].
  destruct Yr as (hs & _ & _ & _ & -> & Zh). exact Zh.
Qed.
Theorem span_ok y n k m : 3000 <= y -> y + Z.of_nat n <= 10000 -> 12000 <= k -> k + Z.of_nat m <= 99890 -> span y n k m = true ->
  checked (months_of fsin fcos) y (y + Z.of_nat n - 1) /\ forall z, y <= z <= y + Z.of_nat n - 1 -> zhong_ok z (months_of fsin fcos z) = true.
Proof.
  intros Y1 Y2 K1 K2 H. unfold span in H. destruct (cN k) as [N|] eqn:EN; [|discriminate H]. destruct (cQ (term0 y)) as [d|] eqn:Ed; [|discriminate H]. destruct (moons m k N []) as [l|] eqn:El; [|discriminate H].
  destruct (moons_ok m k N [] l K1 ltac:(lia) (cN_ok _ _ EN) El) as (t & E & L). cbn [rev app] in E. subst l.
  destruct (walk_ok n y d (N :: t) None k Y1 Y2 K1) as (leap & R & _).
  - pose proof (moons_length m k N [] (N :: t) El) as ML. cbn [List.length] in *. lia.
  - exact L.
  - exact (cQ_ok _ _ Ed).
  - exact H.
  - split; [exact (run_checked n y k leap R)|]. intros z. exact (run_zhong n y k leap z R).
Qed.
End FAST.
