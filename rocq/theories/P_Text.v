(** C86: the accessors of a NineStar.  C87: the texts of lunar dates. *)
From Coq Require Import ZArith Lia Bool ZifyBool List String Floats.
From Verif Require Import Py PyFloat PyStr CalSpec Solar LunarUtil T_LunarUtil T_Misc P_Tables LunarYear ShouXing Lunar LunarTime NineStar FotoTao
  LunarProofs P_Accessors P_Stars P_Day P_HolidayFix P_NewYear Demo.
Import ListNotations.
Open Scope Z_scope.

(** ** C86 *)
Definition star_accessors : list (Z -> res str) :=
  [NineStar_getNumber; NineStar_getColor; NineStar_getWuXing; NineStar_getPosition; NineStar_getPositionDesc; NineStar_getNameInXuanKong; NineStar_getNameInBeiDou;
   NineStar_getNameInQiMen; NineStar_getNameInTaiYi; NineStar_getLuckInQiMen; NineStar_getLuckInXuanKong; NineStar_getYinYangInQiMen; NineStar_getTypeInTaiYi;
   NineStar_getSongInTaiYi; NineStar_toString; NineStar_toFullString].
Theorem C86_accessors : forall i, 0 <= i < 9 -> Forall (fun f => found (f i)) star_accessors /\
  (if i =? 4 then NineStar_getBaMenInQiMen i = Ok [] else found (NineStar_getBaMenInQiMen i)).
Proof.
  intros i Hi.
  assert (T : forallb (fun i => forallb (fun f => foundb (f i)) star_accessors && (if i =? 4 then ok_is (NineStar_getBaMenInQiMen i) [] else foundb (NineStar_getBaMenInQiMen i))) (zrange 0 9) = true)
    by (vm_compute; reflexivity).
  pose proof (forallb_zrange _ _ _ T i Hi) as X. cbv beta in X. apply andb_prop in X. destruct X as [X Y]. split.
  - apply Forall_forall. intros f I. rewrite forallb_forall in X. apply foundb_ok, X, I.
  - destruct (i =? 4); [apply ok_is_eq in Y; exact Y|apply foundb_ok; exact Y].
Qed.
(** Every star that the library hands out is one of the nine. *)
Theorem C86_in_range : forall fy l n, In (Ok n) ([Lunar_getDayNineStar fy l; Lunar_getTimeNineStar l] ++ map (fun sect => Ok (Lunar_getMonthNineStar l sect)) [1; 2; 3]) -> 0 <= n < 9.
Proof.
  intros fy l n I. cbn [app map In] in I. destruct I as [E|[E|[E|[E|[E|[]]]]]];
    [exact (C62_day_range _ _ _ E)|exact (C62_hour_range _ _ E)|apply Ok_inj in E; subst n; apply C62_month_range ..].
Qed.
Theorem C86_year_in_range : forall t n, LunarYear_getNineStar t = Ok n -> 0 <= n < 9.
Proof.
  intros t n E. unfold LunarYear_getNineStar in E. apply bind_ok in E. destruct E as (p & _ & E). apply bind_ok in E. destruct E as (q & _ & E). cbv zeta in E. apply Ok_inj in E.
  pose proof (Z.mod_pos_bound (62 + q mod 3 * 3 - (getJiaZiIndex p + 1)) 9 ltac:(lia)) as B. destruct (Z.eqb_spec 0 ((62 + q mod 3 * 3 - (getJiaZiIndex p + 1)) mod 9)); lia.
Qed.
(** Palaces facing each other carry numbers that add up to ten: the square of the nine palaces. *)
Definition facing : list (str * str) := Eval vm_compute in map (fun p => (utf8 (fst p), utf8 (snd p)))
  [("正北", "正南"); ("正南", "正北"); ("正东", "正西"); ("正西", "正东"); ("东北", "西南"); ("西南", "东北"); ("东南", "西北"); ("西北", "东南"); ("中宫", "中宫")]%string.
Theorem C86_facing : forall i j, 0 <= i < 9 -> 0 <= j < 9 -> exists p q, NineStar_getPositionDesc i = Ok p /\ NineStar_getPositionDesc j = Ok q /\
  (In (p, q) facing <-> (i + 1) + (j + 1) = 10).
Proof.
  intros i j Hi Hj.
  assert (T : forallb (fun i => forallb (fun j => match NineStar_getPositionDesc i, NineStar_getPositionDesc j with
    | Ok p, Ok q => Bool.eqb (existsb (fun f => str_eqb p (fst f) && str_eqb q (snd f)) facing) (i + j =? 8) | _, _ => false end) (zrange 0 9)) (zrange 0 9) = true) by (vm_compute; reflexivity).
  pose proof (forallb_zrange _ _ _ T i Hi) as X. cbv beta in X. pose proof (forallb_zrange _ _ _ X j Hj) as Y. cbv beta in Y. clear T X.
  destruct (NineStar_getPositionDesc i) as [p|]; [|discriminate Y]. destruct (NineStar_getPositionDesc j) as [q|]; [|discriminate Y].
  exists p, q. split; [reflexivity|]. split; [reflexivity|]. apply eqb_prop in Y. transitivity (existsb (fun f => str_eqb p (fst f) && str_eqb q (snd f)) facing = true); [|rewrite Y; lia].
  rewrite existsb_exists. split.
  - intros I. exists (p, q). split; [exact I|]. cbn [fst snd]. rewrite !str_eqb_refl. reflexivity.
  - intros ([a b] & I & E). cbn [fst snd] in E. apply andb_prop in E. destruct E as [E1 E2]. apply str_eqb_eq in E1, E2. subst. exact I.
Qed.
(** The numbers of the stars fill the palaces as a magic square, 1 in the north and 3 in the east (which leaves no choice for the others). *)
Definition lines : list (str * str * str) := Eval vm_compute in map (fun '(a, b, c) => (utf8 a, utf8 b, utf8 c))
  [("东南", "正南", "西南"); ("正东", "中宫", "正西"); ("东北", "正北", "西北"); ("东南", "正东", "东北"); ("正南", "中宫", "正北"); ("西南", "正西", "西北");
   ("东南", "中宫", "西北"); ("西南", "中宫", "东北")]%string.
Definition stars : list Z := zrange 0 9.
Theorem C86_square : NineStar_getPositionDesc 0 = Ok (utf8 "正北") /\ NineStar_getPositionDesc 2 = Ok (utf8 "正东") /\
  (forall i j, 0 <= i < 9 -> 0 <= j < 9 -> NineStar_getPositionDesc i = NineStar_getPositionDesc j -> i = j) /\
  forall a b c, In (a, b, c) lines -> exists i j k, 0 <= i < 9 /\ 0 <= j < 9 /\ 0 <= k < 9 /\
    NineStar_getPositionDesc i = Ok a /\ NineStar_getPositionDesc j = Ok b /\ NineStar_getPositionDesc k = Ok c /\ (i + 1) + (j + 1) + (k + 1) = 15.
Proof.
  split; [reflexivity|]. split; [reflexivity|]. split.
  - intros i j Hi Hj E.
    assert (T : forallb (fun i => forallb (fun j => match NineStar_getPositionDesc i, NineStar_getPositionDesc j with Ok p, Ok q => implb (str_eqb p q) (i =? j) | _, _ => false end) stars) stars = true)
      by (vm_compute; reflexivity).
    pose proof (forallb_zrange _ _ _ T i Hi) as X. cbv beta in X. pose proof (forallb_zrange _ _ _ X j Hj) as Y. cbv beta in Y. rewrite E in Y. destruct (NineStar_getPositionDesc j); [|discriminate Y].
    rewrite str_eqb_refl in Y. cbn [implb] in Y. lia.
  - intros a b c I.
    assert (T : forallb (fun '(a, b, c) => existsb (fun i => existsb (fun j => existsb (fun k => ok_is (NineStar_getPositionDesc i) a && ok_is (NineStar_getPositionDesc j) b &&
      ok_is (NineStar_getPositionDesc k) c && (i + j + k =? 12)) stars) stars) stars) lines = true) by (vm_compute; reflexivity).
    rewrite forallb_forall in T. specialize (T _ I). cbv beta iota in T. apply existsb_exists in T. destruct T as (i & Hi & T). apply existsb_exists in T. destruct T as (j & Hj & T).
    apply existsb_exists in T. destruct T as (k & Hk & T). apply in_zrange in Hi, Hj, Hk. apply andb_prop in T. destruct T as [T S]. apply andb_prop in T. destruct T as [T Tc].
    apply andb_prop in T. destruct T as [Ta Tb]. apply ok_is_eq in Ta, Tb, Tc. exists i, j, k. repeat (split; [assumption|]). lia.
Qed.
(** The number and the colour go with the star: 一 … 九, and 白 for 1, 6 and 8. *)
Theorem C86_number : forall i, 0 <= i < 9 -> exists c col, NineStar_getNumber i = Ok [c] /\ nth_error (utf8 "一二三四五六七八九") (Z.to_nat i) = Some c /\ NineStar_getColor i = Ok col /\
  (col = utf8 "白" <-> In (i + 1) [1; 6; 8]).
Proof.
  intros i Hi.
  assert (T : forallb (fun i => match NineStar_getNumber i, NineStar_getColor i, nth_error (utf8 "一二三四五六七八九") (Z.to_nat i) with
    | Ok [c], Ok col, Some d => (c =? d) && Bool.eqb (str_eqb col (utf8 "白")) (existsb (Z.eqb (i + 1)) [1; 6; 8]) | _, _, _ => false end) (zrange 0 9) = true) by (vm_compute; reflexivity).
  pose proof (forallb_zrange _ _ _ T i Hi) as X. cbv beta in X. destruct (NineStar_getNumber i) as [[|c [|? ?]]|]; try discriminate X. destruct (NineStar_getColor i) as [col|]; [|discriminate X].
  destruct (nth_error _ _) as [d|]; [|discriminate X]. apply andb_prop in X. destruct X as [X Y]. apply Z.eqb_eq in X. subst d. exists c, col. repeat (split; [reflexivity|]).
  apply eqb_prop in Y. rewrite <- (str_eqb_eq col), Y, existsb_exists. split.
  - intros (x & I & E). apply Z.eqb_eq in E. now rewrite E.
  - intros I. exists (i + 1). split; [exact I|lia].
Qed.
(** Clockwise from the north the palaces hold the gates 休生伤杜景死惊开; the first four are 阳, the others 阴; their elements are those of the directions. *)
Definition circle : list str := map utf8 ["正北"; "东北"; "正东"; "东南"; "正南"; "西南"; "正西"; "西北"]%string.
Definition gates : str := utf8 "休生伤杜景死惊开".
Definition elements : str := utf8 "水土木木火土金金".
Theorem C86_gates : forall i d n, 0 <= i < 9 -> NineStar_getPositionDesc i = Ok d -> nth_error circle n = Some d -> exists g e,
  nth_error gates n = Some g /\ NineStar_getBaMenInQiMen i = Ok [g] /\ nth_error elements n = Some e /\ NineStar_getWuXing i = Ok [e] /\
  NineStar_getYinYangInQiMen i = Ok (if (n <? 4)%nat then utf8 "阳" else utf8 "阴").
Proof.
  intros i d n Hi Ei En.
  assert (T : forallb (fun i => forallb (fun n => match NineStar_getPositionDesc i, nth_error circle n, nth_error gates n, nth_error elements n with
      | Ok d, Some d', Some g, Some e => implb (str_eqb d d') (ok_is (NineStar_getBaMenInQiMen i) [g] && ok_is (NineStar_getWuXing i) [e] &&
          ok_is (NineStar_getYinYangInQiMen i) (if (n <? 4)%nat then utf8 "阳" else utf8 "阴"))
      | _, _, _, _ => false end) (seq 0 8)) (zrange 0 9) = true) by (vm_compute; reflexivity).
  pose proof (forallb_zrange _ _ _ T i Hi) as X. cbv beta in X. rewrite forallb_forall in X. assert (Hn : (n < 8)%nat) by (change 8%nat with (length circle); apply nth_error_Some; congruence).
  specialize (X n ltac:(apply in_seq; lia)). cbv beta in X. rewrite Ei, En, str_eqb_refl in X. destruct (nth_error gates n) as [g|]; [|discriminate X]. destruct (nth_error elements n) as [e|]; [|discriminate X].
  cbn [implb] in X. apply andb_prop in X. destruct X as [X C]. apply andb_prop in X. destruct X as [A B]. apply ok_is_eq in A, B, C. exists g, e. auto.
Qed.
(** The song of a star names it, and no other star; a star that Tai Yi counts as lucky, or as unlucky, is so in Xuan Kong as well. *)
Theorem C86_song : forall i, 0 <= i < 9 -> exists s, NineStar_getSongInTaiYi i = Ok s /\
  (forall j n, 0 <= j < 9 -> NineStar_getNameInTaiYi j = Ok n -> (py_in n s = true <-> i = j)) /\
  (NineStar_getTypeInTaiYi i = Ok (utf8 "吉神") -> NineStar_getLuckInXuanKong i = Ok (utf8 "吉")) /\
  (NineStar_getTypeInTaiYi i = Ok (utf8 "凶神") -> NineStar_getLuckInXuanKong i = Ok (utf8 "凶")).
Proof.
  intros i Hi.
  assert (T : forallb (fun i => match NineStar_getSongInTaiYi i with Ok s =>
      forallb (fun j => match NineStar_getNameInTaiYi j with Ok n => Bool.eqb (py_in n s) (i =? j) | Raise _ => false end) (zrange 0 9) &&
      implb (ok_is (NineStar_getTypeInTaiYi i) (utf8 "吉神")) (ok_is (NineStar_getLuckInXuanKong i) (utf8 "吉")) &&
      implb (ok_is (NineStar_getTypeInTaiYi i) (utf8 "凶神")) (ok_is (NineStar_getLuckInXuanKong i) (utf8 "凶")) | Raise _ => false end) (zrange 0 9) = true) by (vm_compute; reflexivity).
  pose proof (forallb_zrange _ _ _ T i Hi) as X. cbv beta in X. destruct (NineStar_getSongInTaiYi i) as [s|]; [|discriminate X]. exists s. split; [reflexivity|].
  apply andb_prop in X. destruct X as [X C]. apply andb_prop in X. destruct X as [A B]. split; [|split].
  - intros j n Hj En. pose proof (forallb_zrange _ _ _ A j Hj) as Y. cbv beta in Y. rewrite En in Y. apply eqb_prop in Y. rewrite Y. lia.
  - intros E. rewrite E in B. apply ok_is_eq. cbn [ok_is] in B. rewrite str_eqb_refl in B. exact B.
  - intros E. rewrite E in C. apply ok_is_eq. cbn [ok_is] in C. rewrite str_eqb_refl in C. exact C.
Qed.
(** The text of a star tells which one it is. *)
Theorem C86_text : forall i j s, 0 <= i < 9 -> 0 <= j < 9 -> NineStar_toString i = Ok s -> NineStar_toString j = Ok s -> i = j.
Proof.
  intros i j s Hi Hj Ei Ej.
  assert (T : forallb (fun i => forallb (fun j => match NineStar_toString i, NineStar_toString j with Ok p, Ok q => implb (str_eqb p q) (i =? j) | _, _ => false end) (zrange 0 9)) (zrange 0 9) = true)
    by (vm_compute; reflexivity).
  pose proof (forallb_zrange _ _ _ T i Hi) as X. cbv beta in X. pose proof (forallb_zrange _ _ _ X j Hj) as Y. cbv beta in Y. rewrite Ei, Ej, str_eqb_refl in Y. cbn [implb] in Y. lia.
Qed.
Example C86_case : NineStar_toFullString 4 = Ok (utf8 "五黄土 中(中宫) 玉衡 玄空[廉贞 凶] 奇门[天禽 大吉 阳] 太乙[天符 凶神]") /\
  NineStar_toString 0 = Ok (utf8 "一白水天枢").
Proof. split; apply ok_is_eq; vm_compute; reflexivity. Qed.

(** ** C87 *)
(** Reading a year text digit by digit. *)
Definition numerals : list Z := Eval vm_compute in utf8 "〇一二三四五六七八九".
Fixpoint position (c : Z) (l : list Z) : Z := match l with [] => 0 | x :: t => if c =? x then 0 else 1 + position c t end.
Definition read (s : str) : Z := fold_left (fun acc c => 10 * acc + position c numerals) s 0.
Lemma number_digit c : 48 <= c <= 57 -> exists v, py_index LunarUtil_NUMBER (c - 48) = Ok [v] /\ position v numerals = c - 48 /\ In v numerals.
Proof.
  intros H. assert (T : forallb (fun c => match py_index LunarUtil_NUMBER (c - 48) with Ok [v] => (position v numerals =? c - 48) && existsb (Z.eqb v) numerals | _ => false end) (zrange 48 58) = true)
    by (vm_compute; reflexivity).
  pose proof (forallb_zrange _ _ _ T c ltac:(lia)) as X. cbv beta in X. destruct (py_index LunarUtil_NUMBER (c - 48)) as [[|v [|? ?]]|]; try discriminate X.
  apply andb_prop in X. destruct X as [X Y]. exists v. split; [reflexivity|]. split; [lia|]. apply existsb_exists in Y. destruct Y as (w & I & E). apply Z.eqb_eq in E. subst w. exact I.
Qed.
Lemma digits_read s : Forall (fun c => 48 <= c <= 57) s -> exists cs, mapM (fun c => py_index LunarUtil_NUMBER (c - 48)) s = Ok cs /\
  Forall (fun c => In c numerals) (concat cs) /\ List.length (concat cs) = List.length s /\ forall acc, fold_left (fun acc c => 10 * acc + position c numerals) (concat cs) acc = undigs acc s.
Proof.
  induction 1 as [|c s Hc _ (cs & E & F & L & R)].
  - exists []. split; [reflexivity|]. split; [constructor|]. split; reflexivity.
  - destruct (number_digit c Hc) as (v & Ev & Pv & Iv). exists ([v] :: cs). cbn [mapM]. rewrite Ev. cbn [bind]. rewrite E. cbn [bind concat app]. split; [reflexivity|].
    split; [constructor; assumption|]. split; [cbn [List.length]; lia|]. intros acc. cbn [fold_left undigs]. rewrite R, Pv. reflexivity.
Qed.
Definition ten : Z := Eval vm_compute in nth 0 (utf8 "十") 0.
(** The digits of the year; a minus sign comes out as 十. *)
Theorem C87_digits : forall n, exists s, digits_chinese n = Ok s /\
  (0 <= n -> Forall (fun c => In c numerals) s /\ List.length s = List.length (str_of_Z n) /\ read s = n) /\
  (n < 0 -> exists t, s = ten :: t /\ digits_chinese (- n) = Ok t).
Proof.
  assert (P : forall n, 0 <= n -> exists s, digits_chinese n = Ok s /\ Forall (fun c => In c numerals) s /\ List.length s = List.length (str_of_Z n) /\ read s = n).
  { intros n Hn. unfold digits_chinese, str_of_Z. replace (n <? 0) with false by lia.
    destruct (digits_read _ (digs_nonneg_chars (dec_fuel n) n Hn)) as (cs & E & F & L & R). exists (concat cs). rewrite E. split; [reflexivity|]. split; [exact F|]. split; [exact L|].
    unfold read. rewrite R. apply undigs_digs. split; [exact Hn|apply dec_fuel_ok, Hn]. }
  intros n. destruct (Z.neg_nonneg_cases n) as [Hn|Hn].
  - destruct (P (- n) ltac:(lia)) as (t & E & _). exists (ten :: t). split; [|split; [lia|intros _; exists t; split; [reflexivity|exact E]]].
    revert E. unfold digits_chinese, str_of_Z. replace (n <? 0) with true by lia. replace (- n <? 0) with false by lia. intros E.
    apply bind_ok in E. destruct E as (cs & E & Et). apply Ok_inj in Et. cbn [mapM]. rewrite E.
    replace (py_index LunarUtil_NUMBER (45 - 48)) with (Ok [ten]) by (vm_compute; reflexivity). cbn [bind]. now rewrite <- Et.
  - destruct (P n Hn) as (s & E & R). exists s. split; [exact E|]. split; [intros _; exact R|lia].
Qed.
Lemma digits_inj a b s : digits_chinese a = Ok s -> digits_chinese b = Ok s -> a = b.
Proof.
  assert (N : forall n s, 0 <= n -> digits_chinese n = Ok s -> read s = n /\ Forall (fun c => In c numerals) s).
  { intros n t Hn E. destruct (C87_digits n) as (u & E' & P & _). rewrite E in E'. apply Ok_inj in E'. subst u. destruct (P Hn) as (F & _ & R). split; assumption. }
  assert (M : forall n s, n < 0 -> digits_chinese n = Ok s -> exists t, s = ten :: t /\ digits_chinese (- n) = Ok t).
  { intros n t Hn E. destruct (C87_digits n) as (u & E' & _ & P). rewrite E in E'. apply Ok_inj in E'. subst u. exact (P Hn). }
  assert (T : ~ In ten numerals) by (vm_compute; intuition discriminate).
  intros Ea Eb. destruct (Z.neg_nonneg_cases a) as [Ha|Ha], (Z.neg_nonneg_cases b) as [Hb|Hb].
  - destruct (M _ _ Ha Ea) as (t & -> & Ea'). destruct (M _ _ Hb Eb) as (u & E & Eb'). injection E as <-. pose proof (proj1 (N (- a) _ ltac:(lia) Ea')). pose proof (proj1 (N (- b) _ ltac:(lia) Eb')). lia.
  - destruct (M _ _ Ha Ea) as (t & -> & _). destruct (N _ _ Hb Eb) as [_ F]. inversion F. contradiction.
  - destruct (M _ _ Hb Eb) as (t & -> & _). destruct (N _ _ Ha Ea) as [_ F]. inversion F. contradiction.
  - pose proof (proj1 (N a _ Ha Ea)). pose proof (proj1 (N b _ Hb Eb)). lia.
Qed.
Definition nian : Z := Eval vm_compute in nth 0 (utf8 "年") 0.
Lemma digits_chars n s : digits_chinese n = Ok s -> Forall (fun c => c <> nian) s.
Proof.
  assert (T : forall c, In c numerals -> c <> nian).
  { intros c I E. subst c. revert I. vm_compute. intuition discriminate. }
  intros E. destruct (C87_digits n) as (u & E' & P & M). rewrite E in E'. apply Ok_inj in E'. subst u. destruct (Z.neg_nonneg_cases n) as [Hn|Hn].
  - destruct (M Hn) as (t & -> & Et). constructor; [vm_compute; discriminate|]. destruct (C87_digits (- n)) as (u & E' & P' & _). rewrite Et in E'. apply Ok_inj in E'. subst u.
    destruct (P' ltac:(lia)) as (F & _). eapply Forall_impl; [|exact F]. exact T.
  - destruct (P Hn) as (F & _). eapply Forall_impl; [|exact F]. exact T.
Qed.
Lemma split_at {A} (x : A) s : forall t u v, Forall (fun c => c <> x) s -> Forall (fun c => c <> x) t -> s ++ x :: u = t ++ x :: v -> s = t /\ u = v.
Proof.
  induction s as [|c s IH]; intros [|d t] u v Fs Ft E; cbn [app] in E.
  - injection E as <-. auto.
  - injection E as -> _. inversion Ft. congruence.
  - injection E as -> _. inversion Fs. congruence.
  - injection E as -> E. inversion Fs; inversion Ft; subst. destruct (IH t u v) as [-> ->]; auto.
Qed.
(** Month and day. *)
Definition month_day (m d : Z) : res str :=
  let! x := py_index LunarUtil_MONTH (Z.abs m) in let! y := py_index LunarUtil_DAY d in Ok (((if m <? 0 then utf8 "闰"%string else []) ++ x) ++ utf8 "月"%string ++ y).
Lemma month_day_total m d : 1 <= Z.abs m <= 12 -> 1 <= d <= 30 -> exists s, month_day m d = Ok s.
Proof.
  intros Hm Hd. assert (Tm : forallb (fun i => foundb (py_index LunarUtil_MONTH i)) (zrange 1 13) = true) by (vm_compute; reflexivity).
  assert (Td : forallb (fun i => foundb (py_index LunarUtil_DAY i)) (zrange 1 31) = true) by (vm_compute; reflexivity).
  pose proof (forallb_zrange _ _ _ Tm (Z.abs m) ltac:(lia)) as X. apply foundb_ok in X. destruct X as (x & Ex & _).
  pose proof (forallb_zrange _ _ _ Td d ltac:(lia)) as Y. apply foundb_ok in Y. destruct Y as (y & Ey & _). unfold month_day. rewrite Ex, Ey. cbn [bind]. eauto.
Qed.
Lemma month_names : forallb (fun i => forallb (fun j => match py_index LunarUtil_MONTH i, py_index LunarUtil_MONTH j with
  | Ok [a], Ok [b] => implb (a =? b) (i =? j) && negb (a =? 38384) && negb (b =? 38384) | _, _ => false end) (zrange 1 13)) (zrange 1 13) = true.
Proof. vm_compute. reflexivity. Qed.
Lemma day_names : forallb (fun i => forallb (fun j => match py_index LunarUtil_DAY i, py_index LunarUtil_DAY j with
  | Ok a, Ok b => implb (str_eqb a b) (i =? j) | _, _ => false end) (zrange 1 31)) (zrange 1 31) = true.
Proof. vm_compute. reflexivity. Qed.
Lemma month_day_inj m d m' d' s : 1 <= Z.abs m <= 12 -> 1 <= d <= 30 -> 1 <= Z.abs m' <= 12 -> 1 <= d' <= 30 -> month_day m d = Ok s -> month_day m' d' = Ok s -> m = m' /\ d = d'.
Proof.
  intros Hm Hd Hm' Hd' E E'. pose proof (forallb_zrange _ _ _ month_names (Z.abs m) ltac:(lia)) as X. cbv beta in X. pose proof (forallb_zrange _ _ _ X (Z.abs m') ltac:(lia)) as X'. cbv beta in X'. clear X.
  pose proof (forallb_zrange _ _ _ day_names d ltac:(lia)) as Y. cbv beta in Y. pose proof (forallb_zrange _ _ _ Y d' ltac:(lia)) as Y'. cbv beta in Y'. clear Y.
  unfold month_day in E, E'. destruct (py_index LunarUtil_MONTH (Z.abs m)) as [[|a [|? ?]]|]; try discriminate X'. destruct (py_index LunarUtil_MONTH (Z.abs m')) as [[|b [|? ?]]|]; try discriminate X'.
  destruct (py_index LunarUtil_DAY d) as [u|]; [|discriminate Y']. destruct (py_index LunarUtil_DAY d') as [v|]; [|discriminate Y']. cbn [bind] in E, E'. apply Ok_inj in E, E'. subst s.
  apply andb_prop in X'. destruct X' as [X' X3]. apply andb_prop in X'. destruct X' as [X1 X2]. change (utf8 "闰"%string) with [38384] in E'. change (utf8 "月"%string) with [26376] in E'.
  destruct (Z.ltb_spec m 0), (Z.ltb_spec m' 0); cbn [app] in E'.
  - injection E' as -> ->. rewrite Z.eqb_refl in X1. rewrite str_eqb_refl in Y'. cbn [implb] in *. lia.
  - injection E' as E' _. lia.
  - injection E' as E' _. lia.
  - injection E' as -> ->. rewrite Z.eqb_refl in X1. rewrite str_eqb_refl in Y'. cbn [implb] in *. lia.
Qed.
Lemma text_of year l s : ymd_chinese year l = Ok s -> exists y md, year = Ok y /\ month_day (l_month l) (l_day l) = Ok md /\ s = y ++ nian :: md.
Proof.
  unfold ymd_chinese, month_day, Lunar_getMonthInChinese, Lunar_getDayInChinese. intros E. apply bind_ok in E. destruct E as (y & Ey & E). apply bind_ok in E. destruct E as (m & Em & E).
  apply bind_ok in Em. destruct Em as (x & Ex & Em). apply Ok_inj in Em. apply bind_ok in E. destruct E as (d & Ed & E). apply Ok_inj in E. exists y, (m ++ utf8 "月"%string ++ d). 
  split; [exact Ey|]. rewrite Ex, Ed. cbn [bind]. rewrite Em. split; [reflexivity|]. rewrite <- E. reflexivity.
Qed.
Definition date_in_range (l : Lunar) : Prop := 1 <= Z.abs (l_month l) <= 12 /\ 1 <= l_day l <= 30.
Lemma text_inj a b l l' s : date_in_range l -> date_in_range l' -> ymd_chinese (digits_chinese a) l = Ok s -> ymd_chinese (digits_chinese b) l' = Ok s ->
  a = b /\ l_month l = l_month l' /\ l_day l = l_day l'.
Proof.
  intros [Hm Hd] [Hm' Hd'] E E'. apply text_of in E, E'. destruct E as (y & md & Ey & Emd & ->). destruct E' as (y' & md' & Ey' & Emd' & E).
  destruct (split_at nian y y' md md' (digits_chars _ _ Ey) (digits_chars _ _ Ey') E) as [<- <-].
  split; [exact (digits_inj _ _ _ Ey Ey')|]. exact (month_day_inj _ _ _ _ _ Hm Hd Hm' Hd' Emd Emd').
Qed.
(** Every date has a text, and different dates have different texts. *)
Theorem C87_texts : forall l, date_in_range l -> (exists s, Lunar_toString l = Ok s) /\ (exists s, Foto_toString l = Ok s) /\ (exists s, Tao_toString l = Ok s).
Proof.
  intros l [Hm Hd]. assert (K : forall n, exists s, ymd_chinese (digits_chinese n) l = Ok s).
  { intros n. destruct (C87_digits n) as (s & E & _). destruct (month_day_total _ _ Hm Hd) as (md & M). unfold month_day in M. apply bind_ok in M. destruct M as (x & Ex & M).
    apply bind_ok in M. destruct M as (y & Ey & _). unfold ymd_chinese, Lunar_getMonthInChinese, Lunar_getDayInChinese. rewrite E, Ex, Ey. cbn [bind]. eauto. }
  split; [exact (K (l_year l))|]. split; [exact (K (Foto_getYear l))|exact (K (Tao_getYear l))].
Qed.
Theorem C87_injective : forall l l' s, date_in_range l -> date_in_range l' -> Lunar_toString l = Ok s -> Lunar_toString l' = Ok s ->
  l_year l = l_year l' /\ l_month l = l_month l' /\ l_day l = l_day l'.
Proof. intros l l' s H H' E E'. exact (text_inj _ _ _ _ _ H H' E E'). Qed.
Theorem C87_foto_tao : forall l l' s, date_in_range l -> date_in_range l' ->
  (Foto_toString l = Ok s -> Foto_toString l' = Ok s -> Foto_getYear l = Foto_getYear l' /\ l_month l = l_month l' /\ l_day l = l_day l') /\
  (Tao_toString l = Ok s -> Tao_toString l' = Ok s -> l_year l = l_year l' /\ l_month l = l_month l' /\ l_day l = l_day l').
Proof.
  intros l l' s H H'. split; intros E E'; destruct (text_inj _ _ _ _ _ H H' E E') as (A & B & D); (split; [|split; assumption]); [exact A|]. unfold Tao_getYear in A. lia.
Qed.
Example C87_case : digits_chinese 2024 = Ok (utf8 "二〇二四") /\ digits_chinese (-5) = Ok (utf8 "十五") /\
  exists l y m d, Lunar_new demo y m d 12 0 0 = Ok l /\ date_in_range l /\ Lunar_toString l = Ok (utf8 "二〇二四年正月初一") /\
    Foto_toString l = Ok (utf8 "二五六八年正月初一") /\ Tao_toString l = Ok (utf8 "四七二一年正月初一").
Proof.
  split; [apply ok_is_eq; vm_compute; reflexivity|]. split; [apply ok_is_eq; vm_compute; reflexivity|].
  assert (E : (let! l := getLunar demo (mkSolar 2024 2 10 12 0 0) in let! a := Lunar_toString l in let! b := Foto_toString l in let! c := Tao_toString l in Ok (l_month l, l_day l, a, b, c)) =
    Ok (1, 1, utf8 "二〇二四年正月初一", utf8 "二五六八年正月初一", utf8 "四七二一年正月初一")) by (vm_compute; reflexivity).
  apply bind_ok in E. destruct E as (l & El & E). apply bind_ok in E. destruct E as (a & Ea & E). apply bind_ok in E. destruct E as (b & Eb & E). apply bind_ok in E. destruct E as (c & Ec & E).
  apply Ok_inj in E. apply pair_equal_spec in E. destruct E as [E E5]. apply pair_equal_spec in E. destruct E as [E E4]. apply pair_equal_spec in E. destruct E as [E E3].
  apply pair_equal_spec in E. destruct E as [E1 E2]. subst a b c. destruct (getLunar_new _ _ _ El) as (y & m & d & H). exists l, y, m, d.
  split; [exact H|]. split; [unfold date_in_range; lia|]. split; [exact Ea|]. split; [exact Eb|exact Ec].
Qed.
