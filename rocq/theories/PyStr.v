(** Python [str] as lists of code points; comparison, slicing, searching, decimal formatting. *)
From Coq Require Import ZArith Lia Bool ZifyBool List String Ascii.
From Verif Require Import Py.
Import ListNotations.
Open Scope Z_scope.

Definition str := list Z.

(** ASCII literals. *)
Fixpoint lit (s : string) : str :=
  match s with
  | EmptyString => []
  | String c t => Z.of_N (N_of_ascii c) :: lit t
  end.

(** [a == b] *)
Fixpoint str_eqb (a b : str) : bool :=
  match a, b with
  | [], [] => true
  | x :: a', y :: b' => (x =? y) && str_eqb a' b'
  | _, _ => false
  end.

(** [a < b]: lexicographic by code point. *)
Fixpoint str_ltb (a b : str) : bool :=
  match a, b with
  | [], [] => false
  | [], _ :: _ => true
  | _ :: _, [] => false
  | x :: a', y :: b' => if x <? y then true else if y <? x then false else str_ltb a' b'
  end.

(** [a <= b] *)
Definition str_leb (a b : str) : bool := negb (str_ltb b a).

Definition slen (a : str) : Z := Z.of_nat (length a).

(** Clamp a slice bound as Python does. *)
Definition clamp (n i : Z) : Z := if i <? 0 then Z.max 0 (n + i) else Z.min i n.

(** [a[i:j]] *)
Definition slice {A} (a : list A) (i j : Z) : list A :=
  let n := Z.of_nat (length a) in
  let i' := clamp n i in
  let j' := clamp n j in
  firstn (Z.to_nat (j' - i')) (skipn (Z.to_nat i') a).

(** [a[i:]] *)
Definition slice_from {A} (a : list A) (i : Z) : list A := slice a i (Z.of_nat (length a)).

Fixpoint prefixb (p s : str) : bool :=
  match p, s with
  | [], _ => true
  | _ :: _, [] => false
  | x :: p', y :: s' => (x =? y) && prefixb p' s'
  end.

(** [s.find(p)] from position [k]: first occurrence at or after the start of [s], or -1. *)
Fixpoint find_from (k : Z) (p s : str) : Z :=
  if prefixb p s then k
  else match s with
       | [] => -1
       | _ :: t => find_from (k + 1) p t
       end.

(** [s.find(p)] *)
Definition py_find (s p : str) : Z := find_from 0 p s.

(** [p in s] *)
Definition py_in (p s : str) : bool := 0 <=? py_find s p.

(** Decimal digits of [n >= 0]; [fuel] bounds the number of digits. *)
Fixpoint digs (fuel : nat) (n : Z) : str :=
  match fuel with
  | O => []
  | S f => if n <? 10 then [48 + n] else digs f (n / 10) ++ [48 + n mod 10]
  end.

Definition dec_fuel (n : Z) : nat := S (Z.to_nat (Z.log2 n)).

(** [str(n)], ["%d" % n] *)
Definition str_of_Z (n : Z) : str :=
  if n <? 0 then 45 :: digs (dec_fuel (- n)) (- n) else digs (dec_fuel n) n.

Definition zpad (w : Z) (s : str) : str := repeat 48 (Z.to_nat (w - slen s)) ++ s.

(** ["%0wd" % n]: the sign counts in the width. *)
Definition fmt0 (w n : Z) : str :=
  if n <? 0 then 45 :: zpad (w - 1) (digs (dec_fuel (- n)) (- n)) else zpad w (digs (dec_fuel n) n).

(** [d.get(k)] for a dict literal with keys [str]: the last entry of a repeated key wins, as in
    Python; the tables are association lists in source order. *)
Fixpoint assoc {V} (k : str) (d : list (str * V)) : option V :=
  match d with
  | [] => None
  | (k', v) :: t => match assoc k t with
                    | Some w => Some w
                    | None => if str_eqb k k' then Some v else None
                    end
  end.

(** [d[k]] *)
Definition py_dict {V} (d : list (str * V)) (k : str) : res V :=
  match assoc k d with Some v => Ok v | None => Raise ExcKey end.

Definition opt_list {A} (o : option A) : list A := match o with Some a => [a] | None => [] end.

(** ** Facts *)

Lemma str_eqb_eq a : forall b, str_eqb a b = true <-> a = b.
Proof.
  induction a as [|x a IH]; intros [|y b]; cbn; split; intros H; try easy.
  - apply andb_prop in H. destruct H as [H1 H2]. apply Z.eqb_eq in H1. apply IH in H2. now subst.
  - injection H as -> ->. rewrite Z.eqb_refl. now apply IH.
Qed.

Lemma str_eqb_refl a : str_eqb a a = true.
Proof. now apply str_eqb_eq. Qed.

Lemma str_eqb_neq a b : str_eqb a b = false <-> a <> b.
Proof.
  split; intros H.
  - intros ->. now rewrite str_eqb_refl in H.
  - destruct (str_eqb a b) eqn:E; [|reflexivity]. apply str_eqb_eq in E. easy.
Qed.

Lemma str_eqb_spec a b : reflect (a = b) (str_eqb a b).
Proof. destruct (str_eqb a b) eqn:E; constructor; [now apply str_eqb_eq|now apply str_eqb_neq]. Qed.

Lemma str_ltb_irrefl a : str_ltb a a = false.
Proof. induction a as [|x a IH]; cbn; [reflexivity|]. now rewrite Z.ltb_irrefl. Qed.

(** Lexicographic comparison splits over prefixes of equal length. *)
Lemma str_ltb_app a c : length a = length c -> forall b d,
  str_ltb (a ++ b) (c ++ d) = str_ltb a c || (str_eqb a c && str_ltb b d).
Proof.
  revert c; induction a as [|x a IH]; intros [|y c] L b d; try discriminate L.
  - reflexivity.
  - injection L as L. cbn. rewrite (IH c L).
    destruct (Z.ltb_spec x y), (Z.ltb_spec y x), (Z.eqb_spec x y); try lia; cbn; try reflexivity.
Qed.

Lemma str_eqb_app a c : length a = length c -> forall b d,
  str_eqb (a ++ b) (c ++ d) = str_eqb a c && str_eqb b d.
Proof.
  revert c; induction a as [|x a IH]; intros [|y c] L b d; try discriminate L; [reflexivity|].
  injection L as L. cbn. rewrite (IH c L). now rewrite andb_assoc.
Qed.

Lemma str_ltb_cons x a b : str_ltb (x :: a) (x :: b) = str_ltb a b.
Proof. cbn. now rewrite Z.ltb_irrefl. Qed.

Lemma str_eqb_cons x a b : str_eqb (x :: a) (x :: b) = str_eqb a b.
Proof. cbn. now rewrite Z.eqb_refl. Qed.

Lemma str_ltb_asym a : forall b, str_ltb a b = true -> str_ltb b a = false.
Proof.
  induction a as [|x a IH]; intros [|y b]; cbn; try easy.
  destruct (Z.ltb_spec x y), (Z.ltb_spec y x); try lia; try easy. apply IH.
Qed.

Lemma str_ltb_total a : forall b, str_ltb a b = false -> str_ltb b a = false -> a = b.
Proof.
  induction a as [|x a IH]; intros [|y b]; cbn; try easy.
  destruct (Z.ltb_spec x y), (Z.ltb_spec y x); try lia; try easy. intros H1 H2.
  f_equal; [lia|]. now apply IH.
Qed.

(** Fixed width digits, most significant first. *)
Fixpoint fixed (w : nat) (n : Z) : str :=
  match w with O => [] | S k => fixed k (n / 10) ++ [48 + n mod 10] end.

Lemma fixed_length w n : length (fixed w n) = w.
Proof.
  revert n; induction w; intros; [reflexivity|]. cbn [fixed]. rewrite app_length, IHw. cbn [length]. lia.
Qed.

Lemma pow10_S k : 10 ^ Z.of_nat (S k) = 10 * 10 ^ Z.of_nat k.
Proof. rewrite Nat2Z.inj_succ, Z.pow_succ_r by lia. reflexivity. Qed.

Lemma div10_bnd k n : 0 <= n < 10 ^ Z.of_nat (S k) -> 0 <= n / 10 < 10 ^ Z.of_nat k.
Proof. rewrite pow10_S. intros. set (p := 10 ^ Z.of_nat k) in *. clearbody p. lia. Qed.

Lemma fixed_eqb w : forall a b, 0 <= a < 10 ^ Z.of_nat w -> 0 <= b < 10 ^ Z.of_nat w ->
  str_eqb (fixed w a) (fixed w b) = (a =? b).
Proof.
  induction w as [|w IH]; intros a b Ha Hb.
  - change (10 ^ Z.of_nat 0) with 1 in *. cbn [fixed str_eqb]. lia.
  - cbn [fixed]. rewrite str_eqb_app by (rewrite !fixed_length; reflexivity).
    rewrite IH by (apply div10_bnd; assumption). cbn [str_eqb]. rewrite andb_true_r. lia.
Qed.

Lemma fixed_ltb w : forall a b, 0 <= a < 10 ^ Z.of_nat w -> 0 <= b < 10 ^ Z.of_nat w ->
  str_ltb (fixed w a) (fixed w b) = (a <? b).
Proof.
  induction w as [|w IH]; intros a b Ha Hb.
  - change (10 ^ Z.of_nat 0) with 1 in *. cbn [fixed str_ltb]. lia.
  - cbn [fixed]. rewrite str_ltb_app by (rewrite !fixed_length; reflexivity).
    rewrite IH, fixed_eqb by (apply div10_bnd; assumption). cbn [str_ltb].
    destruct (Z.ltb_spec (48 + a mod 10) (48 + b mod 10)), (Z.ltb_spec (48 + b mod 10) (48 + a mod 10)); lia.
Qed.

Lemma fixed_inj w a b : 0 <= a < 10 ^ Z.of_nat w -> 0 <= b < 10 ^ Z.of_nat w ->
  fixed w a = fixed w b -> a = b.
Proof.
  intros Ha Hb E. apply Z.eqb_eq. rewrite <- (fixed_eqb w) by assumption. rewrite E. apply str_eqb_refl.
Qed.

Lemma fixed_0 w : fixed w 0 = repeat 48 w.
Proof.
  induction w as [|w IH]; [reflexivity|]. cbn [fixed]. change (0 / 10) with 0. change (48 + 0 mod 10) with 48.
  rewrite IH. symmetry. apply repeat_cons.
Qed.

Lemma zpad_fixed w : forall fuel n, 0 <= n < 10 ^ Z.of_nat w -> n < 10 ^ Z.of_nat fuel ->
  (0 < w)%nat -> (0 < fuel)%nat -> zpad (Z.of_nat w) (digs fuel n) = fixed w n.
Proof.
  induction w as [|w IH]; intros fuel n Hn Hf W F; [lia|].
  destruct fuel as [|f]; [lia|]. cbn [digs fixed]. destruct (Z.ltb_spec n 10) as [L|L].
  - unfold zpad, slen. cbn [length]. replace (Z.to_nat (Z.of_nat (S w) - Z.of_nat 1)) with w by lia.
    rewrite Z.div_small, Z.mod_small by lia. rewrite fixed_0. reflexivity.
  - assert (W0 : (0 < w)%nat).
    { destruct w; [|lia]. change (10 ^ Z.of_nat 1) with 10 in Hn. lia. }
    assert (F0 : (0 < f)%nat).
    { destruct f; [|lia]. change (10 ^ Z.of_nat 1) with 10 in Hf. lia. }
    rewrite <- (IH f (n / 10)); [|now apply div10_bnd| |exact W0|exact F0].
    + unfold zpad, slen. rewrite app_length. cbn [length].
      replace (Z.of_nat (S w) - Z.of_nat (length (digs f (n / 10)) + 1)) with (Z.of_nat w - Z.of_nat (length (digs f (n / 10)))) by lia.
      now rewrite app_assoc.
    + apply (div10_bnd f n). lia.
Qed.

Lemma dec_fuel_ok n : 0 <= n -> n < 10 ^ Z.of_nat (dec_fuel n).
Proof.
  intros H. unfold dec_fuel. destruct (Z.eq_dec n 0) as [->|N]; [reflexivity|].
  pose proof (Z.log2_spec n ltac:(lia)) as [_ L].
  rewrite Nat2Z.inj_succ, Z2Nat.id by apply Z.log2_nonneg.
  eapply Z.lt_le_trans; [exact L|]. apply Z.pow_le_mono_l. split; [lia|lia].
Qed.

Lemma fmt0_fixed w n : 0 <= n < 10 ^ Z.of_nat w -> (0 < w)%nat -> fmt0 (Z.of_nat w) n = fixed w n.
Proof.
  intros H W. unfold fmt0. destruct (Z.ltb_spec n 0); [lia|].
  apply zpad_fixed; [exact H|apply dec_fuel_ok; lia|exact W|unfold dec_fuel; lia].
Qed.

(** [str(n)] is injective: the digits determine the number. *)
Fixpoint undigs (acc : Z) (s : str) : Z := match s with [] => acc | c :: t => undigs (10 * acc + (c - 48)) t end.

Lemma undigs_app s : forall acc t, undigs acc (s ++ t) = undigs (undigs acc s) t.
Proof. induction s as [|c s IH]; intros; [reflexivity|]. cbn [app undigs]. apply IH. Qed.

Lemma undigs_digs fuel : forall n, 0 <= n < 10 ^ Z.of_nat fuel -> undigs 0 (digs fuel n) = n.
Proof.
  induction fuel as [|f IH]; intros n H.
  - change (10 ^ Z.of_nat 0) with 1 in H. cbn [digs undigs]. lia.
  - cbn [digs]. destruct (Z.ltb_spec n 10).
    + cbn [undigs]. lia.
    + rewrite undigs_app, IH by (apply (div10_bnd f); exact H). cbn [undigs]. lia.
Qed.

Lemma digs_nonneg_chars fuel : forall n, 0 <= n -> Forall (fun c => 48 <= c <= 57) (digs fuel n).
Proof.
  induction fuel as [|f IH]; intros n H; cbn [digs]; [constructor|].
  destruct (Z.ltb_spec n 10).
  - repeat constructor; lia.
  - apply Forall_app. split; [apply IH; lia|]. repeat constructor; lia.
Qed.

Lemma str_of_Z_inj a b : str_of_Z a = str_of_Z b -> a = b.
Proof.
  unfold str_of_Z. intros E.
  assert (D : forall n, 0 <= n -> undigs 0 (digs (dec_fuel n) n) = n).
  { intros n Hn. apply undigs_digs. split; [exact Hn|now apply dec_fuel_ok]. }
  assert (N : forall n s, 0 <= n -> digs (dec_fuel n) n <> 45 :: s).
  { intros n s Hn K. pose proof (digs_nonneg_chars (dec_fuel n) n Hn) as F. rewrite K in F. inversion F. lia. }
  destruct (Z.ltb_spec a 0), (Z.ltb_spec b 0).
  - apply (f_equal (@tl Z)) in E. cbn [tl] in E. apply (f_equal (undigs 0)) in E. rewrite !D in E by lia. lia.
  - symmetry in E. apply N in E; [easy|lia].
  - apply N in E; [easy|lia].
  - apply (f_equal (undigs 0)) in E. rewrite !D in E by lia. exact E.
Qed.

(** Non-ASCII literals: the bytes of the Coq string are decoded as UTF-8 (1 to 3 byte sequences,
    which covers every character of the source). *)
Fixpoint utf8 (s : string) : str :=
  match s with
  | EmptyString => []
  | String c t =>
      let b := Z.of_N (N_of_ascii c) in
      if b <? 128 then b :: utf8 t
      else if b <? 224 then
        match t with
        | String c2 t2 => ((b - 192) * 64 + (Z.of_N (N_of_ascii c2) - 128)) :: utf8 t2
        | EmptyString => []
        end
      else
        match t with
        | String c2 (String c3 t3) =>
            ((b - 224) * 4096 + (Z.of_N (N_of_ascii c2) - 128) * 64 + (Z.of_N (N_of_ascii c3) - 128)) :: utf8 t3
        | _ => []
        end
  end.

Example utf8_ok : utf8 "甲a子" = [30002; 97; 23376].
Proof. reflexivity. Qed.
