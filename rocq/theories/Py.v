(** Python primitives used by the model.

    Python [int] is [Z].  A call that may raise returns [res A].  Python's
    [//] and [%] on integers are [Z.div] and [Z.modulo] (floor division).
    Loops whose length depends on data run on binary fuel ([loop]) and give
    [Raise NonTermination] when the fuel is exhausted; every theorem about such
    a loop also shows that this outcome does not occur. *)
From Coq Require Export ZArith List Bool Lia.
From Coq Require Import ZifyBool.
Export ListNotations.
Open Scope Z_scope.

Ltac Zify.zify_post_hook ::= Z.div_mod_to_equations.

(** The exceptions the modelled code can raise.  [ExcValue] stands for the
    library's own [raise Exception("...")]; the text is not modelled. *)
Inductive exn := ExcValue | ExcType | ExcIndex | ExcKey | ExcAttr | ExcDivZero | ExcOverflow | NonTermination.

Inductive res (A : Type) := Ok (a : A) | Raise (e : exn).
Arguments Ok {A} a.
Arguments Raise {A} e.

Definition bind {A B} (x : res A) (f : A -> res B) : res B :=
  match x with Ok a => f a | Raise e => Raise e end.

Notation "'let!' x ':=' e1 'in' e2" := (bind e1 (fun x => e2))
  (at level 200, x name, right associativity).

Definition is_ok {A} (r : res A) : bool := match r with Ok _ => true | Raise _ => false end.

(** Python list/tuple indexing [l[i]]: negative indices count from the end,
    out of range raises IndexError. *)
Definition py_index {A} (l : list A) (i : Z) : res A :=
  let n := Z.of_nat (length l) in
  let j := if i <? 0 then i + n else i in
  if (j <? 0) || (n <=? j) then Raise ExcIndex
  else match nth_error l (Z.to_nat j) with Some a => Ok a | None => Raise ExcIndex end.

(** [range(a, b)] *)
Fixpoint zseq (a : Z) (n : nat) : list Z :=
  match n with O => nil | S k => a :: zseq (a + 1) k end.
Definition zrange (a b : Z) : list Z := zseq a (Z.to_nat (b - a)).

Fixpoint foldM {S A} (f : S -> A -> res S) (s : S) (l : list A) : res S :=
  match l with nil => Ok s | a :: t => let! s' := f s a in foldM f s' t end.

Fixpoint mapM {A B} (f : A -> res B) (l : list A) : res (list B) :=
  match l with
  | nil => Ok nil
  | a :: t => let! b := f a in let! bs := mapM f t in Ok (b :: bs)
  end.

(** [while] loops: [f s = inl s'] continues with [s'], [inr r] leaves the loop.
    [loopP p f s] performs at most [p] iterations. *)
Fixpoint loopP {S R} (p : positive) (f : S -> S + R) (s : S) : S + R :=
  match p with
  | xH => f s
  | xO q => match loopP q f s with inl s' => loopP q f s' | inr r => inr r end
  | xI q => match f s with
            | inl s1 => match loopP q f s1 with inl s' => loopP q f s' | inr r => inr r end
            | inr r => inr r end
  end.

Definition loop {S R} (fuel : Z) (f : S -> S + R) (s : S) : res R :=
  match loopP (Z.to_pos fuel) f s with inl _ => Raise NonTermination | inr r => Ok r end.

(** ** Facts *)

Lemma loopP_inv {S R} (I : S -> Prop) (Q : R -> Prop) (mu : S -> Z) (f : S -> S + R) :
  (forall s, I s -> match f s with
                    | inl s' => I s' /\ mu s' <= mu s - 1
                    | inr r => Q r end) ->
  forall p s, I s -> match loopP p f s with
                     | inl s' => I s' /\ mu s' <= mu s - Zpos p
                     | inr r => Q r end.
Proof.
  intros H; induction p as [q IH|q IH|]; intros s Hs; cbn [loopP].
  - pose proof (H s Hs) as H1. destruct (f s) as [s1|r]; [|exact H1].
    destruct H1 as [I1 M1]. pose proof (IH s1 I1) as H2.
    destruct (loopP q f s1) as [s2|r]; [|exact H2].
    destruct H2 as [I2 M2]. pose proof (IH s2 I2) as H3.
    destruct (loopP q f s2) as [s3|r]; [|exact H3].
    destruct H3. split; [assumption|lia].
  - pose proof (IH s Hs) as H2.
    destruct (loopP q f s) as [s2|r]; [|exact H2].
    destruct H2 as [I2 M2]. pose proof (IH s2 I2) as H3.
    destruct (loopP q f s2) as [s3|r]; [|exact H3].
    destruct H3. split; [assumption|lia].
  - pose proof (H s Hs) as H1. destruct (f s) as [s1|r]; [|exact H1].
    destruct H1; split; [assumption|lia].
Qed.

(** Total correctness rule: an invariant, a decreasing non-negative measure. *)
Lemma loop_rule {S R} (I : S -> Prop) (Q : R -> Prop) (mu : S -> Z) (f : S -> S + R) fuel s :
  (forall s, I s -> 0 <= mu s) ->
  (forall s, I s -> match f s with
                    | inl s' => I s' /\ mu s' <= mu s - 1
                    | inr r => Q r end) ->
  I s -> mu s < fuel ->
  exists r, loop fuel f s = Ok r /\ Q r.
Proof.
  intros Hpos Hstep Hs Hf. unfold loop.
  pose proof (loopP_inv I Q mu f Hstep (Z.to_pos fuel) s Hs) as H.
  destruct (loopP (Z.to_pos fuel) f s) as [s'|r].
  - destruct H as [I' M']. specialize (Hpos _ I') as P1. specialize (Hpos _ Hs) as P2. lia.
  - eauto.
Qed.

Lemma zseq_length a n : length (zseq a n) = n.
Proof. revert a; induction n; intros; cbn; [reflexivity|now rewrite IHn]. Qed.

Lemma in_zseq n : forall a x, In x (zseq a n) <-> a <= x < a + Z.of_nat n.
Proof.
  induction n as [|n IH]; intros a x; cbn [zseq In].
  - lia.
  - rewrite IH. lia.
Qed.

Lemma in_zrange a b x : In x (zrange a b) <-> a <= x < b.
Proof. unfold zrange; rewrite in_zseq; lia. Qed.

Lemma zrange_nil a b : b <= a -> zrange a b = nil.
Proof. intros; unfold zrange. replace (Z.to_nat (b - a)) with O by lia. reflexivity. Qed.

Lemma zseq_app n m a : zseq a (n + m) = zseq a n ++ zseq (a + Z.of_nat n) m.
Proof.
  revert a; induction n as [|n IH]; intros a; cbn [Nat.add zseq app].
  - f_equal; lia.
  - rewrite IH. f_equal. f_equal. f_equal. lia.
Qed.

Lemma zrange_snoc a b : a <= b -> zrange a (b + 1) = zrange a b ++ [b].
Proof.
  intros; unfold zrange. replace (Z.to_nat (b + 1 - a)) with (Z.to_nat (b - a) + 1)%nat by lia.
  rewrite zseq_app. cbn [zseq]. f_equal. f_equal. lia.
Qed.

Lemma zrange_cons a b : a < b -> zrange a b = a :: zrange (a + 1) b.
Proof.
  intros; unfold zrange. replace (Z.to_nat (b - a)) with (S (Z.to_nat (b - (a + 1)))) by lia.
  reflexivity.
Qed.

Lemma foldM_app {S A} (f : S -> A -> res S) l1 l2 s :
  foldM f s (l1 ++ l2) = let! s' := foldM f s l1 in foldM f s' l2.
Proof.
  revert s; induction l1 as [|a l1 IH]; intros s; cbn; [reflexivity|].
  destruct (f s a); cbn; [apply IH|reflexivity].
Qed.

Lemma forallb_zrange (P : Z -> bool) a b :
  forallb P (zrange a b) = true -> forall x, a <= x < b -> P x = true.
Proof. intros H x Hx. rewrite forallb_forall in H. apply H. now apply in_zrange. Qed.

Lemma Ok_inj {A} (a b : A) : Ok a = Ok b -> a = b.
Proof. congruence. Qed.
