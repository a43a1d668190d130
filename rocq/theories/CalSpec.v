(** Specification of the civil calendar, independent of the model.

    A civil date is a triple (year, month, day): Julian calendar up to Thursday
    4 October 1582, Gregorian from Friday 15 October 1582, years numbered
    astronomically (any integer).  The only primitive notion is "the day after". *)
From Coq Require Import ZArith Bool.
Open Scope Z_scope.

Definition date : Type := (Z * Z * Z)%type.

Definition leap (y : Z) : bool :=
  if y <=? 1582 then y mod 4 =? 0
  else (y mod 4 =? 0) && (negb (y mod 100 =? 0) || (y mod 400 =? 0)).

(** Number of the last day of a month. *)
Definition last_day (y m : Z) : Z :=
  match m with
  | 2 => if leap y then 29 else 28
  | 4 | 6 | 9 | 11 => 30
  | _ => 31
  end.

Definition valid_date (a : date) : Prop :=
  let '(y, m, d) := a in
  1 <= m <= 12 /\ 1 <= d <= last_day y m /\ ~ (y = 1582 /\ m = 10 /\ 5 <= d <= 14).

Definition tomorrow (a : date) : date :=
  let '(y, m, d) := a in
  if (y =? 1582) && (m =? 10) && (d =? 4) then (1582, 10, 15)
  else if d <? last_day y m then (y, m, d + 1)
  else if m <? 12 then (y, m + 1, 1)
  else (y + 1, 1, 1).

(** [days_later n a b]: [b] is [n] days after [a] ([-n] days before, when [n < 0]). *)
Definition days_later (n : Z) (a b : date) : Prop :=
  if 0 <=? n then Nat.iter (Z.to_nat n) tomorrow a = b
  else Nat.iter (Z.to_nat (- n)) tomorrow b = a.

Definition valid_time (h mi s : Z) : Prop := 0 <= h <= 23 /\ 0 <= mi <= 59 /\ 0 <= s <= 59.

(** Chronological order of dates: [b] is later iff it is reached by going forward. *)
Definition earlier (a b : date) : Prop := exists n, 0 < n /\ days_later n a b.

(** Decidable form of [valid_date], and counting the days of a month with it. *)
Definition valid_dateb (y m d : Z) : bool :=
  (1 <=? m) && (m <=? 12) && (1 <=? d) && (d <=? last_day y m) &&
  negb ((y =? 1582) && (m =? 10) && (5 <=? d) && (d <=? 14)).
