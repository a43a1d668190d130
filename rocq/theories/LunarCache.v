(** Model of LunarYear.fromYear (LunarYear.py:42-51) as it runs in several threads: the lock, the one cached year, the heap of year objects and of
    the lists they share with their callers.  Every line of fromYear that touches shared state is one step; threads interleave freely between steps.
    The constructor (line 46) works on an object no other thread has yet, so building the table is one step.
    Not modelled: exceptions thrown into a thread from outside (KeyboardInterrupt, MemoryError). *)
From Coq Require Import ZArith List Bool Floats.
From Verif Require Import Py LunarYear.
Import ListNotations.
Open Scope Z_scope.

Definition addr := nat.
(** A Python list of the heap: of months or of the Julian days of the terms *)
Inductive cell := Months (l : list LMonth) | Terms (l : list float).
(** LunarYear.py:27-40: a LunarYear object; its fields are private and never reassigned, but two of them refer to lists *)
Record YObj := mkYObj { o_year : Z; o_gan : Z; o_zhi : Z; o_months : addr; o_terms : addr }.

(** Where a thread is in fromYear.  [y] is the argument lunar_year; what line 49 loads may be None. *)
Inductive pc :=
  | Out                                  (* not in fromYear *)
  | Acquire (y : Z)                      (* line 44 *)
  | TestNone (y : Z)                     (* line 45, __CACHE_YEAR is None *)
  | TestYear (y : Z)                     (* line 45, __CACHE_YEAR.getYear() != lunar_year *)
  | Construct (y : Z)                    (* line 46 *)
  | Store (y : Z) (o : addr)             (* line 47 *)
  | Load (y : Z)                         (* line 49 *)
  | Release (y : Z) (r : option addr)    (* line 50 *)
  | Return (y : Z) (r : option addr).    (* line 51 *)

Record state := mkState {
  st_lock : bool;                        (* LunarYear.py:25 [__lock]: taken? *)
  st_cache : option addr;                (* LunarYear.py:23 [__CACHE_YEAR] *)
  st_threads : list pc;
  st_years : list YObj;                  (* the heap of year objects *)
  st_lists : list cell;                  (* the heap of lists *)
  st_held : list addr                    (* the lists callers hold a reference to *)
}.
Definition init (n : nat) : state := mkState false None (repeat Out n) [] [] [].

Inductive label :=
  | Call (i : nat) (y : Z)                               (* thread i calls fromYear(y) *)
  | Step (i : nat)                                       (* one line of fromYear in thread i *)
  | Ret (i : nat) (y : Z) (r : res (option addr))        (* the call of thread i returns or raises *)
  | GetMonths (o : addr)                                 (* a caller calls getMonths() on a year *)
  | GetTerms (o : addr)                                  (* ... getJieQiJulianDays() *)
  | GetMonthsInYear (o : addr)                           (* ... getMonthsInYear() *)
  | Write (a : addr) (c : cell).                         (* a caller changes a list it holds, in any way *)

Fixpoint upd {A} (l : list A) (i : nat) (x : A) : list A :=
  match l, i with [], _ => [] | _ :: l, O => x :: l | a :: l, S i => a :: upd l i x end.
Definition at_pc (s : state) (i : nat) (p : pc) : Prop := nth_error (st_threads s) i = Some p.
Definition move (s : state) (i : nat) (p : pc) : state :=
  mkState (st_lock s) (st_cache s) (upd (st_threads s) i p) (st_years s) (st_lists s) (st_held s).
Definition set_lock (b : bool) (s : state) : state := mkState b (st_cache s) (st_threads s) (st_years s) (st_lists s) (st_held s).
Definition set_cache (o : addr) (s : state) : state := mkState (st_lock s) (Some o) (st_threads s) (st_years s) (st_lists s) (st_held s).
Definition hold (a : addr) (s : state) : state := mkState (st_lock s) (st_cache s) (st_threads s) (st_years s) (st_lists s) (a :: st_held s).
Definition new_list (c : cell) (s : state) : state := mkState (st_lock s) (st_cache s) (st_threads s) (st_years s) (st_lists s ++ [c]) (st_held s).
Definition set_list (a : addr) (c : cell) (s : state) : state := mkState (st_lock s) (st_cache s) (st_threads s) (st_years s) (upd (st_lists s) a c) (st_held s).
(** LunarYear.py:37-40: the new object and its two lists *)
Definition new_year (t : LYear) (s : state) : state :=
  let n := List.length (st_lists s) in
  mkState (st_lock s) (st_cache s) (st_threads s) (st_years s ++ [mkYObj (lyear t) (lgan t) (lzhi t) n (Datatypes.S n)])
    (st_lists s ++ [Months (lmonths t); Terms (lterms t)]) (st_held s).

(** What a year object says now, through its accessors *)
Definition view (s : state) (o : addr) : option LYear :=
  match nth_error (st_years s) o with
  | Some x => match nth_error (st_lists s) (o_months x), nth_error (st_lists s) (o_terms x) with
              | Some (Months ms), Some (Terms ts) => Some (mkLYear (o_year x) (o_gan x) (o_zhi x) ms ts)
              | _, _ => None
              end
  | None => None
  end.

Section Steps.
Context (build : Z -> res LYear).          (* LunarYear(lunar_year), line 46 *)
Inductive step (s : state) : label -> state -> Prop :=
  | s_call i y : at_pc s i Out -> step s (Call i y) (move s i (Acquire y))
  (* LunarYear.py:44 [__lock.acquire()] waits until the lock is free *)
  | s_acquire i y : at_pc s i (Acquire y) -> st_lock s = false -> step s (Step i) (move (set_lock true s) i (TestNone y))
  (* LunarYear.py:45 *)
  | s_test_none i y : at_pc s i (TestNone y) ->
      step s (Step i) (move s i (match st_cache s with None => Construct y | Some _ => TestYear y end))
  | s_test_year i y o x : at_pc s i (TestYear y) -> st_cache s = Some o -> nth_error (st_years s) o = Some x ->
      step s (Step i) (move s i (if negb (o_year x =? y) then Construct y else Load y))
  | s_test_year_none i y : at_pc s i (TestYear y) -> st_cache s = None -> step s (Ret i y (Raise ExcAttr)) (move s i Out)
  (* LunarYear.py:46; when the constructor raises, fromYear ends there *)
  | s_construct i y t : at_pc s i (Construct y) -> build y = Ok t ->
      step s (Step i) (move (new_year t s) i (Store y (List.length (st_years s))))
  | s_construct_raises i y e : at_pc s i (Construct y) -> build y = Raise e -> step s (Ret i y (Raise e)) (move s i Out)
  (* LunarYear.py:47 *)
  | s_store i y o : at_pc s i (Store y o) -> step s (Step i) (move (set_cache o s) i (Release y (Some o)))
  (* LunarYear.py:49 *)
  | s_load i y : at_pc s i (Load y) -> step s (Step i) (move s i (Release y (st_cache s)))
  (* LunarYear.py:50 [__lock.release()] *)
  | s_release i y r : at_pc s i (Release y r) -> step s (Step i) (move (set_lock false s) i (Return y r))
  (* LunarYear.py:51 *)
  | s_return i y r : at_pc s i (Return y r) -> step s (Ret i y (Ok r)) (move s i Out)
  (* LunarYear.py:180-184 [getMonths] and [getJieQiJulianDays] hand out the lists themselves *)
  | s_getMonths o x : nth_error (st_years s) o = Some x -> step s (GetMonths o) (hold (o_months x) s)
  | s_getTerms o x : nth_error (st_years s) o = Some x -> step s (GetTerms o) (hold (o_terms x) s)
  (* LunarYear.py:173-178 [getMonthsInYear] makes a new list *)
  | s_getMonthsInYear o t : view s o = Some t ->
      step s (GetMonthsInYear o) (hold (List.length (st_lists s)) (new_list (Months (getMonthsInYear t)) s))
  (* append, clear, sort, ... of a list a caller holds *)
  | s_write a c : In a (st_held s) -> step s (Write a c) (set_list a c s).

(** A run of any number of threads, in any order of their steps *)
Inductive run : state -> list label -> state -> Prop :=
  | run_nil s : run s [] s
  | run_snoc s ls s' l s'' : run s ls s' -> step s' l s'' -> run s (ls ++ [l]) s''.
End Steps.
