(** Objects that a caller can change: a Lunar with the EightChar it keeps and the table of terms it hands out, and JieQi.
    Objects are numbered in the order of their creation. *)
From Coq Require Import ZArith Bool List.
From Verif Require Import Py PyFloat PyStr Solar T_LunarUtil T_Misc LunarUtil ShouXing LunarYear Lunar EightChar.
Import ListNotations.
Open Scope Z_scope.

(** A Lunar object: its attributes and [__eightChar] (Lunar.py:32), None or the number of an EightChar.
    An EightChar object: [__sect] and [__lunar] (EightChar.py:27-29). *)
Record Heap := mkHeap { lunars : list (Lunar * option nat); eights : list (Z * nat) }.
Definition empty_heap : Heap := mkHeap [] [].

Inductive Op :=
| New (l : Lunar)                            (* any constructor of Lunar *)
| GetEight (i : nat)                         (* Lunar.getEightChar *)
| FromLunar (i : nat)                        (* EightChar.fromLunar *)
| SetSect (e : nat) (sect : Z)               (* EightChar.setSect *)
| PutTerm (i : nat) (name : str) (s : Solar) (* lunar.getJieQiTable()[name] = s *)
| ReadEight (e : nat)                        (* any accessor of an EightChar: a function of its attributes *)
| ReadLunar (i : nat)                        (* an accessor of a Lunar that does not use its EightChar: a function of its attributes *)
| ReadBaZi (i : nat).                        (* getBaZi, getBaZiWuXing, ...: a function of the attributes of its EightChar *)
Inductive Out := Nothing | Object (n : nat) | Eight (e : EightChar) | Attr (l : Lunar).

Fixpoint set_nth {A} (n : nat) (x : A) (l : list A) : list A :=
  match l, n with
  | [], _ => []
  | _ :: t, O => x :: t
  | a :: t, S n => a :: set_nth n x t
  end.
(** assignment to a key of a dict: the value is replaced, a new key goes to the end *)
Fixpoint dict_put {V} (d : list (str * V)) (k : str) (v : V) : list (str * V) :=
  match d with
  | [] => [(k, v)]
  | (k', v') :: t => if str_eqb k k' then (k, v) :: t else (k', v') :: dict_put t k v
  end.
Definition with_terms (l : Lunar) (t : list (str * Solar)) : Lunar :=
  mkLunar (l_year l) (l_month l) (l_day l) (l_hour l) (l_minute l) (l_second l) (l_solar l) t
    (l_yearGan l) (l_yearZhi l) (l_yearGanByLiChun l) (l_yearZhiByLiChun l) (l_yearGanExact l) (l_yearZhiExact l)
    (l_monthGan l) (l_monthZhi l) (l_monthGanExact l) (l_monthZhiExact l) (l_dayGan l) (l_dayZhi l) (l_dayGanExact l) (l_dayZhiExact l)
    (l_dayGanExact2 l) (l_dayZhiExact2 l) (l_timeGan l) (l_timeZhi l) (l_week l).

Section STEP.
Variable h : Heap.
Definition lunar_of (i : nat) : option Lunar := option_map fst (nth_error (lunars h) i).
(** Lunar.py:686-689 [getEightChar]: the heap afterwards and the object *)
Definition get_eight (i : nat) : option (Heap * nat) :=
  match nth_error (lunars h) i with
  | None => None
  | Some (_, Some e) => Some (h, e)
  | Some (l, None) =>
      let e := length (eights h) in
      Some (mkHeap (set_nth i (l, Some e) (lunars h)) (eights h ++ [(2, i)]), e)
  end.
End STEP.
(** The values read from an EightChar are functions of its sect and of the attributes of its Lunar at that time (EightChar.py:47-342). *)
Definition read_eight (h : Heap) (e : nat) : option EightChar :=
  match nth_error (eights h) e with
  | Some (sect, i) => option_map (mkEightChar sect) (lunar_of h i)
  | None => None
  end.
(** None: the program has no such object. *)
Definition step (h : Heap) (o : Op) : option (Heap * Out) :=
  match o with
  | New l => Some (mkHeap (lunars h ++ [(l, None)]) (eights h), Object (length (lunars h)))
  | GetEight i => match get_eight h i with Some (h', e) => Some (h', Object e) | None => None end
  (* EightChar.py:31-33 [fromLunar] *)
  | FromLunar i => match lunar_of h i with Some _ => Some (mkHeap (lunars h) (eights h ++ [(2, i)]), Object (length (eights h))) | None => None end
  (* EightChar.py:44-45 [setSect] *)
  | SetSect e sect => match nth_error (eights h) e with Some (_, i) => Some (mkHeap (lunars h) (set_nth e (sect, i) (eights h)), Nothing) | None => None end
  (* Lunar.py:909-910 [getJieQiTable] returns the attribute itself *)
  | PutTerm i name s => match nth_error (lunars h) i with
      | Some (l, e) => Some (mkHeap (set_nth i (with_terms l (dict_put (l_jieQi l) name s), e) (lunars h)) (eights h), Nothing)
      | None => None end
  | ReadEight e => option_map (fun x => (h, Eight x)) (read_eight h e)
  | ReadLunar i => option_map (fun l => (h, Attr l)) (lunar_of h i)
  (* Lunar.py:691-721 *)
  | ReadBaZi i => match get_eight h i with Some (h', e) => option_map (fun x => (h', Eight x)) (read_eight h' e) | None => None end
  end.

(** A history: the operations of a program in order, each with what it returned.  A program only uses EightChar objects it was given. *)
Definition given (tr : list (Op * Out)) (e : nat) : Prop := exists i, In (GetEight i, Object e) tr \/ In (FromLunar i, Object e) tr.
Definition usable (tr : list (Op * Out)) (o : Op) : Prop := match o with SetSect e _ | ReadEight e => given tr e | _ => True end.
Inductive run : list (Op * Out) -> Heap -> Prop :=
| run_nil : run [] empty_heap
| run_step tr h o h' out : run tr h -> usable tr o -> step h o = Some (h', out) -> run (tr ++ [(o, out)]) h'.

(** JieQi.py:23-36 [setName]: a flag is set, none is cleared *)
Definition JieQi_setName (j : JieQi) (name : str) : JieQi :=
  let i := index_of 0 name Lunar_JIE_QI in
  mkJieQi name (jq_solar j) (jq_isJie j || ((0 <=? i) && (i mod 2 =? 1))) (jq_isQi j || ((0 <=? i) && (i mod 2 =? 0))).
(** JieQi.py:45-50 [setSolar] *)
Definition JieQi_setSolar (j : JieQi) (s : Solar) : JieQi := mkJieQi (jq_name j) s (jq_isJie j) (jq_isQi j).
