(** Model of util/HolidayUtil.py and Holiday.py, and Solar.next(days, only_work_day=True). *)
From Coq Require Import ZArith Lia Bool List String Floats.
From Verif Require Import Py PyFloat PyStr T_Holiday Solar SolarUnits.
Import ListNotations.
Open Scope Z_scope.

(** [s.rfind(p)] for non-empty [p]: last occurrence, or [acc] (-1). *)
Fixpoint rfind_from (k : Z) (p s : str) (acc : Z) : Z :=
  let acc := if prefixb p s then k else acc in
  match s with
  | [] => acc
  | _ :: t => rfind_from (k + 1) p t acc
  end.
Definition py_rfind (s p : str) : Z := rfind_from 0 p s (-1).

(** [s.replace(old, new)] for non-empty [old]: leftmost non-overlapping occurrences; [skip] counts the
    remaining characters of the occurrence being replaced. *)
Fixpoint replace_go (old new : str) (skip : nat) (s : str) : str :=
  match s with
  | [] => []
  | c :: t => match skip with
              | S k => replace_go old new k t
              | O => if prefixb old s then new ++ replace_go old new (List.length old - 1) t
                     else c :: replace_go old new 0 t
              end
  end.
Definition py_replace (s old new : str) : str := replace_go old new 0 s.

(** The class attributes [__NAMES_IN_USE] and [__DATA_IN_USE] (util/HolidayUtil.py:15-16). *)
Record HDB := mkHDB { hnames : list str; hdata : str }.
Definition HDB_shipped : HDB := mkHDB HolidayUtil_NAMES HolidayUtil_DATA.

(** Holiday.py:8-19 [Holiday.__init__] *)
Record Holiday := mkHoliday { hday : str; hname : str; hwork : bool; htarget : str }.

(** Holiday.py:21-23 [Holiday.__ymd] *)
Definition Holiday_ymd (s : str) : str :=
  if py_in (lit "-") s then s else slice s 0 4 ++ lit "-" ++ slice s 4 6 ++ lit "-" ++ slice_from s 6.
Definition Holiday_new (day name : str) (work : bool) (target : str) : Holiday :=
  mkHoliday (Holiday_ymd day) name work (Holiday_ymd target).

(** util/HolidayUtil.py:21-23 [HolidayUtil.__padding] *)
Definition padding (n : Z) : str := (if n <? 10 then lit "0" else []) ++ str_of_Z n.

(** [ord(s)]: one character, else TypeError. *)
Definition py_ord (s : str) : res Z := match s with [c] => Ok c | _ => Raise ExcType end.

(** util/HolidayUtil.py:25-32 [HolidayUtil.__buildHolidayForward] *)
Definition buildHolidayForward (db : HDB) (s : str) : res Holiday :=
  let day := slice s 0 8 in
  let! o := py_ord (slice s 8 9) in
  let! name := py_index (hnames db) (o - HolidayUtil_ZERO) in
  let! w := py_ord (slice s 9 10) in
  let work := w =? HolidayUtil_ZERO in
  let target := slice s 10 18 in
  Ok (Holiday_new day name work target).

(** util/HolidayUtil.py:34-42 [HolidayUtil.__buildHolidayBackward] *)
Definition buildHolidayBackward (db : HDB) (s : str) : res Holiday :=
  let size := slen s in
  let day := slice s (size - 18) (size - 10) in
  let! o := py_ord (slice s (size - 10) (size - 9)) in
  let! name := py_index (hnames db) (o - HolidayUtil_ZERO) in
  let! w := py_ord (slice s (size - 9) (size - 8)) in
  let work := w =? HolidayUtil_ZERO in
  let target := slice_from s (size - 8) in
  Ok (Holiday_new day name work target).

(** util/HolidayUtil.py:44-55 [HolidayUtil.__findForward] *)
Definition findForward_step (key : str) (rest : str) : str + str :=
  if negb (prefixb key rest) && (HolidayUtil_SIZE <=? slen rest)
  then inl (slice_from rest HolidayUtil_SIZE) else inr rest.
Definition findForward (db : HDB) (key : str) : res (option str) :=
  let start := py_find (hdata db) key in
  if start <? 0 then Ok None
  else
    let rest := slice_from (hdata db) start in
    let n := slen rest mod HolidayUtil_SIZE in
    let rest := if 0 <? n then slice_from rest n else rest in
    let! r := loop (slen rest + 2) (findForward_step key) rest in
    Ok (Some r).

(** util/HolidayUtil.py:57-72 [HolidayUtil.__findBackward] *)
Definition findBackward_step (key : str) (l : str) : str + str :=
  let size := slen l in
  if negb (size - slen key =? py_rfind l key) && (HolidayUtil_SIZE <=? size)
  then inl (slice l 0 (size - HolidayUtil_SIZE)) else inr l.
Definition findBackward (db : HDB) (key : str) : res (option str) :=
  let start := py_rfind (hdata db) key in
  if start <? 0 then Ok None
  else
    let l := slice (hdata db) 0 (start + slen key) in
    let size := slen l in
    let n := size mod HolidayUtil_SIZE in
    let l := if 0 <? n then slice l 0 (size - n) else l in
    let! r := loop (slen l + 2) (findBackward_step key) l in
    Ok (Some r).

(** util/HolidayUtil.py:74-83 [HolidayUtil.__findHolidaysForward]; the state is (s, arr reversed). *)
Definition holidaysForward_step (db : HDB) (key : str) (st : str * list Holiday)
  : (str * list Holiday) + res (list Holiday) :=
  let (s, arr) := st in
  if prefixb key s then
    match buildHolidayForward db s with
    | Ok h => inl (slice_from s HolidayUtil_SIZE, h :: arr)
    | Raise e => inr (Raise e)
    end
  else inr (Ok (rev arr)).
Definition findHolidaysForward (db : HDB) (key : str) : res (list Holiday) :=
  let! o := findForward db key in
  match o with
  | None => Ok []
  | Some s => let! r := loop (slen s + 2) (holidaysForward_step db key) (s, []) in r
  end.

(** util/HolidayUtil.py:85-100 [HolidayUtil.__findHolidaysBackward]; [arr.reverse()] undoes the
    reversal of the accumulator. *)
Definition holidaysBackward_step (db : HDB) (key : str) (st : str * list Holiday)
  : (str * list Holiday) + res (list Holiday) :=
  let (s, arr) := st in
  let size := slen s in
  if size - slen key =? py_rfind s key then
    match buildHolidayBackward db s with
    | Ok h => inl (slice s 0 (size - HolidayUtil_SIZE), h :: arr)
    | Raise e => inr (Raise e)
    end
  else inr (Ok arr).
Definition findHolidaysBackward (db : HDB) (key : str) : res (list Holiday) :=
  let! o := findBackward db key in
  match o with
  | None => Ok []
  | Some s => let! r := loop (slen s + 2) (holidaysBackward_step db key) (s, []) in r
  end.

(** [y.replace("-", "")] *)
Definition undash (y : str) : str := filter (fun c => negb (c =? 45)) y.

(** util/HolidayUtil.py:102-109,129-138 [HolidayUtil.__getHoliday]; [y] is [str(year)]. *)
Definition getHoliday (db : HDB) (y : str) (month day : Z) : res (option Holiday) :=
  let! arr := if (month =? 0) || (day =? 0) then findHolidaysForward db (undash y)
              else findHolidaysForward db (y ++ padding month ++ padding day) in
  Ok (match arr with [] => None | h :: _ => Some h end).

(** util/HolidayUtil.py:111-118,140-142 [HolidayUtil.__getHolidays] *)
Definition getHolidays (db : HDB) (y : str) (month : Z) : res (list Holiday) :=
  if month =? 0 then findHolidaysForward db (undash y) else findHolidaysForward db (y ++ padding month).

(** util/HolidayUtil.py:120-127,144-146 [HolidayUtil.__getHolidaysByTarget] *)
Definition getHolidaysByTarget (db : HDB) (y : str) (month day : Z) : res (list Holiday) :=
  if (month =? 0) || (day =? 0) then findHolidaysBackward db (undash y)
  else findHolidaysBackward db (y ++ padding month ++ padding day).

(** Index of the first name equal to [s]; -1 when absent (util/HolidayUtil.py:170-174). *)
Fixpoint name_index (k : Z) (s : str) (l : list str) : Z :=
  match l with
  | [] => -1
  | a :: t => if str_eqb a s then k else name_index (k + 1) s t
  end.

(** util/HolidayUtil.py:148-182 [HolidayUtil.fix]; one iteration of the loop; the state is
    (data argument, append, database).  [chr(name_index + 48)] is the code point itself. *)
Definition fix_step (st : str * str * HDB) : (str * str * HDB) + res HDB :=
  let '(data, append, db) := st in
  if HolidayUtil_SIZE <=? slen data then
    let segment := slice data 0 HolidayUtil_SIZE in
    let day := slice segment 0 8 in
    let remove := str_eqb HolidayUtil_TAG_REMOVE (slice segment 8 9) in
    match getHoliday db day 0 0 with
    | Raise e => inr (Raise e)
    | Ok None => inl (slice_from data HolidayUtil_SIZE, if remove then append else append ++ segment, db)
    | Ok (Some h) =>
        let i := name_index 0 (hname h) (hnames db) in
        let db' :=
          if -1 <? i then
            let old := day ++ [i + HolidayUtil_ZERO] ++ lit (if hwork h then "0" else "1") ++ undash (htarget h) in
            mkHDB (hnames db) (py_replace (hdata db) old (if remove then [] else segment))
          else db in
        inl (slice_from data HolidayUtil_SIZE, append, db')
    end
  else inr (Ok (mkHDB (hnames db) (hdata db ++ append))).
Definition HolidayUtil_fix (db : HDB) (names : option (list str)) (data : option str) : res HDB :=
  let db := match names with Some n => mkHDB n (hdata db) | None => db end in
  match data with
  | None => Ok db
  | Some data => let! r := loop (slen data + 2) fix_step (data, [], db) in r
  end.

(** Solar.py:305-315: is the day a working day? *)
Definition is_work (db : HDB) (s : Solar) : res bool :=
  let! h := getHoliday db (str_of_Z (sy s)) (sm s) (sd s) in
  match h with
  | None => let! w := getWeek s in Ok (negb ((0 =? w) || (6 =? w)))
  | Some h => Ok (hwork h)
  end.
Definition next_work_step (db : HDB) (add : Z) (st : Solar * Z) : (Solar * Z) + res Solar :=
  let (s, rest) := st in
  if 0 <? rest then
    match nextDay s add with
    | Raise e => inr (Raise e)
    | Ok s => match is_work db s with
              | Raise e => inr (Raise e)
              | Ok w => inl (s, if w then rest - 1 else rest)
              end
    end
  else inr (Ok s).
(** Solar.py:289-316 [Solar.next] with [only_work_day=True]; the loop of the code is unbounded, the
    fuel here is shown to be enough. *)
Definition next_work (db : HDB) (s : Solar) (days : Z) : res Solar :=
  let! s := fromYmdHms (sy s) (sm s) (sd s) (sh s) (smi s) (ss s) in
  if days =? 0 then Ok s
  else let! r := loop (8 * (Z.abs days + slen (hdata db)) + 8) (next_work_step db (if days <? 0 then -1 else 1)) (s, Z.abs days) in r.
