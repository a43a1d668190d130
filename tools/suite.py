#!/usr/bin/env python3
"""Evaluate the assertions of /repo/test on the Rocq model.

Reads the test files as text, translates every test method into a term over the model (every call becomes a call of
the modelled function, with the library's sine and cosine replaced by rsin and rcos of Trig.v) and has Coq compute it.
This tests that the model is faithful; it proves nothing.  Needs a built /verif/rocq.  Works in a scratch directory.

    python3 tools/suite.py [TestClass ...]
"""
import ast, glob, os, re, subprocess, sys

ROCQ = os.environ.get("ROCQ", "/verif/rocq")
OUT = "/tmp/suite"
HEAD = """From Coq Require Import ZArith List String Floats.
From Verif Require Import P_LunarYears Trig Texts EightChar FotoTao Holiday SolarUnits LunarTime NineStar Lunar LunarYear Solar Py PyStr.
Import ListNotations.
Open Scope Z_scope.
Definition FY := real rsin rcos.
Definition the {A} (o : option A) : res A := match o with Some a => Ok a | None => Raise ExcType end.
Definition strs_eqb (a b : list str) : bool := (Nat.eqb (List.length a) (List.length b)) && forallb (fun p => str_eqb (fst p) (snd p)) (combine a b).
"""
# (type, method) -> (Coq template, result type); {0} the object, {1}.. the arguments; "r" templates give a [res]
M = {}
def m(ty, names, tmpl, res, defaults=()):
    for n in names.split():
        M[ty, n] = (tmpl.replace("@", n), res, defaults)
m("cls", "Solar.fromYmd", "r fromYmd {1} {2} {3}", "Solar")
m("cls", "Solar.fromYmdHms", "r fromYmdHms {1} {2} {3} {4} {5} {6}", "Solar")
m("cls", "Solar.fromBaZi", "r fromBaZi FY {1} {2} {3} {4} {5} {6} 2026", "list Solar", ("2", "1900"))
m("cls", "Lunar.fromYmd", "r Lunar_fromYmd FY {1} {2} {3}", "Lunar")
m("cls", "Lunar.fromYmdHms", "r Lunar_new FY {1} {2} {3} {4} {5} {6}", "Lunar")
m("cls", "Lunar.fromDate", "r (let! s := {1} in getLunar FY s)", "Lunar")
m("cls", "Foto.fromLunar", "{1}", "Foto")
m("cls", "Tao.fromLunar", "{1}", "Tao")
m("cls", "Tao.fromYmd", "r Tao_fromYmdHms FY {1} {2} {3} 0 0 0", "Tao")
m("cls", "LunarMonth.fromYm", "r (let! o := LunarMonth_fromYm FY {1} {2} in the o)", "LMonth")
m("cls", "LunarYear.fromYear", "r FY {1}", "LYear")
m("cls", "SolarMonth.fromYm", "mkSolarMonth {1} {2}", "SolarMonth")
m("cls", "SolarSeason.fromYm", "mkSolarSeason {1} {2}", "SolarSeason")
m("cls", "SolarYear.fromYear", "{1}", "SolarYear")
m("cls", "SolarWeek.fromYmd", "mkSolarWeek {1} {2} {3} {4}", "SolarWeek")
m("cls", "SolarUtil.getDaysBetween", "r getDaysBetween {1} {2} {3} {4} {5} {6}", "Z")
m("cls", "SolarUtil.getDaysInYear", "r getDaysInYear {1} {2} {3}", "Z")
m("cls", "SolarUtil.getWeeksOfMonth", "r getWeeksOfMonth {1} {2} {3}", "Z")
m("cls", "SolarUtil.isLeapYear", "isLeapYear {1}", "bool")
m("cls", "HolidayUtil.getHoliday", "r getHoliday db (str_of_Z {1}) {2} {3}", "option Holiday")
m("Solar", "getLunar", "r getLunar FY {0}", "Lunar")
m("Solar", "toString toYmd", "toYmd {0}", "str")
m("Solar", "toYmdHms", "toYmdHms {0}", "str")
m("Solar", "toFullString getXingZuo getWeekInChinese", "r @ {0}", "str")
m("Solar", "getFestivals", "r @ {0}", "list str")
m("Solar", "getWeek", "r getWeek {0}", "Z")
m("Solar", "next", "r (if {2} then next_work db {0} {1} else next {0} {1})", "Solar", ("false",))
m("Solar", "nextMonth nextYear", "r @ {0} {1}", "Solar")
m("Lunar", "toString getHou getWuHou getJieQi getJie getQi getDayLu getMonthInChinese getDayPositionTai getYearShengXiao "
  "getDayXun getDayXunKong getYearXun getYearXunKong getMonthXunKong getMonthInGanZhi getMonthInGanZhiExact getDayInGanZhi",
  "r Lunar_@ {0}", "str")
m("Lunar", "toFullString", "r Lunar_@ FY {0}", "str")
m("Lunar", "getFestivals getOtherFestivals", "r Lunar_@ FY {0}", "list str")
m("Lunar", "getDayPositionFuDesc", "r position_desc (Lunar_getDayPositionFu {0} {1})", "str", ("2",))
m("Lunar", "getShuJiu", "r Lunar_@ {0}", "option ShuJiu")
m("Lunar", "getSolar", "l_solar {0}", "Solar")
m("Lunar", "getDay", "l_day {0}", "Z")
m("Lunar", "next", "r Lunar_next FY {0} {1}", "Lunar")
m("Lunar", "getEightChar", "Lunar_getEightChar {0}", "EightChar")
m("Lunar", "getYearNineStar", "r Lunar_@ {0} {1}", "NineStar", ("2",))
m("Lunar", "getJieQiTable", "l_jieQi {0}", "dict Solar")
m("Lunar", "getTao", "{0}", "Tao")
m("EightChar", "getYear getMonth getDay getTime getDayXunKong getShenGong", "r EightChar_@ {0}", "str")
m("EightChar", "getYun", "r getYun {0} {1} {2}", "Yun", ("1",))
m("Yun", "getStartSolar", "r Yun_@ {0}", "Solar")
m("Yun", "getStartYear", "y_year {0}", "Z")
m("Yun", "getStartMonth", "y_month {0}", "Z")
m("Yun", "getStartDay", "y_day {0}", "Z")
m("Foto", "toFullString getXiu getZheng getAnimal getGong getShou", "r Foto_@ {0}", "str")
m("Foto", "getOtherFestivals", "Foto_@ {0}", "list str")
m("Tao", "toString toFullString", "r Tao_@ {0}", "str")
m("Tao", "getFestivals", "r Tao_@ {0}", "list TaoFestival")
m("TaoFestival", "toString", "fst {0}", "str")
m("NineStar", "getNumber toString", "r NineStar_@ {0}", "str")
m("ShuJiu", "toString toFullString", "ShuJiu_@ {0}", "str")
m("Holiday", "getName", "hname {0}", "str")
m("LMonth", "getGanZhi", "r LunarMonth_@ FY {0}", "str")
m("LMonth", "getIndex", "mindex {0}", "Z")
m("LYear", "getDeJin getFenBing getGengTian getZhiShui", "r @ FY {0}", "str")
m("LYear", "getYuan getYun", "r LunarYear_@ {0}", "str")
m("LYear", "getDayCount", "LunarYear_@ {0}", "Z")
m("SolarMonth", "toString toFullString", "SolarMonth_@ {0}", "str")
m("SolarMonth", "next", "r SolarMonth_@ {0} {1}", "SolarMonth")
m("SolarMonth", "getWeeks", "r SolarMonth_@ {0} {1}", "list SolarWeek")
m("SolarSeason", "toString toFullString", "r SolarSeason_@ {0}", "str")
m("SolarSeason", "next", "r SolarSeason_@ {0} {1}", "SolarSeason")
m("SolarYear", "toString toFullString", "Year_@ {0}", "str")
m("SolarYear", "next", "SolarYear_next {0} {1}", "SolarYear")
m("SolarWeek", "toString toFullString", "r SolarWeek_@ {0}", "str")
m("SolarWeek", "getIndex getIndexInYear", "r SolarWeek_@ {0}", "Z")
m("SolarWeek", "getFirstDay", "r SolarWeek_@ {0}", "Solar")
m("SolarWeek", "getFirstDayInMonth", "r (let! o := SolarWeek_@ {0} in the o)", "Solar")
m("SolarWeek", "getYear", "wy {0}", "Z")
m("SolarWeek", "getMonth", "wm {0}", "Z")
CLASSES = {k[1].split(".")[0] for k in M if k[0] == "cls"}
EQB = {"str": "str_eqb", "Z": "Z.eqb", "bool": "Bool.eqb", "list str": "strs_eqb"}


class Skip(Exception):
    pass


class Method:
    """One test method: a chain of [let!] bindings, then the list of the checked booleans."""
    def __init__(self):
        self.binds, self.env, self.n, self.checks = ["let! db := Ok HDB_shipped in"], {}, 0, []

    def bind(self, term, hint="x"):
        self.n += 1
        v = f"{hint}{self.n}"
        self.binds.append(f"let! {v} := {term} in")
        return v

    def pure(self, term):
        return self.bind(f"Ok ({term})")

    def expr(self, e):
        """-> (atomic Coq term, type)"""
        if isinstance(e, ast.Constant):
            v = e.value
            if isinstance(v, bool):
                return str(v).lower(), "bool"
            if isinstance(v, int):
                return f"({v})", "Z"
            if isinstance(v, str):
                return f'(utf8 "{v}"%string)', "str"
        if isinstance(e, ast.UnaryOp) and isinstance(e.op, ast.USub):
            return f"(-{self.expr(e.operand)[0]})", "Z"
        if isinstance(e, ast.Name):
            if e.id in self.env:
                return self.env[e.id]
            raise Skip(f"name {e.id}")
        if isinstance(e, ast.List):
            xs = [self.expr(x) for x in e.elts]
            return "[" + "; ".join(x[0] for x in xs) + "]", "list " + (xs[0][1] if xs else "?")
        if isinstance(e, ast.Subscript):
            o, t = self.expr(e.value)
            if isinstance(e.slice, ast.Slice):
                lo = self.expr(e.slice.lower)[0] if e.slice.lower else "0"
                hi = self.expr(e.slice.upper)[0] if e.slice.upper else f"(slen {o})"
                return self.pure(f"slice {o} {lo} {hi}"), t
            i, _ = self.expr(e.slice)
            if t.startswith("dict "):
                return self.bind(f"py_dict {o} {i}"), t[5:]
            return self.bind(f"py_index {o} {i}"), t[5:]
        if isinstance(e, ast.Call):
            f = e.func
            if isinstance(f, ast.Name) and f.id == "len":
                o, _ = self.expr(e.args[0])
                return f"(Z.of_nat (List.length {o}))", "Z"
            if isinstance(f, ast.Attribute):
                if isinstance(f.value, ast.Name) and f.value.id == "datetime" and f.attr == "strptime":
                    ns = [int(x) for x in re.findall(r"\d+", e.args[0].value)]
                    return "(fromYmdHms " + " ".join(map(str, ns)) + ")", "date"
                if isinstance(f.value, ast.Name) and f.value.id in CLASSES:
                    key, o = ("cls", f"{f.value.id}.{f.attr}"), ""
                else:
                    o, t = self.expr(f.value)
                    if t.startswith("option "):
                        o, t = self.bind(f"the {o}"), t[7:]
                    key = (t, f.attr)
                if key not in M:
                    raise Skip(f"{key}")
                tmpl, res, defaults = M[key]
                args = [self.expr(a)[0] for a in e.args]
                need = len(set(re.findall(r"\{([1-9])\}", tmpl)))
                if len(args) < need:
                    args += list(defaults)[len(args) - need:]
                term = tmpl.format(o, *args)
                return (self.bind(term[2:]), res) if term.startswith("r ") else (f"({term})", res)
        raise Skip(ast.dump(e)[:80])

    def check(self, b):
        self.checks.append(self.pure(b))

    def stmt(self, s):
        if isinstance(s, ast.Assign):
            v, t = self.expr(s.value)
            if not v.isidentifier():
                v = self.pure(v) if v != "[]" else v
            self.env[s.targets[0].id] = (v, t)
        elif isinstance(s, ast.For):
            if isinstance(s.iter, ast.Call) and getattr(s.iter.func, "id", "") == "range":
                for i in range(*[ast.literal_eval(a) for a in s.iter.args]):
                    self.env[s.target.id] = (f"({i})", "Z")
                    for b in s.body:
                        self.stmt(b)
                return
            (app,) = s.body
            call = app.value
            lst, t = self.expr(s.iter)
            sub = Method()
            sub.binds, sub.env = [], {s.target.id: ("it", t[5:])}
            o, ty = sub.expr(call.args[0])
            body = " ".join(sub.binds) + f" Ok {o}"
            self.env[call.func.value.id] = (self.bind(f"mapM (fun it => {body}) {lst}"), "list " + ty)
        elif isinstance(s, ast.Expr) and isinstance(s.value, ast.Call):
            c = s.value
            name = c.func.attr
            if name == "fix":
                d = self.expr(c.args[1])[0]
                self.binds.append(f"let! db := HolidayUtil_fix db None (Some {d}) in")
            elif name in ("assertEqual", "assertListEqual"):
                (a, ta), (b, tb) = self.expr(c.args[0]), self.expr(c.args[1])
                ty = tb if "?" in ta else ta
                self.check(f"{EQB[ty]} {a} {b}")
            elif name == "assertLess":
                self.check(f"Z.ltb {self.expr(c.args[0])[0]} {self.expr(c.args[1])[0]}")
            elif name == "assertIsNone":
                self.check(f"match {self.expr(c.args[0])[0]} with None => true | Some _ => false end")
            else:
                raise Skip(f"call {name}")
        elif isinstance(s, ast.Expr) and isinstance(s.value, ast.Constant) or isinstance(s, ast.Pass):
            pass
        else:
            raise Skip(ast.dump(s)[:80])


def main():
    os.makedirs(OUT, exist_ok=True)
    total = passed = skipped = 0
    bad = []
    for path in sorted(glob.glob("/repo/test/*.py")):
        stem = os.path.basename(path)[:-3]
        if len(sys.argv) > 1 and stem not in sys.argv[1:]:
            continue
        terms = []
        for c in ast.parse(open(path, encoding="utf8").read()).body:
            if not isinstance(c, ast.ClassDef):
                continue
            for f in c.body:
                if isinstance(f, ast.FunctionDef):
                    w = Method()
                    try:
                        for s in f.body:
                            w.stmt(s)
                    except Skip as x:
                        print(f"{stem}.{f.name}: not translated: {x}")
                        skipped += 1
                        continue
                    terms.append((f.name, w))
        with open(f"{OUT}/{stem}.v", "w", encoding="utf8") as o:
            o.write(HEAD)
            for k, (name, w) in enumerate(terms):
                o.write(f"Definition t{k} : res (list bool) :=\n  " + "\n  ".join(w.binds) +
                        "\n  Ok [" + "; ".join(w.checks) + "].\n")
                o.write(f"Eval vm_compute in ({k}, t{k}).\n")
        r = subprocess.run(["coqc", "-Q", f"{ROCQ}/theories", "Verif", f"{OUT}/{stem}.v"], capture_output=True, text=True)
        got = {int(a): b for a, b in re.findall(r"=\s*\((\d+),\s*(.*?)\)\s*:", r.stdout, re.S)}
        if r.returncode:
            print(stem, r.stderr[-600:])
        n = 0
        for k, (name, w) in enumerate(terms):
            v = got.get(k, "no result")
            ok = len(re.findall(r"\btrue\b", v))
            total += len(w.checks)
            n += ok
            if ok != len(w.checks):
                bad.append(f"{stem}.{name}: {' '.join(v.split())}")
        passed += n
        print(f"{stem}: {n} of {sum(len(w.checks) for _, w in terms)} assertions hold", flush=True)
    print(f"total: {passed} of {total} assertions hold; {skipped} methods not translated")
    for b in bad:
        print("FAIL", b)
    sys.exit(bool(bad or skipped))


main()
