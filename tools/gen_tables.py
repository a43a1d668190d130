"""Transcribe the constant tables of /repo into Coq (parsing the source text with ast; nothing is
imported or run).  Usage: python3 tools/gen_tables.py"""
import ast, os
ROOT = '/repo/lunar_python/'
OUT = '/verif/rocq/theories/'

def q(s): return '"' + s.replace('"', '""') + '"'

def wrap(items, sep='; ', width=110, indent='  '):
    lines, cur = [], indent
    for i, it in enumerate(items):
        piece = it + (sep if i < len(items) - 1 else '')
        if len(cur.encode()) + len(piece.encode()) > width + 60 and cur.strip():
            lines.append(cur.rstrip()); cur = indent
        cur += piece
    lines.append(cur)
    return '\n'.join(lines)

def z(n): return '(%d)' % n if n < 0 else '%d' % n

def kind(v):
    if isinstance(v, bool): raise Exception
    if isinstance(v, int): return 'Z'
    if isinstance(v, str): return 'str'
    if isinstance(v, (tuple, list)):
        ks = {kind(x) for x in v}
        assert len(ks) == 1, ks
        return 'list ' + par(ks.pop())
    if isinstance(v, dict):
        ks = {kind(x) for x in v.values()}
        assert len(ks) == 1, ks
        return 'list (str * %s)' % ks.pop()
def par(k): return '(%s)' % k if ' ' in k else k

def term(v):
    """Gallina term over string literals; conv k turns it into the table type"""
    if isinstance(v, int): return z(v)
    if isinstance(v, str): return 'utf8 ' + q(v)
    if isinstance(v, (tuple, list)):
        return '[' + '; '.join(term(x) for x in v) + ']'

def emit(name, v, cite):
    k = kind(v)
    o = '(** %s *)\n' % cite
    if k == 'Z': return o + 'Definition %s : Z := %s.\n' % (name, z(v))
    if k == 'str':
        if len(v) <= 200:
            return o + 'Definition %s : str := Eval vm_compute in utf8 %s.\n' % (name, q(v))
        n = 18 if 'Holiday' in name else 100
        parts = [v[i:i+n] for i in range(0, len(v), n)]
        return o + 'Definition %s_parts : list str := Eval vm_compute in map utf8 [\n%s].\nDefinition %s : str := concat %s_parts.\n' % (name, wrap([q(p) for p in parts]), name, name)
    if isinstance(v, dict):
        items = ['(%s, %s)' % (term(a), term(b)) for a, b in v.items()]
    else:
        items = [term(x) for x in v]
    return o + 'Definition %s : %s := Eval vm_compute in [\n%s].\n' % (name, k, wrap(items))

def tables(path, cls):
    t = ast.parse(open(ROOT + path).read())
    for c in t.body:
        if isinstance(c, ast.ClassDef) and c.name == cls:
            for n in c.body:
                if isinstance(n, ast.Assign) and isinstance(n.targets[0], ast.Name):
                    yield n.targets[0].id, n.value, n.lineno, n.end_lineno

def gen(out, doc, specs):
    o = ['(** %s  Generated by tools/gen_tables.py from the text of /repo. *)' % doc,
         'From Coq Require Import ZArith List String.', 'From Verif Require Import Py PyStr.',
         'Import ListNotations.', 'Open Scope Z_scope.', 'Local Open Scope string_scope.', '']
    for path, cls, only, skip in specs:
        for name, val, a, b in tables(path, cls):
            if only is not None and name not in only: continue
            if name in skip: continue
            try: v = ast.literal_eval(val)
            except Exception: continue
            if v is None or isinstance(v, float): continue
            cname = cls + '_' + name.lstrip('_')
            o.append(emit(cname, v, '%s:%s [%s.%s]' % (path, a if a == b else '%d-%d' % (a, b), cls, name)))
    with open(OUT + out, 'w') as f: f.write('\n'.join(o))

gen('T_SolarUtil.v', 'Tables of SolarUtil.', [('util/SolarUtil.py', 'SolarUtil', None, ())])
gen('T_LunarUtil.v', 'Tables of LunarUtil.', [('util/LunarUtil.py', 'LunarUtil', None, ('__DAY_YI_JI', '__TIME_YI_JI', '__DAY_SHEN_SHA'))])
gen('T_Almanac.v', 'Packed almanac strings of LunarUtil.', [('util/LunarUtil.py', 'LunarUtil', ('__DAY_YI_JI', '__TIME_YI_JI', '__DAY_SHEN_SHA'), ())])
gen('T_Holiday.v', 'Data of HolidayUtil.', [('util/HolidayUtil.py', 'HolidayUtil', None, ())])
gen('T_Misc.v', 'Tables of Lunar, LunarYear, EightChar, NineStar, FotoUtil, TaoUtil.', [
    ('Lunar.py', 'Lunar', None, ()), ('LunarYear.py', 'LunarYear', None, ()), ('EightChar.py', 'EightChar', None, ()),
    ('NineStar.py', 'NineStar', None, ()), ('Foto.py', 'Foto', None, ()), ('Tao.py', 'Tao', None, ()),
    ('util/FotoUtil.py', 'FotoUtil', None, ()), ('util/TaoUtil.py', 'TaoUtil', None, ())])

# ---- ShouXingUtil: binary64 tables; integers in them are written as floats (they are only used in
# float arithmetic), except the section offsets at the head of __XL0.
def flt(x):
    s = repr(float(x))
    return '(%s)' % s if s.startswith('-') else s
def sx():
    tree = ast.parse(open(ROOT + 'util/ShouXingUtil.py').read())
    cls = [c for c in tree.body if isinstance(c, ast.ClassDef)][0]
    o = ['(** Tables of ShouXingUtil.  Generated by tools/gen_tables.py from the text of /repo. *)',
         'From Coq Require Import ZArith List String Floats.', 'From Verif Require Import Py PyFloat PyStr.',
         'Import ListNotations.', 'Open Scope Z_scope.', 'Local Open Scope string_scope.', 'Local Set Warnings "-inexact-float".', '']
    for n in cls.body:
        if isinstance(n, ast.Assign) and isinstance(n.targets[0], ast.Name):
            name = n.targets[0].id.lstrip('_')
            try: v = ast.literal_eval(n.value)
            except Exception: continue
            if not isinstance(v, tuple): continue
            cite = '(** util/ShouXingUtil.py:%d-%d [ShouXingUtil.%s] *)' % (n.lineno, n.end_lineno, n.targets[0].id)
            if name == 'XL0':
                assert v[0] == 10000000000 and v[1] == 20
                heads = v[1:8]
                o.append(cite.replace(' *)', '; the offsets [XL0[1..7]], then the whole tuple *)'))
                o.append('Definition ShouXing_XL0_OFFSETS : list Z := [%s].' % '; '.join(map(str, heads)))
                o.append('Definition ShouXing_XL0 : list float := [\n%s]%%float.\n' % wrap([flt(x) for x in v]))
            elif isinstance(v[0], tuple):
                o.append(cite)
                o.append('Definition ShouXing_%s : list (list float) := [\n%s]%%float.\n' % (name, ';\n'.join('  [' + wrap([flt(x) for x in w]).lstrip() + ']' for w in v)))
            else:
                o.append(cite)
                o.append('Definition ShouXing_%s : list float := [\n%s]%%float.\n' % (name, wrap([flt(x) for x in v])))
    for f in cls.body:
        if isinstance(f, ast.FunctionDef) and f.name in ('calcShuo', 'calcQi'):
            for c in ast.walk(f):
                if isinstance(c, ast.Call) and isinstance(c.func, ast.Attribute) and c.func.attr.endswith('decode'):
                    s = c.args[0].value
                    nm = {'calcShuo': 'SB', 'calcQi': 'QB'}[f.name]
                    parts = [s[i:i+100] for i in range(0, len(s), 100)]
                    o.append('(** util/ShouXingUtil.py:%d [%s]: the packed correction table *)' % (c.lineno, f.name))
                    o.append('Definition ShouXing_%s_PACKED : str := Eval vm_compute in concat (map utf8 [\n%s]).\n' % (nm, wrap([q(p) for p in parts])))
    with open(OUT + 'T_ShouXing.v', 'w') as f: f.write('\n'.join(o))
sx()

# ---- Festival tables of FotoUtil and TaoUtil: dicts of lists of FotoFestival/TaoFestival objects, written
# as tuples of their attributes with the defaults of the constructors filled in.
def fest():
    o = ['(** Festival tables of FotoUtil and TaoUtil.  Generated by tools/gen_tables.py from the text of /repo. *)',
         'From Coq Require Import ZArith List String.', 'From Verif Require Import Py PyStr.',
         'Import ListNotations.', 'Open Scope Z_scope.', 'Local Open Scope string_scope.', '']
    for path, cls, ctor in (('util/FotoUtil.py', 'FotoUtil', 'FotoFestival'), ('util/TaoUtil.py', 'TaoUtil', 'TaoFestival')):
        env = {}
        def ev(n):
            if isinstance(n, ast.Constant): return n.value
            if isinstance(n, ast.Name): return env[n.id]
            if isinstance(n, ast.Call):
                assert n.func.id == ctor and not n.keywords
                a = [ev(x) for x in n.args]
                a = a + ([None, False, None][len(a) - 1:] if ctor == 'FotoFestival' else [None][len(a) - 1:])
                return [a[0]] + ['' if x is None else x for x in a[1:]]
            raise Exception(ast.dump(n))
        tm = lambda f: '(' + ', '.join(('true' if x else 'false') if isinstance(x, bool) else 'utf8 ' + q(x) for x in f) + ')'
        for name, val, a, b in tables(path, cls):
            if name == 'FESTIVAL':
                items = ['(utf8 %s, [%s])' % (q(k.value), '; '.join(tm(ev(x)) for x in v.elts)) for k, v in zip(val.keys, val.values)]
                ty = 'str * str * bool * str' if ctor == 'FotoFestival' else 'str * str'
                o.append('(** %s:%d-%d [%s.FESTIVAL]: %s *)' % (path, a, b, cls,
                         '(name, result, everyMonth, remark)' if ctor == 'FotoFestival' else '(name, remark)'))
                o.append('Definition %s_FESTIVAL : list (str * list (%s)) := Eval vm_compute in [\n%s].\n' % (cls, ty, wrap(items)))
            else:
                try: env[name] = ev(val)
                except Exception: pass
    with open(OUT + 'T_Festivals.v', 'w') as f: f.write('\n'.join(o))
fest()
