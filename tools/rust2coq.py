#!/usr/bin/env python3
"""Translate the non-test code of safecurves-rust to MiniRust abstract syntax
(theories/Lang.v).  usage: rust2coq.py SRC_DIR OUT_DIR

The translation is syntactic.  What it does beyond renaming:
  * lifetimes, `&`, `*`, `.clone()` and the tuple-struct wrapper are erased
    (all types involved are Copy);
  * nested calls are let-bound in evaluation order (temporaries %1, %2, ...);
  * operators are resolved to the impl selected by the operand types;
  * the private one-line method carry_out is kept as a macro of the same name;
  * EdwardsExtended values are flattened to the four variables v.x v.y v.z v.t;
  * `+= |= &=` on i64/bool lvalues are expanded to `x = x op e`.
Anything outside the subset raises an error.
"""
import os, re, sys
sys.path.insert(0, os.path.dirname(os.path.abspath(__file__)))
from rustparse import parse

FIELDS = '221_3 222_117 251_9 255_19 382_105 383_187 414_17 511_187 521_1'.split()
INTS = {'i8', 'i16', 'i32', 'i64', 'u8', 'usize', 'bool'}
OPTR = {'+': 'add', '-': 'sub', '*': 'mul', '/': 'div'}
PF = ['x', 'y', 'z', 't']

def norm_ty(t, self_ty):
    t = re.sub(r'\bMod_e\d+_\d+_Mask\b', 'Mask', t)
    t = re.sub(r'\bMod_e\d+_\d+\b', 'F', t)
    t = t.replace('EdwardsExtended<C>', 'P')
    t = re.sub(r'\b(C::Scalar|Self::Scalar)\b', 'F', t)
    if self_ty: t = re.sub(r'\bSelf\b', self_ty, t)
    return t
def deref(t):
    while t.startswith('&'): t = t[1:].replace('mut ', '', 1) if t.startswith('&mut ') else t[1:]
    return t

class Fn:  # a function of the table
    def __init__(s, key, coq, params, body, rets, f, l0, l1, note=''):
        s.key, s.coq, s.params, s.body, s.rets, s.file, s.l0, s.l1, s.note = key, coq, params, body, rets, f, l0, l1, note

def op_key(selfty, meth, argty): return f'{paren(selfty)}::{meth}({argty})'
def paren(t): return f'({t})' if t.startswith('&') else t

class Sig:
    def __init__(s, params, ret): s.params, s.ret = params, ret   # params: [(name, type)]

class Tr:
    """translates one function body"""
    def __init__(s, unit, self_ty, fnitem):
        s.u, s.self_ty = unit, self_ty
        _, s.name, ps, ret, s.body, s.l0, s.l1 = fnitem
        s.ps = [(n, norm_ty(t, self_ty)) for n, t in ps]
        s.ret = norm_ty(ret, self_ty)
        s.ty = dict(s.ps); s.n = 0; s.pre = None
        s.line = s.l0
    def err(s, m): raise NotImplementedError(f'{s.u.file}:{s.line} {s.name}: {m}')
    def flat(s, x, t):
        return [f'{x}.{f}' for f in PF] if deref(t) == 'P' else [x]
    def tmp(s): s.n += 1; return f'%{s.n}'
    def lv(s, e):
        """variable designated by a place expression (no index)"""
        k = e[0]
        if k == 'path': return e[1]
        if k == 'paren': return s.lv(e[1])
        if k in ('ref', 'refmut'): return s.lv(e[1])
        if k == 'un' and e[1] == '*': return s.lv(e[2])
        if k == 'field' and e[2] == '0': return s.lv(e[1])
        if k == 'field' and e[2] in PF: return s.lv(e[1]) + '.' + e[2]
        return None
    # expressions -> (ir, type)
    def ex(s, e):
        k = e[0]
        if k == 'int': return ('int', e[2], e[1]), 'lit'
        if k == 'bool': return ('int', int(e[1]), str(int(e[1]))), 'bool'
        if k == 'paren': return s.ex(e[1])
        if k == 'unit': return ('unit',), '()'
        if k == 'path':
            x = e[1]
            if x in s.ty: return ('var', x), s.ty[x]
            if x in s.u.consts: return ('const', x), s.u.consts[x]
            s.err(f'unknown name {x}')
        if k in ('ref', 'refmut'):
            i, t = s.ex(e[1]); return i, ('&' if k == 'ref' else '&mut ') + t
        if k == 'un':
            i, t = s.ex(e[2])
            if e[1] == '*':
                if not t.startswith('&'): s.err('deref of ' + t)
                return i, (t[5:] if t.startswith('&mut ') else t[1:])
            if e[1] == '!' and t == 'bool': return ('not', i), 'bool'
            s.err('unary ' + e[1])
        if k == 'field':
            if e[2] == '0':
                i, t = s.ex(e[1]); return i, '[i64]'
            x = s.lv(e)
            if x and deref(s.ty.get(x.rsplit('.', 1)[0], '?')) == 'P': return ('var', x), 'F'
            s.err(f'field {e}')
        if k == 'index':
            i, t = s.ex(e[1]); j, tj = s.ex(e[2])
            if tj not in ('lit', 'usize'): s.err('index type ' + tj)
            elt = 'u8' if 'u8' in t else 'i64'
            return ('idx', i, j), elt
        if k == 'as':
            i, t = s.ex(e[1]); ty = norm_ty(e[2], s.self_ty)
            if t not in INTS: s.err('cast from ' + t)
            if ty not in ('u8', 'i32', 'i64'): s.err('cast to ' + ty)
            return ('cast', ty, i), ty
        if k == 'bin':
            op = e[1]
            a, ta = s.ex(e[2]); b, tb = s.ex(e[3])
            if deref(ta) in ('F', 'P') or deref(tb) in ('F', 'P'):
                key = op_key(ta, OPTR[op], tb)
                return s.call(key, [(a, ta), (b, tb)])
            if op in ('>>', '<<'):
                if ta != 'i64' or tb not in ('lit', 'usize'): s.err(f'shift {ta} {tb}')
                return ('bin', op, a, b), 'i64'
            ts = {ta, tb} - {'lit'}
            if len(ts) > 1: s.err(f'types {ta} {op} {tb}')
            t = ts.pop() if ts else 'lit'
            if op == '==': return ('bin', '==', a, b), 'bool'
            if t in ('i64', 'u8', 'bool', 'lit') and op in '&|': return ('bin', op, a, b), t
            if t == 'i64' and op in '+-*': return ('bin', op, a, b), t
            if t == 'usize' and op in '-/%': return ('bin', 'u' + op, a, b), t
            s.err(f'binary {ta} {op} {tb}')
        if k == 'arr':
            es = [s.ex(x) for x in e[1]]; return ('arr', [x for x, _ in es]), '[i64]'
        if k == 'rep':
            i, t = s.ex(e[1]); n, _ = s.ex(e[2])
            if n[0] != 'int': s.err('repeat count')
            ety = 'u8' if e[1][0] == 'int' and e[1][1].endswith('u8') else 'i64'
            return ('rep', i, n[1]), f'[{ety}]'
        if k == 'call':
            if e[1][0] != 'path': s.err('call')
            f = e[1][1]
            if re.match(r'Mod_e\d+_\d+(_Mask)?$', f):
                i, t = s.ex(e[2][0]); return i, norm_ty(f, s.self_ty)
            if f == 'i64::from':
                i, t = s.ex(e[2][0])
                if t not in ('i32', 'i16', 'i8'): s.err('i64::from ' + t)
                return ('cast', 'i64', i), 'i64'
            if f == 'Ok': return ('unit',), '()'
            m = re.match(r'(C::Scalar|Self|C)::(\w+)$', f)
            if m:
                ty = {'C::Scalar': 'F', 'Self': s.self_ty, 'C': 'C'}[m.group(1)]
                return s.call(f'{ty}::{m.group(2)}', [s.ex(x) for x in e[2]])
            s.err('call ' + f)
        if k == 'mcall':
            o, m, args = e[1], e[2], e[3]
            if m == 'clone':
                i, t = s.ex(o); return i, deref(t)
            if m == 'gen_range':
                lo, _ = s.ex(args[0]); hi, _ = s.ex(args[1]); t = s.tmp()
                s.emit(('genrange', t, s.lv(o), lo, hi)); s.ty[t] = 'i64'
                return ('var', t), 'i64'
            i, t = s.ex(o)
            if m == 'carry_out': return ('carry', i), 'i64'
            key = f'{deref(t)}::{m}'
            return s.call(key, [(i, t)] + [s.ex(x) for x in args], recv=True)
        if k == 'struct':
            t = s.tmp(); s.ty[t] = 'P'
            if [f for f, _ in e[2]] != PF: s.err('struct fields')
            for f, x in e[2]:
                i, ti = s.ex(x); s.assign_var(f'{t}.{f}', i, ti)
            return ('var', t), 'P'
        s.err(f'expr {k}')
    def emit(s, st): s.out.append((s.line, st))
    def call(s, key, args, recv=False):
        if key not in s.u.sigs: s.err('no function ' + key)
        sg = s.u.sigs[key]
        if len(sg.params) != len(args): s.err('arity ' + key)
        ir = []
        for j, ((pn, pt), (a, t)) in enumerate(zip(sg.params, args)):
            if not (recv and j == 0):
                # argument types must agree up to auto-deref / reborrow of references
                if t != pt and not (t == 'lit' and pt in INTS) and not (t == '&mut F' and pt == '&F') \
                   and not (t.startswith('&mut [u8') and pt == '&mut [u8]'): s.err(f'{key}: arg {pn}: {t} vs {pt}')
            elif deref(t) != deref(pt): s.err(f'{key}: receiver {t} vs {pt}')
            if pt.startswith('&mut'):
                if a[0] != 'var': s.err('&mut of non-variable')
                ir += [('mut', x) for x in s.flat(a[1], pt)]
            elif deref(pt) == 'P':
                if a[0] != 'var': s.err('struct arg')
                ir += [('val', ('var', x)) for x in s.flat(a[1], pt)]
            else: ir.append(('val', a))
        rt = sg.ret
        if rt == '()':
            s.emit(('call', [], key, ir)); return ('unit',), '()'
        t = s.tmp(); s.ty[t] = rt
        s.emit(('call', s.flat(t, rt), key, ir))
        return ('var', t), rt
    def assign_var(s, x, ir, t):
        """x = ir, flattening structs"""
        if deref(t) == 'P':
            if ir[0] != 'var': s.err('struct rhs')
            for f in PF: s.emit(('let', f'{x}.{f}', ('var', f'{ir[1]}.{f}')))
        else:
            # `let x = f(..)` : retarget the temporary of the call just emitted
            if ir[0] == 'var' and ir[1].startswith('%') and s.out and s.out[-1][1][0] == 'call' and s.out[-1][1][1] == [ir[1]]:
                ln, (_, _, key, a) = s.out.pop()
                s.out.append((ln, ('call', [x], key, a))); return
            s.emit(('let', x, ir))
    def stmts(s, b):
        for ln, st in b:
            s.line = ln; k = st[0]
            if k == 'let':
                _, x, ty, e = st
                i, t = s.ex(e)
                if t == 'lit': s.err('untyped literal let')
                if t.startswith('['): pass
                s.assign_var(x, i, t); s.ty[x] = t
            elif k == 'assign':
                _, op, l, r = st
                if l[0] == 'index':
                    a = s.lv(l[1]); j, _ = s.ex(l[2])
                    ta = s.ty[a]; ri, rt = s.ex(r)
                    if op in ('&=', '|='): ri = ('bin', op[0], ('idx', ('var', a), j), ri)
                    elif op != '=': s.err('op ' + op)
                    s.emit(('set', a, j, ri)); continue
                x = s.lv(l)
                li, lt = s.ex(l)
                if op == '=':
                    ri, rt = s.ex(r); s.assign_var(x, ri, lt)
                elif deref(lt) in ('F', 'P'):
                    ri, rt = s.ex(r)
                    key = op_key(deref(lt), OPTR[op[0]] + '_assign', rt)
                    s.call(key, [(li, '&mut ' + deref(lt)), (ri, rt)], recv=True)
                elif lt in ('i64', 'bool') and op in ('|=', '&='):
                    ri, rt = s.ex(r)
                    if rt != lt: s.err('compound types')
                    s.emit(('let', x, ('bin', op[0], li, ri)))
                else: s.err('assign ' + op)
            elif k == 'for':
                _, x, rng, body = st
                while rng[0] == 'paren': rng = rng[1]
                assert rng[0] == 'bin' and rng[1] == '..'
                lo, _ = s.ex(rng[2]); hi, _ = s.ex(rng[3])
                save = s.out; s.out = []
                for _, b in body:   # no shadowing inside the loop: a flat environment is faithful
                    if b[0] == 'let' and b[1] in s.ty: s.err('shadowing in loop body: ' + b[1])
                s.ty[x] = 'usize'; s.stmts(body)
                inner, s.out = s.out, save
                s.line = ln; s.emit(('for', x, lo, hi, inner))
            elif k == 'expr':
                if not s.fmt(st[1]):
                    s.ex(st[1])
            elif k == 'tail':
                if s.fmt(st[1]): s.tail = ('unit',), '()'
                else: s.tail = s.ex(st[1])
            else: s.err(k)
    def fmt(s, e):
        if e[0] == 'macro' and e[1] == 'try': e = e[2][0]
        if e[0] == 'macro' and e[1] == 'write':
            f = s.lv(e[2][0]); fm = e[2][1][1][1:-1]; args = e[2][2:]
            m = re.match(r'^(.*?)(\{:(02)?([xX])\})?$', fm)
            assert m and '{' not in m.group(1), fm
            if m.group(1): s.emit(('pushstr', f, m.group(1)))
            if m.group(2):
                i, t = s.ex(args[0])
                s.emit(('pushhex', f, m.group(4) == 'X', bool(m.group(3)), 8 if deref(t) == 'u8' else 64, i))
            return True
        return False
    def run(s):
        s.out = []; s.tail = None
        s.stmts(s.body)
        rets = []
        if s.ret not in ('()', 'std::fmt::Result'):
            i, t = s.tail
            if deref(s.ret) == 'P': 
                rets = [('var', f'{i[1]}.{f}') for f in PF]
            else: rets = [i]
        return s.out, rets

STR = lambda x: '"' + x + '"'

class Unit:
    def __init__(s, path, rel, extern=None):
        s.file = rel; s.items = parse(path); s.consts = {}; s.cdefs = []; s.sigs = dict(extern or {}); s.fns = []; s.carry = None
        for it in s.items:
            if it[0] == 'const':
                s.consts[it[1]] = norm_ty(it[2], None)
        work = []
        for it in s.items:
            if it[0] != 'impl': continue
            tr, st = it[1], norm_ty(it[2], None)
            base = deref(st)
            for f in it[4]:
                name = f[1]
                ps = [(n, norm_ty(t, st)) for n, t in f[2]]
                tn = norm_ty(tr, st) if tr else None
                if tn and '<' in tn:
                    key = op_key(st, name, re.search(r'<(.*)>', tn).group(1))
                elif name == 'fmt': key = f'{st}::{tn}::fmt'
                else: key = f'{st}::{name}'
                if name == 'carry_out':
                    s.carry = f; continue
                ret = norm_ty(f[3], st)
                assert key not in s.sigs, key
                s.sigs[key] = Sig(ps, ret); work.append((key, st, f, tn))
        for it in s.items:
            if it[0] == 'const':
                _, n, ty, e, l0, l1 = it
                if e[0] == 'call': e = e[2][0]
                assert e[0] in ('arr', 'int'), it
                s.cdefs.append((n, ty, e, l0, l1))
        for key, st, f, tn in work:
            t = Tr(s, st, f); body, rets = t.run()
            ps = []
            for n, ty in t.ps: ps += t.flat(n, ty)
            s.fns.append(Fn(key, s.coqname(key), ps, body, rets, rel, f[5], f[6], tn or 'inherent'))
    def coqname(s, key):
        n = key.replace('(&F)::', 'ref_').replace('(&P)::', 'Pref_').replace('F::', '').replace('(&F)', '_ref').replace('(&P)', '_ref').replace('(F)', '_val').replace('(P)', '_val')
        n = re.sub(r'\((i\d+)\)', r'_\1', n).replace('::', '_')
        return 'f_' + n

# ---- Coq printer
PR = {'*': 40, '+': 50, '-': 50, '<<': 52, '>>': 52, '&': 54, '|': 56}
def num(i):
    return i[2] if i[2].startswith('0x') else str(i[1])
def cex(i):
    k = i[0]
    if k == 'int':
        z = i[1]
        t = i[2] if i[2].startswith('0x') else str(z)
        return f'#{t}'
    if k == 'var': return STR(i[1])
    if k == 'const': return f'EInt {i[1]}' if i[1] == 'C_VAL' else f'ELit {i[1]}'
    if k == 'idx': return f'{at(i[1])}.[{cidx(i[2])}]'
    if k == 'bin':
        op, a, b = i[1], i[2], i[3]
        if op == '==': return f'EEq {at(a)} {at(b)}'
        if op[0] == 'u': return {'u-': 'EUSub', 'u/': 'EUDiv', 'u%': 'EURem'}[op] + f' {at(a)} {at(b)}'
        o = {'&': '.&', '|': '.|', '<<': '.<<', '>>': '.>>', '+': '.+', '-': '.-', '*': '.*'}[op]
        return f'{at(a)} {o} {at(b)}'
    if k == 'cast': return f'ECast {i[1].upper()} {at(i[2])}'
    if k == 'not': return f'ENot {at(i[1])}'
    if k == 'arr': return 'EArr [' + '; '.join(cex(x) for x in i[1]) + ']'
    if k == 'rep': return f'ERep {at(i[1])} {i[2]}'
    if k == 'carry': return f'carry_out {at(i[1])}'
    raise Exception(i)
def at(i):
    t = cex(i)
    if i[0] in ('var',): return t
    if i[0] == 'int' : return t
    return f'({t})'
def cidx(j): return cex(j)
def carg(a): return f'AMut {STR(a[1])}' if a[0] == 'mut' else f'AVal {at(a[1])}'
def cst(st, ln, ind):
    p = '  ' * ind
    k = st[0]
    c = f'(*{ln}*) '
    if k == 'let': return f'{p}{c}{STR(st[1])} <- {cex(st[2])}'
    if k == 'set': return f'{p}{c}SSet {STR(st[1])} {at(st[2])} ({cex(st[3])})'
    if k == 'call': return f'{p}{c}SCall [{"; ".join(STR(x) for x in st[1])}] {STR(st[2])} [{"; ".join(carg(a) for a in st[3])}]'
    if k == 'for':
        b = ';\n'.join(cst(x, l, ind + 1) for l, x in st[4])
        return f'{p}{c}SFor {STR(st[1])} {at(st[2])} {at(st[3])} [\n{b} ]'
    if k == 'genrange': return f'{p}{c}SGenRange {STR(st[1])} {STR(st[2])} {at(st[3])} {at(st[4])}'
    if k == 'pushstr': return f'{p}{c}SPushStr {STR(st[1])} {STR(st[2])}'
    if k == 'pushhex': return f'{p}{c}SPushHex {STR(st[1])} {str(st[2]).lower()} {str(st[3]).lower()} {st[4]} {at(st[5])}'
    raise Exception(st)
def cfn(f):
    b = ';\n'.join(cst(x, l, 2) for l, x in f.body)
    r = '; '.join(('EVar ' if x[0] == 'var' else '') + cex(x) for x in f.rets)
    return (f'(* {f.file}:{f.l0}-{f.l1}  {f.note}  {f.key} *)\n'
            f'Definition {f.coq} : func := mkfunc [{"; ".join(STR(x) for x in f.params)}] [\n{b} ]\n    [{r}].\n')

HDR = '''(* Generated by tools/rust2coq.py from {rel} -- do not edit.
   One definition per item; each statement is preceded by its source line. *)
From Coq Require Import ZArith List String.
From Verif Require Import Lang.
Import ListNotations LangNotations.
Local Open Scope Z_scope.
Local Open Scope string_scope.

'''
def const_coq(n, ty, e, rel, l0, l1):
    if e[0] == 'int': return f'(* {rel}:{l0} *)\nDefinition {n} : Z := {e[1] if e[1].startswith("0x") else e[2]}.\n'
    v = '; '.join(x[1] if x[1].startswith('0x') else str(x[2]) for x in e[1])
    return f'(* {rel}:{l0}-{l1} *)\nDefinition {n} : list Z := [{v}].\n'

def gen_field(src, name):
    rel = f'src/field/mod_e{name}.rs'
    u = Unit(f'{src}/{rel}', rel)
    o = HDR.format(rel=rel)
    for c in u.cdefs: o += const_coq(c[0], c[1], c[2], rel, c[3], c[4]) + '\n'
    # carry_out
    f = u.carry
    t = Tr(u, 'F', f); body, rets = t.run(); assert not body
    assert rets[0][0] == 'bin' and rets[0][1] == '>>' and rets[0][2][1] == ('var', 'self')
    i = rets[0]
    o += f'(* {rel}:{f[5]}-{f[6]}  inherent F::carry_out (one-line method, kept as a macro on its receiver) *)\n'
    o += f'Definition carry_out (self : expr) : expr := self.[{cex(i[2][2])}] .>> {cex(i[3])}.\n\n'
    for fn in u.fns: o += cfn(fn) + '\n'
    o += '(* the function table of this file: every non-test function *)\nDefinition table : list (string * func) := [\n' + ';\n'.join(f'  ({STR(fn.key)}, {fn.coq})' for fn in u.fns) + '].\n'
    return u, o

def gen_edwards(src, fu):
    rel = 'src/curve/edwards.rs'
    ext = dict(fu.sigs); ext['C::d_val'] = Sig([], 'F')
    u = Unit(f'{src}/{rel}', rel, ext)
    o = HDR.format(rel=rel)
    for fn in u.fns: o += cfn(fn) + '\n'
    o += '(* the function table of this file *)\nDefinition table : list (string * func) := [\n' + ';\n'.join(f'  ({STR(fn.key)}, {fn.coq})' for fn in u.fns) + '].\n'
    return u, o

CURVES = ['e_222', 'curve1174', 'e_382', 'curve41417', 'e_521']
def gen_curves(src):
    """d_val and the scalar type of each curve file"""
    o = HDR.format(rel='src/curve/{' + ','.join(CURVES) + '}.rs').replace('From Verif Require Import Lang.', 'From Verif Require Import Lang.\nFrom Verif Require %s Src_edwards.' % ' '.join('Src_e' + n for n in FIELDS))
    for c in CURVES:
        rel = f'src/curve/{c}.rs'; its = parse(f'{src}/{rel}')
        im = [i for i in its if i[0] == 'impl' and i[1] == 'EdwardsCurve']; assert len(im) == 1
        im = im[0]; sc = dict(im[3])['Scalar']; fn = im[4][0]
        assert fn[1] == 'd_val' and fn[4][0][1][0] == 'tail' and len(fn[4]) == 1
        const = fn[4][0][1][1]; assert const[0] == 'path'
        fld = sc.replace('Mod_', 'Src_')
        o += f'(* {rel}:{fn[5]}-{fn[6]}  EdwardsCurve  C::d_val *)\nDefinition f_{c}_d_val : func := mkfunc [] [] [ELit {fld}.{const[1]}].\n\n'
        o += f'(* the functions visible to a user of {rel}: EdwardsCurve::Scalar = {sc} *)\n'
        o += f'Definition table_{c} : list (string * func) :=\n  ("C::d_val", f_{c}_d_val) :: {fld}.table ++ Src_edwards.table.\n\n'
    return o

def load(src):
    us = {n: gen_field(src, n)[0] for n in FIELDS}
    ed = gen_edwards(src, us['222_117'])[0]
    return us, ed

if __name__ == '__main__':
    src, out = sys.argv[1:3]
    fu = None
    for n in FIELDS:
        u, o = gen_field(src, n)
        open(f'{out}/Src_e{n}.v', 'w').write(o)
        if n == '222_117': fu = u
    u, o = gen_edwards(src, fu)
    open(f'{out}/Src_edwards.v', 'w').write(o)
    open(f'{out}/Src_curves.v', 'w').write(gen_curves(src))
