"""Reference interpreter for the translated program (exploration only; the model's semantics is theories/Lang.v)."""
import sys, random
from rust2coq import *
class Panic(Exception): pass
def wrap(z, b=64):
    z &= (1 << b) - 1
    return z - (1 << b) if z >> (b - 1) else z
class Interp:
    def __init__(s, unit, debug=True, extra=None):
        s.u = unit; s.t = {f.key: f for f in unit.fns}; s.debug = debug; s.c = {}
        if extra: s.t.update(extra)
        for n, ty, e, l0, l1 in unit.cdefs:
            s.c[n] = e[2] if e[0] == 'int' else [x[2] for x in e[1]]
        f = unit.carry
        if f:
            t = Tr(unit, 'F', f); _, r = t.run(); s.cw = r[0][2][2][1]; s.cs = r[0][3][1]
    def chk(s, z):
        if not -2**63 <= z < 2**63:
            if s.debug: raise Panic('overflow')
            return wrap(z)
        return z
    def ev(s, i, E):
        k = i[0]
        if k == 'int': return i[1]
        if k == 'var': return E[i[1]]
        if k == 'const': return s.c[i[1]]
        if k == 'idx':
            a = s.ev(i[1], E); j = s.ev(i[2], E)
            if not 0 <= j < len(a): raise Panic('index')
            return a[j]
        if k == 'carry': return s.ev(i[1], E)[s.cw] >> s.cs
        if k == 'cast': 
            v = s.ev(i[2], E); return v & 255 if i[1] == 'u8' else wrap(v, 32) if i[1] == 'i32' else v
        if k == 'not': return 1 - s.ev(i[1], E)
        if k == 'arr': return [s.ev(x, E) for x in i[1]]
        if k == 'rep': return [s.ev(i[1], E)] * i[2]
        if k == 'bin':
            a = s.ev(i[2], E); b = s.ev(i[3], E); o = i[1]
            if o == '+': return s.chk(a + b)
            if o == '-': return s.chk(a - b)
            if o == '*': return s.chk(a * b)
            if o == '&': return a & b
            if o == '|': return a | b
            if o == '<<': return wrap(a << b)
            if o == '>>': return a >> b
            if o == '==': return int(a == b)
            if o == 'u-': return a - b
            if o == 'u/': return a // b
            if o == 'u%': return a % b
        raise Exception(i)
    def ex(s, body, E):
        for ln, st in body:
            k = st[0]
            if k == 'let': 
                v = s.ev(st[2], E); E[st[1]] = list(v) if isinstance(v, list) else v
            elif k == 'set':
                v = s.ev(st[3], E); j = s.ev(st[2], E); a = E[st[1]]
                if not 0 <= j < len(a): raise Panic('index')
                a = list(a); a[j] = v; E[st[1]] = a
            elif k == 'call':
                rets, ps = s.call(st[2], [E[a[1]] if a[0] == 'mut' else s.ev(a[1], E) for a in st[3]])
                for a, p in zip(st[3], ps):
                    if a[0] == 'mut': E[a[1]] = p
                for d, r in zip(st[1], rets): E[d] = r
            elif k == 'for':
                for j in range(s.ev(st[2], E), s.ev(st[3], E)): E[st[1]] = j; s.ex(st[4], E)
            else: raise Exception(st)
    def call(s, key, args):
        f = s.t[key]
        if callable(f): return f(s, args)
        E = dict(zip(f.params, args)); s.ex(f.body, E)
        return [s.ev(r, E) for r in f.rets], [E[p] for p in f.params]
LAY = {'221_3': (4,58,47,3,28), '222_117': (4,58,48,117,28), '251_9': (5,56,27,9,32), '255_19': (5,56,31,19,32), '382_105': (7,56,46,105,48),
       '383_187': (7,56,47,187,48), '414_17': (8,56,22,17,52), '511_187': (10,54,25,187,64), '521_1': (10,54,35,1,66)}
def val(l, w): return sum(x << (w*i) for i, x in enumerate(l))
