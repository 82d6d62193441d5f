"""Run the unit tests of /repo in the reference interpreter (tools/interp.py): a check of the
translation against the expectations written down in the source.  Nothing of /repo is executed."""
import re, sys, glob, os
from interp import *

def translate(text):
    """The small dialect in which the test modules are written, as Python."""
    text = re.sub(r'//[^\n]*', '', text)
    text = re.sub(r'#\[test\]', '', text)
    text = re.sub(r'use [^;]*;', '', text)
    text = re.sub(r'println!\([^;]*;', '', text)
    name = re.search(r'Mod_e\d+_\d+', text).group(0)
    toks = re.findall(r'"[^"]*"|0x[0-9a-fA-F]+|\d+|[A-Za-z_]\w*!?|\.\.|::|->|==|!=|\S', text)
    pos = 0; out = []; names = []
    def peek(k=0): return toks[pos + k] if pos + k < len(toks) else ''
    def eat(t=None):
        nonlocal pos
        x = toks[pos]
        assert t is None or x == t, (t, x, toks[pos - 5:pos + 8])
        pos += 1; return x
    def until(stop):
        """tokens of an expression up to a stop token at depth 0"""
        d = 0; r = []
        while True:
            x = peek()
            if d == 0 and x in stop: return r
            if x in '([{': d += 1
            if x in ')]}': d -= 1
            r.append(eat())
    def expr(ts):
        s = []; i = 0
        while i < len(ts):
            t = ts[i]
            if t == '&':
                if i + 1 < len(ts) and ts[i + 1] == 'mut': i += 1
            elif t == '*' and (i == 0 or ts[i - 1] in ('(', '[', ',', '&', '=', '+', '-', '*', '/', 'mut')): pass
            elif t == '!': s.append(' not ')
            elif t == '::': s.append('.')
            elif t in ('true', 'false'): s.append(t.capitalize())
            elif t == ';': s.append(',')
            else: s.append(t)
            i += 1
        return ''.join(s)
    def block(ind):
        eat('{')
        n = 0
        while peek() != '}':
            n += 1
            if peek() in ('let', 'const'):
                eat()
                if peek() == 'mut': eat()
                v = eat()
                if peek() == ':': eat(); until(['='])
                eat('='); e = until([';']); eat(';')
                out.append('    ' * ind + '%s = copy(%s)' % (v, expr(e)))
            elif peek() == 'for':
                eat(); v = eat(); eat('in'); a = until(['..']); eat('..'); b = until(['{'])
                out.append('    ' * ind + 'for %s in range(%s, %s):' % (v, expr(a), expr(b)))
                block(ind + 1)
            elif peek() == 'assert!':
                eat(); eat('('); e = until([')']); eat(')'); eat(';')
                out.append('    ' * ind + 'check(%s, %r)' % (expr(e), expr(e)))
            elif peek() == 'fn':
                eat(); f = eat(); eat('('); ps = until([')']); eat(')')
                args = re.findall(r'(\w+):', ''.join(ps).replace('mut', ''))
                names.append((f, args))
                out.append('    ' * ind + 'def %s(%s):' % (f, ', '.join(args)))
                block(ind + 1)
            else:
                e = until([';']); eat(';')
                out.append('    ' * ind + expr(e))
        eat('}')
        if n == 0: out.append('    ' * ind + 'pass')
    eat('mod'); eat('tests'); block(0)
    return name, '\n'.join(out), [f for f, a in names if not a]

def run(path, unit, debug):
    I = Interp(unit, debug)
    text = open(path).read(); text = text[text.index('#[cfg(test)]') + len('#[cfg(test)]'):]
    name, py, tests = translate(text)
    class F:
        def __init__(s, w): s.w = list(w)
        def call(s, f, *a):
            r, o = I.call('F::' + f, [s.w] + [x.w if isinstance(x, F) else x for x in a])
            s.w = list(o[0])
            for x, w in zip(a, o[1:]):
                if isinstance(x, F): x.w = list(w)
            return r
        def op(s, o, t): 
            r, _ = I.call('(&F)::%s(&F)' % o, [s.w, t.w]); return F(r[0])
        def __add__(s, t): return s.op('add', t)
        def __sub__(s, t): return s.op('sub', t)
        def __mul__(s, t): return s.op('mul', t)
        def __truediv__(s, t): return s.op('div', t)
        def __getattr__(s, f):
            def g(*a):
                r = s.call(f, *a)
                if not r: return None
                if f == 'normalize_eq': return r[0] == 1
                if f == 'packed': return r[0]
                return F(r[0])
            return g
        def clone(s): return F(s.w)
    class M:
        def __call__(s, w): return F(w)
        def unpacked(s, b): r, _ = I.call('F::unpacked', [list(b)]); return F(r[0])
    res = {}
    fails = []
    def check(c, what):
        res[cur][0 if c else 1] += 1
        if not c: fails.append((cur, what))
    def copy(x): return F(x.w) if isinstance(x, F) else x
    env = {name: M(), 'check': check, 'copy': copy}
    # constants are copied at each use
    consts = {c: v for c, v in I.c.items() if isinstance(v, list)}
    own = re.findall(r'^([A-Z_]+) = copy\((.*)\)$', py, re.M)
    body = re.sub(r'\b([A-Z][A-Z_]*)\b(?! = )', lambda m: 'K("%s")' % m.group(1) if m.group(1) in consts or m.group(1) in dict(own) else m.group(1), py)
    vals = dict(consts)
    def K(n): return F(vals[n])
    env['K'] = K
    body = re.sub(r'^([A-Z_]+) = copy\((.*)\)$', lambda m: 'setk("%s", %s)' % (m.group(1), m.group(2)), body, flags=re.M)
    def setk(n, x): vals[n] = list(x.w)
    env['setk'] = setk
    exec(body, env)
    for t in tests:
        cur = t; res[t] = [0, 0]
        try: env[t]()
        except Panic as e: fails.append((t, 'panic: %s' % e)); res[t][1] += 1
    return name, res, fails

if __name__ == '__main__':
    us, ed = load('/repo')
    total = [0, 0]
    only = sys.argv[1:]
    for path in sorted(glob.glob('/repo/src/field/mod_e*.rs')):
        k = os.path.basename(path)[5:-3]
        if only and k not in only: continue
        for debug in (True, False):
            name, res, fails = run(path, us[k], debug)
            ok = sum(v[0] for v in res.values()); bad = sum(v[1] for v in res.values())
            total[0] += ok; total[1] += bad
            print('%s %s: %d tests, %d assertions hold, %d do not' % (name, 'debug' if debug else 'release', len(res), ok, bad))
            for t in res:
                if res[t][1]: print('   ', t, res[t])
            for f in fails[:6]: print('      ', f)
    print('total: %d assertions hold, %d do not' % tuple(total))
