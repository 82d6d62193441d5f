#!/usr/bin/env python3
"""A parser for the subset of Rust used by safecurves-rust (non-test code).

Produces plain Python tuples; every statement carries its source line.
It raises on anything it does not understand, so nothing is silently skipped
except `use`/`extern`/attributes/doc comments and `#[cfg(test)] mod tests`.
"""
import re, sys

TOK = re.compile(r"""
  (?P<ws>\s+)
 |(?P<lc>//[^\n]*)
 |(?P<bc>/\*.*?\*/)
 |(?P<str>"(?:\\.|[^"\\])*")
 |(?P<life>'[a-zA-Z_]\w*)
 |(?P<num>0x[0-9a-fA-F_]+|0b[01_]+|\d[\d_]*(?:[iu](?:8|16|32|64|size))?)
 |(?P<id>[A-Za-z_]\w*)
 |(?P<op><<=|>>=|\.\.|::|->|=>|==|!=|<=|>=|&&|\|\||\+=|-=|\*=|/=|&=|\|=|<<|>>|[-+*/%&|^!<>=(){}\[\];:,.\#?])
""", re.X | re.S)

class T:
    __slots__ = ('k', 'v', 'line')
    def __init__(s, k, v, line): s.k, s.v, s.line = k, v, line
    def __repr__(s): return f'{s.v!r}@{s.line}'

def lex(src):
    out, i, line = [], 0, 1
    while i < len(src):
        m = TOK.match(src, i)
        if not m: raise SyntaxError(f'lex error at line {line}: {src[i:i+20]!r}')
        k, v = m.lastgroup, m.group()
        if k not in ('ws', 'lc', 'bc'): out.append(T(k, v, line))
        line += v.count('\n'); i = m.end()
    out.append(T('eof', '', line))
    return out

PREC = {'|': 4, '&': 6, '==': 3, '<<': 7, '>>': 7, '+': 8, '-': 8, '*': 9, '/': 9, '%': 9, '..': 1}
ASSIGN = {'=', '+=', '-=', '*=', '/=', '&=', '|='}

class P:
    def __init__(s, toks): s.t, s.i = toks, 0
    def pk(s, o=0): return s.t[s.i + o]
    def at(s, v): return s.pk().v == v and s.pk().k != 'str'
    def nx(s): s.i += 1; return s.t[s.i - 1]
    def eat(s, v):
        if not s.at(v): raise SyntaxError(f'expected {v!r}, got {s.pk()!r}')
        return s.nx()
    def opt(s, v):
        if s.at(v): s.nx(); return True
        return False

    # ---- types (returned as canonical strings, lifetimes erased)
    def ty(s):
        if s.opt('&'):
            if s.pk().k == 'life': s.nx()
            m = s.opt('mut')
            return ('&mut ' if m else '&') + s.ty()
        if s.opt('['):
            e = s.ty()
            if s.opt(';'):
                n = s.nx().v; s.eat(']'); return f'[{e}; {n}]'
            s.eat(']'); return f'[{e}]'
        if s.opt('('):
            if s.opt(')'): return '()'
            x = s.ty(); s.eat(')'); return '(' + x + ')'
        if s.at('::'): s.nx()
        out = s.nx().v
        while True:
            if s.at('::'): s.nx(); out += '::' + s.nx().v
            elif s.at('<'): out += s.generics()
            else: return out
    def generics(s):
        s.eat('<'); parts = []
        while not s.closes():
            if s.pk().k == 'life': s.nx()
            else:
                x = s.ty()
                if s.opt('='): x += ' = ' + s.ty()
                if s.opt(':'): x += ': ' + s.ty()
                parts.append(x)
            s.opt(',')
        s.eat('>')
        return '<' + ', '.join(parts) + '>' if parts else ''

    def closes(s):
        # `>>` closing two nested generic lists is split into two tokens
        t = s.pk()
        if t.v == '>>': s.t[s.i:s.i + 1] = [T('op', '>', t.line), T('op', '>', t.line)]
        return s.at('>')

    # ---- expressions
    def expr(s, p=0, nostruct=False):
        l = s.unary(nostruct)
        while True:
            t = s.pk()
            if t.v == 'as' and t.k == 'id':
                s.nx(); l = ('as', l, s.ty()); continue
            if t.k == 'op' and t.v in PREC and PREC[t.v] > p:
                s.nx(); r = s.expr(PREC[t.v], nostruct); l = ('bin', t.v, l, r); continue
            return l
    def unary(s, ns):
        t = s.pk()
        if t.v == '&' and t.k == 'op':
            s.nx(); m = s.opt('mut'); return ('refmut' if m else 'ref', s.unary_as(ns))
        if t.v in ('*', '!', '-') and t.k == 'op':
            s.nx(); return ('un', t.v, s.unary_as(ns))
        return s.postfix(s.prim(ns))
    def unary_as(s, ns): return s.unary(ns)
    def prim(s, ns):
        t = s.nx()
        if t.k == 'num':
            v = re.sub(r'[iu](8|16|32|64|size)$', '', t.v) if not t.v.startswith('0x') else t.v
            return ('int', t.v, int(v.replace('_', ''), 0))
        if t.k == 'str': return ('str', t.v)
        if t.v == '(':
            if s.opt(')'): return ('unit',)
            e = s.expr()
            s.eat(')'); return ('paren', e)
        if t.v == '[':
            if s.at(']'): s.nx(); return ('arr', [])
            e = s.expr()
            if s.opt(';'):
                n = s.expr(); s.eat(']'); return ('rep', e, n)
            es = [e]
            while s.opt(','):
                if s.at(']'): break
                es.append(s.expr())
            s.eat(']'); return ('arr', es)
        if t.v == 'true' or t.v == 'false': return ('bool', t.v == 'true')
        if t.k == 'id':
            if s.at('!') and s.pk(1).v == '(':
                s.nx(); s.nx(); es = []
                while not s.at(')'):
                    es.append(s.expr()); s.opt(',')
                s.eat(')'); return ('macro', t.v, es)
            path = t.v
            while s.at('::'): s.nx(); path += '::' + s.nx().v
            if s.at('{') and not ns and path[0].isupper():
                s.nx(); fs = []
                while not s.at('}'):
                    f = s.nx().v; s.eat(':'); fs.append((f, s.expr())); s.opt(',')
                s.eat('}'); return ('struct', path, fs)
            return ('path', path)
        raise SyntaxError(f'unexpected {t!r}')
    def postfix(s, e):
        while True:
            if s.at('.'):
                s.nx(); f = s.nx()
                if s.at('('):
                    e = ('mcall', e, f.v, s.args())
                else: e = ('field', e, f.v)
            elif s.at('['):
                s.nx(); i = s.expr(); s.eat(']'); e = ('index', e, i)
            elif s.at('('):
                e = ('call', e, s.args())
            else: return e
    def args(s):
        s.eat('('); es = []
        while not s.at(')'):
            es.append(s.expr()); s.opt(',')
        s.eat(')'); return es

    # ---- statements: list of (line, stmt)
    def block(s):
        s.eat('{'); out = []
        while not s.at('}'):
            ln = s.pk().line
            if s.at('let'):
                s.nx(); s.opt('mut'); x = s.nx().v
                ty = s.ty() if s.opt(':') else None
                s.eat('='); e = s.expr(); s.eat(';'); out.append((ln, ('let', x, ty, e)))
            elif s.at('for'):
                s.nx(); x = s.nx().v; s.eat('in'); e = s.expr(0, True)
                out.append((ln, ('for', x, e, s.block())))
            elif s.at('return'):
                s.nx(); e = s.expr(); s.eat(';'); out.append((ln, ('tail', e)))
            else:
                e = s.expr()
                if s.pk().v in ASSIGN:
                    op = s.nx().v; r = s.expr()
                    if not s.at('}'): s.eat(';')
                    out.append((ln, ('assign', op, e, r)))
                elif s.opt(';'): out.append((ln, ('expr', e)))
                else: out.append((ln, ('tail', e)))
        s.eat('}'); return out

    # ---- items
    def attr(s):
        s.eat('#'); s.opt('!'); s.eat('['); d = 1
        txt = ''
        while d:
            t = s.nx(); d += (t.v == '[') - (t.v == ']'); txt += t.v
        return txt[:-1]
    def fn(s):
        ln = s.pk().line
        s.opt('pub'); s.eat('fn'); name = s.nx().v
        if s.at('<'): s.generics()
        s.eat('('); ps = []
        while not s.at(')'):
            if s.at('&') or s.at('self') or (s.at('mut') and s.pk(1).v == 'self'):
                k = s.i; r = ''
                if s.opt('&'):
                    r = '&'
                    if s.pk().k == 'life': s.nx()
                    if s.opt('mut'): r = '&mut '
                else: s.opt('mut')
                if s.at('self'): s.nx(); ps.append(('self', r + 'Self'))
                else: s.i = k; ps.append((None, s.ty()))
            elif s.pk(1).v == ':':
                x = s.nx().v; s.eat(':'); ps.append((x, s.ty()))
            else: ps.append((None, s.ty()))
            s.opt(',')
        s.eat(')')
        ret = s.ty() if s.opt('->') else '()'
        if s.opt(';'): return ('fn', name, ps, ret, None, ln, ln)
        start = s.i
        b = s.block()
        return ('fn', name, ps, ret, b, ln, s.t[s.i - 1].line)
    def items(s):
        out = []; pend = []
        while s.pk().k != 'eof':
            t = s.pk()
            if t.v == '#': pend.append(s.attr()); continue
            if t.v in ('use', 'extern'):
                while s.nx().v != ';': pass
                pend = []; continue
            k = 1 if t.v == 'pub' else 0
            kw = s.pk(k).v
            if kw == 'mod':
                s.opt('pub'); s.nx(); name = s.nx().v
                if s.opt(';'): out.append(('mod', name, t.line))
                else:
                    assert 'cfg(test)' in pend, pend
                    d = 1; s.eat('{')
                    while d: v = s.nx(); d += (v.v == '{') - (v.v == '}')
                    out.append(('testmod', name, t.line))
            elif kw == 'const':
                s.opt('pub'); s.nx(); name = s.nx().v; s.eat(':'); ty = s.ty(); s.eat('='); e = s.expr(); e2 = s.eat(';')
                out.append(('const', name, ty, e, t.line, e2.line))
            elif kw == 'struct':
                s.opt('pub'); s.nx(); name = s.nx().v
                g = s.generics_b() if s.at('<') else ''
                if s.at('('):
                    s.nx(); tys = []
                    while not s.at(')'): tys.append(s.ty()); s.opt(',')
                    s.eat(')'); s.eat(';'); out.append(('struct', name, tys, t.line, list(pend)))
                else:
                    s.eat('{'); fs = []
                    while not s.at('}'):
                        x = s.nx().v; s.eat(':'); fs.append((x, s.ty())); s.opt(',')
                    s.eat('}'); out.append(('struct', name, fs, t.line, list(pend)))
            elif kw == 'impl':
                s.nx()
                if s.at('<'): s.generics_b()
                a = s.ty(); tr = None
                if s.opt('for'): tr, a = a, s.ty()
                s.eat('{'); fns = []; assoc = []
                while not s.at('}'):
                    if s.at('type'):
                        s.nx(); x = s.nx().v; s.eat('='); assoc.append((x, s.ty())); s.eat(';')
                    else: fns.append(s.fn())
                s.eat('}'); out.append(('impl', tr, a, assoc, fns, t.line))
            elif kw == 'trait':
                s.opt('pub'); s.nx(); name = s.nx().v
                while not s.at('{'): s.nx()
                d = 1; s.eat('{')
                while d: v = s.nx(); d += (v.v == '{') - (v.v == '}')
                out.append(('trait', name, t.line))
            else: raise SyntaxError(f'item? {t!r}')
            pend = []
        return out
    def generics_b(s):
        d = 0
        while True:
            t = s.nx(); d += (t.v == '<') - (t.v == '>')
            if d == 0: return ''

def parse(path):
    return P(lex(open(path).read())).items()

if __name__ == '__main__':
    for f in sys.argv[1:]:
        for it in parse(f):
            if it[0] == 'impl':
                print(f, 'impl', it[1], 'for', it[2], [(x[1], x[5], x[6]) for x in it[4]])
            else: print(f, it[:2])
