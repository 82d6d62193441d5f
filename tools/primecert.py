"""Write rocq/theories/Primes.v: primality certificates for the nine moduli.

The factorisations in tools/factors.json were found by trial division and the
elliptic curve method; nothing is trusted, every certificate is evaluated by
the checkers proved correct in Primality.v."""
import json, math, itertools, os, random
HERE = os.path.dirname(os.path.abspath(__file__))
FACT = {int(k): {int(q): e for q, e in v.items()} for k, v in json.load(open(os.path.join(HERE, 'factors.json'))).items()}
PQ382 = 73772877462174271275190544236719752617642791980199852706432606976654958697962983688247
MODS = [(221, 3), (222, 117), (251, 9), (255, 19), (382, 105), (383, 187), (414, 17), (511, 187), (521, 1)]
SPECIAL = {2**b - c: (b, c) for b, c in MODS}


def isp(n):
    if n < 2: return False
    for q in (2, 3, 5, 7, 11, 13, 17, 19, 23, 29, 31, 37):
        if n % q == 0: return n == q
    d, s = n - 1, 0
    while d % 2 == 0: d //= 2; s += 1
    for _ in range(20):
        a = random.randrange(2, n - 1); x = pow(a, d, n)
        if x in (1, n - 1): continue
        for _ in range(s - 1):
            x = x * x % n
            if x == n - 1: break
        else: return False
    return True


def rho(n):
    while True:
        c = random.randrange(1, n); x = y = random.randrange(n); d = 1
        while d == 1:
            x = (x * x + c) % n; y = (y * y + c) % n; y = (y * y + c) % n
            d = math.gcd(x - y, n)
        if d != n: return d


def factor(m):
    fs = {}
    for q in range(2, 2000):
        while m % q == 0: fs[q] = fs.get(q, 0) + 1; m //= q
    st = [m] if m > 1 else []
    while st:
        k = st.pop()
        if isp(k): fs[k] = fs.get(k, 0) + 1
        else:
            d = rho(k); st += [d, k // d]
    return fs


def factors(n):
    if n not in FACT: FACT[n] = factor(n - 1)
    fs = FACT[n]
    m = n - 1
    for q, e in fs.items():
        assert m % q**e == 0; m //= q**e
    return fs


class Tree: pass


def build(leaves):  # Huffman on bit sizes
    import heapq
    h = [(math.log2(q**e), i, ('L', q, e)) for i, (q, e) in enumerate(leaves)]
    heapq.heapify(h); c = len(h)
    while len(h) > 1:
        a = heapq.heappop(h); b = heapq.heappop(h); heapq.heappush(h, (a[0] + b[0], c, ('N', a[2], b[2]))); c += 1
    return h[0][2]


def val(t): return t[1]**t[2] if t[0] == 'L' else val(t[1]) * val(t[2])


def tcost(t):  # exponent bits with a large base
    if t[0] == 'L': return math.log2(t[1]**(t[2] - 1)) if t[2] > 1 else 0
    return math.log2(val(t[2])) + math.log2(val(t[1])) + tcost(t[1]) + tcost(t[2])


memo = {}


def cost(n):
    """(cost, chosen tree) of a certificate for n, in units of bit^3"""
    if n < 1100 * 1100: return (30000, None)
    if n in memo: return memo[n]
    fs = factors(n); b = n.bit_length()
    per = b * b * (1 if n in SPECIAL else 5)
    best = None
    cand = sorted(fs, reverse=True)[:11]
    for k in range(1, len(cand) + 1):
        for S in itertools.combinations(cand, k):
            F = 1
            for q in S: F *= q**fs[q]
            if F * F <= n: continue
            t = build([(q, fs[q]) for q in S])
            c = per * (b + math.log2((n - 1) // F or 1) + 2 * tcost(t))
            if best is not None and c >= best[0]: continue
            c += sum(cost(q)[0] for q in S)
            if best is None or c < best[0]: best = (c, t)
    memo[n] = best
    return best


def leaves(t): return [(t[1], t[2])] if t[0] == 'L' else leaves(t[1]) + leaves(t[2])
def show(t): return 'Leaf %d %d' % (t[1], t[2]) if t[0] == 'L' else 'Node (%s) (%s)' % (show(t[1]), show(t[2]))


out = []
done = set()
total = [0.0]


def red(n):
    if n in SPECIAL:
        b, c = SPECIAL[n]
        return '(foldred %d %d)' % (b, c), 'foldred_ok %d %d' % (b, c)
    b = n.bit_length()
    i, j = b - 4, b + 12
    return '(barrett %d %d %d %d)' % (n, i, j, 2**(i + j) // n), 'barrett_ok _ _ _ _'


def emit(n, name=None):
    if n in done: return
    done.add(n)
    if n < 1100 * 1100:
        out.append('Lemma prime_%d : prime %d.\nProof. apply trial_ok. vm_cast_no_check (eq_refl true). Qed.' % (n, n)); return
    if n == 2**521 - 1:
        # norm-1 element x0 + i y0 whose doubling chain reaches -1 after 520 steps
        for x0 in range(2, 200):
            y2 = (1 - x0 * x0) % n
            if pow(y2, (n - 1) // 2, n) != 1: continue
            y0 = pow(y2, (n + 1) // 4, n); x = x0
            for _ in range(520): x = (2 * x * x - 1) % n
            if x == n - 1: break
        else: raise Exception
        total[0] += 521**3
        out.append('Lemma prime_521_1 : prime (2 ^ Z.of_nat 521 - 1).\nProof. apply (ll_ok 521 %d %d). vm_cast_no_check (eq_refl true). Qed.' % (x0, y0)); return
    if n == 2**382 - 105:
        q = PQ382; k = (n + 1) // q; emit(q)
        def gp(a, e):
            r = (1, 0)
            for bit in bin(e)[2:]:
                r = ((r[0] * r[0] - r[1] * r[1]) % n, 2 * r[0] * r[1] % n)
                if bit == '1': r = ((r[0] * a[0] - r[1] * a[1]) % n, (r[0] * a[1] + r[1] * a[0]) % n)
            return r
        for a in [(2, 1), (3, 1), (3, 2), (4, 1), (1, 2)]:
            if gp(a, n + 1)[1] == 0 and math.gcd(gp(a, k)[1], n) == 1: break
        else: raise Exception
        total[0] += 3 * 382**2 * (382 + 97)
        r, rok = red(n)
        out.append('Lemma prime_382_105 : prime (2 ^ Z.of_nat 382 - 105).\nProof. apply (plus_ok (-1) (foldred 382 105) (2 ^ Z.of_nat 382 - 105) (%d, %d) %d %d); [apply foldred_ok|vm_cast_no_check (eq_refl true)|exact prime_%d]. Qed.' % (a[0], a[1], q, k, q)); return
    c, t = cost(n)
    L = leaves(t)
    for q, e in L: emit(q)
    F = val(t); m = (n - 1) // F
    a = 2
    while not (pow(a, n - 1, n) == 1 and all(math.gcd(pow(a, (n - 1) // q, n) - 1, n) == 1 for q, e in L)): a += 1
    r, rok = red(n)
    total[0] += c - sum(cost(q)[0] for q, e in L)
    if n in SPECIAL:
        b, cc = SPECIAL[n]; ns = '(2 ^ Z.of_nat %d - %d)' % (b, cc); nm = '%d_%d' % (b, cc)
    else: ns = nm = '%d' % n
    prs = ''.join('apply Forall_cons; [exact prime_%d|]. ' % q for q, e in L)
    out.append('Lemma prime_%s : prime %s.\nProof.\n  apply (pock_ok %s %s %d %d (%s)); [apply (%s)|vm_cast_no_check (eq_refl true)|].\n  cbn [flist app map fst]. %sapply Forall_nil.\nQed.' % (nm, ns, r, ns, a, m, show(t), rok, prs))
    print(n.bit_length(), [x[0].bit_length() for x in L], 'units', round((c - sum(cost(q)[0] for q, e in L)) / 521**3, 3))


for b, c in MODS: emit(2**b - c)
print('total units', total[0] / 521**3)
hdr = '''(** Generated by tools/primecert.py: primality certificates for the nine moduli
    and the primes they rest on.  Each is evaluated by a checker that
    Primality.v proves correct. *)
From Coq Require Import ZArith Znumtheory List.
From Verif Require Import NumTheory Primality.
Import ListNotations.
Local Open Scope Z_scope.

'''
open(os.path.join(HERE, '..', 'rocq', 'theories', 'Primes.v'), 'w').write(hdr + '\n'.join(out) + '\n')
