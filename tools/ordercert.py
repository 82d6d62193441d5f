"""Write rocq/theories/Orders.v: primality certificates for the ten group orders.

The factorisations of n - 1 and n + 1 in tools/orders.json were found by trial
division and the elliptic curve method; nothing is trusted, every certificate
is evaluated by the checkers proved correct in Primality.v and Fast.v."""
import json, math, itertools, os, random
HERE = os.path.dirname(os.path.abspath(__file__))
FACT = {int(k): {s: {int(q): e for q, e in f.items()} for s, f in v.items()} for k, v in json.load(open(os.path.join(HERE, 'orders.json'))).items()}
ORDERS = [
    ('E222', '2 ^ 220 - 181532584069648727485883454223169'),
    ('Curve1174', '2 ^ 249 - 11332719920821432534773113288178349711'),
    ('E382', '2 ^ 380 - 1030303207694556153926491950732314247062623204330168346855'),
    ('Curve41417', '2 ^ 411 - 33364140863755142520810177694098385178984727200411208589594759'),
    ('E521', '2 ^ 519 - 337554763258501705789107630418782636071904961214051226618635150085779108655765'),
    ('M221', '2 ^ 218 + 438651314700378199859927091142747'),
    ('Curve25519', '2 ^ 252 + 27742317777372353535851937790883648493'),
    ('M383', '2 ^ 380 + 166236275931373516105219794935542153308039234455761613271'),
    ('Curve383187', '2 ^ 380 + 356080847217269887368687156533236720299699248977882517025'),
    ('M511', '2 ^ 508 + 10724754759635747624044531514068121842070756627434833028965540808827675062043'),
]
random.seed(1)


def isp(n):
    if n < 2: return False
    for q in (2, 3, 5, 7, 11, 13, 17, 19, 23, 29, 31, 37):
        if n % q == 0: return n == q
    d, s = n - 1, 0
    while d % 2 == 0: d //= 2; s += 1
    for _ in range(20):
        a = random.randrange(2, n - 1); x = pow(a, d, n)
        if x in (1, n - 1): continue
        for _ in range(s - 1):
            x = x * x % n
            if x == n - 1: break
        else: return False
    return True


def rho(n):
    while True:
        c = random.randrange(1, n); x = y = random.randrange(n); d = 1
        while d == 1:
            x = (x * x + c) % n; y = (y * y + c) % n; y = (y * y + c) % n
            d = math.gcd(x - y, n)
        if d != n: return d


def factor(m):
    fs = {}
    for q in range(2, 2000):
        while m % q == 0: fs[q] = fs.get(q, 0) + 1; m //= q
    st = [m] if m > 1 else []
    while st:
        k = st.pop()
        if isp(k): fs[k] = fs.get(k, 0) + 1
        else:
            d = rho(k); st += [d, k // d]
    return fs


def known(n, s):
    """known prime factors of n + s, with multiplicity"""
    key = '-1' if s < 0 else '+1'
    if n not in FACT and n < 2**80: FACT[n] = {'-1': factor(n - 1), '+1': factor(n + 1)}
    return FACT.get(n, {}).get(key, {})


memo = {}


def best(n):
    """(cost, certificate): ('trial',) | ('pock', leaves) | ('plus', q) | ('plus2', q, q')"""
    if n < 1100 * 1100: return (2e6, ('trial',))
    if n in memo: return memo[n]
    memo[n] = (float('inf'), None)
    b = n.bit_length(); res = (float('inf'), None)
    fs = known(n, -1)
    cand = sorted(fs, reverse=True)[:9]
    for k in range(1, len(cand) + 1):
        for S in itertools.combinations(cand, k):
            F = 1
            for q in S: F *= q**fs[q]
            if F * F <= n: continue
            c = b**3 * (2 + len(S)) + sum(best(q)[0] for q in S)
            if c < res[0]: res = (c, ('pock', [(q, fs[q]) for q in S]))
    fs = known(n, 1)
    for q in fs:
        if (q - 1)**2 > n:
            c = 6 * b**3 + best(q)[0]
            if c < res[0]: res = (c, ('plus', q))
    for q, r in itertools.combinations(sorted(fs), 2):
        if q > 2 and (q * r - 1)**2 > n:
            c = 12 * b**3 + best(q)[0] + best(r)[0]
            if c < res[0]: res = (c, ('plus2', q, r))
    memo[n] = res
    return res


def build(leaves):  # Huffman on bit sizes
    import heapq
    h = [(math.log2(q**e), i, ('L', q, e)) for i, (q, e) in enumerate(leaves)]
    heapq.heapify(h); c = len(h)
    while len(h) > 1:
        a = heapq.heappop(h); b = heapq.heappop(h); heapq.heappush(h, (a[0] + b[0], c, ('N', a[2], b[2]))); c += 1
    return h[0][2]


def val(t): return t[1]**t[2] if t[0] == 'L' else val(t[1]) * val(t[2])
def leaves(t): return [(t[1], t[2])] if t[0] == 'L' else leaves(t[1]) + leaves(t[2])
def show(t): return 'Leaf %d %d' % (t[1], t[2]) if t[0] == 'L' else 'Node (%s) (%s)' % (show(t[1]), show(t[2]))


def quad(n, dd):
    def mul(a, b): return ((a[0] * b[0] + dd * a[1] * b[1]) % n, (a[0] * b[1] + a[1] * b[0]) % n)
    def power(a, e):
        r = (1, 0)
        for bit in bin(e)[2:]:
            r = mul(r, r)
            if bit == '1': r = mul(r, a)
        return r
    return power


def element(n, qs):
    """dd and, for each q, a with a^(n+1) rational and a^((n+1)/q) not, mod n"""
    dds = [d for d in (-1, 2, 3, 5, 6, 7, 11, 13, 17, 19, 23, 29, 31, 37) if pow(d % n, (n - 1) // 2, n) == n - 1]
    dd = dds[0]; power = quad(n, dd); out = []
    for q in qs:
        for x in range(1, 200):
            a = (x, 1)
            if math.gcd(x * x - dd, n) == 1 and power(a, n + 1)[1] == 0 and math.gcd(power(a, (n + 1) // q)[1], n) == 1: break
        else: raise Exception
        out.append(a)
    return dd, out


out = []
done = set()


def emit(n, name=None, text=None):
    nm = name or '%d' % n; ns = '(%s)' % text if text else '%d' % n
    if nm in done: return
    done.add(nm)
    c, w = best(n)
    assert w, n
    k = (n.bit_length() + 62) // 63
    head = 'Lemma order_%s : prime %s.\nProof.' % (nm, ns)
    if w[0] == 'trial':
        out.append(head + ' apply trial_ok. vm_cast_no_check (eq_refl true). Qed.'); return
    if w[0] == 'pock':
        t = build(w[1]); L = leaves(t); m = (n - 1) // val(t)
        for q, e in L: emit(q)
        a = 2
        while not (pow(a, n - 1, n) == 1 and all(math.gcd(pow(a, (n - 1) // q, n) - 1, n) == 1 for q, e in L)): a += 1
        prs = ''.join('apply Forall_cons; [exact order_%d|]. ' % q for q, e in L)
        out.append(head + '\n  apply (fpock_ok %d %s %d %d (%s)); [vm_cast_no_check (eq_refl true)|].\n  cbn [flist app map fst]. %sapply Forall_nil.\nQed.' % (k, ns, a, m, show(t), prs))
    elif w[0] == 'plus':
        q = w[1]; emit(q); dd, (a,) = element(n, [q])
        out.append(head + '\n  apply (fplus_ok %d (%d) %s (%d, %d) %d %d); [vm_cast_no_check (eq_refl true)|exact order_%d].\nQed.' % (k, dd, ns, a[0], a[1], q, (n + 1) // q, q))
    else:
        q, r = w[1], w[2]; emit(q); emit(r); dd, (a, b) = element(n, [q, r])
        t = (1 + q * (-2 * pow(q, -1, r) % r)) % (q * r)
        assert t % q == 1 and t % r == r - 1 and n % t and n % (q * r - t)
        out.append(head + '\n  apply (fplus2_ok %d (%d) %s (%d, %d) (%d, %d) %d %d %d %d %d); [vm_cast_no_check (eq_refl true)|exact order_%d|exact order_%d].\nQed.' % (k, dd, ns, a[0], a[1], b[0], b[1], q, r, (n + 1) // q, (n + 1) // r, t, q, r))


for name, text in ORDERS: emit(eval(text.replace('^', '**')), name, text)
hdr = '''(** Generated by tools/ordercert.py: primality certificates for the ten group
    orders the library publishes and the primes they rest on.  Each is
    evaluated by a checker that Primality.v and Fast.v prove correct. *)
From Coq Require Import ZArith Znumtheory List.
From Verif Require Import NumTheory Primality Fast.
Import ListNotations.
Local Open Scope Z_scope.

'''
open(os.path.join(HERE, '..', 'rocq', 'theories', 'Orders.v'), 'w').write(hdr + '\n'.join(out) + '\n')
print(len(out), 'certificates')
