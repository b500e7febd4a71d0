#!/usr/bin/env python3
"""Generate Pocklington certificates as Coq lemmas. usage: primecert.py name N [known factors...]"""
import sys, random
from math import gcd, isqrt
sys.setrecursionlimit(10000)
def is_prime(n):
    if n < 2: return False
    for p in (2,3,5,7,11,13,17,19,23,29,31,37):
        if n % p == 0: return n == p
    d, s = n-1, 0
    while d % 2 == 0: d //= 2; s += 1
    for a in (2,3,5,7,11,13,17,19,23,29,31,37):
        x = pow(a, d, n)
        if x in (1, n-1): continue
        for _ in range(s-1):
            x = x*x % n
            if x == n-1: break
        else: return False
    return True
def rho(n):
    if n % 2 == 0: return 2
    while True:
        c = random.randrange(1, n); x = y = random.randrange(n); d = 1; q = 1; m = 256
        while d == 1:
            xs, ys = x, y
            for _ in range(m):
                x = (x*x + c) % n; y = (y*y + c) % n; y = (y*y + c) % n
                q = q*abs(x-y) % n
            d = gcd(q, n)
        if d == n:
            d = 1; x, y = xs, ys
            while d == 1:
                x = (x*x + c) % n; y = (y*y + c) % n; y = (y*y + c) % n
                d = gcd(abs(x-y), n)
        if d != n: return d
def factor(n, known=()):
    fs = []
    for k in list(known) + list(range(2, 2000)):
        while n % k == 0: fs += factor(k) if not is_prime(k) else [k]; n //= k
    st = [n]
    while st:
        m = st.pop()
        if m == 1: continue
        if is_prime(m): fs.append(m); continue
        d = rho(m); st += [d, m//d]
    return fs
done = {}
out = []
def cert(n, known=(), name=None):
    if n in done: return done[n]
    nm = name or "prime_%d" % n if n < 10**12 else (name or "prime_c%d" % len(done))
    if n < 100000:
        out.append("Lemma %s : prime %d.\nProof. apply trial_ok. vm_compute. reflexivity. Qed." % (nm, n)); done[n] = nm; return nm
    # partial factorisation: stop when the product of found primes exceeds sqrt n
    fs = []; m = n-1; F = 1; cof = m
    cand = sorted(set(factor(m, known)), reverse=True)
    use = []
    for f in cand:
        if (F+1)**2 > n: break
        use.append(f); F *= f
    assert (F+1)**2 > n
    pairs = []
    for f in use:
        a = 2
        while not (pow(a, n-1, n) == 1 and gcd(pow(a, (n-1)//f, n)-1, n) == 1): a += 1
        pairs.append((f, a))
    subs = [cert(f, known) for f, _ in pairs]
    nm = name or "prime_c%d" % len(done)
    done[n] = nm
    def hints(a, e):
        x = a; hs = []
        for c in bin(e)[3:]:
            t = x*x*(a if c == "1" else 1); hs.append(t//n); x = t % n
        return x, hs
    def sh(hs): return "[" + "; ".join(hex(v) for v in hs) + "]"
    def pr(f, a):
        c, h1 = hints(a, n-1); b, h2 = hints(a, (n-1)//f); assert c == 1
        return "(%d, (%d, %s, %s))" % (f, a, sh(h1), sh(h2))
    l = ";\n    ".join(pr(*x) for x in pairs)
    fl = "Forall_nil _"
    for s, (f, a) in reversed(list(zip(subs, pairs))): fl = "Forall_cons _ %s (%s)" % (s, fl)
    out.append("Lemma %s : prime %d.\nProof.\n  apply (pocklington _ [%s]).\n  - exact (%s).\n  - vm_compute. reflexivity.\n  - vm_compute. reflexivity.\nQed." % (nm, n, l, fl))
    return nm
if __name__ == "__main__":
    cert(int(sys.argv[2], 0), [int(x, 0) for x in sys.argv[3:]], sys.argv[1])
    print("\n".join(out))
