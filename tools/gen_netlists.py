#!/usr/bin/env python3
"""Writes the netlists of /repo as Coq data (rocq/theories/Net_*.v) and the certificates about them (Cert_*.v).

  gen_netlists.py            write the files
  gen_netlists.py --check    parse the Coq data back, render it as Netlist.nl_text does, and compare with the bytes of the files in /repo
"""
import os, re, sys
sys.dont_write_bytecode = True
from aes_cert import cert_aes
sys.setrecursionlimit(100000)
REPO = os.environ.get('REPO', '/repo')
OUT = os.path.join(os.path.dirname(os.path.abspath(__file__)), '..', 'rocq', 'theories')
FILES = {
    'adder64': 'src/circuits/arithmetic/adder64.txt',
    'sub64': 'src/circuits/arithmetic/sub64.txt',
    'neg64': 'src/circuits/arithmetic/neg64.txt',
    'mult2_64': 'src/circuits/arithmetic/mult2_64.txt',
    'udivide64': 'src/circuits/arithmetic/udivide64.txt',
    'divide64': 'src/circuits/arithmetic/divide64.txt',
    'aes128': 'src/circuits/cryptography/AES-non-expanded.txt',
}
CON = {'XOR': 'CX', 'AND': 'CA', 'INV': 'CI', 'EQW': 'CW'}
CHUNK = 400

class Net:
    def __init__(self, name):
        self.name = name
        text = open(os.path.join(REPO, FILES[name]), newline='').read()
        assert '\r' not in text
        ls = text.split('\n')
        self.hdr = ls[:4]
        rest = ls[4:]
        if rest[-1] != '':
            self.end = 'NoLF'
        else:
            rest.pop()
            n = 0
            while rest[-1] == '':
                rest.pop(); n += 1
            self.end = 'Blank %d' % n
        self.ng, self.nw = [int(x) for x in ls[0].split()[:2]]
        t = [int(x) for x in ls[1].split()]; self.ins = t[1:1 + t[0]]
        t = [int(x) for x in ls[2].split()]; self.outs = t[1:1 + t[0]]
        self.gates = []
        for l in rest:
            t = l.split(); n = int(t[0])
            assert t[1] == '1' and len(t) == n + 4
            g = (t[-1], [int(x) for x in t[2:2 + n]], int(t[2 + n]))
            assert l == '%d 1 %s %d %s' % (n, ' '.join(map(str, g[1])), g[2], g[0])
            self.gates.append(g)
        self.d = {o: (k, i) for k, i, o in self.gates}
        self.nin = sum(self.ins); self.nout = sum(self.outs)
    def cone(self, leaves, targets):
        """the gates between, operands first"""
        order = []; seen = set(leaves)
        def go(w):
            if w in seen: return
            seen.add(w)
            assert w in self.d, ('not reached', w)
            for x in self.d[w][1]: go(x)
            order.append(w)
        for t in targets: go(t)
        return order

def q(s): return '"' + s.replace('"', '""') + '"'
def nlist(xs): return '[' + '; '.join(map(str, xs)) + ']'

def data(net):
    n = net.name
    o = ['(** Generated by /verif/tools/gen_netlists.py from /repo/%s. *)' % FILES[n],
         'From Verif Require Import Netlist.', 'Open Scope N_scope.', 'Open Scope list_scope.', '']
    chunks = []
    for k in range(0, len(net.gates), CHUNK):
        c = '%s_%d' % (n, k // CHUNK); chunks.append(c)
        part = net.gates[k:k + CHUNK]
        o.append('(** Lines %d-%d of the file. *)' % (5 + k, 4 + k + len(part)))
        o.append('Definition %s : list cg := [' % c)
        row = ['%s %s %d' % (CON[g], ' '.join(map(str, i)), w) for g, i, w in part]
        for j in range(0, len(row), 8):
            o.append('  ' + '; '.join(row[j:j + 8]) + (';' if j + 8 < len(row) else '].'))
    o.append('(** /repo/%s; lines 1-4 are the header. *)' % FILES[n])
    o.append('Definition %s_gates : list cg := concat [%s].' % (n, '; '.join(chunks)))
    o.append('Definition %s : netlist := NL (%s) (%d, %d, %s, %s) %s_gates (%s).' % (
        n, ', '.join(q(x) + '%string' for x in net.hdr), net.ng, net.nw, nlist(net.ins), nlist(net.outs), n, net.end))
    return '\n'.join(o) + '\n'

def check(name):
    s = open(os.path.join(OUT, 'Net_%s.v' % name)).read()
    chunks = dict(re.findall(r'Definition (\w+) : list cg := \[\n(.*?)\]\.', s, re.S))
    names = re.search(r'_gates : list cg := concat \[(.*?)\]', s).group(1).split('; ')
    kind = {v: k for k, v in CON.items()}
    gl = []
    for c in names:
        for g in chunks[c].replace('\n', ' ').split(';'):
            t = g.split()
            gl.append('%d 1 %s %s' % (len(t) - 2, ' '.join(t[1:]), kind[t[0]]))
    m = re.search(r': netlist := NL \((.*?)\) \((\d+), (\d+), \[(.*?)\], \[(.*?)\]\) \w+ \((NoLF|Blank (\d+))\)\.', s, re.S)
    hdr = re.findall(r'"(.*?)"%string', m.group(1))
    ls = hdr + gl
    text = '\n'.join(ls) if m.group(6) == 'NoLF' else '\n'.join(ls + [''] * int(m.group(7))) + '\n'
    ok = text.encode() == open(os.path.join(REPO, FILES[name]), 'rb').read()
    print(name, len(gl), 'gates', 'identical' if ok else 'DIFFERENT')
    return ok

def cert_head(n): return ['(** Generated by /verif/tools/gen_netlists.py: a certificate for the netlist %s, checked in Coq. *)' % n,
    'From Verif Require Import Cuts.', 'Open Scope N_scope.', 'Open Scope list_scope.', '']
def z(c): return '%d' % c if c >= 0 else '-%d' % -c
def terms(ts): return '[' + '; '.join('(%s%%Z, %d)' % ('(%s)' % z(c) if c < 0 else z(c), w) for c, w in ts) + ']'
def lin(leaves, order, const, ts, mod, weight):
    return 'Lin %s %s %s%%Z %s %s%%Z %s%%Z' % (nlist(leaves), nlist(order), '(%s)' % z(const) if const < 0 else z(const), terms(ts), z(mod), z(weight))
def write_facts(name, facts):
    o = cert_head(name); chunks = []
    for k in range(0, len(facts), 100):
        chunks.append('%s_facts_%d' % (name, k // 100))
        o.append('Definition %s : list lin_fact := [' % chunks[-1])
        o.append(';\n'.join('  ' + lin(*f) for f in facts[k:k + 100]) + '].')
    o.append('Definition %s_facts : list lin_fact := concat [%s].' % (name, '; '.join(chunks)))
    return '\n'.join(o) + '\n'

def cert_adder(net):
    fs = []; o0 = net.nw - net.nout; c = None
    for i in range(64):
        leaves = [i, 64 + i] + ([c] if c is not None else [])
        s = o0 + i
        nxt = None
        if i < 63:  # the sum above is XOR (XOR a b) carry
            s2 = net.d[s + 1][1]; nxt = [x for x in s2 if set(net.d[x][1]) != {i + 1, 65 + i}][0]
        ts = [(1, w) for w in leaves] + [(-1, s)] + ([(-2, nxt)] if nxt is not None else [])
        fs.append((leaves, net.cone(leaves, [s] + ([nxt] if nxt is not None else [])), 0, ts, 2 ** (64 - i), 2 ** i)); c = nxt
    return fs
def cert_sub(net):
    fs = []; o0 = net.nw - net.nout; c = None
    for i in range(64):
        leaves = [i, 64 + i] + ([c] if c is not None else [])
        s = o0 + i; nxt = None
        if i < 63:
            s2 = net.d[s + 1][1]; nxt = [x for x in s2 if set(net.d[x][1]) != {i + 1, 65 + i}][0]
        ts = [(1, i), (-1, 64 + i)] + ([(-1, c)] if c is not None else []) + [(-1, s)] + ([(2, nxt)] if nxt is not None else [])
        fs.append((leaves, net.cone(leaves, [s] + ([nxt] if nxt is not None else [])), 0, ts, 2 ** (64 - i), 2 ** i)); c = nxt
    return fs
def cert_neg(net):
    # carries of (not a) + 1: the carry into bit 1 is the inverse of bit 0
    fs = []; o0 = net.nw - net.nout; c = None
    for i in range(64):
        leaves = [i] + ([c] if c is not None else [])
        s = o0 + i; nxt = None
        if i < 63:
            inv = [o for o, (k, x) in net.d.items() if k == 'INV' and x == [i]]
            if i == 0: nxt = inv[0]
            else: nxt = [o for o, (k, x) in net.d.items() if k == 'AND' and set(x) == {inv[0], c}][0]
        ts = [(-1, i)] + ([(1, c)] if c is not None else []) + [(-1, s)] + ([(-2, nxt)] if nxt is not None else [])
        fs.append((leaves, net.cone(leaves, [s] + ([nxt] if nxt is not None else [])), 2 if i == 0 else 1, ts, 2 ** (64 - i), 2 ** i)); c = nxt
    return fs

def cert_mult(net):
    """full and half adders, found from their AND gates; the partial products are the ANDs of inputs"""
    d = net.d; M = 128; o0 = net.nw - 128
    pp = [[None] * 64 for _ in range(64)]; xors = {}; weight = {}
    for o, (k, i) in d.items():
        if k == 'XOR': xors.setdefault(frozenset(i), []).append(o)
        if k == 'AND' and max(i) < 128:
            assert i[0] >= 64 > i[1]
            pp[i[0] - 64][i[1]] = o; weight[o] = i[0] - 64 + i[1]
    fs = []
    for g, (k, i) in [(o, d[o]) for _, _, o in net.gates]:
        if k != 'AND' or max(i) < 128: continue
        p, r = i; leaves = None
        if d[p][0] == 'XOR' and d[r][0] == 'XOR':
            common = set(d[p][1]) & set(d[r][1])
            if len(common) == 1:
                c = common.pop(); x = (set(d[p][1]) - {c}).pop(); y = (set(d[r][1]) - {c}).pop()
                nxt = xors.get(frozenset([g, c]), [])
                s = [w for t in xors.get(frozenset([x, y]), []) for w in xors.get(frozenset([t, c]), [])]
                if nxt: leaves = [x, y, c]; nxt, = nxt; s, = s
        if leaves is None:
            leaves = [p, r]; nxt = g; s, = xors[frozenset(leaves)]
        fs.append((leaves, s, nxt))
    out = []
    while fs:
        rest = []
        for leaves, s, nxt in fs:
            if not all(x in weight for x in leaves): rest.append((leaves, s, nxt)); continue
            w = weight[leaves[0]]; assert all(weight[x] == w for x in leaves)
            weight[s] = w; weight[nxt] = w + 1
            out.append((leaves, net.cone(leaves, [s, nxt]), 0, [(1, x) for x in leaves] + [(-1, s), (-2, nxt)], 2 ** (M - w), 2 ** w))
        assert len(rest) < len(fs); fs = rest
    for k in range(64): assert weight[o0 + k] == 64 + k and weight[o0 + 64 + k] == k
    t = write_facts(net.name, out)
    return t + 'Definition mult2_64_pp : list (list N) := [\n' + ';\n'.join('  ' + nlist(r) for r in pp) + '].\n'

class Sim:
    """bit-parallel simulation, to find the wires of the intermediate values"""
    def __init__(self, net, vecs):
        self.net = net; self.vecs = vecs; K = len(vecs); self.full = (1 << K) - 1
        val = {}
        for i in range(64):
            val[i] = self.sig([(a >> i) & 1 for a, b in vecs]); val[64 + i] = self.sig([(b >> i) & 1 for a, b in vecs])
        for k, i, o in net.gates:
            if k == 'XOR': val[o] = val[i[0]] ^ val[i[1]]
            elif k == 'AND': val[o] = val[i[0]] & val[i[1]]
            else: val[o] = val[i[0]] ^ self.full
        self.val = val; self.by = {}
        for w in sorted(val): self.by.setdefault(val[w], []).append(w)
    def sig(self, bits):
        s = 0
        for j, x in enumerate(bits): s |= x << j
        return s
    def near(self, leaves, s, limit=10, last=False):
        """a wire with signature s just above the leaves, or None"""
        for w in (reversed if last else list)(self.by.get(s, [])):
            if w in leaves: continue
            try: order = self.net.cone(leaves, [w])
            except AssertionError: continue
            if len(order) <= limit: return w
        return next((w for w in leaves if self.val[w] == s), None)
def maj(a, b, c): return (a & b) | (a & c) | (b & c)
def vectors():
    import random
    rnd = random.Random(5); M = 1 << 64; vs = []
    def r(special):
        if rnd.random() < .1: return rnd.choice(special)
        x = rnd.getrandbits(64)
        if rnd.random() < .6: x >>= rnd.randrange(64)
        if rnd.random() < .3: x = -x % M
        return x
    for _ in range(2048): vs.append((r([1 << 63, M - 1]), r([0, 1, 1 << 63])))
    return vs
def lit(l): return 'LC false' if l is False else 'LC true' if l is True else 'LW %d' % l
def olit(l): return 'None' if l is None else 'Some (%s)' % lit(l)
def cut(c): return '(%s, %s)' % (nlist(c[0]), nlist(c[1]))
def cells_text(cells): return '[' + ';\n    '.join('Cell %s (%s) (%s)' % (cut(c), olit(t), olit(k)) for c, t, k in cells) + ']'
def wires(ls): return [x for x in dict.fromkeys(ls) if x is not None and x is not True and x is not False]
def row(net, sim, q, c, rs, ds, want_t, want_last):
    """the cells of a row: sums and carries found near r, d, c, q"""
    cells = []; v = lambda l: sim.full if l is True else 0 if l is False else sim.val[l]
    for i, (r, d) in enumerate(zip(rs, ds)):
        leaves = wires([r, d, c, q]); lastc = i == len(rs) - 1
        t = sim.near(leaves, v(r) ^ v(d) ^ v(c)) if want_t or lastc else None
        assert t is not None or not (want_t or lastc), ('no sum', i)
        k = None
        if not lastc or want_last:
            s = maj(v(r) ^ v(q), v(d), v(c)); k = sim.near(leaves, s)
            assert k is not None, ('no carry', i)
        cells.append(((leaves, net.cone(leaves, wires([t, k]))), t, k)); c = k
    return cells
def cert_udivide(net):
    sim = Sim(net, vectors()); d = net.d; o = cert_head(net.name); o[1] = 'From Verif Require Import Rows.'
    zero = d[net.nw - 64][1][0]; assert d[zero][1] == [0, 0]
    hs = {}; hs[64] = None
    for k in range(63, 0, -1):   # divisor bits k..63
        if k == 63: hs[k] = (127, [127], [])
        else:
            leaves = [64 + k, hs[k + 1][0]]; h = sim.near(leaves, sim.val[leaves[0]] | sim.val[leaves[1]]); assert h is not None
            hs[k] = (h, leaves, net.cone(leaves, [h]))
    ns = []; names = []
    for s in range(64):
        rs = [63 - s] + ns; ds = [64 + i for i in range(s + 1)]
        q = d[net.nw - 1 - s][1][1]; assert d[net.nw - 1 - s] == ('XOR', [zero, q]) and d[q][0] == 'INV'
        lt = d[q][1][0]
        cells = row(net, sim, True, False, rs, ds, True, True)
        b = cells[-1][2]; h = hs[s + 1][0] if s < 63 else False
        lc = wires([b, h]); ltcut = (lc, net.cone(lc, [lt]))
        mux = []; ns2 = []
        for r, (_, t, _) in zip(rs, cells):
            leaves = wires([lt, r, t]); n = sim.near(leaves, (sim.val[lt] & sim.val[r]) | (~sim.val[lt] & sim.full & sim.val[t])); assert n is not None
            mux.append((leaves, net.cone(leaves, [n]))); ns2.append(n)
        ns = ns2; names.append('udivide64_stage_%d' % s)
        o.append('Definition %s : ustage := UStage\n   %s\n   %s %d %d\n   %s\n   [%s].' % (
            names[-1], cells_text(cells), cut(ltcut), lt, q, nlist(ns), '; '.join(cut(c) for c in mux)))
    o.append('Definition udivide64_stages : list ustage := [%s].' % '; '.join(names))
    o.append('Definition udivide64_ors : list (lit * cut) := [%s].' % '; '.join('(LW %d, %s)' % (hs[k][0], cut(hs[k][1:])) for k in range(1, 64)))
    o.append('Definition udivide64_outs : list cut := [%s].' % '; '.join(cut(([0, d[net.nw - 64 + k][1][1]], [zero, net.nw - 64 + k])) for k in range(64)))
    return '\n'.join(o) + '\n'
def neg_facts(net, sim, xs, base=lambda x: x, flip=False):
    """facts that give 2^64 minus the word xs, and the wires of the result; carries may be complemented"""
    fs = []; ys = []; c = None; comp = False; cv = sim.full
    for i, x in enumerate(xs):
        xv = sim.val[x]; leaves = wires([base(x), c])
        y = sim.near(leaves, xv ^ sim.full ^ cv, last=True); assert y is not None, ('no negation', i)
        cin = [(1, None)] if c is None else [(1, None), (-1, c)] if comp else [(1, c)]
        ts = [(1, None), (-1, x), (-1, y)] + cin; k = None; nv = ~xv & sim.full & cv
        if i < 63:
            for comp in [flip, not flip]:
                k = sim.near(leaves, nv ^ sim.full if comp else nv)
                if k is not None: break
            assert k is not None, ('no carry', i)
            ts += [(-2, None), (2, k)] if comp else [(-2, k)]
        const = sum(a for a, w in ts if w is None)
        fs.append((leaves, net.cone(leaves, wires([x, y, k])), const, [(a, w) for a, w in ts if w is not None], 2 ** (64 - i), 2 ** i))
        ys.append(y); c = k; cv = nv
    return fs, ys
def muxes(net, sim, s, xs, ys):
    ns = []; cs = []
    for x, y in zip(xs, ys):
        leaves = wires([s, x, y]); n = sim.near(leaves, (sim.val[s] & sim.val[x]) | (~sim.val[s] & sim.full & sim.val[y])); assert n is not None
        ns.append(n); cs.append((leaves, net.cone(leaves, [n])))
    return ns, cs
def cert_divide(net):
    sim = Sim(net, vectors()); d = net.d; o = cert_head(net.name); o[1] = 'From Verif Require Import Rows.'
    a = list(range(64)); b = list(range(64, 128)); inv = {x[0]: w for w, (k, x) in d.items() if k == 'INV'}
    facts = lambda nm, fs: o.append('Definition divide64_%s : list lin_fact := [\n  %s].' % (nm, ';\n  '.join(lin(*f) for f in fs)))
    word = lambda nm, ws: o.append('Definition divide64_%s : list N := %s.' % (nm, nlist(ws)))
    cuts = lambda nm, cs: o.append('Definition divide64_%s : list cut := [%s].' % (nm, '; '.join(cut(c) for c in cs)))
    fa, na = neg_facts(net, sim, a); fb, nb = neg_facts(net, sim, b)
    A, ca = muxes(net, sim, 63, na, a); D, cb = muxes(net, sim, 127, nb, b)
    fd, nd = neg_facts(net, sim, D, flip=True)
    facts('neg_a', fa); word('na', na); facts('neg_b', fb); word('nb', nb); word('A', A); cuts('abs_a', ca); word('D', D); cuts('abs_b', cb)
    facts('neg_d', fd); word('nd', nd)
    prev = nd; q = inv[nd[-1]]; qs = []; names = []; o.append('Definition divide64_q : N := %d.' % q)
    for s in range(64):
        cells = row(net, sim, q, False, [A[63 - s]] + prev[:63], D, s < 63, False)
        sign = cells[-1][1]; q = inv[sign]; qs.append(q); prev = [c[1] for c in cells]; names.append('divide64_row_%d' % s)
        o.append('Definition %s : srow := SRow\n   %s\n   %d %d.' % (names[-1], cells_text(cells), sign, q))
    o.append('Definition divide64_rows : list srow := [%s].' % '; '.join(names))
    Q = qs[::-1]; fq, nq = neg_facts(net, sim, Q, base=lambda q: d[q][1][0]); facts('neg_q', fq); word('nq', nq)
    s = [w for w, (k, x) in d.items() if k == 'XOR' and x == [63, 127]][0]
    outs, co = muxes(net, sim, s, nq, Q); assert outs == list(range(net.nw - 64, net.nw))
    o.append('Definition divide64_s : N := %d.' % s); cuts('outs', co)
    return '\n'.join(o) + '\n'

def write(fn, text):
    p = os.path.join(OUT, fn)
    if not (os.path.exists(p) and open(p).read() == text):
        open(p, 'w').write(text); print('wrote', fn)

DONE = ['adder64', 'sub64', 'neg64', 'mult2_64', 'udivide64', 'divide64', 'aes128']
def main():
    if '--check' in sys.argv:
        sys.exit(0 if all([check(n) for n in DONE]) else 1)
    for n in DONE:
        net = Net(n)
        write('Net_%s.v' % n, data(net))
        if n == 'adder64': write('Cert_%s.v' % n, write_facts(n, cert_adder(net)))
        if n == 'sub64': write('Cert_%s.v' % n, write_facts(n, cert_sub(net)))
        if n == 'neg64': write('Cert_%s.v' % n, write_facts(n, cert_neg(net)))
        if n == 'mult2_64': write('Cert_%s.v' % n, cert_mult(net))
        if n == 'udivide64': write('Cert_%s.v' % n, cert_udivide(net))
        if n == 'divide64': write('Cert_%s.v' % n, cert_divide(net))
        if n == 'aes128': write('Cert_%s.v' % n, cert_aes(net, [l.replace('Cuts', 'Sbox') for l in cert_head(n)]))
if __name__ == '__main__': main()
