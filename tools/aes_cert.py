"""Certificate for the AES netlist: wires of the round keys and of the states after SubBytes, and, per S-box, the gates between them.
The wires are found by simulation; everything is checked in Coq (Sbox.v, Prop_Aes.v)."""
import random

def xt(a): return ((a << 1) ^ (0x1b if a & 0x80 else 0)) & 0xff
def mul(a, b):
    r = 0
    while b:
        if b & 1: r ^= a
        a = xt(a); b >>= 1
    return r
def sbox():
    inv = [0] * 256
    for a in range(1, 256):
        for b in range(1, 256):
            if mul(a, b) == 1: inv[a] = b
    rot = lambda b, k: ((b << k) | (b >> (8 - k))) & 0xff
    return [b ^ rot(b, 1) ^ rot(b, 2) ^ rot(b, 3) ^ rot(b, 4) ^ 0x63 for b in inv]
S = sbox()
def trace(p, k):
    """round keys, states before and after SubBytes"""
    w = [list(k[4 * i:4 * i + 4]) for i in range(4)]; rc = 1
    for i in range(4, 44):
        t = list(w[i - 1])
        if i % 4 == 0:
            t = [S[t[1]], S[t[2]], S[t[3]], S[t[0]]]; t[0] ^= rc; rc = xt(rc)
        w.append([a ^ b for a, b in zip(w[i - 4], t)])
    tr = {('K', r): sum(w[4 * r:4 * r + 4], []) for r in range(11)}
    s = [a ^ b for a, b in zip(p, tr['K', 0])]
    for r in range(1, 11):
        tr['X', r] = s; s = [S[x] for x in s]; tr['B', r] = s
        s = [s[(i + 4 * (i % 4)) % 16] for i in range(16)]
        if r < 10:
            s = sum(([mul(2, s[4*c + i]) ^ mul(3, s[4*c + (i+1) % 4]) ^ s[4*c + (i+2) % 4] ^ s[4*c + (i+3) % 4] for i in range(4)] for c in range(4)), [])
        s = [a ^ b for a, b in zip(s, tr['K', r])]
    tr['X', 11] = s
    return tr
assert bytes(trace(bytes.fromhex('3243f6a8885a308d313198a2e0370734'), bytes.fromhex('2b7e151628aed2a6abf7158809cf4f3c'))['X', 11]).hex() == '3925841d02dc09fbdc118597196a0b32'

def cert_aes(net, head):
    d = net.d; rnd = random.Random(3); K = 256; full = (1 << K) - 1
    vec = [(rnd.randbytes(16), rnd.randbytes(16)) for _ in range(K)]
    val = [0] * net.nw
    for j, (p, k) in enumerate(vec):
        for i, x in enumerate(p + k):
            for b in range(8): val[8 * i + b] |= ((x >> (7 - b)) & 1) << j
    for k, i, o in net.gates:
        val[o] = val[i[0]] ^ val[i[1]] if k == 'XOR' else val[i[0]] & val[i[1]] if k == 'AND' else full ^ val[i[0]]
    by = {}
    for w in range(net.nw): by.setdefault(val[w], []).append(w)
    trs = [trace(p, k) for p, k in vec]
    sig = {(nm, r, i, b): sum(((t[nm, r][i] >> (7 - b)) & 1) << j for j, t in enumerate(trs)) for nm, r in trs[0] for i in range(16) for b in range(8)}
    def wires(key): return [(w, False) for w in by.get(sig[key], [])] + [(w, True) for w in by.get(sig[key] ^ full, [])]
    used = set()
    def leafmap(keys): return {w: k for k in keys for w, _ in wires(k)}
    def down(stop, leaves, targets):
        """the gates above the wires for which stop holds and the leaves, operands first"""
        order = []; seen = set(); ent = []
        def go(w):
            if w in seen: return
            seen.add(w)
            if stop(w): ent.append(w); return
            if w in leaves: used.add(w); return
            assert w in d, ('not reached', w)
            for x in d[w][1]: go(x)
            order.append(w)
        for t in targets: go(t)
        return order, ent
    def box(xkeys, leaves1, leaves2, targets):
        span = {}
        for m in range(256):
            x = 0
            for b in range(8):
                if m >> (7 - b) & 1: x ^= sig[xkeys[b]]
            span[x] = (m, False); span[x ^ full] = (m, True)
        order2, ent = down(lambda w: val[w] in span, leafmap(leaves2), targets)
        order1, _ = down(lambda w: False, leafmap(leaves1), ent)
        return order1, [(w,) + span[val[w]] for w in ent], order2
    byte = lambda nm, r, i: [(nm, r, i, b) for b in range(8)]
    def rnd_box(r, i, src, leaves2, targets):
        """the S-box of byte src in round r; i is the byte it feeds"""
        if r == 1: l1 = [('P', 0, src, b) for b in range(8)] + byte('K', 0, src)
        else:
            c = src // 4; l1 = byte('K', r - 1, src)
            for k in range(4): l1 += byte('B', r - 1, (4 * c + k + 4 * k) % 16)
        return box(byte('X', r, src), l1, leaves2, targets)
    for i in range(16):
        for b in range(8): sig['P', 0, i, b] = val[8 * i + b]
    rounds = {}; keys = {}
    shift = lambda i: (i + 4 * (i % 4)) % 16
    need = lambda ks: [w for k in ks for w, _ in wires(k) if w in used]
    o0 = net.nw - 128
    def lasts(i): return byte('K', 10, i) if i < 4 else byte('K', 10, i) + byte('K', 10, i - 4) + byte('K', 9, i)
    rounds[10] = [rnd_box(10, i, shift(i), lasts(i), [o0 + 8 * i + b for b in range(8)]) for i in range(16)]
    for r in range(9, 0, -1):
        rounds[r] = [rnd_box(r, i, i, [], need(byte('B', r, i))) for i in range(16)]
    for r in range(9, -1, -1):
        keys[r] = [box(byte('K', r, 12 + (j + 1) % 4), byte('K', r, 12 + (j + 1) % 4), sum((byte('K', r, 4 * i + j) for i in range(4)), []),
                       need(sum((byte('K', r + 1, 4 * i + j) for i in range(4)), []))) for j in range(4)]
    o = head; nl = lambda xs: '[' + '; '.join(map(str, xs)) + ']'
    B = lambda p: 'true' if p else 'false'
    def bit(k): return '[' + '; '.join('(%d, %s)' % (w, B(p)) for w, p in wires(k) if w in used or w < 256) + ']'
    def words(nm, r): return '[' + ';\n  '.join('[' + '; '.join(bit(k) for k in byte(nm, r, i)) + ']' for i in range(16)) + ']'
    for r in range(11): o.append('Definition aes128_K%d : list (list bitw) := %s.' % (r, words('K', r)))
    for r in range(1, 10): o.append('Definition aes128_B%d : list (list bitw) := %s.' % (r, words('B', r)))
    def boxes(nm, bs):
        for k, (o1, cl, o2) in enumerate(bs):
            o.append('Definition %s_%d : sbox := SBox\n  %s\n  [%s]\n  %s.' % (nm, k, nl(o1), '; '.join('(%d, %d, %s)' % (w, m, B(c)) for w, m, c in cl), nl(o2)))
        o.append('Definition %s : list sbox := %s.' % (nm, nl('%s_%d' % (nm, k) for k in range(len(bs)))))
    for r in range(10): boxes('aes128_key%d' % r, keys[r])
    for r in range(1, 11): boxes('aes128_round%d' % r, rounds[r])
    return '\n'.join(o) + '\n'
