#!/usr/bin/env python3
"""A line-by-line port of /repo/src to Python, written from the Rust text alone (not from the
Coq model).  It serves as a second reading of the source: tools/gen_diff.py compares it with the
Coq model on random inputs.  Types: Python ints, narrowed explicitly at each operation that has a
machine type; `PANIC` is any Rust panic."""
import re, os
REPO = os.environ.get("REPO", "/repo")
DEBUG = True
class Panic(Exception): pass
class Error(Exception): pass

def _w(x, lo, hi):
    if lo <= x <= hi: return x
    if DEBUG: raise Panic("overflow")
    return (x - lo) % (hi - lo + 1) + lo
def I8(x): return _w(x, -2**7, 2**7-1)
def I32(x): return _w(x, -2**31, 2**31-1)
def I64(x): return _w(x, -2**63, 2**63-1)
def IS(x): return I64(x)
def US(x): return _w(x, 0, 2**64-1)
def U64(x): return _w(x, 0, 2**64-1)
def c8(x): return (x + 2**7) % 2**8 - 2**7
def c32(x): return (x + 2**31) % 2**32 - 2**31
def c64(x): return (x + 2**63) % 2**64 - 2**63
def cus(x): return x % 2**64
def tdiv(a, b):
    if b == 0: raise Panic("div0")
    q = abs(a) // abs(b)
    return q if (a < 0) == (b < 0) else -q
def trem(a, b): return a - b * tdiv(a, b)
def dassert(b):
    if DEBUG and not b: raise Panic("assert")

class Arr:
    """fixed-size array with Rust's bounds checks; indices are usize"""
    def __init__(s, xs): s.xs = list(xs)
    def _chk(s, i):
        if not (0 <= i < len(s.xs)): raise Panic("index %d" % i)
    def __getitem__(s, i): s._chk(i); return s.xs[i]
    def __setitem__(s, i, v): s._chk(i); s.xs[i] = v
    def __len__(s): return len(s.xs)
    def rng(s, a, b):
        if a > b or b > len(s.xs): raise Panic("slice %d..%d" % (a, b))
        return range(a, b)
    def sl(s, a, b): return [s.xs[i] for i in s.rng(a, b)]
    def copy_from(s, a, b, src):
        r = s.rng(a, b)
        if len(r) != len(src): raise Panic("copy_from_slice")
        for i, v in zip(r, src): s.xs[i] = v
    def copy_within(s, a, b, dest):
        t = s.sl(a, b)
        if dest > len(s.xs) - len(t): raise Panic("copy_within")
        for i, v in enumerate(t): s.xs[dest+i] = v
    def clone(s): return Arr(s.xs)

def table(name):
    t = open(REPO + "/src/utils.rs").read()
    m = re.search(r"const " + name + r": \[\w+; (\d+)\] = \[(.*?)\];", t, re.S)
    out = []
    for e in m.group(2).split(","):
        e = e.strip()
        if not e: continue
        if e.startswith("b'"): out.append(ord(e[2]))
        else: out.append(int(e.replace("_", ""), 0))
    assert len(out) == int(m.group(1))
    return Arr(out)
DIV9, MOD9, POW10, BIN2CHAR = table("DIV9_TABLE"), table("MOD9_TABLE"), table("POW10"), table("BIN2CHAR")

MAX_UNITS, MAX_FRAC, MAX_DIGITS, DPU, UNIT = 9, 30, 65, 9, 1000000000
HALF_UNIT, MAX_FRAC_UNITS = 500000000, (30 + 9 - 1) // 9

def div9(d): return DIV9[cus(d)]
def mod9(d): return MOD9[cus(d)]
def get_units(d): return div9(I8(d + 8))
def unit_leading_zeroes(v):
    for k, b in enumerate([10**8, 10**7, 10**6, 10**5, 10**4, 10**3, 100, 10, 1]):
        if v >= b: return k
    return 9
def units_greater_equal(l, r):
    n = len(l) if len(l) > len(r) else len(r)
    l = l[::-1]; r = r[::-1]
    for k in range(n):
        x = l[k] if k < len(l) else 0
        y = r[k] if k < len(r) else 0
        if x > y: return True
        if x < y: return False
    return True

class FD:
    def __init__(s, intg=1, frac=0, lsu=None):
        s.i, s.f, s.lsu = intg, frac, Arr(lsu if lsu is not None else [0]*9)
    def clone(s): return FD(s.i, s.f, s.lsu.xs)
    def assign(s, o): s.i, s.f, s.lsu = o.i, o.f, o.lsu.clone()
    def dump(s): return (s.i, s.f, list(s.lsu.xs))
    def is_neg(s): return s.i & -128 != 0
    def set_neg(s): s.i |= -128
    def set_pos(s): s.i &= 0x7f
    def is_zero(s): return all(x == 0 for x in s.lsu.xs)
    def set_neg_and_check_zero(s):
        s.set_neg()
        if s.is_zero(): s.set_pos()
    def set_zero(s): s.i, s.f, s.lsu = 1, 0, Arr([0]*9)
    def set_one(s): s.set_zero(); s.lsu[0] = 1
    def intg(s): return s.i & 0x7f
    def frac(s): return s.f
    def iu(s): return get_units(s.intg())
    def fu(s): return get_units(s.f)
MAX_I64 = FD(19, 0, [854775807, 223372036, 9, 0, 0, 0, 0, 0, 0])
MIN_I64 = FD(c8(19 | 0x80), 0, [854775808, 223372036, 9, 0, 0, 0, 0, 0, 0])
MAX_U64 = FD(20, 0, [709551615, 446744073, 18, 0, 0, 0, 0, 0, 0])

# ---- cmp.rs
def cmp_lsu(liu, lfu, l, riu, rfu, r):
    i = liu + lfu - 1; j = riu + rfu - 1
    while liu > 0 and liu > riu:
        if l[cus(i)] > 0: return 1
        liu -= 1; i -= 1
    while riu > 0 and riu > liu:
        if r[cus(j)] > 0: return -1
        riu -= 1; j -= 1
    while i >= 0 and j >= 0:
        lv = l[cus(i)]; rv = r[cus(j)]
        if lv > rv: return 1
        if lv < rv: return -1
        i -= 1; j -= 1
    while i >= 0:
        if l[cus(i)] > 0: return 1
        i -= 1
    while j >= 0:
        if r[cus(j)] > 0: return -1
        j -= 1
    return 0
def cmp_abs(a, b): return cmp_lsu(a.iu(), a.fu(), a.lsu, b.iu(), b.fu(), b.lsu)
def cmp(a, b):
    if a.is_neg():
        if b.is_neg(): return cmp_abs(b, a)
        return -1
    if b.is_neg(): return 1
    return cmp_abs(a, b)

# ---- arith.rs
def awc(a, b, c):
    r = I32(I32(a + b) + c)
    if r >= UNIT: return I32(r - UNIT), 1
    return r, 0
def swb(a, b, c):
    r = I32(I32(a - b) + c)
    if r < 0: return I32(UNIT + r), -1
    return r, 0

def add_abs(a, b, res):
    res.set_zero()
    liu = a.iu(); lfu = a.fu(); riu = b.iu(); rfu = b.fu()
    d = lfu - rfu
    li = ri = si = 0
    if d > 0:
        res.lsu.copy_from(0, d, a.lsu.sl(0, d)); li = d; si = d
    elif d < 0:
        d = -d
        res.lsu.copy_from(0, d, b.lsu.sl(0, d)); ri = d; si = d
    stop = si + min(liu, riu) + min(lfu, rfu)
    carry = 0
    while si < stop:
        r0, c0 = awc(a.lsu[li], b.lsu[ri], carry)
        res.lsu[si] = r0; carry = c0
        li += 1; ri += 1; si += 1
    e = liu - riu
    if e > 0:
        stop = li + e
        while li < stop:
            r0, c0 = awc(a.lsu[li], 0, carry)
            res.lsu[si] = r0; carry = c0
            si += 1; li += 1
        if carry > 0: res.lsu[si] = carry
    elif e < 0:
        stop = ri - e
        while ri < stop:
            r0, c0 = awc(b.lsu[ri], 0, carry)
            res.lsu[si] = r0; carry = c0
            si += 1; ri += 1
        if carry > 0: res.lsu[si] = carry
    elif carry != 0:
        res.lsu[si] = carry
    nz = max(liu, riu) + carry
    res.f = max(a.f, b.f)
    rfu = res.fu()
    while nz >= 0:
        if res.lsu[nz + rfu] > 0: break
        nz -= 1
    res.i = c8((nz + 1) * DPU) if nz >= 0 else 0

def sub_abs(a, b, res):
    res.set_zero()
    liu = a.iu(); lfu = a.fu(); riu = b.iu(); rfu = b.fu()
    d = lfu - rfu
    li = ri = si = 0
    borrow = 0
    if d > 0:
        res.lsu.copy_from(0, d, a.lsu.sl(0, d)); li = d; si = d
    elif d < 0:
        d = -d
        for k in range(min(d, 9)):
            r0, b0 = swb(0, b.lsu.xs[k], borrow)
            res.lsu.xs[k] = r0; borrow = b0
        ri = d; si = d
    stop = si + min(liu, riu) + min(lfu, rfu)
    while si < stop:
        r0, b0 = swb(a.lsu[li], b.lsu[ri], borrow)
        res.lsu[si] = r0; borrow = b0
        si += 1; li += 1; ri += 1
    e = liu - riu
    if e > 0:
        stop = li + e
        while li < stop:
            r0, b0 = swb(a.lsu[li], 0, borrow)
            res.lsu[si] = r0; borrow = b0
            si += 1; li += 1
    elif e < 0:
        stop = ri - e
        while ri < stop:
            r0, b0 = swb(0, b.lsu[ri], borrow)
            res.lsu[si] = r0; borrow = b0
            si += 1; ri += 1
    neg = borrow == -1
    if neg:
        borrow = 0
        for k in range(si):
            r0, b0 = swb(0, res.lsu[k], borrow)
            res.lsu[k] = r0; borrow = b0
    nz = max(liu, riu)
    res.f = max(a.f, b.f)
    rfu = res.fu()
    while nz >= 0:
        if res.lsu[nz + rfu] > 0: break
        nz -= 1
    res.i = c8((nz + 1) * DPU) if nz >= 0 else 0
    return neg

def mul_abs(a, b, res):
    res.set_zero()
    rid = I8(a.intg() + b.intg())
    riu_ = get_units(rid)
    rfd = I8(a.f + b.f)
    rfu_ = get_units(rfd)
    if riu_ > MAX_UNITS: raise Error("Overflow")
    if riu_ + rfu_ > MAX_UNITS: rfu_ = MAX_UNITS - riu_
    if rfu_ > MAX_FRAC_UNITS: rfu_ = MAX_FRAC_UNITS
    liu = a.iu(); lfu = a.fu(); riu = b.iu(); rfu = b.fu()
    shift = c64(US(lfu + rfu - rfu_))
    carry = 0
    rl = b.lsu.sl(0, riu + rfu)
    for ri, rv in enumerate(rl):
        si = -1
        for li, lv in enumerate(a.lsu.sl(0, liu + lfu)):
            si = li + ri - shift
            if si < -1: continue
            if si == -1:
                v = I64(lv * rv)
                if v < UNIT: continue
                carry = tdiv(v, UNIT)
                continue
            v = I64(I64(lv * rv) + res.lsu[cus(si)])
            v = I64(v + carry)
            carry = tdiv(v, UNIT)
            res.lsu[cus(si)] = c32(I64(v - I64(carry * UNIT)))
        dassert(si >= 0)
        if si + 1 < MAX_UNITS:
            res.lsu[cus(si + 1)] = c32(carry)
        elif carry > 0:
            raise Error("Overflow")
        carry = 0
    res.f = min(rfd, c8(rfu_ * DPU))
    res.i = c8(riu_ * DPU)

def lead(d, n):
    k = n - 1
    while k >= 0:
        if d.lsu[k] > 0: break
        k -= 1
    return k

def guess(buf1, i, d0, d1):
    u0 = buf1[US(cus(i) + 1)]
    u1 = 0
    if i >= 0: u1 = buf1[cus(i)]
    return u0, u1

def div_abs(a, b, res, incr):
    res.set_zero()
    liu = get_units(a.intg()); lfu = get_units(a.f); lext = lfu * DPU
    riu = get_units(b.intg()); rfu = get_units(b.f); rext = rfu * DPU
    rnz = lead(b, riu + rfu)
    if rnz < 0: raise Error("DivisionByZero")
    lnz = lead(a, liu + lfu)
    if lnz < 0: return
    rprec = (rnz + 1) * DPU - unit_leading_zeroes(b.lsu[rnz])
    lprec = (lnz + 1) * DPU - unit_leading_zeroes(a.lsu[lnz])
    incr = IS(incr - (lext - a.f + rext - b.f))
    if incr < 0: incr = 0
    sfu = get_units(c8(IS(lext + rext + incr)))
    if sfu > MAX_FRAC_UNITS: sfu = MAX_FRAC_UNITS
    ri = (lprec - lext) - (rprec - rext)
    shift = 0
    if units_greater_equal(a.lsu.sl(0, lnz + 1), b.lsu.sl(0, rnz + 1)): ri += 1
    else: shift = -1
    if ri > 0:
        siu = get_units(c8(ri))
        if siu > MAX_UNITS: raise Error("Overflow")
        if siu + sfu > MAX_UNITS: sfu = MAX_UNITS - siu
        start = sfu + siu - 1
    else:
        siu = 0
        start = sfu - get_units(c8(1 - ri))
        ri = 0
    su = siu + sfu
    if rnz == 0:
        d = b.lsu[0]
        rem = a.lsu[lnz] if shift < 0 else 0
        i = lnz + shift; j = start
        while j >= 0:
            u = I64(I64(rem * UNIT) + a.lsu[cus(i)]) if i >= 0 else I64(rem * UNIT)
            q = tdiv(u, d)
            rem = I64(u - I64(q * d))
            res.lsu[cus(j)] = c32(q)
            i -= 1; j -= 1
        res.i = c8(ri); res.f = c8(sfu * DPU)
        return
    nf = tdiv(UNIT, b.lsu[rnz] + 1)
    buf1 = Arr([0]*18); buf2 = Arr([0]*9)
    if nf == 1:
        buf1.copy_from(su, su + lnz + 1, a.lsu.sl(0, lnz + 1))
        buf2.copy_from(0, rnz + 1, b.lsu.sl(0, rnz + 1))
    else:
        carry = 0
        end = su + lnz + 1
        for k, lv in zip(buf1.rng(su, end), a.lsu.sl(0, lnz + 1)):
            u = I64(I64(lv * nf) + carry)
            carry = tdiv(u, UNIT)
            buf1[k] = c32(I64(u - carry * UNIT))
        if carry > 0:
            buf1[end] = c32(carry); carry = 0
        for k, rv in zip(buf2.rng(0, rnz + 1), b.lsu.sl(0, rnz + 1)):
            u = I64(I64(rv * nf) + carry)
            carry = tdiv(u, UNIT)
            buf2[k] = c32(I64(u - carry * UNIT))
        dassert(carry == 0)
    d0 = buf2[rnz]; d1 = buf2[rnz - 1]
    i = su + lnz + shift; j = start
    while j >= 0:
        u0 = buf1[US(cus(i) + 1)]
        u1 = 0
        if i >= 0: u1 = buf1[cus(i)]
        u = I64(I64(u0 * UNIT) + u1)
        qhat = I64(tdiv(u, d0))
        rhat = I64(u - I64(qhat * d0))
        dassert(qhat < UNIT)
        u2 = 0
        if i > 0: u2 = buf1[cus(i) - 1]
        n = 0
        while I64(qhat * d1) > I64(I64(rhat * UNIT) + u2):
            qhat = I64(qhat - 1); rhat = I64(rhat + d0)
            n += 1
            if n > 100000: raise Panic("loop")
        ms = i - rnz
        carry = 0; borrow = 0
        for k in range(rnz + 1):
            mv = I64(I64(qhat * buf2[k]) + carry)
            carry = tdiv(mv, UNIT)
            mv0 = I64(mv - I64(carry * UNIT))
            if ms < 0:
                _, b0 = swb(0, c32(mv0), borrow); borrow = b0
            else:
                sv, b0 = swb(buf1[cus(ms)], c32(mv0), borrow)
                buf1[cus(ms)] = sv; borrow = b0
            ms += 1
        borrow = I32(borrow + I32(buf1[cus(ms)] - c32(carry)))
        if borrow == -1:
            qhat = I64(qhat - 1)
            borrow = 0
            for k in range(rnz):
                r0, b0 = swb(0, buf1[k + j], borrow)
                buf1[k + j] = r0; borrow = b0
        else:
            buf1[cus(ms)] = 0
        res.lsu[cus(j)] = c32(qhat)
        i -= 1; j -= 1
    res.i = c8(ri); res.f = c8(sfu * DPU)

def rem_finish(res, nz, mfu, mf):
    if nz >= mfu:
        k = c8(nz + 1 - mfu)
        res.i = I8(I8(k * 9) - c8(unit_leading_zeroes(res.lsu[cus(I8(I8(k + c8(mfu)) - 1))])))
    else:
        res.i = 0
    res.f = mf

def rem_abs(a, b, res):
    res.set_zero()
    liu = get_units(a.intg()); lfu = get_units(a.f)
    riu = get_units(b.intg()); rfu = get_units(b.f)
    rnz = lead(b, riu + rfu)
    if rnz < 0: raise Error("DivisionByZero")
    lnz = lead(a, liu + lfu)
    if lnz < 0: return
    c = cmp_lsu(liu, lfu, a.lsu, riu, rfu, b.lsu)
    if c < 0:
        if rfu > lfu:
            res.lsu.copy_from(rfu - lfu, liu + rfu, a.lsu.sl(0, lfu + liu))
            res.f = b.f; res.i = a.intg()
            return
        res.lsu.copy_from(0, lfu + liu, a.lsu.sl(0, lfu + liu))
        res.f = max(a.f, b.f); res.i = a.intg()
        return
    if c == 0: return
    mf = max(a.f, b.f)
    mfu = get_units(mf)
    shift = 0 if units_greater_equal(a.lsu.sl(0, lnz + 1), b.lsu.sl(0, rnz + 1)) else -1
    ls, rs = (rfu - lfu, 0) if lfu < rfu else (0, lfu - rfu)
    if rnz == 0:
        d = b.lsu[0]
        buf = Arr([0]*18)
        n = ls + lnz + 1
        buf.copy_from(ls, n, a.lsu.sl(0, lnz + 1))
        rem = a.lsu[lnz] if shift < 0 else 0
        stop = rnz + rs
        i = n - 1 + shift
        while i >= stop:
            u = I64(I64(rem * UNIT) + buf[cus(i)])
            q = tdiv(u, d)
            rem = I64(u - I64(q * d))
            i -= 1
        nz = -1
        if rem > 0:
            res.lsu[cus(i + 1)] = c32(rem)
            nz = i + 1
        while i >= 0:
            v = buf[i]
            res.lsu[i] = v
            if v > 0 and nz < 0: nz = i
            i -= 1
        rem_finish(res, nz, mfu, mf)
        return
    n1 = lnz + 1 + ls; n2 = rnz + 1 + rs
    nf = tdiv(UNIT, b.lsu[rnz] + 1)
    buf1 = Arr([0]*18); buf2 = Arr([0]*18)
    if nf == 1:
        buf1.copy_from(ls, n1, a.lsu.sl(0, lnz + 1))
        buf2.copy_from(rs, n2, b.lsu.sl(0, rnz + 1))
    else:
        carry = 0
        for k in range(lnz + 1):
            u = I64(I64(a.lsu[k] * nf) + carry)
            carry = tdiv(u, UNIT)
            buf1[k + ls] = c32(I64(u - carry * UNIT))
        if carry > 0:
            buf1[n1] = c32(carry); carry = 0
        for k in range(rnz + 1):
            u = I64(I64(b.lsu[k] * nf) + carry)
            carry = tdiv(u, UNIT)
            buf2[k + rs] = c32(I64(u - carry * UNIT))
        dassert(carry == 0)
    stop = n2 - 1
    d0 = buf2[rnz + rs]; d1 = buf2[rnz + rs - 1]
    i = n1 + shift - 1
    while i >= stop:
        u0 = buf1[cus(i + 1)]
        u1 = buf1[cus(i)] if i >= 0 else 0
        u = I64(I64(u0 * UNIT) + u1)
        qhat = I64(tdiv(u, d0))
        rhat = I64(u - I64(qhat * d0))
        dassert(qhat < UNIT)
        u2 = buf1[cus(i - 1)] if i > 0 else 0
        n = 0
        while I64(qhat * d1) > I64(I64(rhat * UNIT) + u2):
            qhat = I64(qhat - 1); rhat = I64(rhat + d0)
            n += 1
            if n > 100000: raise Panic("loop")
        carry = 0; borrow = 0
        for k1, b2 in zip(buf1.rng(cus(i - n2 + 1), cus(i + 1)), buf2.sl(0, n2)):
            mv = I64(I64(qhat * b2) + carry)
            carry = tdiv(mv, UNIT)
            mv0 = I64(mv - I64(carry * UNIT))
            sv, b0 = swb(buf1[k1], c32(mv0), borrow)
            borrow = b0
            buf1[k1] = sv
        borrow = I32(borrow + I32(buf1[cus(i + 1)] - c32(carry)))
        if borrow == -1:
            borrow = 0
            for k1 in buf1.rng(cus(i - n2 + 1), cus(i + 1)):
                r0, b0 = swb(0, buf1[k1], borrow)
                borrow = b0
                buf1[k1] = r0
        buf1[cus(i + 1)] = 0
        i -= 1
    dassert(buf1[n1] == 0) if DEBUG else None
    rem = 0; nz = -1; i = n1
    while i > 0:
        i -= 1
        u = I64(I64(rem * UNIT) + buf1[i])
        if u == 0: continue
        q = tdiv(u, nf)
        rem = I64(u - I64(q * nf))
        if q > 0:
            res.lsu[i] = c32(q)
            if nz < 0: nz = i
    dassert(rem == 0)
    rem_finish(res, nz, mfu, mf)

def add_to(a, b, res):
    if a.is_zero(): res.assign(b); return
    if b.is_zero(): res.assign(a); return
    l, r = a.is_neg(), b.is_neg()
    if l == r:
        add_abs(a, b, res)
        if l: res.set_neg_and_check_zero()
        return
    if sub_abs(a, b, res) != l: res.set_neg_and_check_zero()
def sub_to(a, b, res):
    if a.is_zero():
        res.assign(b)
        if res.is_neg(): res.set_pos()
        else: res.set_neg_and_check_zero()
        return
    if b.is_zero(): res.assign(a); return
    l, r = a.is_neg(), b.is_neg()
    if l != r:
        add_abs(a, b, res)
        if l: res.set_neg_and_check_zero()
        return
    if sub_abs(a, b, res) != l: res.set_neg_and_check_zero()
def mul_to(a, b, res):
    if a.is_zero() or b.is_zero(): res.set_zero(); return
    n = a.is_neg() != b.is_neg()
    mul_abs(a, b, res)
    if n: res.set_neg_and_check_zero()
def div_to(a, b, res, incr):
    n = a.is_neg() != b.is_neg()
    div_abs(a, b, res, c64(incr))
    if n: res.set_neg_and_check_zero()
def rem_to(a, b, res):
    n = a.is_neg()
    rem_abs(a, b, res)
    if n: res.set_neg_and_check_zero()

# ---- round.rs
def round_half_up(fd, iu, fu, trunc, rf, carry):
    ri = div9(c8(trunc)); pos = mod9(c8(trunc))
    clear = ri
    if pos != 0:
        u = fd.lsu[ri]
        md = 10**pos
        r = trem(u, md)
        u = I32(u - r)
        if r >= md // 2: u = I32(u + md)
        if u >= UNIT: u = I32(u - UNIT); carry = 1
        fd.lsu[ri] = u
        ri += 1
    end = iu + fu
    if carry > 0:
        for k in fd.lsu.rng(ri, end):
            r0, c0 = awc(fd.lsu[k], 0, carry)
            fd.lsu[k] = r0; carry = c0
            if carry == 0: break
        if carry > 0:
            fd.lsu[end] = 1
            iu += 1
    for k in fd.lsu.rng(0, clear): fd.lsu[k] = 0
    neg = fd.is_neg()
    fd.i = c8(iu * DPU)
    fd.f = rf
    if neg: fd.set_neg()

def round_(s, frac):
    iu = s.iu(); fu = s.fu()
    if frac >= s.f:
        rfu = get_units(c8(frac))
        if rfu == fu: s.f = c8(frac); return
        s.lsu.copy_within(0, fu + iu, US(rfu - fu))
        s.f = c8(frac)
        return
    carry = 0
    if frac < 0:
        n = IS(-frac)
        if IS(n + 1) > s.intg(): s.set_zero(); return
        s.lsu.copy_within(fu, fu + iu, 0)
        for k in s.lsu.rng(iu, fu + iu): s.lsu[k] = 0
        fu = 0; rf = 0; trunc = n
    else:
        rf = c8(frac)
        rfu = get_units(I8(c8(frac) + 1))
        if rfu < fu:
            if mod9(c8(frac)) == 0:
                if s.lsu[fu - rfu] >= HALF_UNIT: carry = 1
                rfu = US(rfu - 1)
            s.lsu.copy_within(US(fu - rfu), fu + iu, 0)
            for k in s.lsu.rng(rfu + iu, fu + iu): s.lsu[k] = 0
            fu = rfu
        else:
            dassert(rfu == fu)
            if mod9(c8(frac)) == 0:
                if s.lsu[0] >= HALF_UNIT: carry = 1
                s.lsu.copy_within(1, fu + iu, 0)
                s.lsu[US(fu + iu - 1)] = 0
                fu = US(fu - 1)
        trunc = IS(fu * DPU - frac)
    round_half_up(s, iu, fu, trunc, rf, carry)

def round_to(s, res, frac):
    res.set_zero()
    res.i = s.i
    iu = s.iu(); fu = s.fu()
    if frac >= s.f:
        rfu = get_units(c8(frac))
        if rfu == fu:
            res.i = s.i; res.f = c8(frac); res.lsu = s.lsu.clone()
            return
        res.lsu.copy_from(US(rfu - fu), rfu + iu, s.lsu.sl(0, fu + iu))
        res.i = s.i; res.f = c8(frac)
        return
    carry = 0
    if frac < 0:
        n = IS(-frac)
        if IS(n + 1) > s.intg(): res.set_zero(); return
        res.lsu.copy_from(0, iu, s.lsu.sl(fu, fu + iu))
        fu = 0; rf = 0; trunc = n
    else:
        rf = c8(frac)
        rfu = get_units(I8(c8(frac) + 1))
        if rfu < fu:
            if mod9(c8(frac)) == 0:
                if s.lsu[fu - rfu] >= HALF_UNIT: carry = 1
                rfu = US(rfu - 1)
            res.lsu.copy_from(0, rfu + iu, s.lsu.sl(US(fu - rfu), fu + iu))
            fu = rfu
        else:
            dassert(rfu == fu)
            if mod9(c8(frac)) == 0:
                if s.lsu[0] >= HALF_UNIT: carry = 1
                res.lsu.copy_from(0, US(fu + iu - 1), s.lsu.sl(1, fu + iu))
                fu = US(fu - 1)
            else:
                res.lsu = s.lsu.clone()
        trunc = IS(fu * DPU - frac)
    round_half_up(res, iu, fu, trunc, rf, carry)

# ---- decimal.rs
def lsu_to_i64(s):
    if s.is_neg():
        x = I64(I32(-s.lsu[0]) - I64(s.lsu[1] * UNIT))
        return I64(x - I64(I64(s.lsu[2] * UNIT) * UNIT))
    x = I64(s.lsu[0] + I64(s.lsu[1] * UNIT))
    return I64(x + I64(I64(s.lsu[2] * UNIT) * UNIT))
def lsu_to_u64(s):
    x = U64(cus(s.lsu[0]) + U64(cus(s.lsu[1]) * UNIT))
    return U64(x + U64(U64(cus(s.lsu[2]) * UNIT) * UNIT))
def as_i64(s):
    if cmp(s, MIN_I64) < 0 or cmp(s, MAX_I64) > 0: raise Error("Range")
    if s.fu() > 0:
        t = FD(); round_to(s, t, 0); return lsu_to_i64(t)
    return lsu_to_i64(s)
def as_u64(s):
    if s.is_neg() or cmp(s, MAX_U64) > 0: raise Error("Range")
    if s.fu() > 0:
        t = FD(); round_to(s, t, 0); return lsu_to_u64(t)
    return lsu_to_u64(s)
def from_u64(x):
    fd = FD(); i = 0
    while x != 0:
        q = x // UNIT
        fd.lsu[i] = c32(x - q * UNIT)
        i += 1; x = q
    fd.i = c8(i * DPU)
    return fd
def from_i64(x):
    if x == -2**63: return MIN_I64.clone()
    if x < 0:
        fd = from_u64(-x); fd.set_neg(); return fd
    return from_u64(x)
def hash_(s):
    out = [1 if s.is_neg() else 0]
    iu = s.iu(); out.append(iu % 256)
    fu = s.fu(); out.append(fu % 256)
    return out + [v % 2**32 for v in s.lsu.sl(0, iu + fu)]

# ---- serde.rs
def parse(s, bs, reset):
    bs = Arr(bs); N = len(bs)
    if reset: s.set_zero()
    if N == 0: raise Error("Syntax")
    exp = 0; d = 0; dot = -1; last = -1; cfirst = 0; neg = False; more = False
    i = -1
    for c in bs.xs:
        i += 1
        if 48 <= c <= 57:
            last = i; d = I8(d + 1); continue
        if c == 46 and dot == -1:
            dot = i
            if i == cfirst: cfirst += 1
            continue
        if i == 0:
            if c == 45: cfirst += 1; neg = True; continue
            if c == 43: cfirst += 1; continue
        more = True
        break
    if last == -1: raise Error("Syntax")
    if more:
        nege = False
        c = bs[i]
        if c != 101 and c != 69: raise Error("Syntax")
        i += 1
        if i == N: raise Error("Syntax")
        c = bs[i]
        if c == 45:
            nege = True; i += 1
            if i == N: raise Error("Syntax")
        elif c == 43:
            i += 1
            if i == N: raise Error("Syntax")
        while True:
            c = bs[i]
            if c == 48 and i != N - 1: i += 1
            else: break
        first = i
        for c in bs.sl(i, N):
            if c < 48 or c > 57: raise Error("Syntax")
            exp = I32(I32(I32(exp * 10) + c) - 48)
            i += 1
        if i >= first + 4: raise Error("Syntax")
        if (not nege and cus(exp) > MAX_DIGITS) or (nege and cus(exp) > MAX_FRAC): raise Error("Syntax")
        if nege: exp = I32(-exp)
    fdig = 0 if dot == -1 or last < dot else last - dot
    frac = I8(c8(fdig) - c8(exp))
    hz = 0
    if frac == 0: digits = d
    elif frac > 0:
        if d > frac: digits = d
        else:
            digits = frac; hz = I8(frac - d)
    else:
        digits = I8(d - frac); frac = 0
    if cus(digits) > MAX_DIGITS: raise Error("Syntax")
    iu = get_units(I8(digits - frac)); fu = get_units(frac)
    up = c64(US(iu + fu - 1))
    i = cfirst
    if iu > 0:
        out = 0
        cut = I8(digits - frac)
        while True:
            c = bs[cus(i)]
            if c == 46: i += 1; continue
            out = I32(I32(I32(out * 10) + c) - 48)
            cut = I8(cut - 1)
            if cut == 0: break
            if i == last: break
            if mod9(cut) > 0: i += 1; continue
            s.lsu[cus(up)] = out
            up -= 1; out = 0; i += 1
        i += 1
        re_ = mod9(cut)
        s.lsu[cus(up)] = I32(out * POW10[re_])
        up -= 1
        cut = I8(cut - re_)
        while cut > 0:
            s.lsu[cus(up)] = 0
            up -= 1
            cut = I8(cut - 9)
    if fu > 0:
        out = 0; cut = 9
        while hz >= 9:
            s.lsu[cus(up)] = 0
            up -= 1
            hz = I8(hz - 9)
        cut = I8(cut - hz)
        while True:
            c = bs[cus(i)]
            if c == 46: i += 1; continue
            cut = I8(cut - 1)
            out = I32(out + I32(I32(c - 48) * POW10[cus(cut)]))
            if i == last: break
            if cut > 0: i += 1; continue
            s.lsu[cus(up)] = out
            up -= 1; cut = 9; out = 0; i += 1
        s.lsu[cus(up)] = out
    s.i = I8(digits - frac)
    s.f = frac
    if neg: s.set_neg()

def d3(val, buf, elim):
    val = cus(val)
    if not elim:
        buf += BIN2CHAR.sl(US(US(val * 4) + 1), US(US(val * 4) + 4)); return False
    cl = BIN2CHAR[US(val * 4)]
    if cl > 0:
        st = val * 4 + 4 - cl
        buf += BIN2CHAR.sl(st, st + cl); return False
    return True
def append_frac(s, buf, up, n):
    while up >= 0:
        if n == 0: return
        u = s.lsu[cus(up)]
        up -= 1
        if u == 0:
            if n > 9:
                buf += [48]*9; n = I8(n - 9); continue
            buf += [48]*max(n, 0)
            return
        for unit in (1000000, 1000):
            if u >= unit:
                h = tdiv(u, unit)
                st = cus(h) * 4 + 1
                if n < 3:
                    buf += BIN2CHAR.sl(st, cus(st + cus(n))); return
                buf += BIN2CHAR.sl(st, st + 3)
                n = I8(n - 3)
                if n == 0: return
                u = I32(u - I32(h * unit))
            else:
                if n < 3:
                    buf += [48]*max(n, 0); return
                buf += [48]*3
                n = I8(n - 3)
                if n == 0: return
        st = US(US(cus(u) * 4) + 1)
        if n < 3:
            buf += BIN2CHAR.sl(st, cus(st + cus(n))); return
        buf += BIN2CHAR.sl(st, st + 3)
        n = I8(n - 3)
        if n == 0: return
def to_string(s, frac):
    buf = []
    if s.is_neg(): buf.append(45)
    iu = s.iu(); fu = s.fu()
    up = iu + fu - 1
    if iu > 0:
        elim = True
        while up >= fu:
            u = s.lsu[cus(up)]
            up -= 1
            if elim and u == 0: continue
            for unit in (1000000, 1000):
                if u >= unit:
                    h = tdiv(u, unit)
                    elim = d3(h, buf, elim)
                    u = I32(u - I32(h * unit))
                else:
                    elim = d3(0, buf, elim)
            elim = d3(u, buf, elim)
        if elim: buf.append(48)
    else:
        buf.append(48)
    if frac == 0: return buf
    if frac < 0:
        if fu > 0:
            buf.append(46)
            append_frac(s, buf, up, s.f)
        return buf
    if fu == 0:
        buf.append(46); buf += [48]*frac
        return buf
    full = fu * DPU
    if frac <= full:
        buf.append(46); append_frac(s, buf, up, c8(frac)); return buf
    buf.append(46)
    append_frac(s, buf, up, c8(full))
    buf += [48]*(frac - full)
    return buf
