#!/usr/bin/env python3
"""Random differential test: tools/port.py (a Python reading of the Rust source) against the Coq
model.  usage: gen_diff.py SEED N > Diff.v"""
import random, sys, os
sys.path.insert(0, os.path.dirname(os.path.abspath(__file__)))
import port
from port import *
R = random.Random(int(sys.argv[1])); N = int(sys.argv[2])

def unit():
    k = R.randrange(12)
    if k == 0: return 0
    if k == 1: return R.randrange(0, 4)
    if k == 2: return UNIT - 1 - R.randrange(0, 4)
    if k == 3: return UNIT // 2 + R.randrange(-2, 3)
    if k == 4: return 10 ** R.randrange(9)
    if k == 5: return R.randrange(1, 10) * 10 ** R.randrange(9) - R.randrange(2)
    if k == 6: return 0
    if k == 7: return UNIT - 1
    return R.randrange(UNIT)
def fd():
    style = R.randrange(10)
    iu = R.randrange(0, 10); fu = R.randrange(0, 10 - iu) if R.random() < .9 else R.randrange(0, 10)
    if R.random() < .6: iu = min(iu, R.randrange(1, 5)); fu = min(fu, R.randrange(0, 4))
    i = max(0, iu * 9 - (R.randrange(9) if R.random() < .5 else 0))
    f = max(0, fu * 9 - (R.randrange(9) if R.random() < .7 else 0))
    n = (i + 8) // 9 + (f + 8) // 9
    l = [unit() for _ in range(9)]
    if style < 8:
        for k in range(min(n, 9), 9): l[k] = 0
        if R.random() < .3:
            z = R.randrange(0, 10)
            for k in range(z, 9): l[k] = 0
        if R.random() < .4:
            for k in range(R.randrange(0, 9)): l[k] = 0
    elif style == 9 and R.random() < .3:
        l[R.randrange(9)] = R.choice([UNIT, UNIT + 5, 2**31 - 1, -1, -2**31, -UNIT])
    if R.random() < .1: i = R.randrange(0, 128)
    if R.random() < .1: f = R.randrange(0, 40)
    if R.random() < .02: f = R.randrange(-128, 128)
    if R.random() < .3: i = c8(i | 128)
    return FD(i, f, l)
def numeral():
    s = R.choice(["", "", "", "-", "+"])
    def digs(n): return "".join(R.choice("0123456789" if R.random() < .8 else "09") for _ in range(n))
    a = R.choice([0, 1, 2, 5, 9, 10, 18, 19, 27, 35, 40, 64, 65, 66]); a = max(0, a + R.randrange(-1, 2))
    b = R.choice([0, 0, 1, 5, 9, 10, 17, 18, 27, 30, 31, 36]); b = max(0, b + R.randrange(-1, 2))
    s += digs(a)
    if R.random() < .6: s += "." + digs(b)
    if R.random() < .35: s += R.choice("eE") + R.choice(["", "-", "+"]) + R.choice(["", "0", "00"]) + digs(R.choice([0, 1, 1, 1, 2, 2, 3]))
    if R.random() < .05:
        k = R.randrange(len(s) + 1); s = s[:k] + R.choice("ex .+-,A0") + s[k:]
    if R.random() < .02: s = "1" + "0" * R.randrange(100, 300)
    return s
def show(l): return "[" + ";".join(str(x) if x >= 0 else "(%d)" % x for x in l) + "]"
def flat(d): return [d.i, d.f] + d.lsu.xs
ERR = {"Syntax": 0, "DivisionByZero": 1, "Overflow": 2, "Range": 3}
def run(f):
    try: return [0] + f()
    except Error as e: return [1, ERR[e.args[0]]]
    except Panic: return [-1]
def binop(f):
    def g(a, b, r):
        res = r.clone()
        try:
            f(a, b, res); return [0] + flat(res)
        except Error as e: return [1, ERR[e.args[0]]] + flat(res)
        except Panic: return [-1]
    return g
out = []
for _ in range(N):
    m = R.randrange(2); port.DEBUG = (m == 0)
    op = R.choice([0, 1, 2, 2, 3, 3, 3, 3, 4, 4, 4, 4, 5, 6, 7, 8, 9, 10, 11, 12, 12])
    a, b, r = fd(), fd(), fd()
    if op in (3, 4) and R.random() < .5:
        # quotients near unit boundaries: a = b * q (+- few), aligned by units
        B = sum(x * UNIT**k for k, x in enumerate(b.lsu.xs[:R.randrange(1, 5)]))
        B = abs(B) or 1
        Q = sum(unit() * UNIT**k for k in range(R.randrange(1, 5)))
        A = max(0, B * Q + R.choice([-1, 0, 1, B - 1, R.randrange(B)])) % UNIT**9
        b.lsu = Arr([(B // UNIT**k) % UNIT for k in range(9)])
        a.lsu = Arr([(A // UNIT**k) % UNIT for k in range(9)])
    if op == 5 and R.random() < .4:
        b = a.clone()
        if R.random() < .5: b.i ^= -128
    x = 0; bs = []
    if op <= 2: e = binop([add_to, sub_to, mul_to][op])(a, b, r)
    elif op == 3:
        x = R.choice([4, 4, 4, 0, 1, 9, 20, 40, 100, 2**63, 2**64 - 1, R.randrange(300)])
        e = binop(lambda p, q, s: div_to(p, q, s, x))(a, b, r)
    elif op == 4: e = binop(rem_to)(a, b, r)
    elif op == 5: e = run(lambda: [cmp(a, b)])
    elif op in (6, 7):
        x = R.choice([R.randrange(-40, 45), R.randrange(-80, 130), R.choice([-2**63, 2**63 - 1, 255, 256, 300, -300]), a.f, a.f - 1, 0])
        def g():
            if op == 6:
                s = a.clone(); round_(s, x); return flat(s)
            s = r.clone(); round_to(a, s, x); return flat(s)
        e = run(g)
    elif op == 8: e = run(lambda: [as_i64(a)])
    elif op == 9: e = run(lambda: [as_u64(a)])
    elif op == 10: e = run(lambda: hash_(a))
    elif op == 11:
        x = R.choice([-1, -5, 0, R.randrange(0, 50), R.randrange(0, 300)])
        e = run(lambda: to_string(a, x))
    elif op == 12:
        bs = [ord(c) for c in numeral()]; x = R.randrange(2)
        s = r.clone()
        try: parse(s, bs, x == 1); e = [0] + flat(s)
        except Error as er: e = [1, ERR[er.args[0]]] + flat(s)
        except Panic: e = [-1]
    if op == 8 and R.random() < .5:
        x = R.choice([R.randrange(-2**63, 2**63), R.randrange(-10**10, 10**10), -2**63, 2**63 - 1, 0, 10**9, -10**9, 10**18])
        op = 13; e = run(lambda: flat(from_i64(x)))
    if op == 9 and R.random() < .5:
        x = R.choice([R.randrange(2**64), 2**64 - 1, 0, 10**9, 10**18])
        op = 14; e = run(lambda: flat(from_u64(x)))
    out.append("((%d, %d, %s), (%s, %s, %s, %s), %s)" % (op, m, str(x) if x >= 0 else "(%d)" % x,
        show(flat(a)), show(flat(b)) if op < 6 else "[]", show(flat(r)) if op < 5 or op in (7, 12) else "[]", show(bs), show(e)))
if "--body" in sys.argv:
    print(";\n  ".join(out)); sys.exit()
print(r'''(** * Random differential test of the model (not a proof).

    GENERATED by tools/gen_diff.py: the expected results are those of tools/port.py, a second,
    independent reading of the Rust source.  Each case is (operation, build, number), operands,
    expected result; [-1] stands for a panic. *)
From Coq Require Import ZArith List Bool.
Import ListNotations.
From Verif Require Import Rust Tables Model_Base Model_Cmp Model_Round Model_Decimal Model_Arith Model_Serde.
Open Scope Z_scope.
Definition mk (l : list Z) : fd := mkfd (nth 0 l 0) (nth 1 l 0) (skipn 2 l).
Definition flat (d : fd) : list Z := fd_intg d :: fd_frac d :: fd_lsu d.
Definition ecode (e : error) : Z :=
  match e with ConversionSyntax => 0 | DivisionByZero => 1 | Overflow => 2 | ExceedsConversionTargetRange => 3 end.
Definition wrap (o : outcome (list Z)) : list Z :=
  match o with Ret l => l | Panic PFuel => [-2] | Panic _ => [-1] end.
Definition two (o : outcome (result unit * fd)) : list Z :=
  wrap ('(r, d) <- o ;; Ret (match r with Ok _ => 0 :: flat d | Err e => 1 :: ecode e :: flat d end)).
Definition num (o : outcome (result Z)) : list Z :=
  wrap (r <- o ;; Ret (match r with Ok z => [0; z] | Err e => [1; ecode e] end)).
Definition hw (h : hash_write) : Z := match h with WriteU8 z => z | WriteU32 z => z end.
Definition run (op mm x : Z) (a b r bs : list Z) : list Z :=
  let m := if mm =? 0 then Debug else Release in
  let a := mk a in let b := mk b in let r := mk r in
  match op with
  | 0 => two (add_to m a b r)
  | 1 => two (sub_to m a b r)
  | 2 => two (mul_to m a b r)
  | 3 => two (div_to m a b r x)
  | 4 => two (rem_to m a b r)
  | 5 => wrap (c <- cmp m a b ;; Ret [0; match c with Lt => -1 | Eq => 0 | Gt => 1 end])
  | 6 => wrap (d <- round m a x ;; Ret (0 :: flat d))
  | 7 => wrap (d <- round_to m a r x ;; Ret (0 :: flat d))
  | 8 => num (as_i64 m a)
  | 9 => num (as_u64 m a)
  | 10 => wrap (h <- hash m a ;; Ret (0 :: map hw h))
  | 11 => wrap (s <- to_string m a x ;; Ret (0 :: s))
  | 12 => two (from_bytes_str m r bs (x =? 1))
  | 13 => wrap (d <- from_i64 m x ;; Ret (0 :: flat d))
  | _ => wrap (d <- from_u64 m x ;; Ret (0 :: flat d))
  end.
Definition case : Type := (Z * Z * Z) * (list Z * list Z * list Z * list Z) * list Z.
Definition ok (c : case) : bool :=
  let '((op, m, x), (a, b, r, bs), e) := c in
  if list_eq_dec Z.eq_dec (run op m x a b r bs) e then true else false.
Definition cases : list case :=
 [''' + ";\n  ".join(out) + r'''].''')
print(r'''
(** Every case agrees. *)
Example model_agrees_with_port : forallb ok cases = true.
Proof. vm_compute. reflexivity. Qed.''' if "--test" not in sys.argv else r'''
Definition bad := filter (fun c => negb (ok c)) cases.
Eval vm_compute in (length bad).
Eval vm_compute in (map (fun c : case => let '((op, m, x), (a, b, r, bs), e) := c in (c, run op m x a b r bs)) (firstn 5 bad)).''')
