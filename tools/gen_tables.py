#!/usr/bin/env python3
"""Generate rocq/theories/Tables.v from the constant tables of /repo/src/utils.rs (read as text)."""
import re
src = open('/repo/src/utils.rs').read()
lines = src.split('\n')
def table(name):
    m = re.search(r'const %s: \[\w+; (\d+)\] = \[(.*?)\];' % name, src, re.S)
    n = int(m.group(1)); a = src[:m.start()].count('\n') + 1; b = src[:m.end()].count('\n') + 1
    out = []
    for t in m.group(2).replace('\n', ' ').split(','):
        t = t.strip()
        if not t: continue
        if t.startswith("b'"): out.append(ord(t[2]))
        else: out.append(int(t, 0))
    assert len(out) == n, (name, len(out), n)
    return out, a, b
def emit(coq, name):
    t, a, b = table(name)
    rows = []
    for i in range(0, len(t), 16):
        rows.append('   ' + '; '.join(str(x) for x in t[i:i+16]))
    return '(** src/utils.rs:%d-%d, [%s], copied entry by entry by tools/gen_tables.py. *)\nDefinition %s : list Z := [\n%s\n].\n' % (a, b, name, coq, ';\n'.join(rows))
with open('/verif/rocq/theories/Tables.v', 'w') as f:
    f.write('(** * Constant tables of src/utils.rs.  GENERATED by tools/gen_tables.py from the source text. *)\n')
    f.write('From Coq Require Import ZArith List.\nImport ListNotations.\nOpen Scope Z_scope.\n\n')
    for c, n in [('DIV9_TABLE','DIV9_TABLE'),('MOD9_TABLE','MOD9_TABLE'),('POW10','POW10'),('BIN2CHAR','BIN2CHAR')]:
        f.write(emit(c, n) + '\n')
