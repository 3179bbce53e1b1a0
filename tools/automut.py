#!/usr/bin/env python3
"""Random one-token edits of the model; reports those that no proof notices.

usage: automut.py SRC N SEED JOBS

SRC is a copy of /verif/rocq. The examples are stripped, so only proofs count. For each edit the
dependent files are compiled in order until one fails; an edit after which everything compiles is a survivor."""
import json, os, random, re, shutil, subprocess, sys, time
from multiprocessing import Pool

SRC, N, SEED, JOBS = sys.argv[1], int(sys.argv[2]), int(sys.argv[3]), int(sys.argv[4])
TMP = '/tmp/auto'
MODELS = ['Model_Base.v', 'Model_Cmp.v', 'Model_Round.v', 'Model_Decimal.v', 'Model_Arith.v', 'Model_Serde.v']
TIMES = {}

def strip_examples(text):
    return re.sub(r'^Example .*?(Qed|Defined)\.', '', text, flags=re.S | re.M)
def order():
    fs = [l.strip() for l in open(f'{SRC}/_CoqProject') if l.strip().endswith('.v')]
    g, out = deps(SRC), []
    def visit(f):
        if f in out: return
        for x in g.get(f, []):
            if x in fs: visit(x)
        out.append(f)
    for f in fs: visit(f)
    return out
def deps(d):
    out = subprocess.run('coqdep -Q theories Verif theories/*.v', shell=True, cwd=d, capture_output=True, text=True).stdout
    g = {}
    for line in out.splitlines():
        if ':' not in line: continue
        tgts, srcs = line.split(':', 1)
        m = re.match(r'(theories/\w+)\.vo ', tgts + ' ')
        if m: g[m.group(1) + '.v'] = [s[:-1] for s in srcs.split() if s.endswith('.vo')]
    return g
def compile_file(d, f):
    r = subprocess.run(f'ulimit -v 6000000; exec timeout {TIMES.get(f, 150) * 4 + 40:.0f} coqc -Q theories Verif {f}', shell=True, cwd=d, capture_output=True, text=True)
    return r.returncode == 0, r.stderr[-300:]

def baseline():
    base, files = f'{TMP}/base', order()
    if not os.path.exists(f'{base}/stamp'):
        os.makedirs(f'{base}/theories', exist_ok=True)
        for f in files: open(f'{base}/{f}', 'w').write(strip_examples(open(f'{SRC}/{f}').read()))
        for f in files:
            if os.path.exists(f'{base}/{f}o'): continue
            t0 = time.time()
            ok, o = compile_file(base, f)
            TIMES[f] = time.time() - t0
            if not ok: raise SystemExit(f'baseline fails: {f} {o}')
        json.dump(TIMES, open(f'{base}/stamp', 'w'))
    TIMES.update(json.load(open(f'{base}/stamp')))

RULES = [(r'<\?', '<=?'), (r'<=\?', '<?'), (r'>\?', '>=?'), (r'>=\?', '>?'), (r'&&', '||'), (r'\|\|', '&&'),
         (r'\+ 1\b', ''), (r'- 1\b', ''), (r'\+ 1\b', '+ 2'), (r'\btrue\b', 'false'), (r'\bfalse\b', 'true'),
         (r'\b0\b', '1'), (r'\b1\b', '2'), (r'\b9\b', '8'), (r'\b18\b', '17'), (r'\blhs\b', 'rhs'), (r'\brhs\b', 'lhs'),
         (r'\bliu\b', 'riu'), (r'\blfu\b', 'rfu'), (r'\brfu\b', 'lfu'), (r'\bfrac\b', 'intg'), (r' \+ ', ' - '), (r' - ', ' + '),
         (r'\bfd_intg\b', 'fd_frac'), (r'Z\.max', 'Z.min'), (r'Z\.min', 'Z.max'), (r'\bLt\b', 'Gt'), (r'\bGt\b', 'Lt'),
         (r'\bset_neg\b', 'set_pos'), (r'\bMAX_FRAC_UNITS\b', 'MAX_UNITS'), (r'\bcarry\b', '0'), (r'\bborrow\b', '0'), (r'=\? 0', '=? 1'), (r'\bas_i32\b', 'as_i8')]

def candidates():
    out = []
    for f in MODELS:
        t = open(f'{SRC}/theories/{f}').read()
        mask = bytearray(len(t))
        for m in re.finditer(r'\(\*.*?\*\)', t, flags=re.S):
            for k in range(m.start(), m.end()): mask[k] = 1
        defs = [(m.start(), m.group(2)) for m in re.finditer(r'^(Definition|Fixpoint)\s+(\w+)', t, flags=re.M)]
        for rx, new in RULES:
            for m in re.finditer(rx, t):
                if mask[m.start()]: continue
                nm = [n for s, n in defs if s < m.start()]
                if not nm: continue
                ln = t.count('\n', 0, m.start()) + 1
                out.append({'file': f, 'def': nm[-1], 'line': ln, 'start': m.start(), 'end': m.end(), 'old': m.group(0), 'new': new, 'text': t.splitlines()[ln - 1].strip()})
    return out

def run(mu):
    d = f'{TMP}/w{os.getpid()}'
    shutil.rmtree(d, ignore_errors=True)
    shutil.copytree(f'{TMP}/base', d)
    p = f'{d}/theories/{mu["file"]}'
    t = open(f'{SRC}/theories/{mu["file"]}').read()
    open(p, 'w').write(t[:mu['start']] + mu['new'] + t[mu['end']:])
    g, files = deps(d), order()
    dirty = {f'theories/{mu["file"]}'}
    for f in files:
        if any(x in dirty for x in g.get(f, [])): dirty.add(f)
    for f in files:
        if f not in dirty: continue
        ok, o = compile_file(d, f)
        if not ok:
            m = re.search(r'line (\d+)', o)
            if f.endswith(mu['file']): return mu, 'ill-typed'
            nm = ''
            if m:
                hd = re.findall(r'^(?:Lemma|Theorem|Corollary|Definition|Fixpoint)\s+(\w+)', '\n'.join(open(f'{d}/{f}').read().splitlines()[:int(m.group(1))]), flags=re.M)
                nm = hd[-1] if hd else ''
            return mu, f'{os.path.basename(f)}:{nm}' + ('' if m else ' (timeout)')
    return mu, 'SURVIVED'

def main():
    baseline()
    c = candidates()
    random.Random(SEED).shuffle(c)
    done = set()
    log = f'{TMP}/log.jsonl'
    if os.path.exists(log): done = {(r['file'], r['start'], r['new']) for r in map(json.loads, open(log))}
    todo = [m for m in c[:N] if (m['file'], m['start'], m['new']) not in done]
    print(len(c), 'candidates', len(todo), 'to do', flush=True)
    with Pool(JOBS) as pool:
        for mu, r in pool.imap_unordered(run, todo):
            mu['result'] = r
            print(r, mu['file'], mu['line'], mu['def'], repr(mu['old']), '->', repr(mu['new']), '|', mu['text'], flush=True)
            with open(log, 'a') as fo: fo.write(json.dumps(mu) + '\n')
main()
