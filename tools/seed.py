#!/usr/bin/env python3
"""Runs seeded-bug experiments in a scratch copy.

usage: seed.py mutations.json [id ...]

Each mutation edits one definition of the model in /tmp/seed/<id>.  The build
is repeated; a proof that fails is replaced by Admitted, until everything
compiles.  A theorem of a Prop_*.v file has failed if it then depends on an
axiom (an admitted lemma, or itself).  One JSON line per mutation is appended
to /verif/seeded/LOG.jsonl."""
import json, os, re, shutil, subprocess, sys, time
from multiprocessing import Pool

SRC = os.environ.get('SEED_SRC', '/verif/rocq')
TMP = os.environ.get('SEED_TMP', '/tmp/seed')
LOG = '/verif/seeded/LOG.jsonl'
TIMES = {}   # seconds per file in the baseline

def sh(cmd, cwd, timeout=None):
    return subprocess.run(cmd, shell=True, cwd=cwd, capture_output=True, text=True, timeout=timeout)

def strip_examples(text):
    return re.sub(r'^Example .*?(Qed|Defined)\.', '', text, flags=re.S | re.M)

def order():
    """The files of the project, each after those it requires."""
    fs = [l.strip() for l in open(f'{SRC}/_CoqProject') if l.strip().endswith('.v')]
    g, out = deps(SRC), []
    def visit(f):
        if f in out: return
        for x in g.get(f, []):
            if x in fs: visit(x)
        out.append(f)
    for f in fs: visit(f)
    return out

def deps(d):
    out = sh('coqdep -Q theories Verif theories/*.v', d).stdout
    g = {}
    for line in out.splitlines():
        if ':' not in line: continue
        tgts, srcs = line.split(':', 1)
        m = re.match(r'(theories/\w+)\.vo ', tgts + ' ')
        if m:
            g[m.group(1) + '.v'] = [s[:-1] for s in srcs.split() if s.endswith('.vo')]
    return g

def line_to_off(text, line):
    return sum(len(l) for l in text.splitlines(True)[:line - 1])

def admit_at(path, off):
    """Replace the proof containing byte offset [off] by Admitted."""
    b = open(path, 'rb').read()
    st = max(b.rfind(b'Proof.', 0, off + 7), 0)
    en = b.find(b'Qed.', st)
    if b.rfind(b'Qed.', st, off) != -1 and b.rfind(b'Qed.', st, off) + 4 <= off:
        return None, 'error outside a proof'
    if st <= 0 or en < 0:
        return None, 'no proof found'
    hd = [m for m in re.finditer(rb'(Lemma|Theorem|Example|Corollary|Fact)\s+(\w+)', b[:st])]
    name = hd[-1].group(2).decode()
    # admitted proofs keep their text length small
    b = b[:st] + b'Admitted.' + b[en + 4:]
    open(path, 'wb').write(b)
    return name, None

def compile_file(d, f):
    """None if ok, else byte offset of the failure."""
    try:
        r = subprocess.run(f'ulimit -v 7000000; exec timeout {TIMES.get(f, 600) * 3 + 40:.0f} coqc -time -Q theories Verif {f}', shell=True, cwd=d,
                           capture_output=True, text=True)
    except Exception as e:
        raise
    if r.returncode == 0:
        return None, r.stdout
    m = re.search(r'File "[^"]*", line (\d+), characters (\d+)-(\d+):\s*\n\s*Error', r.stderr)
    b = open(f'{d}/{f}', 'rb').read()
    if m:
        lines = b.split(b'\n')
        off = sum(len(l) + 1 for l in lines[:int(m.group(1)) - 1]) + int(m.group(2))
        return off, r.stderr
    cs = re.findall(r'Chars (\d+) - (\d+)', r.stdout)
    off = int(cs[-1][1]) + 2 if cs else 0
    return off, 'timeout'

def baseline():
    """Clean files: a baseline with the examples stripped, timed."""
    base, files = f'{TMP}/base', order()
    if not os.path.exists(f'{base}/stamp') or os.path.getmtime(f'{base}/stamp') < max(os.path.getmtime(f'{SRC}/{f}') for f in files):
        os.makedirs(f'{base}/theories', exist_ok=True)
        for f in files:
            open(f'{base}/{f}', 'w').write(strip_examples(open(f'{SRC}/{f}').read()))
        for f in files:
            t0 = time.time()
            e, o = compile_file(base, f)
            TIMES[f] = time.time() - t0
            if e is not None: raise SystemExit(f'baseline fails: {f} {o}')
        json.dump(TIMES, open(f'{base}/stamp', 'w'))
    TIMES.update(json.load(open(f'{base}/stamp')))

def run(mu):
    d = f'{TMP}/{mu["id"]}'
    shutil.rmtree(d, ignore_errors=True)
    os.makedirs(f'{d}/theories')
    files = order()
    for f in files:
        t = open(f'{SRC}/{f}').read()
        t = strip_examples(t)
        open(f'{d}/{f}', 'w').write(t)
    changed = set()
    p = f'{d}/theories/{mu["file"]}'
    t = open(p).read()
    n = t.count(mu['old'])
    k = mu.get('occ')
    if n == 0 or (n > 1 and k is None):
        return {'error': f'old text occurs {n} times'}
    if k is None: t = t.replace(mu['old'], mu['new'])
    else:
        pos = -1
        for _ in range(k + 1): pos = t.find(mu['old'], pos + 1)
        t = t[:pos] + mu['new'] + t[pos + len(mu['old']):]
    open(p, 'w').write(t)
    g = deps(d)
    dirty = {f'theories/{mu["file"]}'}
    for f in files:  # _CoqProject is in dependency order
        if any(x in dirty for x in g.get(f, [])): dirty.add(f)
    base = f'{TMP}/base'
    admitted, outputs = [], {}
    for f in files:
        if f not in dirty:
            shutil.copy(f'{base}/{f}o', f'{d}/{f}o')
            continue
        while True:
            e, o = compile_file(d, f)
            if e is None:
                outputs[f] = o
                break
            name, err = admit_at(f'{d}/{f}', e)
            if err: return {'error': f'{f}: {err}: {o[-400:]}'}
            admitted.append(f'{os.path.basename(f)[:-2]}.{name}')
    failed, ok = [], []
    for f in files:
        if not os.path.basename(f).startswith('Prop_') or f not in outputs: continue
        names = re.findall(r'^Print Assumptions (\w+)\.', open(f'{d}/{f}').read(), flags=re.M)
        o = re.sub(r'^Chars .*$\n?', '', outputs[f], flags=re.M)
        parts = re.findall(r'(Closed under the global context|Axioms:)', o)
        assert len(parts) == len(names), (f, len(parts), len(names))
        for nm, pt in zip(names, parts): (ok if pt.startswith('Closed') else failed).append(nm)
    shutil.rmtree(d, ignore_errors=True)
    return {'admitted_lemmas': admitted, 'failed': failed}

def main():
    mus = json.load(open(sys.argv[1]))
    only = set(sys.argv[2:])
    done = set()
    if os.path.exists(LOG):
        for l in open(LOG):
            done.add(json.loads(l).get('id'))
    baseline()
    todo = [mu for mu in mus if (mu['id'] in only if only else mu['id'] not in done)]
    with Pool(int(os.environ.get('SEED_JOBS', '2'))) as pool:
        for mu, r in pool.imap_unordered(job, todo):
            if 'error' in r:
                print(mu['id'], 'ERROR', r['error'], flush=True)
                continue
            rec = {'id': mu['id'], 'definition': mu['def'], 'edit': f"{mu['file']}: `{mu['old']}` -> `{mu['new']}`" + (f" (occurrence {mu['occ']})" if 'occ' in mu else ''),
                   'claim_broken': mu['claim'], 'theorems_failed': r['failed'], 'lemmas_failed': r['admitted_lemmas'],
                   'theorems_tightened': []}
            print(json.dumps(rec), flush=True)
            with open(LOG, 'a') as fo: fo.write(json.dumps(rec) + '\n')

def job(mu):
    try:
        return mu, run(mu)
    except Exception as e:
        return mu, {'error': repr(e)}

main()
