#!/usr/bin/env python3
"""Seeded-bug tests: apply an edit to a model file in a scratch copy, rebuild the files that depend on it, and
report which property theorems no longer prove.  A lemma whose proof breaks is cut off with Admitted in the
scratch copy (never in /verif), so that every property theorem resting on it shows up in Print Assumptions.

usage: mutate.py SPEC.json [id ...]     SPEC: list of {id, file, old, new, edit, claim}
Results are appended to seeded/LOG.jsonl of /verif."""
import json, os, re, shutil, subprocess, sys, time

SRC = '/verif/rocq'
LOG = '/verif/seeded/LOG.jsonl'
START = re.compile(r'^\s*(?:Local\s+|#\[[^\]]*\]\s*)?(Lemma|Theorem|Example|Corollary|Fact|Remark)\s+([\w\']+)')

def deps(d):
    out = subprocess.run('coqdep -Q theories Verif theories/*.v', shell=True, cwd=d, capture_output=True, text=True).stdout
    g = {}
    for l in out.splitlines():
        m = re.match(r'theories/(\w+)\.vo .*?: (.*)', l)
        if m:
            g[m.group(1)] = [os.path.basename(x)[:-3] for x in m.group(2).split() if x.endswith('.vo') and x.startswith('theories/')]
    return g

def order(g, root):
    dep, changed = {root}, True
    while changed:
        changed = False
        for f, ds in g.items():
            if f not in dep and dep & set(ds):
                dep.add(f); changed = True
    res, seen = [], set()
    def visit(f):
        if f in seen: return
        seen.add(f)
        for x in g.get(f, []): visit(x)
        if f in dep: res.append(f)
    for f in sorted(dep): visit(f)
    return res

def coqc(d, f, tmo=240):
    try:
        p = subprocess.run(['coqc', '-time', '-Q', 'theories', 'Verif', f'theories/{f}.v'], cwd=d, capture_output=True, text=True, timeout=tmo)
        return p.returncode, p.stdout, p.stderr
    except subprocess.TimeoutExpired as e:
        return -1, (e.stdout or b'').decode(), ''

def cut(path, pos):
    """replace the proof of the lemma enclosing byte offset pos by Admitted; return its name"""
    b = open(path, 'rb').read()
    txt = b.decode(); cpos = len(b[:pos].decode(errors='ignore'))
    lines = txt.split('\n'); off = 0; name = None; st = None
    for i, l in enumerate(lines):
        if off > cpos: break
        m = START.match(l)
        if m: name, st = m.group(2), off
        off += len(l) + 1
    if st is None: return None
    m = re.compile(r'\bProof\b[^.]*\.').search(txt, st)
    if not m: return None
    q = re.compile(r'\b(Qed|Defined)\.').search(txt, m.end())
    if not q or cpos > q.end(): return None
    if cpos < m.start(): return None
    txt = txt[:m.start()] + 'Proof. Admitted.' + txt[q.end():]
    open(path, 'w').write(txt)
    return name

def run(spec):
    d = '/tmp/w/mut'
    shutil.rmtree(d, ignore_errors=True); os.makedirs(d)
    subprocess.run(f'cp -a {SRC}/theories {d}/theories', shell=True, check=True)
    path = f'{d}/theories/{spec["file"]}'
    txt = open(path).read()
    edits = spec.get('edits') or [[spec['old'], spec['new']]]
    for o, n in edits:
        assert txt.count(o) >= 1, ('not found', spec['id'], o)
        txt = txt.replace(o, n, 1)
    open(path, 'w').write(txt)
    g = deps(d); root = spec['file'][:-2]
    todo = order(g, root)
    if spec.get('targets'):
        need = set()
        def down(f):
            if f not in need:
                need.add(f)
                for x in g.get(f, []): down(x)
        for x in spec['targets']: down(x)
        todo = [f for f in todo if f in need]
    broken, failed, err = [], [], None
    t0 = time.time()
    for f in todo:
        try: os.remove(f'{d}/theories/{f}.vo')
        except FileNotFoundError: pass
    for f in todo:
        while True:
            rc, out, er = coqc(d, f)
            if rc == 0: break
            if rc == -1:
                m = re.findall(r'^Chars (\d+) - (\d+)', out, re.M)
                pos = int(m[-1][1]) + 1 if m else 0
            else:
                m = re.search(r'line (\d+), characters (\d+)-', er)
                lines = open(f'{d}/theories/{f}.v', 'rb').read().split(b'\n')
                pos = sum(len(x) + 1 for x in lines[:int(m.group(1)) - 1]) + int(m.group(2)) if m else 0
            nm = cut(f'{d}/theories/{f}.v', pos)
            if nm is None:
                err = f'{f}: {er[-300:] or "timeout"}'; break
            broken.append(nm)
        if err: break
        if f.startswith('P_'):
            # axioms printed after each Print Assumptions
            src = open(f'{d}/theories/{f}.v').read()
            names = re.findall(r'Print Assumptions (\w+)\.', src)
            blocks = re.findall(r'(Closed under the global context|Axioms:)', out)
            for nm, bl in zip(names, blocks):
                if bl == 'Axioms:': failed.append(nm)
    return {'id': spec['id'], 'definition': spec.get('definition', ''), 'file': spec['file'], 'edit': spec['edit'], 'claim_broken': spec['claim'], 'checked': spec.get('targets') or 'all',
            'lemmas_broken': broken[:25], 'theorems_failed': failed, 'compile_error': err, 'seconds': round(time.time() - t0)}

if __name__ == '__main__':
    specs = json.load(open(sys.argv[1])); ids = set(sys.argv[2:])
    for sp in specs:
        if ids and sp['id'] not in ids: continue
        r = run(sp)
        r['theorems_tightened'] = []
        with open(LOG, 'a') as fh: fh.write(json.dumps(r) + '\n')
        print(json.dumps(r), flush=True)
