#!/usr/bin/env python3
"""Mutation testing of the theorems, in a scratch copy.

usage: mutate.py mutations.json [id ...]
mutations.json: list of {id, file, old, new, definition, edit, claim}.
Each mutation edits one model definition. The development is rebuilt; a proof that no longer goes through is replaced by
`Admitted` in the scratch copy and the build goes on. The property theorems that then depend on an admitted proof are the ones the edit
breaks; all the others still prove. One JSON line per mutation is printed to the output file.
"""
import sys, os, re, json, subprocess, shutil, time, concurrent.futures as cf, threading
SRC = os.environ.get('SRC', '/verif/rocq/theories')
WORK = os.environ.get('WORK', '/tmp/mutwork')
DST = WORK + '/theories'
OUT = WORK + '/out.jsonl'
START = re.compile(r'^\s*(?:#\[[^\]]*\]\s*)?(?:Local |Global )?(Lemma|Theorem|Example|Corollary|Fact|Remark|Instance|Definition|Fixpoint)\s+(\w+)')

def sync():
    for g in os.listdir(DST):
        os.remove(f'{DST}/{g}')
    for g in os.listdir(SRC):
        if g.endswith(('.v', '.vo')):
            shutil.copy2(f'{SRC}/{g}', f'{DST}/{g}')

def deps(files):
    out = subprocess.run(['coqdep', '-R', '.', 'Verif'] + files, cwd=DST, capture_output=True, text=True).stdout
    d = {}
    for l in out.splitlines():
        m = re.match(r'(\S+)\.vo\b[^:]*: (.*)', l)
        if m:
            d[m.group(1)] = [x[:-3] for x in m.group(2).split() if x.endswith('.vo') and '/' not in x]
    return d

def enclosing(text, pos):
    """(name, kind, start of proof, end of proof) of the proof around character pos, or None"""
    best = None
    off = 0
    for line in text.splitlines(True):
        m = START.match(line)
        if m and off <= pos:
            best = (off, m.group(1), m.group(2))
        off += len(line)
    if not best:
        return None
    o, kind, name = best
    p = text.find('Proof', o)
    if p < 0:
        return None
    nxt = START_search(text, o + 1)
    if nxt is not None and p > nxt:
        return None
    q = re.compile(r'\b(Qed|Defined|Admitted)\.').search(text, p)
    if not q or pos > q.end():
        return None
    if pos < p:
        return (name, 'statement', p, q.end())
    return (name, kind, p, q.end())

def START_search(text, frm):
    m = re.compile(START.pattern, re.M).search(text, frm)
    return m.start() if m else None

def linecol(text, line, col):
    # coq counts bytes in columns
    ls = text.encode().splitlines(True)
    b = sum(len(x) for x in ls[:line - 1]) + col
    return len(text.encode()[:b].decode(errors='ignore'))

def compile_file(f, limit):
    cmd = 'ulimit -v 6000000; exec timeout %d coqc -time -R . Verif %s.v' % (limit, f)
    r = subprocess.run(['bash', '-c', cmd], cwd=DST, capture_output=True, text=True)
    return r.returncode, r.stdout, r.stderr

def work(f, base, failed, lock):
    """compile f, admitting broken proofs; returns True if compiled"""
    for _ in range(60):
        t = int(max(120, 8 * base.get(f, 25) + 80))
        rc, so, se = compile_file(f, t)
        if rc == 0:
            return True
        text = open(f'{DST}/{f}.v').read()
        m = re.findall(r'File "\./%s\.v", line (\d+), characters (\d+)-(\d+):\s*\n?Error' % re.escape(f), se + so)
        if m and rc != 124:
            pos = linecol(text, int(m[-1][0]), int(m[-1][1]))
        else:
            cs = re.findall(r'^Chars (\d+) - (\d+) ', so, re.M)
            b = int(cs[-1][1]) if cs else 0
            pos = len(text.encode()[:b].decode(errors='ignore')) + 2
        e = enclosing(text, pos)
        if e is None or e[1] in ('statement',):
            with lock:
                failed.append((f, 'UNFIXABLE ' + (e[0] if e else '?'), (se or 'timeout')[-300:]))
            return False
        name, kind, p, q = e
        with lock:
            failed.append((f, name, 'timeout' if rc == 124 else ''))
        new = text[:p] + 'Admitted.' + text[q:]
        open(f'{DST}/{f}.v', 'w').write(new)
    return False

def run(mut, base, files, dep):
    sync()
    p = f'{DST}/{mut["file"]}'
    s = open(p).read()
    n = s.count(mut['old'])
    if n != 1 and not mut.get('all'):
        return {'id': mut['id'], 'error': f'pattern occurs {n} times'}
    open(p, 'w').write(s.replace(mut['old'], mut['new']))
    root = mut['file'][:-2]
    # files that must be rebuilt
    dirty = {root}
    changed = True
    while changed:
        changed = False
        for f in files:
            if f not in dirty and any(x in dirty for x in dep[f]):
                dirty.add(f); changed = True
    # NARROW=1: only what the theorems of the claims named in the mutation need
    if os.environ.get('NARROW'):
        claims = re.findall(r'C\d+', mut['claim'])
        need = {f for f in files if f.startswith('Properties_') and any(re.search(r'^Theorem %s_' % c, open(f'{SRC}/{f}.v').read(), re.M) for c in claims)}
        todo = list(need)
        while todo:
            for x in dep[todo.pop()]:
                if x not in need and x in dep:
                    need.add(x); todo.append(x)
        for f in dirty - need:
            try: os.remove(f'{DST}/{f}.vo')
            except FileNotFoundError: pass
        files = [f for f in files if f in need or f not in dirty]
        dirty &= need
    failed, lock = [], threading.Lock()
    done, bad = set(f for f in files if f not in dirty), set()
    t0 = time.time()
    with cf.ThreadPoolExecutor(int(os.environ.get('J', '4'))) as ex:
        running = {}
        pending = set(dirty)
        for f in dirty:
            try: os.remove(f'{DST}/{f}.vo')
            except FileNotFoundError: pass
        while pending or running:
            for f in sorted(pending, key=lambda f: -base.get(f, 1)):
                if any(x in bad for x in dep[f]):
                    pending.discard(f); bad.add(f); continue
                if all(x in done for x in dep[f]):
                    pending.discard(f)
                    running[ex.submit(work, f, base, failed, lock)] = f
            if not running:
                if pending: continue
                break
            dn, _ = cf.wait(running, return_when=cf.FIRST_COMPLETED)
            for fu in dn:
                f = running.pop(fu)
                (done if fu.result() else bad).add(f)
    # which property theorems depend on admitted proofs
    props = [f for f in files if f.startswith('Properties_')]
    broken, holds, unknown = [], [], []
    for f in props:
        txt = open(f'{SRC}/{f}.v').read()
        ths = re.findall(r'^Theorem (C\d\d+_\w+)', txt, re.M)
        if f in bad:
            unknown += ths; continue
        if f not in dirty:
            holds += ths; continue
        q = f'From Verif Require {f}.\n' + ''.join(f'Print Assumptions {f}.{t}.\n' for t in ths)
        open(f'{DST}/Zq_{f}.v', 'w').write(q)
        r = subprocess.run(['bash', '-c', f'timeout 600 coqc -R . Verif Zq_{f}.v'], cwd=DST, capture_output=True, text=True)
        # split per theorem: outputs are in order
        parts = re.split(r'(?=^Closed under the global context|^Axioms:)', r.stdout, flags=re.M)
        parts = [x for x in parts if x.startswith(('Closed', 'Axioms'))]
        if len(parts) != len(ths):
            unknown += ths; continue
        for t, x in zip(ths, parts):
            ax = re.findall(r'^(\S+)\s*:', x, re.M) + re.findall(r'^(\S+)$', x, re.M)
            ax = [a for a in ax if not a.startswith(('Classical', 'FunctionalExt', 'Axioms', 'Closed'))]
            own = any(n == t and ff == f for ff, n, _ in failed)
            (broken if ax or own else holds).append(t)
    return {'id': mut['id'], 'definition': mut['definition'], 'edit': mut['edit'], 'claim': mut['claim'], 'seconds': int(time.time() - t0),
            'proofs_failed': [f'{a}.{b}' + (f' ({c.strip()[:200]})' if c else '') for a, b, c in failed], 'theorems_failed': broken, 'unknown': unknown,
            'claims_failed': sorted(set(t.split('_')[0] for t in broken))}

def main():
    muts = json.load(open(sys.argv[1]))
    only = set(sys.argv[2:])
    os.makedirs(DST, exist_ok=True)
    sync()
    files = [l.strip().split('/')[-1][:-2] for l in open(os.environ.get('PROJECT', '/verif/rocq/_CoqProject')) if l.strip().endswith('.v')]
    dep = deps([f + '.v' for f in files])
    base = json.load(open(WORK + '/base.json')) if os.path.exists(WORK + '/base.json') else {}
    if not base:
        for f in files:
            t = time.time(); subprocess.run(['coqc', '-R', '.', 'Verif', f + '.v'], cwd=DST, capture_output=True); base[f] = time.time() - t
        json.dump(base, open(WORK + '/base.json', 'w'))
    for m in muts:
        if only and m['id'] not in only: continue
        r = run(m, base, files, dep)
        open(OUT, 'a').write(json.dumps(r) + '\n')
        print(r['id'], r.get('error') or (r['seconds'], r['claims_failed'], 'UNKNOWN' if r['unknown'] else ''), flush=True)
main()
