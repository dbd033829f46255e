#!/usr/bin/env python3
"""Mutation testing of the theorems.

usage: mutate.py MUTATIONS.py [id ...]

Each mutation edits one definition of the model in a scratch copy (never in
/verif), rebuilds with make -k, and records in seeded/LOG.jsonl which lemma
broke first in each file and which claimed theorems depend on those lemmas.
Needs /tmp/pristine: a built copy of /verif/rocq.
"""
import sys, os, re, json, subprocess, runpy, time
PR, MU, LOG = os.environ.get('PRISTINE', '/tmp/pristine'), os.environ.get('SCRATCH', '/tmp/mut'), '/verif/seeded/LOG.jsonl'
T = 'theories'
NAME = re.compile(r"^\s*(?:Local |Global |#\[[^\]]*\]\s*)?(Lemma|Theorem|Corollary|Example|Definition|Fixpoint|Instance|Inductive|Record|Fact|Remark)\s+([A-Za-z_][\w']*)", re.M)

def statements(d):
    """name -> (kind, file, line, text up to the next item)"""
    out = {}; byfile = {}
    for f in open(f'{d}/order.txt').read().split():
        src = open(f'{d}/{T}/{f}.v').read()
        ms = list(NAME.finditer(src))
        for a, b in zip(ms, ms[1:] + [None]):
            text = src[a.start(): b.start() if b else len(src)]
            line = src.count('\n', 0, a.start()) + 1
            out.setdefault(a.group(2), []).append((a.group(1), f, line, text))
            byfile.setdefault(f, []).append((line, a.group(2), a.group(1)))
    return out, byfile

def dependents(st, roots):
    """all items whose text mentions (transitively) a root"""
    words = {n: set(re.findall(r"[A-Za-z_][\w']*", ' '.join(x[3] for x in v))) for n, v in st.items()}
    todo, seen = list(roots), set(roots)
    inv = {}
    for n, w in words.items():
        for x in w:
            if x in st and x != n: inv.setdefault(x, set()).add(n)
    while todo:
        x = todo.pop()
        for y in inv.get(x, ()):
            # only through proofs and statements of lemmas, not through model definitions
            if y not in seen and st[y][0][0] in ('Lemma', 'Theorem', 'Corollary', 'Example', 'Instance', 'Fact', 'Remark'):
                seen.add(y); todo.append(y)
    return seen

def main():
    muts = runpy.run_path(sys.argv[1])['MUTATIONS']
    want = set(sys.argv[2:])
    done = set()
    if os.path.exists(LOG):
        done = {json.loads(l).get('id') for l in open(LOG) if l.strip()}
    claims = json.load(open('/verif/MANIFEST.json'))['claims']
    claimed = {t: c['property'] for c in claims for t in c['theorems']}
    for m in muts:
        if want and m['id'] not in want: continue
        if not want and m['id'] in done: continue
        subprocess.run(f'rm -rf {MU} && cp -a {PR} {MU}', shell=True, check=True)
        path = f"{MU}/{T}/{m['file']}.v"
        src = open(path).read()
        if src.count(m['old']) != 1:
            print(m['id'], 'BAD EDIT: old text occurs', src.count(m['old']), 'times', flush=True); continue
        open(path, 'w').write(src.replace(m['old'], m['new']))
        st, byfile = statements(MU)
        t0 = time.time()
        failed = []
        for rnd in range(8):
            p = subprocess.run('timeout 1500 make -k -j2 2>&1', shell=True, cwd=MU, capture_output=True, text=True)
            new = []
            for f, ln in re.findall(r'File "\./theories/(\w+)\.v", line (\d+), characters [^\n]*:\s*\nError', p.stdout):
                cand = [x for x in byfile[f] if x[0] <= int(ln)]
                if cand: new.append((f, cand[-1][1], cand[-1][2], cand[-1][0], int(ln)))
            failed += [x[:3] for x in new if x[:3] not in failed]
            dep = dependents(st, {n for f, n, k in failed})
            th = sorted(t for t in dep if t in claimed)
            hit = [t for t in th if claimed[t] in m['breaks']]
            verdict = 'killed' if hit else ('other' if th else 'SURVIVED')
            if hit or not new: break
            # look further: assume the lemmas that broke (in the scratch copy only)
            ok = True
            for f, n, k, line, ln in new:
                fp = f'{MU}/{T}/{f}.v'; ls = open(fp).read().split('\n')
                a = next((j for j in range(ln - 1, line - 2, -1) if re.search(r'\bProof\b[^.]*\.', ls[j])), None)
                b = next((j for j in range(ln - 1, len(ls)) if re.search(r'\b(Qed|Defined)\.', ls[j])), None)
                if a is None or b is None: ok = False; break
                ls[a] = re.sub(r'\bProof\b.*$', 'Proof.', ls[a])
                for j in range(a + 1, b): ls[j] = ''
                if a == b: ls[a] = ls[a] + ' Admitted.'
                else: ls[b] = 'Admitted.'
                open(fp, 'w').write('\n'.join(ls))
            if not ok: break
        direct = [f'{f}.{n}' for f, n, k in failed]
        rec = {'id': m['id'], 'definition': f"{m['file']}.v {m['def']}", 'edit': m.get('edit') or f"{m['old'].strip()}  -->  {m['new'].strip()}",
               'claim': m['claim'], 'properties': m['breaks'], 'first_failures': direct,
               'theorems_failed': th if len(th) <= 30 else th[:30] + [f'... {len(th)} in all'],
               'verdict': verdict, 'theorems_tightened': []}
        print(f"{m['id']} {m['file']}.{m['def']}: {verdict} direct={direct} hit={hit} ({time.time()-t0:.0f}s)", flush=True)
        if not failed: print(p.stdout[-600:])
        with open(LOG, 'a') as fh: fh.write(json.dumps(rec, ensure_ascii=False) + '\n')
main()
