#!/usr/bin/env python3
# Tests the theorems against wrong programs.  For each edit of a model definition
# (tools/mutations.json) a scratch copy of rocq/ is edited and rebuilt; a proof that no
# longer goes through is replaced by Admitted in the scratch copy so that the build can
# go on, and Print Assumptions in the *Props*.v files tells which theorems depend on it.
# With FAST=1 the build ends with the first proofs that fail, and the theorems reported are
# those whose proofs use one of them, found by following names through the sources.
# With FIRST=1 the build ends with the first file that fails.
# Usage: mutate.py [index ...]; appends one line per edit to seeded/LOG.jsonl.
import json, os, re, shutil, subprocess, sys, time
from concurrent.futures import ThreadPoolExecutor
SCRATCH = os.environ.get('SCRATCH', '/tmp/mut/w')
muts = json.load(open('/verif/tools/mutations.json'))
done = set()
try:
    for l in open('/verif/seeded/LOG.jsonl'):
        d = json.loads(l); done.add((d['file'], d['definition'], d['edit']))
except FileNotFoundError:
    pass

def make():
    p = subprocess.run(['timeout', '1200', 'make', '-j' + os.environ.get('JOBS', '4')] + ([] if os.environ.get('FIRST') == '1' else ['-k']), cwd=SCRATCH, capture_output=True, text=True)
    return p.returncode, p.stdout + p.stderr

def admit(path, line):
    lines = open(path).read().split('\n')
    # start of the enclosing statement
    i = line - 1
    head = re.compile(r'^\s*(?:Local |Global |#\[.*\]\s*)?(Lemma|Theorem|Corollary|Example|Fact|Remark|Definition|Fixpoint|Ltac|Inductive)\b\s*(\w+)')
    while i >= 0 and not head.match(lines[i]): i -= 1
    m = head.match(lines[i])
    if m.group(1) not in ('Lemma', 'Theorem', 'Corollary', 'Example', 'Fact', 'Remark'):
        return None, m.group(2)
    j = i
    while not re.search(r'\bProof\b', lines[j]): j += 1
    k = j
    while not re.search(r'\b(Qed|Defined)\.', lines[k]): k += 1
    pre = lines[j][:lines[j].index('Proof')]
    stmt_bad = line - 1 < j
    if stmt_bad: return None, m.group(2)
    new = [pre + 'Proof. Admitted.'] + [''] * (k - j)
    lines[j:k + 1] = new
    open(path, 'w').write('\n'.join(lines))
    return m.group(1), m.group(2)

FAST = os.environ.get('FAST') == '1'
item = re.compile(r'^[ \t]*(?:Local |Global |#\[.*\]\s*)?(Lemma|Theorem|Corollary|Example|Fact|Remark|Definition|Fixpoint|Ltac|Inductive)\s+(\w+)', re.M)
def dependents(theories, names):
    """The property theorems whose proofs reach one of the (file, name) pairs.  A name means
    the one of its own file, else that of the file imported last that has it."""
    text, defs, imports = {}, {}, {}
    for f in os.listdir(theories):
        if not f.endswith('.v'): continue
        s = re.sub(r'\(\*.*?\*\)', '', open(theories + '/' + f).read(), flags=re.S)
        text[f] = s
        imports[f] = [m + '.v' for l in re.findall(r'From Verif Require Import ([\w\s]+)\.', s) for m in l.split()]
        defs[f] = {m.group(2) for m in item.finditer(s)}
    uses, props = {}, set()
    for f, s in text.items():
        def resolve(q, n):
            if q and q + '.v' in defs: return (q + '.v', n)
            if n in defs[f]: return (f, n)
            for g in reversed(imports[f]):
                if n in defs.get(g, ()): return (g, n)
        found = list(item.finditer(s))
        for a, b in zip(found, found[1:] + [None]):
            body = s[a.end():b.start() if b else len(s)]
            u = {resolve(q, n) for q, n in re.findall(r'(?:(\w+)\.)?(\w+)', body)}
            uses.setdefault((f, a.group(2)), set()).update(u)
            if 'Props' in f and a.group(1) == 'Theorem': props.add((f, a.group(2)))
    bad, grown = set(names), True
    while grown:
        more = {n for n, u in uses.items() if n not in bad and u & bad}
        bad |= more
        grown = bool(more)
    return sorted(n for f, n in bad & props)

def run(mu):
    if os.path.exists(SCRATCH): shutil.rmtree(SCRATCH)
    shutil.copytree(os.environ.get('SRC', '/verif/rocq'), SCRATCH, copy_function=shutil.copy2)
    path = SCRATCH + '/theories/' + mu['file']
    s = open(path).read()
    assert s.count(mu['old']) >= 1, 'pattern not found: ' + mu['old']
    open(path, 'w').write(s.replace(mu['old'], mu['new'], 1))
    failed, examples, lemmas, broken = [], [], [], set()
    stuck = None
    begun = time.time()
    for _ in range(400):
        rc, out = make()
        if rc == 0: break
        places = {}
        for f, l in re.findall(r'File "\./theories/(\w+\.v)", line (\d+), characters [^\n]*\n(?:Error|In environment|Syntax)', out): places.setdefault(f, int(l))
        if not places: stuck = out[-400:]; break
        for f, l in places.items():
            kind, name = admit(SCRATCH + '/theories/' + f, l)
            if kind is None: stuck = '%s:%d %s: %s' % (f, l, name, out[-300:]); break
            if kind != 'Example': broken.add((f, name))
            if kind == 'Example': examples.append(name)
            elif 'Props' in f: failed.append(name)
            else: lemmas.append(name)
        if stuck: break
        if FAST and (failed or lemmas):
            hit = dependents(SCRATCH + '/theories', broken)
            if hit: return hit, examples, lemmas, None
    # dependence on admitted lemmas
    if stuck is None and lemmas:
        # only files that were rebuilt can depend on the edit
        again = [f for f in sorted(os.listdir(SCRATCH + '/theories')) if 'Props' in f and f.endswith('.v')
                 and os.path.getmtime(SCRATCH + '/theories/' + f + 'o') >= begun]
        def assumptions(f):
            return f, subprocess.run(['coqc', '-Q', 'theories', 'Verif', '-o', SCRATCH + '/' + f + 'o', 'theories/' + f], cwd=SCRATCH, capture_output=True, text=True).stdout
        with ThreadPoolExecutor(int(os.environ.get('JOBS', '4'))) as ex:
            for f, out in ex.map(assumptions, again):
                names = re.findall(r'^Print Assumptions (\w+)\.', open(SCRATCH + '/theories/' + f).read(), re.M)
                blocks = re.split(r'(?m)^(?=Closed under the global context|Axioms:)', out)
                blocks = [b for b in blocks if b.strip()]
                for n, b in zip(names, blocks):
                    if b.startswith('Axioms:') and any(re.search(r'\b' + x + r'\b', b) for x in lemmas + failed) and n not in failed:
                        failed.append(n)
    return failed, examples, lemmas, stuck

idx = [int(x) for x in sys.argv[1:]] or range(len(muts))
for i in idx:
    mu = muts[i]
    if (mu['file'], mu['definition'], mu['edit']) in done: continue
    try:
        failed, examples, lemmas, stuck = run(mu)
    except Exception as e:
        print(i, 'ERROR', e, flush=True); continue
    rec = dict(file=mu['file'], definition=mu['definition'], edit=mu['edit'], claim=mu['claim'],
               theorems_failed=sorted(failed), lemmas_failed=lemmas, examples_failed=examples, tightened=mu.get('tightened', []))
    if stuck: rec['build_stopped'] = stuck
    print(i, mu['definition'], '->', rec['theorems_failed'], 'lemmas', lemmas[:6], 'ex', examples, 'STUCK' if stuck else '', stuck or '', flush=True)
    if not stuck and failed:
        open('/verif/seeded/LOG.jsonl', 'a').write(json.dumps(rec) + '\n')
