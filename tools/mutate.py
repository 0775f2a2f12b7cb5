#!/usr/bin/env python3
"""Seed realistic bugs into a scratch copy of the model and see which theorems fail.

usage: mutate.py MUTATIONS.json [first-index]
Each mutation: {"file": "ModelX.v", "def": "...", "old": "...", "new": "...",
                "edit": "...", "claim": "Cnn: ...", "tightened": [...]}
The scratch copy is /tmp/scratch/rocq (MUT_SCR=DIR: DIR/rocq).  Every proof that no longer goes through is cut out
(replaced by Admitted, in the scratch copy only) so that the build goes on; a theorem counts as
failed when its own proof was cut or it depends on a cut lemma.  One line per mutation is
appended to /verif/seeded/LOG.jsonl.
"""
import json, os, re, shutil, subprocess, sys
SRC = os.environ.get('MUT_SRC', '/verif/rocq'); TOP = os.environ.get('MUT_SCR', '/tmp/scratch'); SCR = TOP + '/rocq'; LOG = '/verif/seeded/LOG.jsonl'
# MUT_QUICK=1: build only the files with theorems of the properties the claim names
QUICK = bool(os.environ.get('MUT_QUICK'))

def sync():
    os.makedirs(SCR, exist_ok=True)
    subprocess.run(['rsync', '-a', '--delete', SRC + '/', SCR + '/'], check=True) \
        if shutil.which('rsync') else \
        subprocess.run(f'rm -rf {SCR} && cp -a {SRC} {SCR}', shell=True, check=True)

def build(targets=''):
    try:
        p = subprocess.run(f'timeout 900 make -j4 {targets} COQEXTRAFLAGS="-set \\"Default Timeout=40\\"" 2>&1', shell=True, cwd=SCR, capture_output=True, text=True)
        return p.returncode, p.stdout
    except Exception as e:
        return 99, str(e)

def cut(path, line):
    lines = open(path).read().split('\n')
    i = line - 1
    while i >= 0 and not re.match(r'\s*(Local )?(Lemma|Theorem|Corollary|Example|Fact|Remark|Definition|Fixpoint)\b', lines[i]):
        i -= 1
    if i < 0: return None
    m = re.match(r'\s*(?:Local )?(\w+)\s+([\w\']+)', lines[i]); kind, name = m.group(1), m.group(2)
    text = '\n'.join(lines)
    pos = sum(len(l) + 1 for l in lines[:i])
    mm = re.compile(r'\bProof\b[^.]*\.').search(text, pos)
    if not mm: return None
    me = re.compile(r'\b(Qed|Defined)\.').search(text, mm.end())
    if not me: return None
    new = text[:mm.start()] + 'Admitted.' + '\n' * text[mm.start():me.end()].count('\n') + text[me.end():]
    if me.start() < sum(len(l) + 1 for l in lines[:line-1]): return None
    open(path, 'w').write(new)
    return name

def run(m):
    sync()
    path = f'{SCR}/theories/{m["file"]}'
    s = open(path).read()
    if s.count(m['old']) != 1:
        print('BAD MUTATION (matches %d): %s' % (s.count(m['old']), m['old'])); return None
    open(path, 'w').write(s.replace(m['old'], m['new']))
    cuts = []; note = None
    before = {f: os.path.getmtime(f'{SCR}/theories/{f}') for f in os.listdir(f'{SCR}/theories') if f.endswith('.vo')}
    want = re.findall(r'C(\d\d+)', m['claim'].split(':')[0])
    targets = ' '.join(f'theories/{f[:-2]}.vo' for f in sorted(os.listdir(f'{SCR}/theories')) if f.endswith('.v')
        and any(re.search(rf'^(?:Theorem|Corollary)\s+c{w}_', open(f'{SCR}/theories/{f}').read(), re.M) for w in want)) if QUICK else ''
    for _ in range(200):
        rc, out = build(targets)
        if rc == 0: break
        errs = re.findall(r'File "\./theories/(\w+\.v)", line (\d+)[^\n]*\nError', out)
        if not errs: note = 'build: ' + out[-600:]; break
        ok = False
        for f, l in errs:
            n = cut(f'{SCR}/theories/{f}', int(l))
            if n: cuts.append((f[:-2], n)); ok = True
            else: note = f'error outside a proof: {f}:{l}: ' + out[-400:]
        if not ok: break
        note = None
    if note: print(note); return None
    mods = [f[:-3] for f in os.listdir(f'{SCR}/theories') if f.startswith('Prop') and f.endswith('.vo')
            and os.path.getmtime(f'{SCR}/theories/{f}') != before.get(f)]
    mods = sorted(set(mods))
    failed = []
    q = ''
    names = []
    for mod in mods:
        q += f'From Verif Require {mod}.\n'
        for t in re.findall(r'^(?:Theorem|Corollary)\s+(c\d\d+_\w+)', open(f'{SCR}/theories/{mod}.v').read(), re.M):
            names.append((mod, t))
    if cuts:
        for mod, t in names:
            q += f'Goal True. idtac "@@ {t}". Abort.\nPrint Assumptions Verif.{mod}.{t}.\n'
        open(TOP + '/q.v', 'w').write(q)
        o = subprocess.run('coqc -Q rocq/theories Verif q.v', shell=True, cwd=TOP, capture_output=True, text=True)
        if o.returncode: print(o.stderr[-500:]); return None
        for part in o.stdout.split('@@ ')[1:]:
            t, rest = part.split('\n', 1)
            if 'Axioms:' in rest: failed.append(t.strip())
    ex = [n for f, n in cuts if f.startswith('Prop') and not re.match(r'c\d\d+_.*', n) or n.endswith('_case')]
    entry = {"definition": f'{m["file"]}: {m["def"]}', "edit": m["edit"], "claim": m["claim"],
             "failed_theorems": failed, "tightened": m.get("tightened", [])}
    if m.get("remark"): entry["remark"] = m["remark"]
    hit = all(any(t.startswith(f'c{w}_') for t in failed) for w in want)
    print(('killed ' if hit else 'SURVIVED ' if not failed else 'OTHER-KILL ') + m['def'] + ' | ' + m['edit'] + ' -> ' + ', '.join(failed) + ('' if failed else ' | cuts: ' + str(cuts)))
    sys.stdout.flush()
    return entry if hit else None

if __name__ == '__main__':
    ms = json.load(open(sys.argv[1])); start = int(sys.argv[2]) if len(sys.argv) > 2 else 0
    for m in ms[start:]:
        e = run(m)
        if e:
            with open(LOG, 'a') as f: f.write(json.dumps(e) + '\n')
