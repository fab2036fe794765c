#!/usr/bin/env python3
"""Tries the theorems against wrong programs.

seed.py base          copy rocq/ to $SEED/base, build it, note the section variables each proof uses
seed.py run ID...     apply the edits of seeded/mutations.py named ID to a copy, rebuild, and append what
                      failed to seeded/LOG.jsonl
seed.py refute ID...  prove the statement of a property theorem false of the edited program, with the
                      scripts of seeded/refutations.py; the answers join the line in LOG.jsonl

A proof that fails is replaced by an axiom of its own, so that every broken lemma is found and Print
Assumptions tells which property theorems rest on one."""
import os, re, sys, json, shutil, subprocess, threading, time
ROOT = os.path.abspath(os.path.join(os.path.dirname(os.path.abspath(__file__)), '..'))
SEED = os.environ.get('SEED', '/tmp/seed')
JOBS = int(os.environ.get('JOBS', '3'))
LIMIT = int(os.environ.get('LIMIT', '400'))
START = re.compile(r'^\s*(?:Local\s+|Global\s+)?(Lemma|Theorem|Example|Corollary|Fact|Remark|Definition|Fixpoint|Instance|Inductive|Record)\s+([\w\']+)', re.M)

def files(d):
    return [l.strip() for l in open(d + '/_CoqProject') if l.strip().endswith('.v')]
def deps(d):
    fs = files(d)
    out = subprocess.run(['coqdep', '-Q', 'theories', 'Verif'] + fs, cwd=d, capture_output=True, text=True).stdout
    g = {}
    for line in out.splitlines():
        m = re.match(r'^(\S+\.vo)\b.*?:\s*(.*)$', line)
        if m:
            g[m.group(1)[:-1]] = [x[:-1] for x in m.group(2).split() if x.endswith('.vo') and x.startswith('theories/')]
    return fs, g
def coqc(d, f, limit=LIMIT):
    try:
        p = subprocess.run(['coqc', '-q', '-w', 'none', '-Q', 'theories', 'Verif', f], cwd=d, capture_output=True, text=True, timeout=limit)
        return p.returncode, p.stdout, p.stderr
    except subprocess.TimeoutExpired as e:
        return 124, '', 'timeout'

def copy(a, b):
    shutil.rmtree(b, ignore_errors=True)
    shutil.copytree(a, b, ignore=shutil.ignore_patterns('*.vos', '*.vok', '*.glob', '.*.aux', '*.out'))

def base():
    b = SEED + '/base'
    os.makedirs(SEED, exist_ok=True)
    copy(ROOT + '/rocq', b)
    subprocess.run('coq_makefile -f _CoqProject -o Makefile && make -j4 > build.log 2>&1', shell=True, cwd=b, check=True)
    using = {}
    t = SEED + '/using'
    copy(b, t)
    for f in files(b):
        s = open(b + '/' + f).read()
        if not re.search(r'^\s*Section ', s, re.M): continue
        open(t + '/' + f, 'w').write('Set Suggest Proof Using.\n' + s)
        rc, out, err = coqc(t, f, 900)
        for m in re.finditer(r'The proof of ([\w\']+)\s+should start with one of the following commands:\s+Proof using ?([^.]*)\.', out + err):
            using[f + ':' + m.group(1)] = m.group(2).split()
        if rc: print('warning', f, err[-300:])
    json.dump(using, open(SEED + '/using.json', 'w'))
    print('base ready', len(using))

def try_file(d, f, using, broken, lock):
    """Compile; replace failing proofs.  Result: None or a reason to stop."""
    tries = 0
    while True:
        rc, out, err = coqc(d, f)
        if rc == 0:
            open(d + '/' + f + '.out', 'w').write(out)
            return None
        m = re.search(r'File "[^"]*", line (\d+), characters (\d+)-(\d+):\s*(Error.*)', err, re.S)
        if not m or tries > 60:
            return f'{f}: ' + (err.strip().splitlines() or ['?'])[-1][:200]
        tries += 1
        text = open(d + '/' + f).read()
        lines = text.split('\n')
        n = int(m.group(1))
        pos = sum(len(l) + 1 for l in lines[:n - 1]) + min(int(m.group(2)), len(lines[n - 1]))
        starts = [x for x in START.finditer(text) if x.start() <= pos]
        if not starts: return f'{f}: no statement at line {n}'
        st = starts[-1]
        pr = re.compile(r'\bProof( using[^.]*)?\.(?=\s)').search(text, st.end())
        if not pr or pr.start() > pos: return f'{f}: statement of {st.group(2)}: ' + ' '.join(m.group(4).split())[:160]
        en = re.compile(r'\b(Qed|Defined)\.(?=\s|$)').search(text, pr.end())
        if not en or en.end() < pos: return f'{f}: line {n}: ' + ' '.join(m.group(4).split())[:160]
        name = st.group(2)
        u = using.get(f + ':' + name)
        pu = 'Proof.' if u is None else ('Proof using ' + ' '.join(u) + '.').replace('using .', 'using .')
        if en.group(1) == 'Defined': return f'{f}: transparent proof {name}'
        with lock: broken.append(name)
        text = text[:st.start()] + f'\nAxiom broken_{name.replace(chr(39), "_q")} : forall P : Prop, P.\n' + text[st.start():pr.start()] + \
            f'{pu} intros; apply broken_{name.replace(chr(39), "_q")}. Qed.' + text[en.end():]
        open(d + '/' + f, 'w').write(text)

def edit(d, mut):
    dirty0 = set()
    for (f, old, new) in mut['edits']:
        p = d + '/theories/' + f
        s = open(p).read()
        if s.count(old) != 1:
            print(mut['id'], 'edit matches', s.count(old), 'times:', old[:60]); return None
        open(p, 'w').write(s.replace(old, new)); dirty0.add('theories/' + f)
    return dirty0

def run(mut):
    b, d = SEED + '/base', SEED + '/work'
    copy(b, d)
    using = json.load(open(SEED + '/using.json'))
    dirty0 = edit(d, mut)
    if dirty0 is None: return None
    fs, g = deps(d)
    dirty = set(dirty0)
    while True:
        more = {f for f in fs if f not in dirty and any(x in dirty for x in g.get(f, []))}
        if not more: break
        dirty |= more
    todo = [f for f in fs if f in dirty]
    for f in todo:
        vo = d + '/' + f + 'o'
        if os.path.exists(vo): os.remove(vo)
    done, failed, running, broken, lock = set(), {}, set(), [], threading.Lock()
    cond = threading.Condition()
    def worker():
        while True:
            with cond:
                while True:
                    # files behind a hopeless one are hopeless
                    for f in todo:
                        if f not in done and f not in failed and f not in running and any(x in failed for x in g[f]):
                            failed[f] = 'depends'
                    pick = next((f for f in todo if f not in done and f not in failed and f not in running and
                                 all(x not in dirty or x in done for x in g[f])), None)
                    if pick or all(f in done or f in failed for f in todo): break
                    cond.wait()
                if not pick: cond.notify_all(); return
                running.add(pick)
            r = try_file(d, pick, using, broken, lock)
            with cond:
                running.discard(pick)
                if r is None: done.add(pick)
                else: failed[pick] = r
                cond.notify_all()
    ts = [threading.Thread(target=worker) for _ in range(JOBS)]
    [t.start() for t in ts]; [t.join() for t in ts]
    hit = set()
    for f in todo:
        if 'Properties' not in f: continue
        if f in failed:
            hit.add('all of ' + os.path.basename(f)); continue
        names = re.findall(r'^Print Assumptions (\w+)\.', open(d + '/' + f).read(), re.M)
        out = open(d + '/' + f + '.out').read()
        blocks = re.findall(r'Closed under the global context|Axioms:\n(?:(?!Closed under|Axioms:).*\n?)*', out)
        if len(blocks) != len(names): hit.add('? ' + f); continue
        for n, bl in zip(names, blocks):
            if 'broken_' in bl: hit.add(n)
    ex = [n for n in broken if re.match(r'C\d\d_', n) and n not in hit]
    stops = [v for v in failed.values() if v != 'depends']
    return {'broken': sorted(set(broken)), 'theorems': sorted(hit), 'cases': sorted(set(ex)), 'stopped': stops}

def statement(name):
    for f in files(ROOT + '/rocq'):
        m = re.search(r'^Theorem ' + name + r'\b\s*(.*?)\.\s*\n\s*Proof', open(ROOT + '/rocq/' + f).read(), re.S | re.M)
        if m and m.group(1).startswith(':'): return '(' + m.group(1)[1:].strip() + (')%list' if 'PropertiesChan' in f else ')')
    raise SystemExit('no theorem ' + name)

def refute(mut, refs):
    """Does the statement of each theorem fail of the edited program?  Only what the statement needs is compiled."""
    d = SEED + '/refute'
    os.makedirs(SEED, exist_ok=True)
    copy(ROOT + '/rocq', d)
    dirty = edit(d, mut)
    if dirty is None: return []
    using = json.load(open(SEED + '/using.json')) if os.path.exists(SEED + '/using.json') else {}
    fs, g = deps(d)
    while True:
        more = {f for f in fs if f not in dirty and any(x in dirty for x in g.get(f, []))}
        if not more: break
        dirty |= more
    need = set()
    def want(f):
        if f not in need: need.add(f); [want(x) for x in g.get(f, [])]
    for (thm, imports, script) in refs: [want('theories/' + x + '.v') for x in imports.split()]
    for f in dirty:
        if os.path.exists(d + '/' + f + 'o'): os.remove(d + '/' + f + 'o')
    for f in fs:
        if f in need and not os.path.exists(d + '/' + f + 'o'):
            r = try_file(d, f, using, [], threading.Lock())
            if r: return [(thm, 'not built: ' + r) for (thm, imports, script) in refs]
    out = []
    for k, (thm, imports, script) in enumerate(refs):
        f = 'theories/Refute%d.v' % k
        open(d + '/' + f, 'w').write('From Coq Require Import Lia.\nFrom Verif Require Import ' + imports + '.\nLocal Open Scope string_scope.\n' +
            'Theorem refuted : ~ (' + statement(thm) + ').\nProof.\n' + script + '\nQed.\nPrint Assumptions refuted.\n')
        rc, o, e = coqc(d, f)
        out.append((thm, 'false' if rc == 0 and 'Closed under' in o else 'script fails: ' + ' '.join((e or o).split())[:600]))
    return out

def refutes(ids):
    muts, refs = {}, {}
    exec(open(ROOT + '/seeded/mutations.py').read(), {'M': lambda id, **k: muts.__setitem__(id, dict(k, id=id))})
    exec(open(ROOT + '/seeded/refutations.py').read(), {'R': lambda id, *r: refs.setdefault(id, []).append(r)})
    log = ROOT + '/seeded/LOG.jsonl'
    seen = {json.loads(l)['id'] for l in open(log) if 'statements_false' in l}
    for i in (refs if ids == ['all'] else ids):
        if ids == ['all'] and i in seen: continue
        r = refute(muts[i], refs[i])
        good = [t for (t, a) in r if a == 'false']
        for (t, a) in r: print(i, t, a, flush=True)
        if good and len(good) == len(r): note(log, muts[i], {'statements_false': good})

def note(log, m, more):
    """Put more into the log line of the edit (a new one if there is none)."""
    lines = [json.loads(l) for l in open(log) if l.strip()]
    line = {}
    for l in lines:
        if l['id'] == m['id']: line.update(l)
    if not line: line = {'id': m['id'], 'rebuilt': False}
    line.update({'definition': m['definition'], 'edit': m['edit'], 'claim': m['claim'], 'tightened': m.get('tightened', [])})
    line.update(more)
    if not line['rebuilt']: line['failed'] = line['statements_false']
    out, done = [], False
    for l in lines:
        if l['id'] != m['id']: out.append(l)
        elif not done: out.append(line); done = True
    if not done: out.append(line)
    open(log, 'w').write(''.join(json.dumps(l) + '\n' for l in out))

def main():
    if sys.argv[1] == 'base': return base()
    if sys.argv[1] == 'refute': return refutes(sys.argv[2:])
    muts = {}
    exec(open(ROOT + '/seeded/mutations.py').read(), {'M': lambda id, **k: muts.__setitem__(id, dict(k, id=id))})
    ids = list(muts) if sys.argv[2:] == ['all'] else sys.argv[2:]
    log = ROOT + '/seeded/LOG.jsonl'
    seen = {json.loads(l)['id'] for l in open(log) if l.strip()} if os.path.exists(log) else set()
    for i in ids:
        if i in seen and sys.argv[2:] == ['all']: continue
        t = time.time()
        r = run(muts[i])
        if r is None: continue
        m = muts[i]
        line = {'id': i, 'definition': m['definition'], 'edit': m['edit'], 'claim': m['claim'],
                'rebuilt': True, 'failed': r['theorems'], 'failed_lemmas': r['broken'], 'failed_cases': r['cases'],
                'tightened': m.get('tightened', [])}
        if r['stopped']: line['stopped'] = r['stopped']
        if any(json.loads(l)['id'] == i for l in open(log) if l.strip()): note(log, m, line)
        else: open(log, 'a').write(json.dumps(line) + '\n')
        print(i, round(time.time() - t), 's', 'theorems', r['theorems'], 'broken', len(r['broken']), 'stopped', r['stopped'], flush=True)
main()
