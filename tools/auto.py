#!/usr/bin/env python3
"""Small edits of the model files, made by rule, to find definitions no theorem depends on.

auto.py list FILE...        the edits possible in theories/FILE.v, numbered
auto.py run DIR FILE:N...   apply each to the copy DIR of the built project, rebuild up to the first failure;
                            one line per edit: stopped (file and lemma), invalid (does not compile),
                            ONLY EXAMPLES (no lemma or theorem fails) or SURVIVED

DIR is a copy of rocq/ with its .vo files (as made by seed.py base), BASE another; FIRST names files to build first (otherwise NEAR)."""
import os, re, sys, json, shutil, subprocess, time
# where a wrong file is most likely to show: built before the rest
NEAR = {'GoStr': 'CharsProofs LibProofs', 'GoPath': 'LibProofs', 'Types': 'TreeFacts', 'Json': 'JsonProofs JsonTextProofs', 'Gen': 'RegexProofs GenProofs', 'GenMain': 'CmdProofs', 'Lua': 'LuaLexProofs LuaProofs',
        'Lex': 'LexProofs ScanProofs', 'Parse': 'ParseFacts ReadProofs', 'Analyze': 'ValidateProofs ComplainProofs', 'Build': 'EnquoteForm BuildFacts', 'BuildIO': 'FilesProofs', 'Combine': 'CombineProofs', 'Chan': 'ChanProofs', 'Main': 'OutcomeProofs'}
def mask(s):
    """Positions in comments are blanked."""
    out, d, i, q = list(s), 0, 0, False
    while i < len(s):
        if not q and s.startswith('(*', i): d += 1; out[i] = out[i + 1] = ' '; i += 2; continue
        if not q and d and s.startswith('*)', i): d -= 1; out[i] = out[i + 1] = ' '; i += 2; continue
        if d:
            if s[i] != '\n': out[i] = ' '
        elif s[i] == '"': q = not q
        i += 1
    return ''.join(out)
RULES = [(r'\bltb\b', 'leb'), (r'\bleb\b', 'ltb'), (r' <\? ', ' <=? '), (r' <=\? ', ' <? '), (r'&&', '||'), (r'\|\|', '&&'), (r'\bnegb ', '(fun b : bool => b) '),
         (r'\btrue\b', 'false'), (r'\bfalse\b', 'true'), (r'\brev ', ''), (r'\bfirstn\b', 'skipn'), (r'\bskipn\b', 'firstn')]
def edits(s):
    m, res = mask(s), []
    strs = [(x.start(), x.end()) for x in re.finditer(r'"(?:[^"]|"")*"', m)]
    def quoted(i): return any(a <= i < b for a, b in strs)
    for pat, rep in RULES:
        for x in re.finditer(pat, m):
            if not quoted(x.start()): res.append((x.start(), x.end(), rep))
    for x in re.finditer(r'(?<![\w.%"])(\d+)(?![\w"])', m):
        if not quoted(x.start()): res.append((x.start(), x.end(), str(int(x.group(1)) + 1)))
    for a, b in strs:
        t = m[a + 1:b - 1]
        if m[b:b + 5] == '%char': continue
        res.append((a, b, '"' + t + '!"' if t else '"!"'))
    for x in re.finditer(r'\bif (?!negb)((?:(?!\bif\b|\bthen\b|\n).)*) then', m):
        res.append((x.start(1), x.end(1), 'negb (' + s[x.start(1):x.end(1)] + ')'))
    for x in re.finditer(r'(?<![\w.)\]"])([a-z]\w*) \+\+ ([a-z]\w*)(?![\w("\[.])', m):
        if not quoted(x.start()): res.append((x.start(), x.end(), x.group(2) + ' ++ ' + x.group(1)))
    for x in re.finditer(r'\bSome (?:[a-z]\w*|\((?:[^()]|\([^()]*\))*\))(?!\s*(?:=>|[,)]*\s*=>|\|))', m):
        if not quoted(x.start()): res.append((x.start(), x.end(), 'None'))
    return sorted(set(res))
def where(s, i):
    l = [x for x in re.finditer(r'^\s*(?:Definition|Fixpoint|Record|Inductive|with)\s+([\w\']+)', s[:i], re.M)]
    return l[-1].group(1) if l else '?'
def show(s, e):
    a, b, r = e
    la, lb = s.rfind('\n', 0, a) + 1, s.find('\n', b)
    return '%s: %s  ==>  %s' % (where(s, a), s[la:lb].strip(), (s[la:a] + r + s[b:lb]).strip())
def lemma(d, f, line):
    t = open(d + '/' + f).read().split('\n')
    for i in range(min(line, len(t)) - 1, -1, -1):
        x = re.match(r'\s*(?:Local\s+)?(?:Lemma|Theorem|Example|Definition|Fixpoint|Corollary|Fact)\s+([\w\']+)', t[i])
        if x: return x.group(1)
    return '?'
def is_case(d, f, name):
    return re.search(r'^\s*Example %s\b' % re.escape(name), open(d + '/theories/%s.v' % f).read(), re.M) is not None
def attempt(d, f, n):
    p = d + '/theories/%s.v' % f
    s = open(p).read()
    e = edits(s)[n]
    t0 = time.time()
    open(p, 'w').write(s[:e[0]] + e[2] + s[e[1]:])
    try:
        first = ' '.join('theories/%s.vo' % x for x in os.environ.get('FIRST', NEAR.get(f, '')).split())
        cmd = 'make -j%s' % os.environ.get('J', '2')
        r = subprocess.run(cmd + ' ' + first + ' && ' + cmd if first else cmd, shell=True, cwd=d, capture_output=True, text=True, timeout=3000)
        out = r.stdout + r.stderr
        def stops(out):
            return [(a[9:-2], lemma(d, a, int(b))) for a, b in re.findall(r'File "\./(theories/\w+\.v)", line (\d+), characters [\d-]+:\s*\n(?:Error|\S*Timeout)', out)]
        st = stops(out)
        if st and all(is_case(d, *x) for x in st) and st[0][0] != f:  # only examples so far: look for theorems
            r = subprocess.run(cmd + ' -k', shell=True, cwd=d, capture_output=True, text=True, timeout=3000)
            st = stops(r.stdout + r.stderr)
            rest = [x for x in st if not is_case(d, *x)]
            res = 'stopped at %s %s' % rest[0] if rest else 'ONLY EXAMPLES %s' % ' '.join(x[1] for x in st)
        elif r.returncode == 0: res = 'SURVIVED'
        elif st and st[0][0] == f: res = 'invalid'
        elif st: res = 'stopped at %s %s' % [x for x in st if not is_case(d, *x)][0]
        else: res = 'error ' + out[-300:]
    except subprocess.TimeoutExpired: res = 'timeout'
    print(json.dumps({'id': '%s:%d' % (f, n), 'edit': show(s, e), 'result': res, 'seconds': int(time.time() - t0)}), flush=True)
    subprocess.run('rsync -a --delete --checksum %s/ %s/' % (os.environ['BASE'], d) if shutil.which('rsync') else 'rm -rf %s; cp -a %s %s' % (d, os.environ['BASE'], d), shell=True, check=True)
def main():
    if sys.argv[1] == 'list':
        for f in sys.argv[2:]:
            s = open(os.environ['BASE'] + '/theories/%s.v' % f).read()
            for n, e in enumerate(edits(s)): print('%s:%d' % (f, n), show(s, e))
    else:
        for x in sys.argv[3:]:
            f, n = x.split(':')
            attempt(sys.argv[2], f, int(n))
main()
