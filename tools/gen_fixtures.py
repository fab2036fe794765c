#!/usr/bin/env python3
"""Translate the table-driven tests of /repo (lex_test.go, parse_test.go,
build_test.go) into Coq examples that run the model on the same inputs.
These are tests of the model's fidelity, not proofs of properties.
Usage: gen_fixtures.py REPO > Fixtures.v"""
import ast, glob, os, posixpath, re, sys
repo = sys.argv[1]
os.chdir(repo)

# ---- a small reader for Go composite literals --------------------------------
TOK = re.compile(r'''\s+|//[^\n]*|(?P<raw>`[^`]*`)|(?P<str>"(?:\\.|[^"\\])*")|(?P<num>-?\d+)|(?P<id>[A-Za-z_][\w.]*)|(?P<p>\[\]|[{}(),:&+])''')
def tokens(text):
    i = 0
    while i < len(text):
        m = TOK.match(text, i)
        if not m: raise SyntaxError(text[i:i+60])
        i = m.end()
        if m.lastgroup: yield (m.lastgroup, m.group())
    yield ('eof', '')
class P:
    def __init__(s, text): s.t = list(tokens(text)); s.i = 0
    def peek(s): return s.t[s.i]
    def next(s): s.i += 1; return s.t[s.i-1]
    def expect(s, v):
        t = s.next(); assert t[1] == v, (t, v, s.t[s.i-5:s.i+5])
    def value(s):
        v = s.value1()
        while s.peek()[1] == '+': s.next(); v = v + s.value1()
        return v
    def value1(s):
        k, v = s.next()
        if k == 'raw': return v[1:-1].encode()
        if k == 'str': return ast.literal_eval(v).encode()
        if k == 'num': return int(v)
        if v == '&': return s.value()
        if v == '{': s.i -= 1; return s.comp()
        if v == '[]': s.next(); return s.comp()
        if k == 'id':
            if s.peek()[1] == '{': return s.comp()
            if s.peek()[1] == '(':
                s.next(); a = []
                while s.peek()[1] != ')':
                    a.append(s.value())
                    if s.peek()[1] == ',': s.next()
                s.next()
                return call(v, a)
            return {'true': True, 'false': False, 'nil': None}.get(v, ('id', v))
        raise SyntaxError((k, v, s.t[s.i-8:s.i+4]))
    def comp(s):
        s.expect('{'); l, d = [], {}
        while s.peek()[1] != '}':
            if s.peek()[0] == 'id' and s.t[s.i+1][1] == ':':
                k = s.next()[1]; s.next(); d[k] = s.value()
            else: l.append(s.value())
            if s.peek()[1] == ',': s.next()
        s.next()
        return d if d else l
def call(f, a):
    if f == 'getTestConfigPath': return b'/'.join([b'testdata/configs'] + a)
    if f == 'fmt.Sprintf':
        out = a[0]
        for x in a[1:]: out = out.replace(b'%s', x, 1)
        return out
    if f == 'noSuchFileErrMsg': return b'no such file or directory'
    if f == 'strings.Join': return a[1].join(a[0])
    if f in ('pStr', 'pInt'): return a[0]
    if f in ('lua.RegisterLexer', 'lua.RegisterBuilder'): return ('lua',)
    raise KeyError(f)
def var(fn, name):
    text = open(fn).read()
    m = re.search(r'var %s = \[\]\w+(\{.*?\n\})\n' % name, text, re.S)
    return P(m.group(1)).comp()

# ---- Coq printing --------------------------------------------------------------
def S(b):
    if isinstance(b, str): b = b.encode()
    return '"' + b.decode().replace('"', '""') + '"'
def L(xs): return '[' + '; '.join(xs) + ']'
def Z(n): return '(%d)%%Z' % n
def B(x): return 'true' if x else 'false'
def O(x, f): return 'None' if x is None else '(Some %s)' % f(x)
def D(d):
    return '(Dir %s %s %s %s %s %s %s %s)' % (
        S(d.get('Directive', b'')), Z(d.get('Line', 0)), L(map(S, d.get('Args', []))),
        S(d.get('File', b'')), O(d.get('Includes'), lambda l: L(map(Z, l))),
        O(d.get('Block'), lambda l: L(map(D, l))), O(d.get('Comment'), S),
        B(d.get('IsMapBlockParameter')))
FN = {'MatchNginxPlusLatest': 'nginxPlusLatestDirectives', 'MatchAppProtectWAFv4': 'appProtectWAFv4Directives',
      'MatchAppProtectWAFv5': 'appProtectWAFv5Directives', 'MatchLuaLatest': 'luaDirectives',
      'MatchGeoip2Latest': 'geoip2Directives'}
def table(fn):
    for f in glob.glob('analyze_*.go'):
        t = open(f).read()
        if re.search(r'func %s\(' % fn, t): return re.search(r'var (\w+) = map', t).group(1)
    raise KeyError(fn)
def OPTS(o, fs):
    o = dict(o) if o else {}
    lex = o.pop('LexOptions', None)
    src = [table(x[1]) for x in o.pop('DirectiveSources', [])]
    ign = o.pop('IgnoreDirectives', [])
    names = ['StopParsingOnError','CombineConfigs','SingleFile','ParseComments','ErrorOnUnknownDirectives',
             'SkipDirectiveContextCheck','SkipDirectiveArgsCheck']
    fl = [B(o.pop(n, False)) for n in names]
    assert not o, o
    return 'Opts %s None (fs_open %s) (fs_glob %s_globs) %s %s default_match %s' % (
        L(map(S, ign)), fs, fs, ' '.join(fl), L('lookup %s' % t for t in src),
        'lua_lexers' if lex else '[]')
def ERR(e):
    what, file, line = e[0], e[1], e[2]
    return S(what + b' in ' + file + (b':%d' % line if line is not None else b''))
print('''(** Generated by tools/gen_fixtures.py from the tests of /repo; do not edit.
    The model is run on the inputs of lex_test.go, parse_test.go and build_test.go and
    compared with the expectations written there (tests of fidelity, not proofs). *)
From Verif Require Import Main Build Lua Tables.
Local Open Scope string_scope.

Definition fs_open (fs : list (string * string)) (p : string) : string + string :=
  match assoc p fs with
  | Some c => inl c
  | None => inr ("open " ++ p ++ ": no such file or directory")
  end.
Definition fs_glob (g : list (string * list string)) (p : string) : list string + string :=
  inl (match assoc p g with Some l => l | None => [] end).
Definition cmp_print := fun r => (ascii_print r || N.leb 0x400 r)%bool.
Definition tok_pair (t : token) := (t_val t, t_line t).
Definition pay_view (p : payload) :=
  (pl_status p, map (fun e => (py_file e, py_line e, err_string (py_err e))) (pl_errors p),
   map (fun c => (cf_file c, cf_status c, map (fun e => (ce_line e, err_string (ce_err e))) (cf_errors c)))
       (pl_config p)).
Definition view_ok (r : result) (v : _) (ds : list (list directive)) : Prop :=
  match r with
  | ROk p => pay_view p = v /\\ forall2b (forall2b dir_equal) (map cf_parsed (pl_config p)) ds = true
  | _ => False
  end.
(* TestParse does not compare lines; one fixture has a wrong line. *)
Fixpoint no_line (d : directive) : directive :=
  Dir (d_name d) 0 (d_args d) (d_file d) (d_includes d)
      (match d_block d with Some b => Some (map no_line b) | None => None end) (d_comment d) (d_ismap d).
Definition view_ok_nl (r : result) (v : _) (ds : list (list directive)) : Prop :=
  match r with
  | ROk p => pay_view p = v /\\ forall2b (forall2b dir_equal)
       (map (fun c => map no_line (cf_parsed c)) (pl_config p)) (map (map no_line) ds) = true
  | _ => False
  end.
''')
done = set()
def fs_def(name):
    v = 'fs_' + name.replace('-', '_')
    if v in done: return v
    done.add(v)
    files = sorted(f for f in glob.glob('testdata/configs/%s/**' % name, recursive=True) if os.path.isfile(f))
    print('Definition %s : list (string * string) := [' % v)
    rows, pats = [], set()
    for f in files:
        data = open(f, 'rb').read()
        try: data.decode()
        except UnicodeDecodeError: continue
        rows.append('  (%s, %s)' % (S(f), S(data)))
        pats |= {m.decode() for m in re.findall(rb'include\s+([^;\s]+);', data)}
    print(';\n'.join(rows) + '].')
    gl = []
    for p in sorted(pats):
        if re.search(r'[*?[]', p):
            for d in sorted({os.path.dirname(f) for f in files}):
                q = posixpath.normpath(posixpath.join(d, p))
                if glob.glob(q): gl.append('(%s, %s)' % (S(q), L(map(S, glob.glob(q)))))
    print('Definition %s_globs : list (string * list string) := %s.\n' % (v, L(gl)))
    return v
n = 0
for fx in var('lex_test.go', 'lexFixtures'):
    name, toks = fx
    fs = fs_def(name.decode())
    n += 1
    print('Example lex_%d : match assoc %s %s with Some c => map tok_pair (lex lua_lexers c) | None => [] end = %s.\nProof. vm_compute. reflexivity. Qed.\n'
          % (n, S(b'testdata/configs/' + name + b'/nginx.conf'), fs, L('(%s, %s)' % (S(a), Z(b)) for a, b in toks)))
LOOSE = {b'geoip2'}
n = 0
for name, suffix, opts, exp in var('parse_test.go', 'parseFixtures'):
    fs = fs_def(name.decode()); n += 1
    path = b'testdata/configs/' + name + b'/nginx.conf'
    errs = ['(%s, %s, %s)' % (S(e['File']), O(e.get('Line'), Z), ERR(e['Error'])) for e in exp.get('Errors', [])]
    cfgs = ['(%s, %s, %s)' % (S(c['File']), S(c['Status']), L('(%s, %s)' % (O(e.get('Line'), Z), ERR(e['Error'])) for e in c.get('Errors', [])))
            for c in exp['Config']]
    print('(* %s%s *)' % (name.decode(), suffix.decode()))
    print('Example parse_%d : view_ok%s (parse_main 100 (%s) %s) (%s, %s, %s) %s.\nProof. vm_compute. split; reflexivity. Qed.\n' % (
        n, '_nl' if name in LOOSE else '', OPTS(opts, fs), S(path), S(exp['Status']), L(errs), L(cfgs), L(L(map(D, c.get('Parsed', []))) for c in exp['Config'])))
def main_ok(n, fs, path, opts, pred):
    print('Example %s : match parse_main 100 (%s) %s with %s end.\nProof. vm_compute. exact I. Qed.\n' % (n, OPTS(opts, fs), S(path), pred))
OKP = 'ROk p => match pl_config p with [_] => True | _ => False end | _ => False'
ERRP = 'RErr _ => True | _ => False'
one = {'SingleFile': True, 'StopParsingOnError': True}
fs = fs_def('if-expr')
for i, (f, e) in enumerate([('nginx',0),('spaced-parens',0),('missing-opening-paren',1),('missing-closing-paren',1),('no-parens',1),('empty-parens',1),('empty-spaced-parens',1)]):
    main_ok('if_expr_%d' % i, fs, 'testdata/configs/if-expr/%s.conf' % f, one, ERRP if e else OKP)
fs = fs_def('braces')
for i, (f, e) in enumerate([('extra-brace', 'unexpected "}"'), ('missing-brace', 'unexpected end of file, expecting "}"')]):
    p = 'testdata/configs/braces/%s.conf' % f
    main_ok('braces_%d' % i, fs, p, one, 'RErr e => if prefix %s (err_string e) then True else False | _ => False' % S(e + ' in ' + p))
fs = fs_def('includes-cycle')
cyc = {'CombineConfigs': True, 'StopParsingOnError': True}
main_ok('cycle_0', fs, 'testdata/configs/includes-cycle/valid/nginx.conf', cyc, OKP)
main_ok('cycle_1', fs, 'testdata/configs/includes-cycle/invalid/nginx.conf', cyc, ERRP)
fs = fs_def('ubuntu-default')
main_ok('ubuntu', fs, 'testdata/configs/ubuntu-default/nginx.conf', {'StopParsingOnError': True}, 'ROk _ => True | _ => False')
n = 0
for fx in var('build_test.go', 'buildFixtures'):
    n += 1; o = fx['options'] or {}
    print('Example build_%d : build (BOpts %s %s %s %s cmp_print) %s = Some %s.\nProof. vm_compute. reflexivity. Qed.\n' % (
        n, Z(o.get('Indent', 0)), B(o.get('Tabs')), B(o.get('Header')),
        '(apply_builders [(lua_build, lua_names)])' if o.get('Builders') else '[]',
        L(map(D, fx['parsed'])), S(fx['expected'])))
n = 0
for name, opts in var('build_test.go', 'compareFixtures'):
    fs = fs_def(name.decode()); n += 1
    path = b'testdata/configs/' + name + b'/nginx.conf'
    print('''Definition cmp_opts_%d := %s.
Definition cmp_%d_ok : bool :=
  let parse1 := fun fs => parse_main 100 (Opts (o_ignore cmp_opts_%d) None (fs_open fs) (o_glob cmp_opts_%d)
     false false false (o_comments cmp_opts_%d) (o_strict cmp_opts_%d) false false [] default_match []) %s in
  match parse1 %s with
  | ROk p => match pl_config p with
     | [c] => match build (BOpts 0 false false [] cmp_print) (cf_parsed c) with
        | Some t => match parse1 [(%s, t)] with
          | ROk p2 => match pl_config p2 with
             | [c2] => match build (BOpts 0 false false [] cmp_print) (cf_parsed c2) with
                       | Some t2 => String.eqb t t2 | None => false end
             | _ => false end
          | _ => false end
        | None => false end
     | _ => false end
  | _ => false end.
Example cmp_%d : cmp_%d_ok = true.
Proof. vm_compute. reflexivity. Qed.
'''
    % (n, OPTS(opts, fs), n, n, n, n, n, S(path), fs, S(path), n, n))
