#!/usr/bin/env python3
"""Translate internal/generator/generator_util_test.go and its testdata into Coq
examples that run the generator model.  Tests of fidelity, not proofs.
Usage: gen_genfix.py REPO > GenFixtures.v"""
import os, re, sys
repo = sys.argv[1]
R = repo + '/internal/generator/testdata/'
def q(b):
    m = {'\n': 's_nl', '\r': 's_cr', '\t': 's_tab', '"': 's_dq'}
    out = [m.get(p) or '"' + p + '"' for p in re.split(r'([\n\r\t"])', b) if p]
    return ' ++ '.join(out) if out else '""'
def rd(p): return open(p, newline='').read()
def src(rel):
    p = R + 'source_codes/' + rel
    if not os.path.isdir(p): return '[EFile "%s" (Some (%s))]' % (rel, q(rd(p)))
    fs = []
    for d, ds, f in os.walk(p):
        ds.sort(); fs += [os.path.join(d, x) for x in sorted(f)]
    return '[%s]' % ';\n  '.join(['EDir "%s"' % rel] + ['EFile "%s" (Some (%s))' % (os.path.relpath(f, R + 'source_codes'), q(rd(f))) for f in fs])
t = open(repo + '/internal/generator/generator_util_test.go').read()
body = t[t.index('tests := map'):]
body = body[:body.index('\n\t}\n')]
print('(** Generated by tools/gen_genfix.py from internal/generator/generator_util_test.go. *)')
print('From Verif Require Import Gen.\nLocal Open Scope string_scope.\n')
print('Definition as_is (k : nat) (l : list string) : list string := l.')
print('Definition backwards (k : nat) (l : list string) : list string := rev l.')
print('Definition output (ord : nat -> list string -> list string) es flt ovr var fn cm : option string :=\n  match generate_map ord es flt ovr with inl m => Some (render var fn cm m) | inr _ => None end.')
n = 0
for m in re.finditer(r'\n\t\t"(\w+)": \{\n(.*?)\n\t\t\},', body, re.S):
    name, c = m.groups()
    f = lambda k: (re.search(k + r':\s*"([^"]*)"', c) or [None, ''])[1]
    rel = f('relativePath'); err = 'wantErr:      true' in c or re.search(r'wantErr:\s*true', c)
    flt = re.findall(r'"(\w+)": *\{\}', c)
    ov = re.search(r'Override: .*?\{\n(.*?)\n\t{4}\}', c, re.S)
    ovr = []
    if ov:
        for d, b in re.findall(r'\t{5}"(\w+)": \{\n(.*?)\n\t{5}\}', ov[1], re.S):
            ms = ['[%s]' % '; '.join('"%s"' % x for x in re.findall(r'"(\w+)"', k)) for k in re.findall(r'Mask\{(.*?)\}', b)]
            ovr.append('("%s", [%s])' % (d, '; '.join(ms)))
    exp = 'None' if err else 'Some (%s)' % q(rd(R + 'expected/' + re.sub(r'\.c(pp)?$', '', rel)))
    n += 1
    args = '[%s] [%s] %s %s %s' % ('; '.join('"%s"' % x for x in flt), '; '.join(ovr), *['"%s"' % f(k) for k in ('DirectiveMapName', 'MatchFuncName', 'MatchFuncComment')])
    print('\n(* %s *)\nDefinition src%d : list entry := %s.' % (name, n, src(rel)))
    print('Definition want%d : option string := %s.' % (n, exp))
    for o in ('as_is', 'backwards'):
        print('Example gen%d_%s : output %s src%d %s = want%d.\nProof. vm_compute. reflexivity. Qed.' % (n, o, o, n, args, n))
