#!/usr/bin/env python3
"""Translate the directive tables of /repo/analyze_*_directives*.go into Coq.
Usage: gen_tables.py REPO OUTDIR"""
import glob, os, re, sys
repo, out = sys.argv[1], sys.argv[2]
src = {
 'TablesPlus1.v': ['analyze_nplus_R30_directives.go', 'analyze_nplus_R31_directives.go',
                   'analyze_nplus_R33_directives.gen.go', 'analyze_nplus_R34_directives.gen.go'],
 'TablesPlus2.v': ['analyze_nplus_R35_directives.gen.go', 'analyze_nplus_R36_directives.gen.go',
                   'analyze_nplus_R37_directives.gen.go'],
 'TablesLatest.v': ['analyze_nplus_latest_directives.gen.go', 'analyze_njs_directives.gen.go',
                    'analyze_otel_directives.gen.go'],
 'TablesOther.v': ['analyze_oss_124_directives.gen.go', 'analyze_oss_126_directives.gen.go',
                   'analyze_oss_latest_directives.gen.go', 'analyze_lua_directives.gen.go',
                   'analyze_geoip2_directives.gen.go', 'analyze_headersMore_directives.gen.go',
                   'analyze_appProtectWAFv4_directives.gen.go',
                   'analyze_appProtectWAFv5_directives.gen.go'],
}
listed = {f for fs in src.values() for f in fs}
assert listed == {os.path.basename(f) for f in glob.glob(repo + '/analyze_*_directives*.go')}
for name, files in src.items():
    o = ['(** Generated by tools/gen_tables.py from the directive tables of /repo; do not edit. *)',
         'From Verif Require Import Analyze.', 'Local Open Scope string_scope.', '']
    for f in files:
        text = open(os.path.join(repo, f)).read()
        lines = text.split('\n')
        m = re.search(r'var (\w+) = map\[string\]\[\]uint\{\n(.*?)\n\}', text, re.S)
        var, body = m.group(1), m.group(2)
        first = text[:m.start()].count('\n') + 1
        last = text[:m.end()].count('\n') + 1
        fn = re.search(r'func (\w+)\(directive string\) \(\[\]uint, bool\)', text)
        body = re.sub(r'//.*', '', body)
        ents = re.findall(r'"([^"]+)":\s*\{(.*?)\},?', body, re.S)
        rest = re.sub(r'"([^"]+)":\s*\{(.*?)\},?', '', body, flags=re.S)
        assert not rest.strip(), (f, rest[:200])
        assert len({k for k, _ in ents}) == len(ents)
        o.append('(** %s:%d-%d [%s]%s. *)' % (f, first, last, var,
                 ', looked up by [%s]' % fn.group(1) if fn else ''))
        o.append('Definition %s : list (string * list N) := [' % var)
        rows = []
        for k, v in ents:
            ms = [x.strip() for x in v.split(',') if x.strip()]
            for x in ms:
                assert re.fullmatch(r'\w+(\s*\|\s*\w+)*', x), x
            rows.append('  ("%s", [%s])' % (k, '; '.join(
                ' .| '.join(re.split(r'\s*\|\s*', x)) for x in ms)))
        o.append(';\n'.join(rows) + '\n].\n')
    open(os.path.join(out, name), 'w').write('\n'.join(o))
