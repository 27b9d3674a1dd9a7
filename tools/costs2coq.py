#!/usr/bin/env python3
"""Generate rocq/theories/CostTables.v from /repo/clar2wasm/src/cost/clar{1,2,3}.rs."""
import re, glob
R = '/repo/clar2wasm/src/'
names = {}
for f in glob.glob(R + 'words/**/*.rs', recursive=True):
    s = open(f).read()
    for m in re.finditer(r'impl\s+Word\s+for\s+(\w+)\s*\{(.*?)\n\}', s, re.S):
        b = m.group(2)
        vs = re.findall(r'(\w+)::(\w+)\s*=>\s*"([^"]+)"', b)
        if vs:
            for (t, c, n) in vs:
                names[t + '::' + c] = n
        else:
            names[m.group(1)] = re.search(r'"([^"]+)"', b).group(1)
out = ['(** * Word cost tables, generated by tools/costs2coq.py from',
       '    /repo/clar2wasm/src/cost/clar1.rs, clar2.rs and clar3.rs ([WORD_COSTS]).',
       '    The key is the string returned by the word\'s [name()]. *)',
       'From Coq Require Import ZArith String List.', 'Import ListNotations.',
       'From Verif Require Import Cost.', 'Open Scope Z_scope.', 'Open Scope string_scope.', '']
def caf(t):
    t = t.strip().rstrip(',').strip()
    m = re.match(r'None$', t)
    if m: return 'CNone'
    m = re.match(r'Constant\((\d+)\)$', t)
    if m: return f'(CConst {m.group(1)})'
    m = re.match(r'(Linear|LogN|NLogN)\s*\{\s*a:\s*(\d+),\s*b:\s*(\d+),?\s*\}$', t)
    assert m, t
    return f'(C{m.group(1)} {m.group(2)} {m.group(3)})'
for v in ('clar1', 'clar2', 'clar3'):
    s = open(R + f'cost/{v}.rs').read()
    ents = re.findall(r'map\.insert\(\s*([\w:]+)\.name\(\),\s*WordCost\s*\{\s*runtime:(.*?)read_count:(.*?)read_length:(.*?)write_count:(.*?)write_length:(.*?)\s*\}\s*,?\s*\);', s, re.S)
    # commented-out lines are not parsed: check the count of live insertions
    live = len(re.findall(r'^\s*map\.insert\(', s, re.M))
    assert live == len(ents), (v, live, len(ents))
    out.append(f'(** cost/{v}.rs: {live} words *)')
    rows = []
    for e in ents:
        rows.append('  ("%s", mkcost %s)' % (names[e[0]], ' '.join(caf(x) for x in e[1:])))
    out.append(f'Definition {v}_costs : list (string * word_cost) := [\n' + ';\n'.join(rows) + '].\n')
open('/verif/rocq/theories/CostTables.v', 'w').write('\n'.join(out))
