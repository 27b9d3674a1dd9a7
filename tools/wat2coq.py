#!/usr/bin/env python3
"""Translate /repo/clar2wasm/src/standard/standard.wat into the Coq syntax of Wasm.v.

Folded expressions are unfolded in evaluation order, named locals become indices,
labels become relative depths.  Nothing else is changed: no optimisation, no
reordering.  Usage: wat2coq.py standard.wat > Std.v
"""
import sys, re

src = open(sys.argv[1]).read()

# ---------------------------------------------------------------- tokenizer
TOK = re.compile(r'''(?P<ws>\s+)|(?P<lc>;;[^\n]*)|(?P<bc>\(;.*?;\))|(?P<lp>\()|(?P<rp>\))|(?P<str>"(?:\\.|[^"\\])*")|(?P<atom>[^\s()";]+)''', re.S)

class L(list):
    line = 0
    end = 0

def parse(s):
    pos = 0; line = 1
    stack = [L()]
    while pos < len(s):
        m = TOK.match(s, pos)
        if not m: raise SystemExit("lex error at line %d: %r" % (line, s[pos:pos+30]))
        k = m.lastgroup; t = m.group()
        if k == 'lp':
            l = L(); l.line = line; stack.append(l)
        elif k == 'rp':
            l = stack.pop(); l.end = line; stack[-1].append(l)
        elif k in ('str', 'atom'):
            stack[-1].append(t)
        line += t.count('\n'); pos = m.end()
    assert len(stack) == 1
    return stack[0]

mod = parse(src)[0]
assert mod[0] == 'module'

VT = {'i32': 'T32', 'i64': 'T64', 'v128': 'T128'}

def num(t, bits):
    t = t.replace('_', '')
    v = int(t, 0)
    return v % (1 << bits)

types = {}     # name -> (params, results)
host = []      # (name, params, results)
funcs = []
datas = []
globs = []
elems = []
exports = []

def sig(items):
    ps, rs, names, ls = [], [], {}, []
    rest = []
    for it in items:
        if isinstance(it, L) and it and it[0] in ('param', 'local', 'result'):
            if it[0] == 'result':
                rs += [VT[x] for x in it[1:]]
            else:
                tgt = ps if it[0] == 'param' else ls
                if len(it) > 1 and it[1].startswith('$'):
                    assert len(it) == 3
                    n = len(ps) + len(ls)
                    names[it[1]] = n
                    tgt.append(VT[it[2]])
                else:
                    for x in it[1:]: tgt.append(VT[x])
        else:
            rest.append(it)
    return ps, rs, ls, names, rest

for it in mod[1:]:
    if it[0] == 'type' and isinstance(it[1], str) and it[1].startswith('$'):
        ps, rs, _, _, _ = sig(it[2][1:])
        types[it[1]] = (ps, rs)
    elif it[0] == 'import':
        f = it[3]
        if f[0] == 'func':
            ps, rs, _, _, _ = sig(f[2:])
            host.append((f[1][1:], ps, rs, it.line, it.end, it[1], it[2]))
    elif it[0] == 'func':
        funcs.append(it)
    elif it[0] == 'data':
        s = it[2][1:-1]
        b = []
        i = 0
        while i < len(s):
            if s[i] == '\\':
                if re.match(r'[0-9a-fA-F]{2}', s[i+1:i+3]):
                    b.append(int(s[i+1:i+3], 16)); i += 3
                else:
                    raise SystemExit('escape ' + s[i:i+4])
            else:
                b.append(ord(s[i])); i += 1
        datas.append((num(it[1][1], 32), b, it.line))
    elif it[0] == 'global':
        globs.append((it[1][1:], VT[it[2][1]], num(it[3][1], 32 if it[2][1]=='i32' else 64), it.line))
    elif it[0] == 'elem':
        elems.append((num(it[1][1], 32), [x[1:] for x in it[2:]], it.line))
    elif it[0] == 'export':
        exports.append(it)
    elif it[0] == 'memory':
        mempages = num(it[-1], 32); memline = it.line

BIN = dict(add='Add', sub='Sub', mul='Mul', div_u='DivU', div_s='DivS', rem_u='RemU', xor='Xor', shl='Shl', shr_u='ShrU', shr_s='ShrS', rotl='Rotl', rotr='Rotr')
BIN['and'] = 'And'; BIN['or'] = 'Or'
REL = dict(eq='Eq', ne='Ne', lt_u='LtU', lt_s='LtS', gt_u='GtU', gt_s='GtS', le_u='LeU', le_s='LeS', ge_u='GeU', ge_s='GeS')
LD = {'i32.load': 'L32', 'i32.load8_u': 'L32_8u', 'i32.load16_u': 'L32_16u', 'i64.load': 'L64', 'i64.load8_u': 'L64_8u', 'i64.load16_u': 'L64_16u', 'i64.load32_u': 'L64_32u', 'v128.load': 'LV128'}
ST = {'i32.store': 'S32', 'i32.store8': 'S32_8', 'i32.store16': 'S32_16', 'i64.store': 'S64', 'i64.store8': 'S64_8', 'i64.store32': 'S64_32', 'v128.store': 'SV128'}

def v128const(kind, args):
    n = {'i8x16': 16, 'i16x8': 8, 'i32x4': 4, 'i64x2': 2}[kind]
    w = 128 // n
    assert len(args) == n
    v = 0
    for i, a in enumerate(args): v |= num(a, w) << (w * i)
    return v

# immediates taken by a plain operator from the following atoms
def take_imm(op, toks):
    """number of immediate atoms following op"""
    if op in ('i32.const', 'i64.const', 'local.get', 'local.set', 'local.tee', 'global.get', 'global.set', 'br', 'br_if', 'call', 'i64x2.extract_lane'):
        return 1
    if op == 'v128.const':
        return 1 + {'i8x16': 16, 'i16x8': 8, 'i32x4': 4, 'i64x2': 2}[toks[0]]
    if op in LD or op in ST:
        n = 0
        while n < len(toks) and isinstance(toks[n], str) and re.match(r'(offset|align)=', toks[n]): n += 1
        return n
    return 0

def q(s): return '"%s"%%string' % s

def simple(op, imm, names, labels):
    def loc(x): return names[x] if x.startswith('$') else int(x)
    def lab(x):
        if x.startswith('$'):
            for d, l in enumerate(reversed(labels)):
                if l == x: return d
            raise SystemExit('label ' + x)
        return int(x)
    if op == 'i32.const': return 'Const (VI32 %d)' % num(imm[0], 32)
    if op == 'i64.const': return 'Const (VI64 %d)' % num(imm[0], 64)
    if op == 'v128.const': return 'Const (VV128 %d)' % v128const(imm[0], imm[1:])
    if op == 'local.get': return 'LGet %d' % loc(imm[0])
    if op == 'local.set': return 'LSet %d' % loc(imm[0])
    if op == 'local.tee': return 'LTee %d' % loc(imm[0])
    if op == 'global.get': return 'GGet %s' % q(imm[0][1:])
    if op == 'global.set': return 'GSet %s' % q(imm[0][1:])
    if op == 'br': return 'Br %d' % lab(imm[0])
    if op == 'br_if': return 'BrIf %d' % lab(imm[0])
    if op == 'call': return 'Call %s' % q(imm[0][1:])
    if op == 'return': return 'Return'
    if op == 'drop': return 'Drop'
    if op == 'select': return 'Select'
    if op == 'unreachable': return 'Unreachable'
    if op == 'nop': return 'Nop'
    if op == 'i32.eqz': return 'Eqz32'
    if op == 'i64.eqz': return 'Eqz64'
    if op == 'i64.clz': return 'Clz64'
    if op == 'i32.clz': return 'Clz32'
    if op == 'i32.wrap_i64': return 'Wrap'
    if op == 'i64.extend_i32_u': return 'ExtU'
    if op == 'memory.copy': return 'MemCopy'
    if op == 'memory.fill': return 'MemFill'
    if op == 'v128.and': return 'VAnd'
    if op == 'v128.xor': return 'VXor'
    if op == 'v128.any_true': return 'VAnyTrue'
    if op == 'i8x16.swizzle': return 'VSwizzle'
    if op == 'i64x2.extract_lane': return 'VExtract64 %d' % int(imm[0])
    if op in LD or op in ST:
        off = 0
        for x in imm:
            if x.startswith('offset='): off = int(x[7:], 0)
        return ('Load %s %d' % (LD[op], off)) if op in LD else ('Store %s %d' % (ST[op], off))
    m = re.match(r'(i32|i64)\.(\w+)$', op)
    if m:
        w = m.group(1)[1:]
        if m.group(2) in BIN: return 'B%s %s' % (w, BIN[m.group(2)])
        if m.group(2) in REL: return 'R%s %s' % (w, REL[m.group(2)])
    raise SystemExit('op ' + op)

def seq(items, names, labels):
    """items: list of atoms / folded expressions -> list of trees"""
    out = []
    i = 0
    while i < len(items):
        it = items[i]
        if isinstance(it, str):
            if it in ('block', 'loop', 'if', 'end', 'else'): raise SystemExit('plain control ' + it)
            n = take_imm(it, items[i+1:])
            out.append(simple(it, items[i+1:i+1+n], names, labels))
            i += 1 + n
        else:
            out += folded(it, names, labels)
            i += 1
    return out

def folded(e, names, labels):
    op = e[0]
    if op in ('block', 'loop'):
        k = 1; label = None; rs = []
        if k < len(e) and isinstance(e[k], str) and e[k].startswith('$'): label = e[k]; k += 1
        while k < len(e) and isinstance(e[k], L) and e[k][0] == 'result':
            rs += e[k][1:]; k += 1
        body = seq(e[k:], names, labels + [label])
        return [('Block' if op == 'block' else 'Loop', len(rs), body)]
    if op == 'if':
        k = 1; label = None; rs = []
        if k < len(e) and isinstance(e[k], str) and e[k].startswith('$'): label = e[k]; k += 1
        while k < len(e) and isinstance(e[k], L) and e[k][0] == 'result':
            rs += e[k][1:]; k += 1
        cond = []; t = []; el = []
        for x in e[k:]:
            if isinstance(x, L) and x[0] == 'then': t = seq(x[1:], names, labels + [label])
            elif isinstance(x, L) and x[0] == 'else': el = seq(x[1:], names, labels + [label])
            else: cond.append(x)
        return seq(cond, names, labels) + [('If', len(rs), t, el)]
    if op == 'call_indirect':
        assert e[1][0] == 'type'
        ps, rs = types[e[1][1]]
        return seq(e[2:], names, labels) + ['CallInd [%s] [%s]' % ('; '.join(ps), '; '.join(rs))]
    n = take_imm(op, e[1:])
    imm = e[1:1+n]
    return seq(e[1+n:], names, labels) + [simple(op, imm, names, labels)]

def pr(tree, ind):
    pad = '  ' * ind
    lines = []
    cur = pad
    for j, x in enumerate(tree):
        last = j == len(tree) - 1
        if isinstance(x, str):
            s = x + ('' if last else '; ')
            if len(cur) + len(s) > 100:
                lines.append(cur.rstrip()); cur = pad
            cur += s
        else:
            if cur.strip(): lines.append(cur.rstrip())
            cur = pad
            if x[0] == 'If':
                lines.append(pad + 'If 0 %d [' % x[1])
                lines += pr(x[2], ind + 1)
                lines.append(pad + '] [')
                lines += pr(x[3], ind + 1)
            else:
                lines.append(pad + '%s 0 %d [' % (x[0], x[1]))
                lines += pr(x[2], ind + 1)
            lines.append(pad + ']' + ('' if last else ';'))
    if cur.strip(): lines.append(cur.rstrip())
    return lines

def ident(n):
    n = n.replace('stdlib.', '')
    return 'f_' + re.sub(r'[^A-Za-z0-9]', '_', n)

out = []
w = out.append
w('(** GENERATED by tools/wat2coq.py from /repo/clar2wasm/src/standard/standard.wat. Do not edit.')
w('    The instruction lists are the unfolded bodies of the functions of that file. *)')
w('From Coq Require Import ZArith String List.')
w('Import ListNotations.')
w('From Verif Require Import Wasm.')
w('Open Scope Z_scope.')
w('')
order = []
for f in funcs:
    name = f[1][1:]
    ps, rs, ls, names, rest = sig(f[2:])
    rest = [x for x in rest if not (isinstance(x, L) and x and x[0] in ('type', 'export'))]
    body = seq(rest, names, [None])
    w('(** [%s]: /repo/clar2wasm/src/standard/standard.wat lines %d-%d' % (name, f.line, f.end))
    inv = sorted(names.items(), key=lambda kv: kv[1])
    w('    locals: ' + ', '.join('%d=%s' % (v, k[1:]) for k, v in inv) + ' *)')
    w('Definition %s : func := mkfunc [%s] [%s] [%s] [' % (ident(name), '; '.join(ps), '; '.join(ls), '; '.join(rs)))
    out += pr(body, 1)
    w('].')
    w('')
    order.append(name)
w('(** the functions of the standard library, by WAT name *)')
w('Definition std_funs : list (string * func) := [')
w(';\n'.join('  (%s, %s)' % (q(n), ident(n)) for n in order))
w('].')
w('')
w('(** imported host functions (standard.wat lines %d-%d): name, parameter and result types *)' % (host[0][3], host[-1][4]))
w('Definition std_imports : list (string * (list vt * list vt)) := [')
w(';\n'.join('  (%s, ([%s], [%s]))' % (q(n), '; '.join(ps), '; '.join(rs)) for n, ps, rs, *_ in host))
w('].')
w('')
tab = {}
for off, ns, line in elems:
    for i, n in enumerate(ns): tab[off + i] = n
w('(** function table (standard.wat lines %d-%d) *)' % (elems[0][2], elems[-1][2]))
w('Definition std_table : list string := [%s].' % '; '.join(q(tab[i]) for i in range(len(tab))))
w('')
w('(** globals with their initial values (standard.wat lines %d-%d) *)' % (globs[0][3], globs[-1][3]))
w('Definition std_globals : list (string * val) := [%s].' % ';\n  '.join('(%s, %s %d)' % (q(n), 'VI32' if t == 'T32' else 'VI64', v) for n, t, v, _ in globs))
w('')
w('(** data segments (standard.wat lines %d-%d): offset, bytes *)' % (datas[0][2], datas[-1][2]))
w('Definition std_data : list (Z * list Z) := [')
chunks = []
for off, b, line in datas:
    s = '  (%d, [' % off
    rows = ['; '.join(str(x) for x in b[i:i+24]) for i in range(0, len(b), 24)]
    chunks.append(s + ';\n    '.join(rows) + '])')
w(';\n'.join(chunks))
w('].')
w('')
w('(** initial memory size in pages (standard.wat line %d) *)' % memline)
w('Definition std_pages : Z := %d.' % mempages)
print('\n'.join(out))
