#!/usr/bin/env python3
"""Transcribe mlkem/native/aarch64/*.S to rocq/theories/ModelA64Asm.v.

Usage: a64gen.py /repo > rocq/theories/ModelA64Asm.v

Expands the .macro and .req directives and evaluates constant expressions; every
instruction of a routine becomes one instruction of ModelA64.v, with the number of the
line it stands on (or of the line that invokes its macro). The output is committed, so
this script is not needed to build the proofs.
"""
import re, sys

REPO = sys.argv[1]
DIR = 'mlkem/native/aarch64/'

def strip(line):
    line = line.split('//')[0]
    return line.strip()

class File:
    def __init__(self, name, k=None):
        self.name = name
        self.k = k
        self.lines = open(f'{REPO}/{DIR}{name}').read().split('\n')
        self.macros = {}
        self.req = {}
        self.labels = {}      # constant arrays
        self.routines = {}    # name -> list of (line, macro, text)
        self.parse()

    def parse(self):
        i, active, cur, lab = 0, [], None, None
        comment = False
        n = len(self.lines)
        while i < n:
            raw = self.lines[i]; i += 1
            if comment:
                if '*/' in raw: comment = False
                continue
            if raw.strip().startswith('/*'):
                if '*/' not in raw: comment = True
                continue
            line = strip(re.sub(r'/\*.*?\*/', '', raw))
            if not line: continue
            m = re.match(r'#if MLKEM_K == (\d)', line)
            if m: active.append(int(m.group(1)) == self.k); continue
            if line.startswith('#if'): active.append(True); continue
            if line.startswith('#endif'): active.pop(); continue
            if line.startswith('#include'): continue
            if not all(active): continue
            if line.startswith('.macro'):
                parts = line[len('.macro'):].replace(',', ' ').split()
                body = []
                while True:
                    l = strip(self.lines[i]); i += 1
                    if l == '.endm': break
                    if l: body.append(l)
                self.macros[parts[0]] = (parts[1:], body)
                continue
            m = re.match(r'(\w+)\s+\.req\s+(\w+)$', line)
            if m: self.req[m.group(1)] = self.req.get(m.group(2), m.group(2)); continue
            m = re.match(r'\.unreq (\w+)$', line)
            if m: self.req.pop(m.group(1), None); continue
            m = re.match(r'_?MLKEM_NAMESPACE\((\w+)\):$', line)
            if m:
                cur = m.group(1); self.routines.setdefault(cur, []); continue
            if line.startswith(('.global', '.text', '.p2align')): continue
            m = re.match(r'(\w+):\s*(\.short.*)?$', line)
            if m and (cur is None or m.group(2)) or (m and m.group(1).endswith('_addr')):
                lab = m.group(1); self.labels[lab] = []
                if not m.group(2): continue
                line = m.group(2)
            if line.startswith('.short'):
                self.labels[lab] += [int(x) for x in line[6:].split(',')]; continue
            if cur is None: sys.exit(f'{self.name}:{i}: {line}')
            self.emit(cur, i, None, line)
            if line == 'ret': cur = None

    def emit(self, cur, num, mac, line):
        op = line.split()[0]
        if op in self.macros:
            ps, body = self.macros[op]
            args = [a.strip() for a in line[len(op):].split(',')] if ps else []
            if len(args) != len(ps): sys.exit(f'{self.name}:{num}: arguments of {op}')
            env = dict(zip(ps, args))
            for b in body:
                for p in sorted(ps, key=len, reverse=True):
                    b = re.sub(r'\\' + p + r'\b(\\\(\))?', lambda _: env[p], b)
                self.emit(cur, num, mac or op, b)
            return
        line = re.sub(r'[A-Za-z_]\w*', lambda m: self.req.get(m.group(0), m.group(0)), line)
        self.routines[cur].append((num, mac, line))

def num(e):
    e = e.strip().lstrip('#').replace('MLKEM_N', '256').replace('/', '//')
    assert re.fullmatch(r'[-+*/() 0-9]+', e), e
    return eval(e)

def z(n): return f'({n})' if n < 0 else str(n)

def operands(s):
    out, depth, cur = [], 0, ''
    for c in s:
        if c in '[{': depth += 1
        if c in ']}': depth -= 1
        if c == ',' and depth == 0: out.append(cur.strip()); cur = ''
        else: cur += c
    return out + [cur.strip()]

def vec(s, arr):
    m = re.fullmatch(r'v(\d+)\.(\w+)', s)
    assert m and m.group(2).lower() in arr, (s, arr)
    return f'v{m.group(1)}'
def q(s):
    m = re.fullmatch(r'q(\d+)', s); assert m, s
    return f'v{m.group(1)}'
def d(s):
    m = re.fullmatch(r'd(\d+)', s); assert m, s
    return f'v{m.group(1)}'
def xr(s):
    if s == 'sp': return 'sp'
    m = re.fullmatch(r'[xw](\d+)', s); assert m, s
    return f'x{m.group(1)}'
def addr(ops):
    m = re.fullmatch(r'\[\s*(\w+)\s*\]', ops[0])
    if m:
        if len(ops) == 2: return xr(m.group(1)), f'(Post {z(num(ops[1]))})'
        assert len(ops) == 1
        return xr(m.group(1)), '(Off 0)'
    m = re.fullmatch(r'\[\s*(\w+)\s*,\s*#(.*)\]', ops[0])
    assert m and len(ops) == 1, ops
    return xr(m.group(1)), f'(Off {z(num(m.group(2)))})'
def plain(ops):
    b, m = addr(ops)
    assert m.startswith('(Off ')
    return b, m[5:-1]
def braces(s, arr):
    m = re.fullmatch(r'\{(.*)\}', s); assert m
    return [vec(t.strip(), arr) for t in m.group(1).split(',')]

def instr(line, arrays):
    m = re.fullmatch(r'ASM_LOAD\((\w+), (\w+)\)', line)
    if m: return f'adr {xr(m.group(1))} {arrays[m.group(2)]}'
    op, rest = line.split(None, 1)
    o = operands(rest)
    if op in ('ldr', 'str'):
        b, m = addr(o[1:]); return f'{op}_q {q(o[0])} {b} {m}'
    if op in ('ldp', 'stp'):
        b, n = plain(o[2:]); return f'{op}_d {d(o[0])} {d(o[1])} {b} {n}'
    if op == 'ld1':
        b, m = addr(o[1:]); return f'ld1_8h {braces(o[0], ["8h"])[0]} {b} {m}'
    if op == 'ld1r':
        b, n = plain(o[1:]); assert n == '0'
        return f'ld1r_8h {braces(o[0], ["8h"])[0]} {b}'
    if op in ('ld2', 'st2', 'st3', 'st4'):
        arr = {'ld2': '8h', 'st2': '8h', 'st3': '8b', 'st4': '4s'}[op]
        r = braces(o[0], [arr]); assert len(r) == int(op[2])
        nums = [int(x[1:]) for x in r]
        assert all(b == (a + 1) % 32 for a, b in zip(nums, nums[1:]))
        b, m = addr(o[1:]); return f'{op}_{arr} {" ".join(r)} {b} {m}'
    if op in ('ldrsh', 'ldrh'):
        b, n = plain(o[1:]); assert o[0][0] == 'w'
        return f'{op} {xr(o[0])} {b} {n}'
    if op == 'dup': assert o[1][0] == 'w'; return f'dup_8h {vec(o[0], ["8h"])} {xr(o[1])}'
    if op == 'mov':
        if o[1].startswith('#'): return f'mov_imm {xr(o[0])} {z(num(o[1]))}'
        return f'mov {xr(o[0])} {xr(o[1])}'
    if op in ('add', 'sub', 'subs') and o[2].startswith('#'):
        assert o[0][0] != 'w'
        return f'{op[:3]}_imm {xr(o[0])} {xr(o[1])} {z(num(o[2]))}'
    if op in ('mul', 'mls', 'sqdmulh', 'sqrdmulh'):
        m = re.fullmatch(r'v(\d+)\.[hH]\[(\d+)\]', o[2])
        a, b = vec(o[0], ['8h']), vec(o[1], ['8h'])
        if m: assert int(m.group(1)) < 16; return f'{op}_h {a} {b} v{m.group(1)} {m.group(2)}'
        return f'{op} {a} {b} {vec(o[2], ["8h"])}'
    if op in ('add', 'sub'): return f'{op} ' + ' '.join(vec(x, ['8h']) for x in o)
    if op == 'and': return 'and_16b ' + ' '.join(vec(x, ['16b']) for x in o)
    if op in ('sshr', 'srshr'): return f'{op} {vec(o[0], ["8h"])} {vec(o[1], ["8h"])} {num(o[2])}'
    if op in ('uzp1', 'uzp2'): return f'{op}_8h ' + ' '.join(vec(x, ['8h']) for x in o)
    if op in ('trn1', 'trn2'):
        arr = o[0].split('.')[1].lower(); assert arr in ('4s', '2d')
        return f'{op}_{arr} ' + ' '.join(vec(x, [arr]) for x in o)
    if op in ('smull', 'smlal'): return f'{op} {vec(o[0], ["4s"])} {vec(o[1], ["4h"])} {vec(o[2], ["4h"])}'
    if op in ('smull2', 'smlal2'): return f'{op} {vec(o[0], ["4s"])} {vec(o[1], ["8h"])} {vec(o[2], ["8h"])}'
    if op == 'xtn': return f'xtn_8b {vec(o[0], ["8b"])} {vec(o[1], ["8h"])}'
    if op == 'shrn': return f'shrn_8b {vec(o[0], ["8b"])} {vec(o[1], ["8h"])} {num(o[2])}'
    if op == 'sli': return f'sli_8b {vec(o[0], ["8b"])} {vec(o[1], ["8b"])} {num(o[2])}'
    sys.exit('unknown: ' + line)

def routine(f, name, coq, nargs):
    labs = list(f.labels)
    arrays = {l: nargs + 1 + i for i, l in enumerate(labs)}
    blocks, cur, label, used = [], [], None, set()
    src = f.routines[name]
    for (n, mac, line) in src:
        m = re.fullmatch(r'(\w+):', line)
        if m:
            blocks.append(('S', cur)); cur = []; label = m.group(1); continue
        if line.startswith('cbnz'):
            c, l = operands(line[4:]); assert l == label
            blocks.append(('L', cur, xr(c))); cur = []; label = None; continue
        if line == 'ret':
            assert label is None
            blocks.append(('S', cur)); cur = []; break
        mm = re.fullmatch(r'ASM_LOAD\((\w+), (\w+)\)', line)
        if mm: used.add(mm.group(2))
        cur.append((n, mac, instr(line, arrays)))
    assert not cur
    first, last = src[0][0], src[-1][0]
    print(f'(** {DIR}{f.name}:{first}-{last} {name}' + (f', MLKEM_K == {f.k}' if f.k else '') + ' *)')
    print(f'Definition {coq} : list block := [')
    bs = []
    for b in blocks:
        if not b[1]: continue
        ls = []
        for (n, mac, t) in b[1]:
            ls.append((f'    {t}', f'(* {n}' + (f' {mac}' if mac else '') + ' *)'))
        body = '\n'.join(f'{t + (";" if i + 1 < len(ls) else ""):42s} {c}' for i, (t, c) in enumerate(ls))
        if b[0] == 'S': bs.append('  Straight [\n' + body + ' ]')
        else: bs.append('  Loop [\n' + body + f' ] {b[2]}')
    print(';\n'.join(bs))
    print('].\n')

def consts(f, prefix, labels):
    for l in labels:
        first = next(i for i, x in enumerate(f.lines) if x.startswith(l + ':')) + 1
        print(f'(** {DIR}{f.name}:{first} {l} *)')
        print(f'Definition {prefix}{l} : list Z := [{"; ".join(map(str, f.labels[l]))}].')

print('''(** * The routines of mlkem/native/aarch64/*.S

    Written by tools/a64gen.py from the source files; see there. Each instruction is followed
    by the number of its line, or of the line that invokes the macro named.

    A routine with n arguments finds them in the arrays 1 to n; the constants of its file
    (the labels ending in _addr) are in the arrays from n + 1 on, in the order of the file.
    ASM_LOAD (common.i:6-14) is [adr]. *)

From Coq Require Import ZArith List.
From Verif Require Import ModelA64.
Import ListNotations.
Open Scope Z_scope.
''')
print('Local Notation sp := (31%nat).')
for i in range(31): print(f'Local Notation x{i} := {i}%nat.')
for i in range(32): print(f'Local Notation v{i} := {i}%nat.')
print()
lines = open(f'{REPO}/{DIR}aarch64_zetas.c').read().split('\n')
i = 0
while i < len(lines):
    m = re.match(r'const int16_t (\w+)\[\] = \{', lines[i])
    if m:
        first, body = i + 1, ''
        while True:
            body += lines[i].split('=')[-1]
            if '};' in lines[i]: break
            i += 1
        ns = [int(x) for x in re.findall(r'-?\d+', re.sub(r'/\*.*?\*/', '', body))]
        print(f'(** {DIR}aarch64_zetas.c:{first}-{i + 1} *)')
        print(f'Definition {m.group(1)} : list Z := [')
        for j in range(0, len(ns), 12):
            print('  ' + '; '.join(map(str, ns[j:j + 12])) + (';' if j + 12 < len(ns) else ''))
        print('].\n')
    i += 1
for v in ('clean', 'opt'):
    f = File(f'ntt_{v}.S')
    consts(f, f'ntt_{v}_', ['const_addr'])
    routine(f, f'ntt_asm_{v}', f'ntt_asm_{v}', 3)
    f = File(f'intt_{v}.S')
    consts(f, f'intt_{v}_', ['const_addr', 'ninv_addr', 'ninv_tw_addr'])
    routine(f, f'intt_asm_{v}', f'intt_asm_{v}', 3)
    f = File(f'poly_{v}.S')
    consts(f, f'poly_{v}_', ['const_addr'])
    for (r, n) in (('poly_reduce', 1), ('poly_mulcache_compute', 4), ('poly_tobytes', 2), ('poly_tomont', 1)):
        routine(f, f'{r}_asm_{v}', f'{r}_asm_{v}', n)
    for k in (2, 3, 4):
        f = File(f'polyvec_{v}.S', k)
        if k == 2: consts(f, f'polyvec_{v}_', ['const_addr'])
        n = 'polyvec_basemul_acc_montgomery_cached_asm_' + v
        routine(f, n, f'{n}_k{k}', 4)
