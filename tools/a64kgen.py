#!/usr/bin/env python3
"""Transcribe fips202/native/aarch64/*.S to rocq/theories/ModelA64KeccakAsm.v.

Usage: a64kgen.py /repo > rocq/theories/ModelA64KeccakAsm.v

Expands the .macro, .req and #define directives and evaluates constant expressions; every
instruction of a routine becomes one instruction of ModelA64Keccak.v, with the number of
the line it stands on (or of the line that invokes its macro). A routine is cut into blocks
at its labels and after its jumps. The output is committed, so this script is not needed to
build the proofs.
"""
import re, sys

REPO = sys.argv[1]
DIR = 'fips202/native/aarch64/'

def strip(line):
    return re.sub(r'/\*.*?\*/', '', line).split('//')[0].strip()

class File:
    def __init__(self, name):
        self.name = name
        self.lines = open(f'{REPO}/{DIR}{name}').read().split('\n')
        self.macros, self.req, self.defs = {}, {}, {}
        self.consts, self.cline = [], None
        self.routine, self.code = None, []
        self.parse()

    def parse(self):
        i, comment, inr = 0, False, False
        while i < len(self.lines):
            raw = self.lines[i]; i += 1
            if comment:
                if '*/' in raw: comment = False
                continue
            if raw.strip().startswith('/*'):
                if '*/' not in raw: comment = True
                continue
            line = strip(raw)
            if not line: continue
            if line.startswith(('#if', '#endif', '#include')): continue
            m = re.match(r'#define (\w+)\s+(.*)$', line)
            if m: self.defs[m.group(1)] = m.group(2); continue
            if line.startswith('.macro'):
                parts = line[len('.macro'):].replace(',', ' ').split()
                body = []
                while True:
                    l = strip(self.lines[i]); i += 1
                    if l == '.endm': break
                    if l: body.append(l)
                self.macros[parts[0]] = (parts[1:], body)
                continue
            m = re.match(r'(\w+)\s+\.req\s+(\w+)$', line)
            if m: self.req[m.group(1)] = m.group(2); continue
            if line == 'round_constants:': self.cline = i; continue
            m = re.match(r'\.quad (0x[0-9a-f]+)$', line)
            if m: self.consts.append(int(m.group(1), 16)); continue
            m = re.match(r'_?FIPS202_NAMESPACE\((\w+)\):$', line)
            if m: self.routine = m.group(1); inr = True; continue
            if line.startswith(('.global', '.text', '.align', '.balign', '.data')): continue
            if not inr: sys.exit(f'{self.name}:{i}: {line}')
            self.emit(i, None, line)
            if line == 'ret': inr = False

    def emit(self, num, mac, line):
        op = line.split()[0]
        if op in self.macros:
            ps, body = self.macros[op]
            args = [a.strip() for a in line[len(op):].split(',')] if ps else []
            if len(args) != len(ps): sys.exit(f'{self.name}:{num}: arguments of {op}')
            env = dict(zip(ps, args))
            for b in body:
                for p in sorted(ps, key=len, reverse=True):
                    b = re.sub(r'\\' + p + r'\b(\\\(\))?', lambda _: env[p], b)
                self.emit(num, mac or op, b)
            return
        line = re.sub(r'[A-Za-z_]\w*', lambda m: self.req.get(m.group(0), m.group(0)), line)
        self.code.append((num, mac, line))

    def num(self, e):
        e = e.strip().lstrip('#')
        while True:
            e2 = re.sub(r'[A-Z_]\w*', lambda m: '(' + self.defs[m.group(0)] + ')', e)
            if e2 == e: break
            e = e2
        assert re.fullmatch(r'[-+*() 0-9]+', e), e
        return eval(e)

def z(n): return f'({n})' if n < 0 else str(n)

def operands(s):
    out, depth, cur = [], 0, ''
    for c in s:
        if c in '[{': depth += 1
        if c in ']}': depth -= 1
        if c == ',' and depth == 0: out.append(cur.strip()); cur = ''
        else: cur += c
    return out + [cur.strip()]

def vec(s, arr):
    m = re.fullmatch(r'v(\d+)\.(\w+)', s)
    assert m and m.group(2).lower() == arr, (s, arr)
    return f'v{m.group(1)}'
def d(s):
    m = re.fullmatch(r'd(\d+)', s); assert m, s
    return f'v{m.group(1)}'
def xr(s):
    if s == 'sp': return 'sp'
    m = re.fullmatch(r'x(\d+)', s); assert m, s
    return f'x{m.group(1)}'

class Gen:
    def __init__(self, f): self.f = f
    def addr(self, ops):
        m = re.fullmatch(r'\[\s*(\w+)\s*\]', ops[0])
        if m:
            if len(ops) == 2: return xr(m.group(1)), f'(Post {z(self.f.num(ops[1]))})'
            assert len(ops) == 1
            return xr(m.group(1)), '(Off 0)'
        m = re.fullmatch(r'\[\s*(\w+)\s*,\s*#(.*)\]', ops[0])
        assert m and len(ops) == 1, ops
        return xr(m.group(1)), f'(Off {z(self.f.num(m.group(2)))})'
    def plain(self, ops):
        b, m = self.addr(ops)
        assert m.startswith('(Off ')
        return b, m[5:-1]

    def instr(self, line):
        num = self.f.num
        m = re.fullmatch(r'ASM_LOAD\((\w+), round_constants\)', line)
        if m: return f'adr {xr(m.group(1))} 2'
        op, rest = line.split(None, 1)
        o = operands(rest)
        if op in ('ldp', 'stp'):
            b, n = self.plain(o[2:])
            if o[0][0] == 'd': return f'{op}_d {d(o[0])} {d(o[1])} {b} {n}'
            return f'{op} {xr(o[0])} {xr(o[1])} {b} {n}'
        if op in ('ldr', 'str'):
            m = re.fullmatch(r'\[(\w+), w(\d+), UXTW #3\]', o[1])
            if m:
                assert op == 'ldr'
                return f'ldr_index {xr(o[0])} {xr(m.group(1))} x{m.group(2)}'
            b, n = self.plain(o[1:])
            return f'{op} {xr(o[0])} {b} {n}'
        if op in ('ld2', 'st2', 'ld1', 'st1'):
            m = re.fullmatch(r'\{(.*)\}\[([01])\]', o[0]); assert m, o
            r = [vec(t.strip(), 'd') for t in m.group(1).split(',')]
            assert len(r) == int(op[2])
            if len(r) == 2: assert int(r[1][1:]) == (int(r[0][1:]) + 1) % 32
            b, m2 = self.addr(o[1:])
            return f'{op}_d {" ".join(r)} {m.group(2)} {b} {m2}'
        if op == 'ld1r':
            m = re.fullmatch(r'\{(.*)\}', o[0]); assert m
            b, m2 = self.addr(o[1:])
            return f'ld1r_2d {vec(m.group(1).strip(), "2d")} {b} {m2}'
        if op == 'st1' or op == 'ldr': assert False
        if op == 'mov':
            assert o[1].startswith('#')
            return f'mov_imm {xr(o[0])} {z(num(o[1]))}'
        if op == 'cmp': return f'cmp_imm {xr(o[0])} {num(o[1])}'
        if op in ('add', 'sub') and o[2].startswith('#'):
            return f'{op}_imm {xr(o[0])} {xr(o[1])} {num(o[2])}'
        if op in ('eor', 'bic') and o[0][0] == 'x':
            r = 0
            if len(o) == 4:
                m = re.fullmatch(r'ror #(.*)', o[3]); assert m
                r = num(m.group(1))
            else: assert len(o) == 3
            return f'{op} {xr(o[0])} {xr(o[1])} {xr(o[2])} {r}'
        if op == 'ror': return f'ror {xr(o[0])} {xr(o[1])} {num(o[2])}'
        if op in ('eor', 'bic', 'eor3', 'bcax'): return f'{op}_16b ' + ' '.join(vec(x, '16b') for x in o)
        if op in ('add', 'rax1'): return f'{op}_2d ' + ' '.join(vec(x, '2d') for x in o)
        if op in ('shl', 'sri'): return f'{op}_2d {vec(o[0], "2d")} {vec(o[1], "2d")} {num(o[2])}'
        if op == 'xar': return f'xar_2d ' + ' '.join(vec(x, '2d') for x in o[:3]) + f' {num(o[3])}'
        sys.exit('unknown: ' + line)

def blocks(f):
    g = Gen(f)
    bs, cur, labels = [], [], {}
    targets = {re.split(r'[ ,]+', l)[-1] for (_, _, l) in f.code if re.match(r'(b|ble|beq|cbnz)\s', l)}
    def close(t):
        nonlocal cur
        bs.append((cur, t)); cur = []
    for (n, mac, line) in f.code:
        m = re.fullmatch(r'(\w+):', line)
        if m:
            if m.group(1) not in targets: continue
            if cur: close(('Next',))
            labels[m.group(1)] = len(bs); continue
        if line == 'ret': close(('Ret',)); break
        op = line.split()[0]
        if op == 'cbnz':
            c, l = operands(line[4:]); close(('Cbnz', xr(c), l)); continue
        if op in ('ble', 'beq'): close((op.capitalize(), line.split()[1])); continue
        if op == 'b': close(('Goto', line.split()[1])); continue
        cur.append((n, mac, g.instr(line)))
    assert not cur
    return bs, labels

def show(f):
    bs, labels = blocks(f)
    first, last = f.code[0][0], f.code[-1][0]
    names = []
    inv = {}
    for l, i in labels.items(): inv.setdefault(i, []).append(l)
    terms = []
    for i, (b, t) in enumerate(bs):
        name = f'{f.routine}_{i}'
        names.append(name)
        lab = ''.join(f', {l}:' for l in inv.get(i, []))
        lines = f'{b[0][0]}-{b[-1][0]}' if b else ''
        print(f'(** {DIR}{f.name}:{lines}{lab} *)')
        print(f'Definition {name} : list instr := [')
        ls = [(f'  {x}', f'(* {n}' + (f' {mac}' if mac else '') + ' *)') for (n, mac, x) in b]
        print('\n'.join(f'{x + (";" if k + 1 < len(ls) else ""):42s} {c}' for k, (x, c) in enumerate(ls)))
        print('].\n')
        if t[0] == 'Next': terms.append('Next')
        elif t[0] == 'Ret': terms.append('Ret')
        elif t[0] == 'Cbnz': terms.append(f'Cbnz {t[1]} {labels[t[2]]}')
        else: terms.append(f'{t[0]} {labels[t[1]]}')
    print(f'(** {DIR}{f.name}:{first}-{last} {f.routine} *)')
    print(f'Definition {f.routine} : list block := [\n' +
          ';\n'.join(f'  ({n}, {t})' for n, t in zip(names, terms)) + '].\n')

files = ['keccak_f1600_x1_scalar_asm_opt', 'keccak_f1600_x1_v84a_asm_clean', 'keccak_f1600_x2_v84a_asm_clean',
         'keccak_f1600_x2_v8a_v84a_asm_hybrid', 'keccak_f1600_x4_v8a_scalar_hybrid_asm_opt',
         'keccak_f1600_x4_scalar_v84a_asm_hybrid_opt', 'keccak_f1600_x4_v8a_v84a_scalar_hybrid_asm_opt']

print('''(** * The routines of fips202/native/aarch64/*.S

    Written by tools/a64kgen.py from the source files; see there. Each instruction is followed
    by the number of its line, or of the line that invokes the macro named. The round constants,
    which every file repeats, are array 2 of a routine; ASM_LOAD (common.i) is [adr]. *)

From Coq Require Import ZArith List.
From Verif Require Import ModelA64Keccak.
Import ListNotations.
Open Scope Z_scope.
''')
print('Local Notation sp := (31%nat).')
for i in range(31): print(f'Local Notation x{i} := {i}%nat.')
for i in range(32): print(f'Local Notation v{i} := {i}%nat.')
print()
for n in files:
    f = File(n + '.S')
    assert len(f.consts) == 24
    print(f'(** {DIR}{f.name}:{f.cline}-{f.cline + 24} round_constants *)')
    print(f'Definition {f.routine}_constants : list Z := [')
    for j in range(0, 24, 3):
        print('  ' + '; '.join(hex(x) for x in f.consts[j:j + 3]) + (';' if j + 3 < 24 else '].'))
    print()
    show(f)
