#!/usr/bin/env python3
"""Transcribes the inline assembly of /repo/internal/kernel_sse.h and kernel_avx.h
into rocq/theories/X86Kernels.v, one constructor per instruction, in the order of
the source.  Labels become positions in the list."""
import re, sys
GP = {'%[lhs_ptr]': 'Lhs_ptr', '%[rhs_ptr]': 'Rhs_ptr', '%[dst_ptr]': 'Dst_ptr',
      '%[run_depth_cells]': 'Run_depth_cells', '%[start_depth]': 'Start_depth',
      '%[dst_col_stride]': 'Dst_col_stride', '%[dst_col_stride_q]': 'Dst_col_stride',
      '%%eax': 'Tmp0', '%%ecx': 'Tmp1', '%%r12': 'Tmp0', '%%r13': 'Tmp1', '%%r14': 'Tmp2'}
COND = {'js': 'CondS', 'ja': 'CondA', 'jnz': 'CondNZ', 'jz': 'CondZ'}

def extract(path, first, last):
    lines = open(path).read().split('\n')[first - 1:last]
    out = []          # (source line, instruction or label)
    for n, l in enumerate(lines, first):
        m = re.match(r'\s*"((?:[^"\\]|\\.)*)"', l)
        if not m or l.strip().startswith('//'): continue
        s = m.group(1).replace('\\n', '\n').replace('\\t', '')
        for piece in s.split('\n'):
            piece = piece.strip()
            if piece: out.append((n, piece))
    return out

def num(s):
    s = s.strip()
    return int(s, 0) if s else 0

def vreg(s):
    m = re.fullmatch(r'%%[xy]mm(\d+)', s.strip())
    return m.group(1) if m else None

def addr(s):
    m = re.fullmatch(r'([0-9a-fx]*)\((%[^,)]*)(?:\s*,\s*(%[^,)]*)\s*,\s*([0-9a-fx]+))?\)', s.strip())
    return num(m.group(1)), GP[m.group(2).strip()], (GP[m.group(3).strip()] if m.group(3) else None), (num(m.group(4)) if m.group(4) else 0)

def split_ops(s):
    out, d, cur = [], 0, ''
    for ch in s:
        if ch == '(': d += 1
        if ch == ')': d -= 1
        if ch == ',' and d == 0: out.append(cur.strip()); cur = ''
        else: cur += ch
    if cur.strip(): out.append(cur.strip())
    return out

def z(n): return str(n) if n >= 0 else '(%d)' % n

def mem_op(s):
    disp, b, i, sc = addr(s)
    return '(Addr %s %s %s)' % (z(disp), b, ('None' if i is None else '(Some (%s, %d))' % (i, sc)))

def translate(items):
    labels, code = {}, []
    for n, s in items:
        if s.endswith(':'): labels[s[:-1]] = len(code)
        else: code.append((n, s))
    out = []
    for n, s in code:
        op, _, rest = s.partition(' ')
        a = split_ops(rest)
        v = op[1:] if op.startswith('v') else op
        if op in COND: t = 'XJ %s %d' % (COND[op], labels[a[0]])
        elif v == 'pxor': t = 'XPxor %s %s %s' % (vreg(a[0]), vreg(a[1]), vreg(a[-1]))
        elif v == 'pmovzxbw':
            disp, b, i, sc = addr(a[0]); assert i is None
            t = 'XPmovzxbw %s %s %s' % (b, z(disp), vreg(a[1]))
        elif v == 'pshufd': t = 'XPshufd %d %s %s' % (num(a[0][1:]), vreg(a[1]), vreg(a[2]))
        elif v == 'permq': t = 'XPermq %d %s %s' % (num(a[0][1:]), vreg(a[1]), vreg(a[2]))
        elif v == 'pmaddwd': t = 'XPmaddwd %s %s %s' % (vreg(a[0]), vreg(a[1]), vreg(a[-1]))
        elif v == 'paddd' and vreg(a[0]) is None: t = 'XPadddM %s %s %s' % (mem_op(a[0]), vreg(a[1]), vreg(a[-1]))
        elif v == 'paddd': t = 'XPaddd %s %s %s' % (vreg(a[0]), vreg(a[1]), vreg(a[-1]))
        elif v == 'movdqu': t = 'XStore %s %s' % (vreg(a[0]), mem_op(a[1]))
        elif op == 'prefetcht0': t = 'XPrefetch'
        elif op in ('movq', 'movl'): t = 'XMov %s %s' % (GP[a[0]], GP[a[1]])
        elif op in ('subq', 'subl'): t = 'XSub %d %s' % (num(a[0][1:]), GP[a[1]])
        elif op in ('addq', 'addl'): t = 'XAdd %d %s' % (num(a[0][1:]), GP[a[1]])
        elif op in ('decq', 'decl'): t = 'XDec %s' % GP[a[0]]
        elif op in ('shlq', 'shll'): t = 'XShl %d %s' % (num(a[0][1:]), GP[a[1]])
        elif op in ('leaq', 'leal'):
            disp, b, i, sc = addr(a[0]); assert disp == 0
            t = 'XLea %s %s %d %s' % (b, i, sc, GP[a[1]])
        elif op == 'test': t = 'XTest %s %s' % (GP[a[0]], GP[a[1]])
        else: sys.exit('unknown instruction %r at line %d' % (s, n))
        out.append((n, t))
    return labels, out

def emit(name, path, first, last):
    labels, out = translate(extract('/repo/internal/' + path, first, last))
    print('(* %s %d-%d; labels: %s *)' % (path, first, last, ', '.join('%s = %d' % (k.replace('%=', ''), v) for k, v in labels.items())))
    print('Definition %s : list xop :=\n  [' % name, end='')
    print(';\n   '.join(t for _, t in out) + '].\n')

print('''(* X86Kernels.v: the inline assembly of internal/kernel_sse.h and kernel_avx.h, one
   constructor per instruction in source order (generated by
   tools/gen_x86_kernels.py from the headers).  Two-operand instructions are
   written with their destination repeated. *)
From Verif Require Import Base X86Model.
Local Open Scope nat_scope.
Local Open Scope Z_scope.
''')
emit('SSE4_32_Kernel4x4Depth2_asm', 'kernel_sse.h', 73, 193)
emit('SSE4_64_Kernel12x4Depth2_asm', 'kernel_sse.h', 261, 501)
emit('AVX2_64_Kernel24x8Depth2_asm', 'kernel_avx.h', 82, 344)
