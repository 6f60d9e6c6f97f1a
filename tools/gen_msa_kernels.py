#!/usr/bin/env python3
"""Transcribes the inline assembly of /repo/internal/kernel_msa.h into
rocq/theories/MsaKernels.v, one constructor per instruction, in the order of the
source.  Labels become positions in the list.  The macros GEMMLOWP_MIPS_XADDU,
XADDIU and XSLL (addu/daddu, addiu/daddiu, sll/dsll) become one instruction for
both word sizes."""
import re, sys
SRC = open('/repo/internal/kernel_msa.h').read().split('\n')
GP = {'%[lhs_ptr]': 'MLhs', '%[rhs_ptr]': 'MRhs', '%[dst_ptr]': 'MDst', '%[dst_ptr0]': 'MDst', '%[dst_ptr1]': 'MDst1',
      '%[dst_ptr2]': 'MDst2', '%[dst_ptr3]': 'MDst3', '%[run_depth]': 'MRun', '%[start_depth]': 'MStart',
      '%[dst_col_stride]': 'MStride', '$a0': 'MA0', '$a1': 'MA1'}
MACROS = {'GEMMLOWP_MIPS_XADDU': '"xaddu"', 'GEMMLOWP_MIPS_XADDIU': '"xaddiu"', 'GEMMLOWP_MIPS_XSLL': '"xsll"'}

def asm_text(first, last):
    macros, body, inasm = dict(MACROS), [], False
    for l in SRC[first - 1:last]:
        m = re.match(r'\s*#define\s+(\w+)\s+(.*)', l)
        if m: macros[m.group(1)] = m.group(2)
        elif l.lstrip().startswith('#'): pass
        elif 'asm volatile(' in l: inasm = True
        elif inasm and re.match(r'\s*:\s*// outputs', l): break
        elif inasm: body.append(l.split('//')[0])
    out = ''
    for s, i in re.findall(r'"([^"]*)"|(\w+)', '\n'.join(body)):
        out += s if not i else macros[i].strip('"')
    return out.replace('\\n', '\n')

def w(s): return re.fullmatch(r'\$w(\d+)', s).group(1)
def z(n): return str(n) if n >= 0 else '(%d)' % n
def addr(s):                    # 16(%[lhs_ptr]), (1*16)($a0)
    m = re.fullmatch(r'\(?(\d+)(?:\*(\d+)\))?\((.+)\)', s)
    return GP[m.group(3)], int(m.group(1)) * int(m.group(2) or 1)
def instr(l):
    op, _, rest = l.partition(' ')
    a = [x.strip() for x in rest.split(',')]
    if op in ('b', 'beqz', 'bnez'):
        if op == 'b': return 'MJump @' + a[0]
        return 'MBranch %s %s @%s' % ('true' if op == 'beqz' else 'false', GP[a[0]], a[1])
    if op == 'xaddu': return 'MAdd %s %s %s' % tuple(GP[x] for x in a)
    if op == 'xaddiu': assert len(a) == 2; return 'MAddI %s %s' % (GP[a[0]], z(int(a[1])))
    if op == 'xsll': return 'MSll %s %s %d' % (GP[a[0]], GP[a[1]], int(a[2]))
    if op == 'ld.b':
        b, d = addr(a[1]); assert b in ('MLhs', 'MRhs'); return 'MLdB %s %s %d' % (w(a[0]), b, d)
    if op in ('ld.w', 'st.w'):
        b, d = addr(a[1]); assert b not in ('MLhs', 'MRhs'); return '%s %s %s %d' % ('MLdW' if op == 'ld.w' else 'MStW', w(a[0]), b, d)
    if op in ('ldi.b', 'ldi.h', 'ldi.w'):
        return 'MLdi %s %d %s' % (w(a[0]), {'b': 8, 'h': 16, 'w': 32}[op[-1]], z(int(a[1])))
    if op == 'splati.w':
        m = re.fullmatch(r'\$w(\d+)\[(\d)\]', a[1]); return 'MSplati %s %s %s' % (w(a[0]), m.group(1), m.group(2))
    c = {'ilvr.b': 'MIlvr', 'ilvl.b': 'MIlvl', 'dpadd_u.w': 'MDpaddU', 'dotp_s.h': 'MDotpS', 'dpadd_s.w': 'MDpaddS',
         'hadd_s.d': 'MHadd', 'pckev.w': 'MPckev', 'addv.w': 'MAddv'}
    if op in c: return '%s %s %s %s' % (c[op], w(a[0]), w(a[1]), w(a[2]))
    sys.exit('unknown instruction %r' % l)

def emit(struct):
    first = next(i for i, l in enumerate(SRC, 1) if re.match(r'struct %s\b' % struct, l))
    last = next(i for i, l in enumerate(SRC, 1) if i > first and l.startswith('};'))
    labels, code = [], []
    for l in asm_text(first, last).split('\n'):
        l = l.strip()
        if not l: continue
        m = re.fullmatch(r'(\d+):', l)
        if m: labels.append((m.group(1), len(code)))
        else: code.append(instr(l))
    for n, t in enumerate(code):
        m = re.search(r'@(\d+)([fb])', t)
        if m:
            c = [p for k, p in labels if k == m.group(1) and (p > n if m.group(2) == 'f' else p <= n)]
            code[n] = t.replace(m.group(0), str(min(c) if m.group(2) == 'f' else max(c)))
    print('(* kernel_msa.h %d-%d; labels: %s *)' % (first, last, ', '.join('%s = %d' % kv for kv in labels)))
    print('Definition %s_asm : list mop :=\n  [%s].\n' % (struct, ';\n   '.join(code)))

print('''(* MsaKernels.v: the inline assembly of internal/kernel_msa.h, one constructor per
   instruction in source order (generated by tools/gen_msa_kernels.py from the
   header). *)
From Verif Require Import Base MsaModel.
Local Open Scope nat_scope.
Local Open Scope Z_scope.
''')
emit('MSA_Kernel12x8Depth2')
emit('MSA_GEMM_Int8Operands_LhsNonzero')
