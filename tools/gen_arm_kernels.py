#!/usr/bin/env python3
"""Transcribes the inline assembly of /repo/internal/kernel_neon.h into
rocq/theories/ArmKernels.v, one constructor per instruction (per register for
loads and stores of several registers), in the order of the source.  Labels
become positions in the list."""
import re, sys
SRC = open('/repo/internal/kernel_neon.h').read().split('\n')
GP = {'%[lhs_ptr]': 'ALhs', '%[rhs_ptr]': 'ARhs', '%[dst_ptr]': 'ADst', '%[run_depth]': 'ARun', '%w[depth]': 'ARun',
      '%[start_depth]': 'AStart', '%[dst_col_stride]': 'AStride', '%[global_accumulators]': 'AGlob',
      'r0': 'AR0', 'x0': 'AR0', 'r1': 'AR1', 'x1': 'AR1'}
COND = {'b': 'CAL', 'beq': 'CEQ', 'bne': 'CNE', 'bge': 'CGE'}

def asm_text(first, last):
    """the concatenated string of the asm statement, with macros expanded"""
    macros, body, inasm, i = {}, [], False, first - 1
    while i < last:
        l = SRC[i]
        if l.lstrip().startswith('#'):
            full = l.rstrip()
            while full.endswith('\\'):
                i += 1; full = full[:-1] + ' ' + SRC[i].rstrip()
            m = re.match(r'\s*#define\s+(\w+)\s+(.*)', full)
            if m: macros[m.group(1)] = m.group(2)
        elif 'asm volatile(' in l: inasm = True
        elif inasm and re.match(r'\s*:\s*// outputs', l): break
        elif inasm: body.append(l)
        i += 1
    def tokens(t):
        out, j = [], 0
        while j < len(t):
            if t[j] == '"':
                k = j + 1
                while t[k] != '"': k += 2 if t[k] == '\\' else 1
                out.append(('s', t[j+1:k])); j = k + 1
            elif t.startswith('//', j):
                k = t.find('\n', j); j = len(t) if k < 0 else k
            elif t.startswith('/*', j): j = t.find('*/', j) + 2
            elif re.match(r'\w', t[j]):
                m = re.match(r'\w+', t[j:]); out.append(('i', m.group(0))); j += m.end()
            else: j += 1
        return out
    def expand(t): return ''.join(x if k == 's' else expand(macros[x]) for k, x in tokens(t))
    return expand('\n'.join(body)).replace('\\n', '\n')

def ops(s):
    out, d, cur = [], 0, ''
    for ch in s:
        if ch in '{[': d += 1
        if ch in '}]': d -= 1
        if ch == ',' and d == 0: out.append(cur.strip()); cur = ''
        else: cur += ch
    if cur.strip(): out.append(cur.strip())
    return out
def imm(s): return int(s.lstrip('#'), 0)
def z(n): return str(n) if n >= 0 else '(%d)' % n
def vq(s):                      # v3.8h, q5
    m = re.fullmatch(r'(?:v(\d+)\.\w+|q(\d+))', s); return m.group(1) or m.group(2)
def dh(s):                      # d5 -> (q2, half 1); v3.8b -> (v3, half 0)
    m = re.fullmatch(r'd(\d+)', s)
    if m: return int(m.group(1)) // 2, int(m.group(1)) % 2
    return int(vq(s)), 0
def elem(s):                    # v0.h[5], d1[2]
    m = re.fullmatch(r'v(\d+)\.\w+\[(\d+)\]', s)
    if m: return int(m.group(1)), int(m.group(2))
    m = re.fullmatch(r'd(\d+)\[(\d+)\]', s)
    return int(m.group(1)) // 2, 4 * (int(m.group(1)) % 2) + int(m.group(2))
def base(s):                    # [%[lhs_ptr]:64]! -> (ALhs, disp, wb)
    m = re.fullmatch(r'\[(.+?)(?::64)?(?:,\s*#(\d+))?\](!?)', s)
    return GP[m.group(1)], int(m.group(2) or 0), m.group(3) == '!'

words = []
def translate(text):
    labels, code = [], []
    for l in text.split('\n'):
        l = l.split('//')[0] if not l.startswith('.word') else l
        l = l.strip()
        if not l: continue
        m = re.fullmatch(r'(\d+):', l)
        if m: labels.append((m.group(1), len(code))); continue
        code += list(instr(l))
    out = []
    for n, t in enumerate(code):
        m = re.search(r'@(\d+)([fb])', t)
        if m:
            c = [p for k, p in labels if k == m.group(1) and (p > n if m.group(2) == 'f' else p <= n)]
            t = t.replace(m.group(0), str(min(c) if m.group(2) == 'f' else max(c)))
        out.append(t)
    return labels, out

loc = {'AR0': None, 'AR1': None}   # which memory the scratch pointers point to
def space(b): return loc[b]
def instr(l):
    op, _, rest = l.partition(' ')
    a = ops(rest.strip())
    if op == '.word':
        w = int(rest.split()[0], 16); words.append(w)
        f = lambda lo, n: (w >> lo) & ((1 << n) - 1)
        dec = (f(0, 5), f(5, 5), f(16, 5), 2 * f(11, 1) + f(21, 1))
        m = re.search(r'udot v(\d+)\.4s, v(\d+)\.16b, v(\d+)\.4b\[(\d)\]', l)
        assert dec == tuple(int(x) for x in m.groups()), l      # the comment beside the encoding
        yield 'NUdot %d %d %d %d' % dec; return
    if op in COND: yield 'ABr %s @%s' % (COND[op], a[0]); return
    if op == 'add' and re.fullmatch(r'v\d+\.4s', a[0]): yield 'NAddQ %s %s %s' % tuple(vq(x) for x in a); return
    if op in ('mov', 'mul', 'lsl', 'add', 'sub', 'subs', 'cmp'):
        d = GP[a[0]]
        src = a[1:] if len(a) == 3 or op in ('mov', 'cmp', 'mul') else [a[0]] + a[1:]
        if op == 'mov':
            if src[0].startswith('#'): yield 'AMovI %s %s' % (d, z(imm(src[0])))
            else:
                s = GP[src[0]]
                if s in ('ADst', 'AGlob'): loc[d] = {'ADst': 'SDst', 'AGlob': 'SLoc'}[s]
                elif s in loc: loc[d] = loc[s]
                yield 'AMov %s %s' % (d, s)
        elif op == 'cmp': yield 'ACmp %s %s' % (d, z(imm(src[0])))
        elif op == 'mul': yield 'AMul %s %s' % (d, GP[src[0]])
        elif op == 'lsl': yield 'ALsl %s %s %s' % (d, GP[src[0]], imm(src[1]))
        elif op == 'add': yield 'AAdd %s %s %s' % (d, GP[src[0]], '(OImm %d)' % imm(src[1]) if src[1].startswith('#') else '(OReg %s)' % GP[src[1]])
        elif op == 'sub': yield 'ASub %s %s %d' % (d, GP[src[0]], imm(src[1]))
        else: yield 'ASubs %s %s %d' % (d, GP[src[0]], imm(src[1]))
        return
    if op in ('dup', 'vmov.i32', 'vmov.s32'):
        if a[1] in ('wzr', '#0'): yield 'NZero %s' % vq(a[0])
        else: yield 'NMovQ %s %s' % (vq(a[0]), vq(a[1]))
        return
    if op == 'vldr':
        b, disp, wb = base(a[1]); q, h = dh(a[0])
        yield 'NLd8 false %d %d %s %d 0' % (q, h, b, disp); return
    if op in ('ld1', 'st1'):
        reg = a[0].strip('{} '); b, _, _ = base(a[1])
        post = a[2] if len(a) > 2 else '#0'
        n = vq(reg)
        if b in ('ALhs', 'ARhs'):
            if reg.endswith('.8b'): yield 'NLd8 true %s 0 %s 0 %d' % (n, b, imm(post))
            else: yield 'NLd16 %s %s %d' % (n, b, imm(post))
        else:
            yield '%s %s %s %s %s' % ('NLdW' if op == 'ld1' else 'NStW', space(b), n, b,
                '(OImm %d)' % imm(post) if post.startswith('#') else '(OReg %s)' % GP[post])
        return
    if op == 'vld1.8':
        b, _, wb = base(a[1]); assert wb
        for r in a[0].strip('{} ').split(','):
            q, h = dh(r.strip()); yield 'NLd8 false %d %d %s 0 8' % (q, h, b)
        return
    if op in ('vld1.32', 'vst1.32'):
        rs = [r.strip() for r in a[0].strip('{} ').split(',')]
        b, _, wb = base(a[1]); c = 'NLdW' if op == 'vld1.32' else 'NStW'
        for k in range(0, len(rs), 2):
            q, h = dh(rs[k]); assert h == 0 and dh(rs[k+1]) == (q, 1)
            if len(a) > 2: assert len(rs) == 2; o = '(OReg %s)' % GP[a[2]]
            else: o = '(OImm %d)' % (16 if wb else 0); assert wb or len(rs) == 2
            yield '%s %s %d %s %s' % (c, space(b), q, b, o)
        return
    if op in ('vld4.32', 'vst4.32'):
        rs = [dh(r.strip()) for r in a[0].strip('{} ').split(',')]
        b, _, wb = base(a[1]); assert wb and space(b) == 'SLoc' and len({h for _, h in rs}) == 1
        yield '%s %d %s %s 32' % ('NLd4' if op == 'vld4.32' else 'NSt4', rs[0][1], ' '.join(str(q) for q, _ in rs), b); return
    if op in ('uxtl', 'vmovl.u8'):
        q, h = dh(a[1]); yield 'NMovl %s %d %d' % (vq(a[0]), q, h); return
    if op in ('umlal', 'umlal2', 'vmlal.u16'):
        q, h = dh(a[1]); m, i = elem(a[2])
        if op == 'umlal2': h = 1
        yield 'NMlal16 %s %d %d %d %d' % (vq(a[0]), q, h, m, i); return
    if op in ('smull', 'vmull.s8', 'smlal2', 'vmlal.s8', 'vmlal.u8'):
        n, hn = dh(a[1]); m, hm = dh(a[2])
        if op == 'smlal2': hn = hm = 1
        c = {'smull': 'NMull8', 'vmull.s8': 'NMull8', 'vmlal.u8': 'NMlalU8'}.get(op, 'NMlal8')
        yield '%s %s %d %d %d %d' % (c, vq(a[0]), n, hn, m, hm); return
    if op in ('sadalp', 'vpadal.s16'): yield 'NPadal %s %s' % (vq(a[0]), vq(a[1])); return
    if op == 'vpadal.u16': yield 'NPadalU %s %s' % (vq(a[0]), vq(a[1])); return
    if op == 'addp': yield 'NAddp %s %s %s' % tuple(vq(x) for x in a); return
    if op == 'vpadd.s32': yield 'NPaddD %d %d %d %d %d %d' % sum((dh(x) for x in a), ()); return
    if op == 'vadd.s32': yield 'NAddQ %s %s %s' % tuple(vq(x) for x in a); return
    if op == 'vext.8':
        assert a[0] == a[1] == a[2]; q, h = dh(a[0]); yield 'NRot8 %d %d %d' % (q, h, imm(a[3])); return
    if op == 'vext.32':
        assert a[0] == a[1] == a[2]; yield 'NRot32 %s %d' % (vq(a[0]), imm(a[3])); return
    if op == 'vtrn.32': yield 'NTrn %s %s' % (vq(a[0]), vq(a[1])); return
    if op == 'vswp': yield 'NSwp %d %d %d %d' % (dh(a[0]) + dh(a[1])); return
    sys.exit('unknown instruction %r' % l)

def emit(name, struct):
    first = next(i for i, l in enumerate(SRC, 1) if re.match(r'struct %s\b' % struct, l))
    last = next(i for i, l in enumerate(SRC, 1) if i > first and l.startswith('};'))
    labels, out = translate(asm_text(first, last))
    print('(* kernel_neon.h %d-%d; labels: %s *)' % (first, last, ', '.join('%s = %d' % kv for kv in labels)))
    print('Definition %s : list aop :=\n  [' % name, end='')
    print(';\n   '.join(out) + '].\n')

print('''(* ArmKernels.v: the inline assembly of internal/kernel_neon.h, one constructor per
   instruction in source order, loads and stores of several registers one per
   register (generated by tools/gen_arm_kernels.py from the header). *)
From Verif Require Import Base ArmModel.
Local Open Scope nat_scope.
Local Open Scope Z_scope.
''')
for n in ['NEON_32_Kernel12x4Depth2', 'NEON_32_Kernel12x4Depth2Assuming12BitProducts',
          'NEON_32bit_GEMM_Int8Operands_LhsNonzero', 'NEON_64bit_GEMM_Int8Operands_LhsNonzero',
          'NEON_64_Kernel12x8Depth2', 'NEON_64_Kernel12x8Depth4_dotprod']:
    emit(n + '_asm', n)
print('(* the .word instructions of the dotprod kernel, in order *)')
print('Definition dotprod_words : list Z :=\n  [' + ';\n   '.join('; '.join('0x%x' % w for w in words[i:i+6]) for i in range(0, len(words), 6)) + '].')
