#!/usr/bin/env python3
"""Transcribes the inline assembly of /repo/meta/transform_kernels_arm_64.h into
rocq/theories/TransformKernels.v, or with the argument 32 that of
transform_kernels_arm_32.h into TransformKernels32.v: for each kernel and number of leftovers the
straight-line pieces, one constructor per instruction, in the order of the
source.  The control flow around the pieces is checked against the text here:

  without rows:  PRE [subs count, L; beq 2f] 1: subs count, 16 BODY bne 1b [2: POST]
  with rows:     PRE 1: mov x0, count; mov x1, bias [subs x0, L; beq 3f]
                 2: subs x0, 16 BODY bne 2b [3: POST] subs rows, 1; bne 1b

(the parts in brackets only for L > 0; r0, r1 on 32-bit ARM).  prfm and pld are
left out.  On 32-bit ARM register d2k is the low half of qk, d2k+1 the high half;
q registers have the numbers of v registers.  Anything else in the text stops the
script.
usage: gen_transform.py > rocq/theories/TransformKernels.v
       gen_transform.py 32 > rocq/theories/TransformKernels32.v"""
import re, sys
A32 = sys.argv[1:] == ['32']
SRC = 'transform_kernels_arm_%d.h' % (32 if A32 else 64)
SUF = '32' if A32 else ''
T = open('/repo/meta/' + SRC).read()
SZ = {'int32_t': 4, 'uint8_t': 1, 'float': 4}
sizes = {}
parts = re.split(r'^template <>\n', T, flags=re.M)[1:]
line = 1 + T[:T.index('template <>\n')].count('\n')

def reg(s, suffix):
    m = re.fullmatch(r'v(\d+)\.' + suffix, s); assert m, (s, suffix)
    return m.group(1)
def shape(s):
    """operand list of ld1/st1: shapes and number of bytes"""
    inner = re.fullmatch(r'\{(.*)\}(?:\[(\d+)\])?', s); assert inner, s
    if inner.group(2) is not None:
        m = re.fullmatch(r'v(\d+)\.([bhs])', inner.group(1)); w = {'b': 1, 'h': 2, 's': 4}[m.group(2)]
        return ['(SLane %s %d %s)' % (m.group(1), w, inner.group(2))], w
    rs = inner.group(1).split(', ')
    if len(rs) == 1 and rs[0].endswith('.2s'): return ['(SHalf %s)' % reg(rs[0], '2s')], 8
    return ['(SFull %s)' % reg(r, '4s') for r in rs], 16 * len(rs)
def tr(i):
    m = re.fullmatch(r'(ld1|st1) (\{.*\}(?:\[\d+\])?), \[(%x\[input\]|%x\[output\]|x1)\], #(\d+)', i)
    if m:
        sh, n = shape(m.group(2)); assert n == int(m.group(4)), i
        assert (m.group(1) == 'st1') == (m.group(3) == '%x[output]'), i
        c = 'St' if m.group(1) == 'st1' else 'LdBias' if m.group(3) == 'x1' else 'Ld'
        return ['%s %s' % (c, s) for s in sh]
    m = re.fullmatch(r'ldr w0, %\[(\w+)\]', i)
    if m: return ['Ldr P_' + m.group(1)]
    m = re.fullmatch(r'dup v(\d+)\.(4s|16b), (?:%w\[(\w+)\]|w0)', i)
    if m:
        w = {'4s': 4, '16b': 1}[m.group(2)]
        if m.group(3): return ['Dup %s %d P_%s' % (m.group(1), w, m.group(3))]
        return ['DupW0 %s %d' % (m.group(1), w)]
    op, args = i.split(' ', 1); a = args.split(', ')
    if op in ('fadd', 'fsub', 'fmul'): return ['F%s %s' % (op[1:], ' '.join(reg(x, '4s') for x in a))]
    if op in ('umax', 'umin'): return ['U%s %s' % (op[1:], ' '.join(reg(x, '16b') for x in a))]
    one = {'scvtf': ('Scvtf', '4s', '4s'), 'fcvtns': ('Fcvtns', '4s', '4s'), 'fcvtzs': ('Fcvtzs', '4s', '4s'),
           'uxtl': ('Uxtl', '8h', '8b'), 'uxtl2': ('Uxtl2', '8h', '16b'), 'sxtl': ('Sxtl', '4s', '4h'), 'sxtl2': ('Sxtl2', '4s', '8h'),
           'sqxtn': ('Sqxtn', '4h', '4s'), 'sqxtn2': ('Sqxtn2', '8h', '4s'), 'sqxtun': ('Sqxtun', '8b', '8h'), 'sqxtun2': ('Sqxtun2', '16b', '8h')}
    c, d, s = one[op]; assert len(a) == 2
    return ['%s %s %s' % (c, reg(a[0], d), reg(a[1], s))]
def half(s):
    m = re.fullmatch(r'd(\d+)', s); assert m, s
    return int(m.group(1)) // 2, int(m.group(1)) % 2
def q(s):
    m = re.fullmatch(r'q(\d+)', s); assert m, s
    return m.group(1)
def tr32(i):
    m = re.fullmatch(r'v(ld|st)1\.(8|16|32) \{(.*)\}, \[(%\[input\]|%\[output\]|r1)\]!', i)
    if m:
        assert (m.group(1) == 'st') == (m.group(4) == '%[output]'), i
        c = 'St' if m.group(1) == 'st' else 'LdBias' if m.group(4) == 'r1' else 'Ld'
        l = re.fullmatch(r'(d\d+)\[(\d)\]', m.group(3))
        if l:
            w = int(m.group(2)) // 8; k, h = half(l.group(1)); assert int(l.group(2)) < 8 // w
            return ['%s (SLane %d %d %d)' % (c, k, w, h * (8 // w) + int(l.group(2)))]
        return ['%s (SLane %d 8 %d)' % ((c,) + half(x)) for x in m.group(3).split(', ')]
    m = re.fullmatch(r'ldr r0, %\[(\w+)\]', i)
    if m: return ['Ldr P_' + m.group(1)]
    m = re.fullmatch(r'vdup\.(8|32) (q\d+), (?:%\[(\w+)\]|r0)', i)
    if m:
        if m.group(3): return ['Dup %s %d P_%s' % (q(m.group(2)), int(m.group(1)) // 8, m.group(3))]
        return ['DupW0 %s %d' % (q(m.group(2)), int(m.group(1)) // 8)]
    op, args = i.split(' ', 1); a = args.split(', ')
    three = {'vadd.f32': 'Fadd', 'vsub.f32': 'Fsub', 'vmul.f32': 'Fmul', 'vmax.u8': 'Umax', 'vmin.u8': 'Umin'}
    if op in three: assert len(a) == 3; return ['%s %s' % (three[op], ' '.join(q(x) for x in a))]
    assert len(a) == 2
    if op == 'vcvt.f32.s32': return ['Scvtf %s %s' % (q(a[0]), q(a[1]))]
    if op == 'vcvt.s32.f32': return ['Fcvtzs %s %s' % (q(a[0]), q(a[1]))]
    if op in ('vmovl.u8', 'vmovl.s16'):
        k, h = half(a[1]); return ['%s%s %s %d' % ({'vmovl.u8': 'Uxtl', 'vmovl.s16': 'Sxtl'}[op], '2' if h else '', q(a[0]), k)]
    k, h = half(a[0]); return ['%s%s %d %s' % ({'vqmovn.s32': 'Sqxtn', 'vqmovun.s16': 'Sqxtun'}[op], '2' if h else 'D', k, q(a[1]))]

X0, X1, N = ('r0', 'r1', '%%[%s]') if A32 else ('x0', 'x1', '%%x[%s]')
out = {}
for p in parts:
    h = re.match(r'inline void Transform1DKernel<(\w+), (\w+), (\w+)(?:<uint8_t>)?, 16,\s*(\d+)>::Transform\(', p)
    assert h, p[:100]
    fam, L = h.group(3), int(h.group(4))
    sizes[fam] = '%d %d' % (SZ[h.group(1)], SZ[h.group(2)])
    body = p[p.index('asm volatile('):]
    # the instructions end at the first operand list
    code = body[:re.search(r'^\s*: \[', body, re.M).start()]
    toks = []
    for s in re.findall(r'"((?:[^"\\]|\\.)*)"', code):
        if s.endswith('\\n'): s = s[:-2]
        if not s.startswith('pld' if A32 else 'prfm'): toks.append(s)
    def split(sep):
        global toks
        i = 0
        while toks[i:i + len(sep)] != sep:
            i += 1; assert i < len(toks), (fam, L, sep)
        r, toks = toks[:i], toks[i + len(sep):]
        return r
    left = lambda x, t: ['subs %s, %s, #%d' % (x, x, L), 'beq ' + t] if L else []
    if fam == 'BiasAdd':
        pre = split(['1:', 'mov %s, %s' % (X0, N % 'count'), 'mov %s, %s' % (X1, N % 'bias')] + left(X0, '3f') + ['2:', 'subs %s, %s, #16' % (X0, X0)])
        bod = split(['bne 2b'] + (['3:'] if L else []))
        post = split(['subs %s, %s, #1' % (N % 'rows', N % 'rows'), 'bne 1b'])
        assert toks == []
    else:
        pre = split(left(N % 'count', '2f') + ['1:', 'subs %s, %s, #16' % (N % 'count', N % 'count')])
        bod = split(['bne 1b'] + (['2:'] if L else []))
        post = toks
    assert L or not post
    t = lambda l: [x for i in l for x in (tr32 if A32 else tr)(i)]
    out.setdefault(fam, {})[L] = (line + 1, t(pre), t(bod), t(post))
    line += p.count('\n') + 1

print('''(* TransformKernels%s.v: the straight-line pieces of the inline assembly of
   meta/%s, one constructor per instruction, in the order
   of the source.  Generated by tools/gen_transform.py, which also checks that the
   instructions around the pieces are those described in TransformModel.v. *)
From Verif Require Import Base TransformModel.
''' % (SUF, SRC))
def wrap(l):
    s, cur = '', '  ['
    for k, x in enumerate(l):
        x += '; ' if k + 1 < len(l) else ''
        if len(cur) + len(x) > 118: s += cur.rstrip() + '\n'; cur = '   '
        cur += x
    return s + cur + ']'
for fam in out:
    assert sorted(out[fam]) == list(range(16))
    for L in range(16):
        ln, pre, bod, post = out[fam][L]
        # Prepare and the loop body are the same for every number of leftovers, or it is written out
        for nm, l in (('pre', pre), ('body', bod)):
            if L == 0: print('(* %s %d *)\nDefinition %s%s_%s : list instr :=\n%s.' % (SRC, ln, fam, SUF, nm, wrap(l)))
            else: assert l == out[fam][0][1 if nm == 'pre' else 2], (fam, L, nm)
        if L: print('(* %s %d *)\nDefinition %s%s_post%d : list instr :=\n%s.' % (SRC, ln, fam, SUF, L, wrap(post)))
    print('Definition %s_post (l : Z) : list instr :=\n  match l with\n%s\n  | _ => []\n  end.\n' % (fam + SUF, '\n'.join('  | %d => %s_post%d' % (L, fam + SUF, L) for L in range(1, 16))))
print('(* the five kernels *)')
for fam in out: print('Definition %sK : tkernel := mk_tk %s %s_pre %s_body %s_post %s.' % (fam + SUF, sizes[fam], fam + SUF, fam + SUF, fam + SUF, 'true' if fam == 'BiasAdd' else 'false'))
