#!/usr/bin/env python3
"""Seeded-bug runner.  usage: seed.py mutants.json

Each mutant is {definition, file, old, new, edit, claim, expect}.  The Coq
sources are copied to a scratch directory, one definition of the model is
edited, and the files are rebuilt.  A lemma whose proof no longer goes through
is given up (Admitted, in the scratch copy only) so that the build can go on;
a property theorem counts as failed when its proof breaks or when Print
Assumptions shows that it rests on a lemma that was given up.  One line per
mutant is appended to seeded/LOG.jsonl."""
import json, os, re, shutil, subprocess, sys

ROOT = os.path.dirname(os.path.dirname(os.path.abspath(__file__)))
SCR = os.environ.get('SEED_DIR', '/tmp/seed')
BASE = SCR + '_base'
J = os.environ.get('SEED_J', '3')
LIMIT = int(os.environ.get('SEED_LIMIT', '400'))
# build only these files (and what they need) instead of everything
TARGETS = os.environ.get('SEED_TARGETS', '')

# axioms of Coq.Reals, which Props_Accuracy.v rests on
STDLIB = {'Axioms', 'Closed', 'ClassicalDedekindReals.sig_not_dec', 'ClassicalDedekindReals.sig_forall_dec',
          'FunctionalExtensionality.functional_extensionality_dep', 'Classical_Prop.classic'}

def sh(cmd, cwd, timeout=3600):
    p = subprocess.run(cmd, shell=True, cwd=cwd, stdout=subprocess.PIPE, stderr=subprocess.STDOUT, timeout=timeout)
    return p.returncode, p.stdout.decode(errors='replace')

START = re.compile(r'^\s*(?:#\[[^\]]*\]\s*)?(?:Local |Global )?(Lemma|Theorem|Example|Corollary|Fact|Remark|Instance)\s+([A-Za-z0-9_\']+)')

def give_up(path, line):
    """admit the statement whose proof contains the line; return its name"""
    L = open(path).read().split('\n')
    i = line - 1
    while i >= 0 and not START.match(L[i]): i -= 1
    if i < 0: return None
    name = START.match(L[i]).group(2)
    j = i
    txt = '\n'.join(L[i:])
    # only the Proof ... Qed. of this statement
    m = re.search(r'\bProof\.(.*?)(\bQed\.|\bDefined\.|\bAdmitted\.)', txt, re.S)
    if not m: return None
    stmt_end = sum(len(x) + 1 for x in L[i:line - 1])
    txt2 = txt[:m.start()] + 'Admitted.' + txt[m.end():]
    if m.group(2) == 'Admitted.' or m.start() > stmt_end + len(L[line - 1]):
        return ('STATEMENT', name)
    open(path, 'w').write('\n'.join(L[:i]) + ('\n' if i else '') + txt2)
    return name

def drop(path, name):
    """remove a statement that no longer type checks"""
    s = open(path).read()
    m = re.search(r'^(?:Lemma|Theorem|Example)\s+' + re.escape(name) + r'\b.*?(?:Qed\.|Defined\.|Admitted\.)', s, re.S | re.M)
    s = s[:m.start()] + s[m.end():]
    s = s.replace('Print Assumptions %s.' % name, '')
    open(path, 'w').write(s)

def stuck(name):
    """where the proof of a file that ran into the time limit got stuck"""
    fn = name + '.v'
    _, out = sh('timeout %d coqc -time -Q theories Verif theories/%s' % (LIMIT, fn), SCR, None)
    ends = re.findall(r'^Chars \d+ - (\d+) ', out, re.M)
    src = open(os.path.join(SCR, 'theories', fn), 'rb').read()
    pos = int(ends[-1]) if ends else 0
    while src[pos:pos + 1].isspace(): pos += 1
    return fn, src[:pos].count(b'\n') + 1

def prepare():
    shutil.rmtree(BASE, ignore_errors=True)
    sh('cp -a %s/rocq %s' % (ROOT, BASE), '/')
    sh('coq_makefile -f _CoqProject -o Makefile', BASE)
    rc, out = sh('make -j4 2>&1', BASE)
    assert rc == 0, out[-2000:]

def run(mut):
    if os.path.exists(SCR): shutil.rmtree(SCR)
    sh('cp -a %s %s' % (BASE, SCR), '/')
    sh('coq_makefile -f _CoqProject -o Makefile', SCR)
    f = os.path.join(SCR, 'theories', mut['file'])
    s = open(f).read()
    assert s.count(mut['old']) >= 1, ('old text not found', mut['definition'])
    open(f, 'w').write(s.replace(mut['old'], mut['new'], 1))
    given, dropped = [], []
    for _ in range(60):
        rc, out = sh('make -k -j%s COQC="timeout %d coqc" %s 2>&1' % (J, LIMIT, TARGETS), SCR, None)
        if rc == 0: break
        errs = re.findall(r'File "\./theories/([^"]+)", line (\d+), characters [^\n]*\nError', out)
        errs += [stuck(fn) for fn in re.findall(r'theories/([A-Za-z0-9_]+)\.vo\] Error 124', out)]
        if not errs: return None, 'no error location: ' + out[-1500:]
        seen = set()
        for fn, ln in errs:
            if fn in seen: continue
            seen.add(fn)
            p = os.path.join(SCR, 'theories', fn)
            g = give_up(p, int(ln))
            if g is None: return None, 'cannot give up %s:%s\n%s' % (fn, ln, out[-1500:])
            if isinstance(g, tuple):
                drop(p, g[1]); dropped.append(g[1])
            else: given.append(g)
    else: return None, 'too many rounds: %s' % given
    failed, held = [], []
    for fn in sorted(os.listdir(os.path.join(SCR, 'theories'))):
        if not (fn.startswith('Props_') and fn.endswith('.v')): continue
        vo = 'theories/' + fn + 'o'
        # not rebuilt: does not depend on the edited definition
        if os.path.getmtime(os.path.join(SCR, vo)) == os.path.getmtime(os.path.join(BASE, vo)): continue
        src = open(os.path.join(SCR, 'theories', fn)).read()
        names = re.findall(r'^Print Assumptions ([A-Za-z0-9_]+)\.', src, re.M)
        rc, out = sh('coqc -Q theories Verif theories/%s 2>&1' % fn, SCR)
        blocks = re.findall(r'Closed under the global context|Axioms:\n(?:.*\n?)*?(?=Closed under|Axioms:|\Z)', out)
        assert len(blocks) == len(names), (fn, len(blocks), len(names), out[-500:])
        for n, b in zip(names, blocks):
            ax = set(re.findall(r'^([A-Za-z_][\w.\']*)(?: :|$)', b, re.M)) - STDLIB
            (held if not ax else failed).append(n)
    failed += [d for d in dropped if re.match(r'C\d\d', d)]
    return failed, given + ['(dropped) ' + d for d in dropped]

def main():
    muts = json.load(open(sys.argv[1]))
    prepare()
    for mut in muts:
        try: failed, given = run(mut)
        except Exception as e: failed, given = None, repr(e)
        if failed is None:
            print('ERROR', mut['definition'], '|', mut['edit'], given, flush=True)
            continue
        miss = [e for e in mut['expect'] if not any(x.startswith(e) for x in failed)]
        print(('SURVIVED' if not failed else 'MISSED ' + ','.join(miss) if miss else 'caught'), mut['definition'], '|', mut['edit'],
              '|', sorted(failed), '| lemmas', given, flush=True)
        with open(os.path.join(ROOT, 'seeded', 'LOG.jsonl'), 'a') as o:
            o.write(json.dumps({'definition': mut['definition'], 'edit': mut['edit'], 'claim_broken': mut['claim'],
                                'theorems_failed': sorted(failed), 'lemmas_failed': given,
                                'expected_but_held': miss, 'theorems_tightened': mut.get('tightened', []),
                                **({'only_built': TARGETS} if TARGETS else {})}) + '\n')
main()
