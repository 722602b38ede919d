#!/usr/bin/env python3
"""Test the theorems against edited models.

usage: mutate.py BASE SCRATCH SPECS RESULTS

BASE is a copy of /verif/rocq outside /verif (prepared by `mutate.py --prepare BASE`), SPECS a file with
one JSON object per line: {"id", "file", "old", "new", ...}, with "target" for a list of modules to check (default: all).  Each edit is applied to a fresh copy of BASE,
which is then rebuilt.  A proof that fails is replaced by an appeal to the axiom [mutfail : False] (in Mut.v, which
exists only in the scratch copy), so that the build goes on; afterwards the property theorems are split
into those that rest on [mutfail] (failed) and the others (survived).  A failed proof does not show that the
statement is false of the edited model; with "witness" and "refutes" in the specification its negation is
checked as well.
"""
import json, os, re, shutil, subprocess, sys

LEMMA = re.compile(r'^(?:Local )?(Lemma|Theorem|Example|Corollary|Fact|Remark|Definition|Fixpoint|Program|Instance)\s+(\w+)', re.M)

def sh(cmd, cwd, timeout=None):
    p = subprocess.run(cmd, cwd=cwd, shell=True, stdout=subprocess.PIPE, stderr=subprocess.STDOUT, timeout=timeout)
    return p.returncode, p.stdout.decode('utf-8', 'replace')

def prepare(base):
    """/verif/rocq must be built"""
    shutil.rmtree(base, ignore_errors=True)
    sh('cp -a /verif/rocq %s' % base, '/')
    open(os.path.join(base, 'theories/Mut.v'), 'w').write('Axiom mutfail : False.\n')
    rc, out = sh('coqc -Q theories Verif theories/Mut.v && make 2>&1 | tail -5', base)
    print(out)

def takes_u(base, mod, lemma):
    t = '/tmp/mut/chk_u%d.v' % os.getpid()
    open(t, 'w').write('From Verif Require Import %s.\nCheck @%s.\n' % (mod, lemma))
    rc, out = sh('coqc -Q theories Verif %s' % t, base)
    m = re.search(r':\s*forall \(?u : env', out)
    return bool(m)

def patch(base, scratch, mod, line, failed):
    f = os.path.join(scratch, 'theories', mod + '.v')
    s = open(f).read()
    lines = s.split('\n')
    pos = sum(len(l) + 1 for l in lines[:line - 1]) + len(lines[line - 1])
    last = None
    for m in LEMMA.finditer(s):
        if m.start() <= pos: last = m
        else: break
    if last is None: return 'no lemma at %s:%d' % (mod, line)
    kind, name = last.group(1), last.group(2)
    if kind in ('Definition', 'Fixpoint', 'Program', 'Instance'): return 'definition %s fails' % name
    if name in failed and (mod, name) in failed.values(): pass
    m = re.compile(r'\bProof\b').search(s, last.start())
    q = re.compile(r'\b(Qed|Defined)\.').search(s, last.start())
    if not m or not q or q.start() < m.start(): return 'no proof at %s' % name
    if 'mutfail' in s[m.start():q.end()]: return 'statement of %s fails' % name
    keep = 'pose proof u as _keep; ' if takes_u(base, mod, name) else ''
    new = 'Proof. intros; %sexact (match Verif.Mut.mutfail with end). Qed.' % keep
    if takes_u(base, mod, name):
        new = 'Proof. pose (_keep := u). intros. exact (match Verif.Mut.mutfail with end). Qed.'
    else:
        new = 'Proof. intros. exact (match Verif.Mut.mutfail with end). Qed.'
    # keep the number of lines
    new += '\n' * s[m.start():q.end()].count('\n')
    s = s[:m.start()] + new + s[q.end():]
    if 'Require Mut.' not in s: s = 'From Verif Require Mut. ' + s
    open(f, 'w').write(s)
    failed.setdefault(mod, []).append(name)
    return None

def theorem_names(base):
    out = []
    for f in sorted(os.listdir(os.path.join(base, 'theories'))):
        if f.endswith('.v') and f != 'Samples.v':
            for m in re.finditer(r'^(Theorem|Example) (\w+)', open(os.path.join(base, 'theories', f)).read(), re.M):
                out.append((f[:-2], m.group(2)))
    return out

def survivors(base, scratch, target):
    names = [(m, n) for m, n in theorem_names(base) if re.match(r'C\d\d', n) and (not target or m in target)]
    mods = sorted(set(m for m, n in names))
    t = '/tmp/mut/chk_all%d.v' % os.getpid()
    with open(t, 'w') as g:
        g.write('From Verif Require Import %s.\n' % ' '.join(mods))
        for m, n in names:
            g.write('Goal True. idtac "##%s". Abort.\nPrint Assumptions %s.%s.\n' % (n, m, n))
    rc, out = sh('coqc -Q theories Verif %s' % t, scratch, 7200)
    if rc != 0: return None, out[-500:]
    bad = []
    for part in out.split('##')[1:]:
        n = part.split('\n', 1)[0].strip()
        if 'mutfail' in part: bad.append(n)
    good = [n for m, n in names if n not in bad]
    return bad, good

def witness(scratch, spec):
    """spec["refutes"] must be false in the edited copy: spec["witness"] is a proof of its negation, and no
    failed lemma may be used in it"""
    t = '/tmp/mut/chk_w%d.v' % os.getpid()
    with open(t, 'w') as g:
        g.write(spec.get('import', '') + '\nLemma witness : ltac:(let T := type of %s in exact (~ T)).\nProof. %s Qed.\nPrint Assumptions witness.\n'
                % (spec['refutes'], spec['witness']))
    rc, out = sh('coqc -Q theories Verif %s' % t, scratch, 900)
    return [spec['refutes']] if rc == 0 and 'Closed under the global context' in out else []

def run(base, scratch, spec):
    shutil.rmtree(scratch, ignore_errors=True); sh('cp -a %s %s' % (base, scratch), '/')
    f = os.path.join(scratch, 'theories', spec['file'] + '.v')
    s = open(f).read()
    if s.count(spec['old']) != 1:
        return {'id': spec['id'], 'error': 'pattern occurs %d times' % s.count(spec['old'])}
    open(f, 'w').write(s.replace(spec['old'], spec['new']))
    failed = {}
    target = spec.get('target', [])
    goals = ' '.join('theories/%s.vo' % t for t in target)
    for rnd in range(200):
        rc, out = sh("(ulimit -v 7000000; make -k -j2 TIMECMD='timeout 900' %s 2>&1)" % goals, scratch)
        if rc == 0: break
        errs = re.findall(r'File "\./theories/(\w+)\.v", line (\d+), characters [\d-]+:\n(?:Error|\s*\S.*\nError)', out)
        if not errs:
            errs = re.findall(r'File "\./theories/(\w+)\.v", line (\d+), characters [\d-]+:\nError', out)
        if not errs:
            to = re.findall(r'theories/(\w+)\.vo\] (?:Error|Terminated|Killed)', out)
            if to:
                mod = to[0]
                rc2, o2 = sh("(ulimit -v 7000000; timeout 900 coqc -time -Q theories Verif theories/%s.v 2>&1 | tail -3)" % mod, scratch)
                ch = re.findall(r'Chars (\d+) - (\d+)', o2)
                if ch:
                    off = int(ch[-1][1]) + 2
                    b = open(os.path.join(scratch, 'theories', mod + '.v'), 'rb').read()[:off]
                    errs = [(mod, str(b.count(b'\n') + 1))]
        if not errs:
            return {'id': spec['id'], 'error': out[-1500:]}
        seen = set()
        for mod, line in errs:
            if mod in seen: continue
            seen.add(mod)
            e = patch(base, scratch, mod, int(line), failed)
            if e: return {'id': spec['id'], 'error': e, 'failed': failed, 'out': out[-800:]}
    bad, good = survivors(base, scratch, target)
    if bad is None: return {'id': spec['id'], 'error': good, 'failed': failed}
    res = {'id': spec['id'], 'failed_lemmas': failed, 'failed': bad, 'survived': good}
    if 'witness' in spec: res['witness_confirmed'] = witness(scratch, spec)
    return res

if __name__ == '__main__':
    if sys.argv[1] == '--prepare':
        prepare(sys.argv[2])
    else:
        base, scratch, specs, results = sys.argv[1:5]
        done = set()
        if os.path.exists(results):
            done = set(json.loads(l)['id'] for l in open(results))
        for l in open(specs):
            if not l.strip(): continue
            spec = json.loads(l)
            if spec['id'] in done: continue
            r = run(base, scratch, spec)
            with open(results, 'a') as g: g.write(json.dumps(r) + '\n')
