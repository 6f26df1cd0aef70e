#!/usr/bin/env python3
"""Test the theorems against a wrong program.

usage: mutate.py FILE(.v) OLD NEW DEFINITION EDIT CLAIM
Copies /verif/rocq to a scratch directory, replaces OLD by NEW (must occur
exactly once) in theories/FILE and rebuilds. Each lemma whose proof breaks is
turned into Admitted, until everything builds; then Print Assumptions says
which theorems of Properties_*.v rest on a broken lemma. Prints a JSON line.
"""
import sys, os, re, subprocess, json, shutil, glob, tempfile

def sh(cmd, cwd, t=1500):
    try:
        p = subprocess.run(cmd, shell=True, cwd=cwd, stdout=subprocess.PIPE, stderr=subprocess.STDOUT, timeout=t)
        return p.returncode, p.stdout.decode(errors='replace')
    except subprocess.TimeoutExpired as e:
        return 124, (e.stdout or b'').decode(errors='replace')

START = re.compile(r'^\s*(?:Local |Global |#\[[^]]*\] ?)?(Lemma|Theorem|Corollary|Example|Fact|Remark|Definition|Fixpoint|Instance)\s+([A-Za-z0-9_\']+)', re.M)

def admit(path, pos):
    src = open(path).read()
    best = None
    for m in START.finditer(src):
        if m.start() <= pos: best = m
        else: break
    if best is None or best.group(1) in ('Definition', 'Fixpoint', 'Instance'):
        return None, src[best.start():best.start()+80] if best else 'top'
    m = re.compile(r'\bProof\b').search(src, best.end())
    e = re.compile(r'\b(Qed|Defined)\.').search(src, best.end())
    if not m or not e or m.start() > e.start(): return None, best.group(2)
    src = src[:m.start()] + 'Proof. Admitted.' + src[e.end():]
    open(path, 'w').write(src)
    return best.group(2), None

def run(fname, old, new):
    d = tempfile.mkdtemp(dir='/tmp/mut')
    subprocess.check_call(['cp', '-a', os.environ.get('BASE', '/verif/rocq'), d + '/rocq'])
    r = d + '/rocq'; th = r + '/theories/'
    src = open(th + fname).read()
    if src.count(old) != 1:
        shutil.rmtree(d); raise SystemExit('OLD occurs %d times in %s' % (src.count(old), fname))
    open(th + fname, 'w').write(src.replace(old, new))
    broken, stuck = [], None
    sh('coq_makefile -f _CoqProject -o Makefile', r)
    for it in range(400):
        rc, out = sh('make -k -j2 TIMER="timeout 240" 2>&1', r, 3000)
        if rc == 0: break
        errs = re.findall(r'File "\./?(?:theories/)?([A-Za-z_0-9]+\.v)", line (\d+), characters (\d+)-(\d+):\s*\n(?:Error|.*\nError)', out)
        if not errs:
            m = re.search(r'\[Makefile:\d+: (?:theories/)?([A-Za-z_0-9]+)\.vo\] (?:Error 124|Terminated)', out)
            if not m: stuck = out[-600:]; break
            f = m.group(1) + '.v'
            rc2, o2 = sh('timeout 240 coqc -time -Q theories Verif theories/' + f, r)
            last = re.findall(r'Chars (\d+) - (\d+)', o2)
            pos = int(last[-1][1]) + 2 if last else 0
            n, why = admit(th + f, pos)
            if n is None: stuck = 'timeout in %s: %s' % (f, why); break
            broken.append(n); continue
        ok = False
        for f, line, c0, c1 in errs:
            txt = open(th + f).read().split('\n')
            pos = sum(len(x) + 1 for x in txt[:int(line) - 1]) + int(c0)
            n, why = admit(th + f, pos)
            if n is None: stuck = '%s:%s %s' % (f, line, why)
            else: broken.append(n); ok = True
        if not ok: break
    theorems = []
    if stuck is None and broken:
        deps = {}
        for l in open(r + '/.Makefile.d'):
            m = re.match(r'theories/(\w+)\.vo .*?:(.*)', l)
            if m: deps[m.group(1)] = set(re.findall(r'theories/(\w+)\.vo', m.group(2)))
        hit = {fname[:-2]}
        while True:
            more = {m for m in deps if m not in hit and deps[m] & hit}
            if not more: break
            hit |= more
        files = [f for f in sorted(glob.glob(th + 'Properties_*.v')) if os.path.basename(f)[:-2] in hit]
        mods = [os.path.basename(f)[:-2] for f in files]
        names = [m for f in files for m in re.findall(r'^Theorem\s+(C\d\d_[A-Za-z0-9_]+)', open(f).read(), re.M)]
        with open(d + '/q.v', 'w') as fh:
            fh.write('From Verif Require %s.\n' % ' '.join(mods))
            for f, mod in zip(files, mods):
                for n in re.findall(r'^Theorem\s+(C\d\d_[A-Za-z0-9_]+)', open(f).read(), re.M):
                    fh.write('Print Assumptions Verif.%s.%s.\n' % (mod, n))
        rc, out = sh('coqc -Q rocq/theories Verif q.v', d)
        blocks = re.split(r'^(?=Closed under|Axioms:)', out, flags=re.M)[1:]
        if len(blocks) == len(names):
            theorems = [n for n, b in zip(names, blocks) if b.startswith('Axioms')]
        else: stuck = 'assumptions: %d blocks for %d names: %s' % (len(blocks), len(names), out[-300:])
    shutil.rmtree(d)
    return broken, theorems, stuck

if __name__ == '__main__':
    fname, old, new, definition, edit, claim = sys.argv[1:7]
    broken, theorems, stuck = run(fname, old, new)
    res = {'definition': definition, 'edit': edit, 'claim': claim,
           'theorems_failed': theorems, 'lemmas_failed': broken, 'theorems_tightened': []}
    if stuck: res['stuck'] = stuck
    print(json.dumps(res), flush=True)
