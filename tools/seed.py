#!/usr/bin/env python3
"""Seed bugs into a scratch copy of the model and report which theorems no longer hold.

usage: seed.py bugs.json   (a list of {file, old, new, claim, breaks[, tightened]})
Failing proofs are admitted in the scratch copy one by one; a theorem counts as failed if
its own proof or one it rests on had to be admitted.  Only the Properties file of the
property the bug breaks is rebuilt (set "all": true to rebuild everything).  Results go to
seeded/LOG.jsonl.
"""
import json, os, re, shutil, subprocess, sys

ROOT = '/verif/rocq'
SCR = '/tmp/seed/rocq'
LOG = '/verif/seeded/LOG.jsonl'
DECL = re.compile(r'^\s*(?:Local |Global )?(?:Lemma|Theorem|Corollary|Example|Fact|Remark|Instance|Goal|Definition|Fixpoint|Inductive|Record)\s+([\w\']+)?', re.M)

BASE = '/tmp/seed/base'

def snapshot():
    shutil.rmtree('/tmp/seed', ignore_errors=True)
    os.makedirs(BASE)
    for l in open(ROOT + '/_CoqProject'):
        l = l.strip()
        if l.endswith('.v'):
            os.makedirs(os.path.dirname(os.path.join(BASE, l)), exist_ok=True)
            d, f = os.path.split(l[:-2])
            for e in (f + '.v', f + '.vo', f + '.glob', '.' + f + '.aux', f + '.vok', f + '.vos'):
                if os.path.exists(os.path.join(ROOT, d, e)):
                    shutil.copy2(os.path.join(ROOT, d, e), os.path.join(BASE, d, e))
    shutil.copy2(ROOT + '/_CoqProject', BASE + '/_CoqProject')
    subprocess.run('coq_makefile -f _CoqProject -o Makefile && make -j4', shell=True, cwd=BASE, check=True, capture_output=True)

def sync():
    shutil.rmtree(SCR, ignore_errors=True)
    subprocess.run(['cp', '-a', BASE, SCR], check=True)

def make(target):
    r = subprocess.run('timeout 900 make -k -j4 %s 2>&1' % target, shell=True, cwd=SCR, capture_output=True, text=True)
    return r.returncode, r.stdout

def admit(path, line, admitted):
    """Admit the proof around the line; returns False if it is not inside a proof."""
    full = os.path.join(SCR, path)
    lines = open(full).read().split('\n')
    k = line - 1
    # statement start
    s = k
    while s >= 0 and not re.match(r'^\s*(Local |Global )?(Lemma|Theorem|Corollary|Example|Fact|Remark)\b', lines[s]):
        s -= 1
    if s < 0:
        return False
    name = DECL.match(lines[s]).group(1)
    p = s
    while p < len(lines) and not re.search(r'\bProof\b', lines[p]):
        p += 1
    e = p
    while e < len(lines) and not re.search(r'\b(Qed|Defined|Admitted)\.', lines[e]):
        e += 1
    if not (s <= k <= e) or e == len(lines):
        return False
    if 'Admitted' in lines[e] or k < p:
        return False
    head = lines[p][:re.search(r'\bProof\b', lines[p]).start()]
    m = re.search(r'\bProof( using[^.]*)?\.', lines[p])
    lines[p:e + 1] = [head + (m.group(0) if m else 'Proof.') + ' Admitted.'] + [''] * (e - p)
    open(full, 'w').write('\n'.join(lines))
    admitted.add(name)
    return True

def theorems():
    out = {}
    d = os.path.join(SCR, 'theories/Properties')
    for f in sorted(os.listdir(d)):
        if f.endswith('.v'):
            out[f[:-2]] = re.findall(r'^\s*(?:Theorem|Example) ((?:C\d+)\w*)', open(os.path.join(d, f)).read(), re.M)
    return out

def assess(admitted, before):
    failed = []
    for mod, names in theorems().items():
        vo = os.path.join(SCR, 'theories/Properties', mod + '.vo')
        if not os.path.exists(vo) or os.path.getmtime(vo) <= before:
            continue
        src = 'From Verif Require Properties.%s.\n' % mod
        for n in names:
            src += 'Goal True. idtac "MARK %s". Abort.\nPrint Assumptions Properties.%s.%s.\n' % (n, mod, n)
        t = os.path.join(SCR, 'theories', 'Zz_assess.v')
        open(t, 'w').write(src)
        r = subprocess.run(['timeout', '300', 'coqc', '-Q', 'theories', 'Verif', t], cwd=SCR, capture_output=True, text=True)
        cur = None
        for l in r.stdout.split('\n'):
            m = re.match(r'MARK (\S+)', l)
            if m:
                cur = m.group(1)
                continue
            m = re.match(r'([\w.\']+) :', l) or re.match(r'([\w.\']+)$', l)
            if cur and m and m.group(1).split('.')[-1] in admitted and cur not in failed:
                failed.append(cur)
        if r.returncode:
            failed.append('assess error ' + r.stderr[:300])
    return failed

def run(bug):
    sync()
    target = ''
    if not bug.get('all'):
        target = ' '.join('theories/Properties/%s.vo' % m for m, ns in theorems().items() if any(n.startswith(bug['breaks']) for n in ns))
    path = os.path.join(SCR, 'theories', bug['file'])
    s = open(path).read()
    if s.count(bug['old']) != 1:
        return 'edit not applicable (%d matches)' % s.count(bug['old']), []
    before = max(os.path.getmtime(os.path.join(d, f)) for d, _, fs in os.walk(SCR + '/theories') for f in fs if f.endswith('.vo'))
    open(path, 'w').write(s.replace(bug['old'], bug['new']))
    admitted = set()
    for _ in range(120):
        code, out = make(target)
        if code == 0:
            break
        errs = re.findall(r'File "\./(theories/\S+)", line (\d+), characters [\d-]+:\nError', out)
        if not errs:
            return 'no error found: ' + out[-500:], []
        for f, l in errs:
            if not admit(f, int(l), admitted):
                return 'does not typecheck at %s:%s' % (f, l), []
    else:
        return 'too many failures', []
    return 'ok', assess(admitted, before)

def main():
    bugs = json.load(open(sys.argv[1]))
    snapshot()
    for b in bugs:
        st, failed = run(b)
        if st != 'ok':
            print('??', b['file'], b['edit'] if 'edit' in b else b['new'][:60], '->', st)
            continue
        rec = {'definition': b['file'] + ': ' + b['def'], 'edit': b['edit'], 'breaks': b['breaks'], 'claim': b['claim'],
               'theorems_failed': failed, 'theorems_tightened': b.get('tightened', [])}
        with open(LOG, 'a') as f:
            f.write(json.dumps(rec) + '\n')
        hit = [t for t in failed if t.startswith(b['breaks'])]
        print('OK ' if hit else 'MISS', b['file'], '|', b['edit'], '|', b['breaks'], '|', len(failed), 'failed:', ' '.join(failed)[:600], flush=True)

main()
