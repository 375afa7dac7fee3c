#!/usr/bin/env python3
"""Test the theorems against wrong programs.

usage: mutate.py mutations.json   (a list of {def, file, old, new, edit, claim})

Each edit is applied to a scratch copy of rocq/theories.  Proofs that no longer
go through are replaced by an axiom, file by file, until the copy builds; the
theorems of the *Properties.v files that then rest on such an axiom are the ones
that failed.  One line per mutation is appended to seeded/LOG.jsonl unless -n is
given; with -c only the occurrence of every `old` text is checked.
"""
import glob, json, os, re, shutil, subprocess, sys

root = os.path.dirname(os.path.dirname(os.path.abspath(__file__)))
SCR = '/tmp/scratch'
BASE = '/tmp/mutbase'      # the last commit, built
STMT = re.compile(r'^\s*(?:Local\s+|Global\s+)?(Lemma|Theorem|Example|Corollary|Remark|Fact|Instance)\s+([\w\']+)', re.M)


def sh(cmd, timeout=1500):
    try:
        p = subprocess.run(cmd, shell=True, cwd=SCR, stdout=subprocess.PIPE, stderr=subprocess.STDOUT, timeout=timeout)
        return p.returncode, p.stdout.decode(errors='replace')
    except subprocess.TimeoutExpired:
        return 124, 'TIMEOUT'


def admit_at(path, line):
    s = open(path).read()
    lines = s.split('\n')
    pos = sum(len(x) + 1 for x in lines[:line - 1])
    best = None
    for m in STMT.finditer(s):
        if m.start() <= pos + len(lines[line - 1]):
            best = m
    if best is None:
        return None
    p = re.search(r'\bProof\b', s[best.start():])
    q = re.search(r'\b(Qed|Defined)\.', s[best.start():])
    if not p or not q:
        return None
    if best.start() + q.end() < pos:
        return None
    a, b = best.start() + p.start(), best.start() + q.end()
    keep = s[a:b].count('\n')
    s = s[:a] + 'Admitted.' + '\n' * keep + s[b:]
    open(path, 'w').write(s)
    return best.group(2)


def run(m):
    shutil.rmtree(SCR, ignore_errors=True)
    subprocess.run(['cp', '-a', BASE, SCR], check=True)
    path = os.path.join(SCR, 'theories', m['file'])
    s = open(path).read()
    n = s.count(m['old'])
    if n != 1:
        return {'error': 'old text occurs %d times in %s' % (n, m['file']), 'def': m['def']}
    open(path, 'w').write(s.replace(m['old'], m['new']))
    broken = []
    for _ in range(60):
        rc, out = sh('make -k -j4 COQC="timeout 150 coqc" 2>&1', 1500)
        if rc == 0:
            break
        if rc == 124:
            return {'error': 'timeout', 'def': m['def'], 'broken': broken}
        progress = False
        for e in re.finditer(r'File "\./theories/(\w+\.v)", line (\d+), characters', out):
            f, ln = e.group(1), int(e.group(2))
            tail = out[e.end():e.end() + 400]
            if 'Error' not in tail.split('File "')[0]:
                continue
            name = admit_at(os.path.join(SCR, 'theories', f), ln)
            if name is None:
                return {'error': 'cannot admit at %s:%d' % (f, ln), 'def': m['def'], 'out': tail, 'broken': broken}
            broken.append(f[:-2] + '.' + name)
            progress = True
        # a proof that runs on under the edit: find it with the timings and give it up
        for e in re.finditer(r'theories/(\w+\.v)o\] Error 124', out):
            f = e.group(1)
            _, times = sh('timeout 150 coqc -q -time -Q theories Verif theories/%s 2>&1' % f)
            ends = [int(x) for x in re.findall(r'^Chars \d+ - (\d+) ', times, re.M)]
            done = open(os.path.join(SCR, 'theories', f), 'rb').read()[:ends[-1] + 1 if ends else 0]
            name = admit_at(os.path.join(SCR, 'theories', f), done.count(b'\n') + 1)
            if name is not None:
                broken.append(f[:-2] + '.' + name)
                progress = True
        if not progress:
            return {'error': 'no progress', 'def': m['def'], 'out': out[-600:], 'broken': broken}
    failed, kept = [], []
    for f in sorted(glob.glob(os.path.join(SCR, 'theories', '*Properties.v'))):
        names = re.findall(r'^Print Assumptions (\w+)\.', open(f).read(), re.M)
        base = os.path.basename(f)
        if os.path.getmtime(f + 'o') == os.path.getmtime(os.path.join(BASE, 'theories', base + 'o')):
            continue                 # not rebuilt, so not affected by the edit
        with open(os.path.join(SCR, 'Assumed.v'), 'w') as fh:
            fh.write('From Verif Require Import %s.\n' % base[:-2] + ''.join('Print Assumptions %s.\n' % x for x in names))
        rc, out = sh('coqc -Q theories Verif Assumed.v')
        blocks = [l for l in out.split('\n') if l.startswith('Closed under') or l.startswith('Axioms:')]
        for nme, b in zip(names, blocks):
            if b.startswith('Closed'):
                continue
            failed.append(nme)
        if len(blocks) != len(names):
            print('warning: assumptions of', f, len(blocks), len(names))
    ex = [b for b in broken if 'Properties.' in b]
    return {'definition': m['def'], 'edit': m['edit'], 'claim_broken': m['claim'],
            'theorems_failed': failed, 'lemmas_failed': [b for b in broken if b not in ex],
            'examples_failed': [b.split('.')[1] for b in ex], 'theorems_tightened': m.get('tightened', [])}


if __name__ == '__main__':
    dry = '-n' in sys.argv
    muts = json.load(open(sys.argv[1]))
    if '-c' in sys.argv:
        for m in muts:
            n = open(os.path.join(root, 'rocq', 'theories', m['file'])).read().count(m['old'])
            if n != 1:
                print(n, m['def'], m['old'])
        sys.exit()
    head = subprocess.run(['git', '-C', root, 'rev-parse', 'HEAD'], stdout=subprocess.PIPE).stdout.decode().strip()
    mark = os.path.join(BASE, 'HEAD')
    if not os.path.exists(mark) or open(mark).read() != head:
      shutil.rmtree(BASE, ignore_errors=True)
      clean = not subprocess.run(['git', '-C', root, 'status', '--porcelain', 'rocq'], stdout=subprocess.PIPE).stdout.strip()
      if clean:                # take over the files already compiled
        subprocess.run('cp -a %s/rocq %s && cd %s && coq_makefile -f _CoqProject -o Makefile && make -j4 >/dev/null 2>&1' % (root, BASE, BASE), shell=True, check=True)
      else:
        os.makedirs(BASE)
        subprocess.run('git -C %s archive HEAD rocq | tar x -C %s --strip-components=1 && cd %s && '
                   'coq_makefile -f _CoqProject -o Makefile && make -j4 >/dev/null 2>&1' % (root, BASE, BASE), shell=True, check=True)
      open(mark, 'w').write(head)
    for m in muts:
        r = run(m)
        print(json.dumps(r), flush=True)
        if 'error' not in r and not dry:
            with open(os.path.join(root, 'seeded', 'LOG.jsonl'), 'a') as fh:
                fh.write(json.dumps(r) + '\n')
