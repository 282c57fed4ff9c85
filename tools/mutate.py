#!/usr/bin/env python3
"""Mutation testing of the theorems (task step 5).

usage: mutate.py MUTANTS.json BASE OUT.jsonl [id ...]

BASE is a scratch copy of rocq/ whose .vos files are built (statements only).
For each mutant the model is edited, every .vos is rebuilt and the proofs of every
file are rechecked one file at a time (coqc -vok); a proof that fails is recorded
and skipped, so that all the lemmas whose own proof fails are found.  The theorems
of the Prop_*.v files that fail or that rest on a failed lemma are reported.
"""
import json, os, re, shutil, subprocess, sys
from concurrent.futures import ThreadPoolExecutor

HEAD = re.compile(r'^\s*(?:#\[[^\]]*\]\s*)?(?:Local |Global )?(Lemma|Theorem|Corollary|Fact|Example|Instance|Remark|Proposition|Definition)\s+([A-Za-z0-9_\']+)')

def lemmas(lines):
    """[(name, head, proof_line, qed_line)] for every proof ended by Qed."""
    out, cur, start, proof = [], None, None, None
    for i, l in enumerate(lines):
        m = HEAD.match(l)
        if m and proof is None:
            cur, start = m.group(2), i
        if cur and proof is None and re.search(r'\bProof\b', l):
            proof = i
        if proof is not None and re.search(r'\b(Qed|Defined|Admitted)\.', l):
            if 'Qed.' in l:
                out.append((cur, start, proof, i))
            cur, start, proof = None, None, None
    return out

def admit(lines, upto_head):
    """Admit every proof that starts at or before line upto_head."""
    lines = list(lines)
    for name, h, p, q in lemmas(lines):
        if h > upto_head: break
        pre = lines[p][:re.search(r'\bProof\b', lines[p]).start()]
        lines[p] = pre + 'Proof. Admitted.'
        for k in range(p + 1, q + 1): lines[k] = ''
    return lines

def check_file(d, f):
    path = os.path.join(d, 'theories', f)
    failed = []
    for _ in range(200):
        lines = open(path).read().split('\n')
        log = path + '.log'
        with open(log, 'w') as lg:
            r = subprocess.run(['timeout', '80', 'coqc', '-q', '-time', '-R', 'theories', 'Verif', '-vok', 'theories/' + f],
                               cwd=d, stdout=lg, stderr=subprocess.PIPE, text=True)
        if r.returncode == 0: return failed
        if r.returncode == 124:                      # a proof that hangs
            cs = re.findall(r'Chars (\d+) - (\d+)', open(log).read())
            off = int(cs[-1][1]) if cs else 0
            err = open(path, 'rb').read()[:off + 2].count(b'\n')
        else:
            m = re.findall(r'File "\./theories/[^"]*", line (\d+)', r.stderr)
            if not m:
                failed.append('<' + r.stderr.strip()[-120:] + '>'); return failed
            err = int(m[-1]) - 1
        hit = [x for x in lemmas(lines) if x[1] <= err <= x[3]]
        if not hit:
            failed.append('<line %d: %s>' % (err + 1, lines[err].strip()[:80])); return failed
        failed.append(hit[0][0])
        open(path, 'w').write('\n'.join(admit(lines, hit[0][1])))
    return failed

def graph(base):
    """name -> set of names mentioned in its statement and proof; name -> file"""
    ents, where = {}, {}
    for f in sorted(os.listdir(base + '/theories')):
        if not f.endswith('.v'): continue
        lines = open(base + '/theories/' + f).read().split('\n')
        cur = None
        for l in lines:
            m = re.match(r'^\s*(?:Local |Global |#\[[^\]]*\]\s*)*(Lemma|Theorem|Corollary|Fact|Example|Instance|Remark|Proposition|Definition|Fixpoint|Ltac|Inductive|Record)\s+([A-Za-z0-9_\']+)', l)
            if m:
                cur = m.group(2); ents.setdefault(cur, set()); where.setdefault(cur, f)
            if cur: ents[cur].update(re.findall(r"[A-Za-z_][A-Za-z0-9_']*", l))
    return ents, where

def dependents(d, roots):
    """files whose imports reach one of roots (proofs elsewhere cannot change)"""
    imp = {}
    for f in os.listdir(d + '/theories'):
        if f.endswith('.v'):
            s = open(d + '/theories/' + f).read()
            imp[f] = {x + '.v' for b in re.findall(r'From Verif Require (?:Import|Export)\s([^.]*)\.', s) for x in b.split()}
    hit = set(roots)
    while True:
        new = {f for f in imp if f not in hit and imp[f] & hit}
        if not new: return hit
        hit |= new

def run(m, base, scratch):
    d = scratch + '/' + m['id']
    shutil.rmtree(d, ignore_errors=True)
    subprocess.run(['cp', '-a', base, d], check=True)
    for e in m.get('edits', [m]):
        path = d + '/theories/' + e['file']
        s = open(path).read()
        n = s.count(e['old'])
        if n != e.get('count', 1): return dict(id=m['id'], error='old text found %d times: %s' % (n, e['old']))
        open(path, 'w').write(s.replace(e['old'], e['new']))
    r = subprocess.run(['make', '-k', '-j3', 'vos'], cwd=d, capture_output=True, text=True, timeout=3000)
    res = {}
    if r.returncode:
        res['vos'] = re.findall(r'File "\./theories/([^"]*)", line (\d+)[^\n]*\n(Error:[^\n]*(?:\n[^\n]*)?)', r.stderr)
    files = [f for f in sorted(os.listdir(d + '/theories')) if f.endswith('.v') and os.path.exists(d + '/theories/' + f + 'os')]
    dep = dependents(d, [e['file'] for e in m.get('edits', [m])])
    files = [f for f in files if f in dep]
    with ThreadPoolExecutor(3) as ex:
        for f, fl in zip(files, ex.map(lambda f: check_file(d, f), files)):
            if fl: res[f] = fl
    shutil.rmtree(d, ignore_errors=True)
    return dict(id=m['id'], failed=res, dep=sorted(dep))

def main():
    muts = json.load(open(sys.argv[1])); base = sys.argv[2]; out = sys.argv[3]; only = sys.argv[4:]
    ents, where = graph(base)
    props = [n for n in ents if where[n].startswith('Prop_') and re.match(r'C\d\d+_', n)]
    scratch = '/tmp/mutants'; os.makedirs(scratch, exist_ok=True)
    done = set()
    if os.path.exists(out): done = {json.loads(l)['id'] for l in open(out)}
    for m in muts:
        if (only and m['id'] not in only) or (not only and m['id'] in done): continue
        r = run(m, base, scratch)
        if 'failed' in r:
            bad = {n for k, fl in r['failed'].items() if k != 'vos' for n in fl}
            dep = set(r.pop('dep'))
            changed = True
            while changed:
                changed = False
                for n in ents:
                    if n not in bad and where[n] in dep and ents[n] & bad: bad.add(n); changed = True
            r['props'] = sorted(n for n in props if n in bad)
            direct = {n for k, fl in r['failed'].items() if k != 'vos' for n in fl}
            r['direct'] = sorted(n for n in props if n in direct)
        r['claim'] = m['claim']
        open(out, 'a').write(json.dumps(r) + '\n')
        print(m['id'], m['claim'], '=>', r.get('error') or (len(r['props']), r['props'][:6], r['failed'].get('vos', '')), flush=True)
main()
