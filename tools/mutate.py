#!/usr/bin/env python3
"""Run the theorems against wrong programs, in a scratch copy.

usage: mutate.py mutants.json [ids...]
Each mutant: {"id", "file", "definition", "old", "new", "edit", "breaks": ["Cxx", ...], "claim"}.
The edit is applied to a copy of rocq/; every lemma whose proof no longer checks is Admitted and the
build goes on, so that in the end the theorems of MANIFEST.json that fail themselves, or whose
Print Assumptions lists a lemma that failed, are known.  One JSON line per mutant is appended to
seeded/LOG.jsonl."""
import sys, os, re, json, subprocess, shutil
V = '/verif'; BASE = os.environ.get('MUTBASE', '/tmp/mut/base')
W = os.environ.get('MUTDIR', '/tmp/mut/w')
J = os.environ.get('MUTJ', '3')

def sh(cmd, cwd=None, t=3600):
    return subprocess.run(cmd, shell=True, cwd=cwd, stdout=subprocess.PIPE, stderr=subprocess.STDOUT, text=True, timeout=t).stdout

START = re.compile(r'^\s*(?:Local |Global |#\[[^\]]*\]\s*)*(Lemma|Theorem|Corollary|Example|Fact|Remark|Proposition|Instance|Definition|Fixpoint|Program)\s+([\w\']+)', re.M)

QED = re.compile(r'\b(Qed|Defined)\.')
OPEN = ('requires an open proof', 'No proof-editing', 'no proof', 'No focused proof')

def probe(path):
    """Feed the whole file to coqtop, which goes on after errors; every proof that does not end is Admitted.
    Gives the indices of the Qed's that failed and their lemmas."""
    text = open(path).read()
    out = ['Set Default Timeout 90.\n']; last = 0; names = []
    for k, q in enumerate(QED.finditer(text)):
        name = [m.group(2) for m in START.finditer(text, 0, q.start())]
        names.append(name[-1] if name else '?')
        out.append(text[last:q.end()]); last = q.end()
        out.append('\nAdmitted.\nGoal True. idtac "@@%d". exact I. Qed.\n' % k)
    out.append(text[last:])
    tmp = '/tmp/mut/probe%d.v' % os.getpid(); open(tmp, 'w').write(''.join(out))
    res = sh('timeout 1500 coqtop -q -Q theories Verif < %s 2>&1' % tmp, cwd=W, t=1600)
    bad = []; pos = 0; seen = set()
    for m in re.finditer(r'@@(\d+)', res):
        k = int(m.group(1)); part = res[pos:m.start()]; pos = m.end()
        if k in seen: continue
        seen.add(k)
        if not any(o in part for o in OPEN) or part.count('Error:') > 1: bad.append(k)
    bad += [k for k in range(len(names)) if k not in seen]
    return bad, names

def admit_all(path, bad):
    text = open(path).read(); qs = list(QED.finditer(text))
    for k in sorted(bad, reverse=True):
        q = qs[k]; p = text.rfind('Proof', 0, q.start())
        body = text[p:q.end()]
        text = text[:p] + 'Proof. Admitted.' + '\n' * body.count('\n') + text[q.end():]
    open(path, 'w').write(text)

def run(mu):
    shutil.rmtree(W, ignore_errors=True)
    sh('cp -a %s %s' % (BASE, W))
    edits = mu.get('edits') or [mu]
    for ed in edits:
        f = '%s/theories/%s' % (W, ed['file']); s = open(f).read()
        if s.count(ed['old']) < 1: return {'error': 'old text not found in ' + ed['file']}
        open(f, 'w').write(s.replace(ed['old'], ed['new'], 1))
    failed = []; broken = []; tried = {}
    for rnd in range(200):
        out = sh('make -k -j%s COQC="timeout 600 coqc" 2>&1' % J, cwd=W, t=7200)
        bad = dict.fromkeys(re.findall(r'\[[^\]]*?(theories/\w+)\.vo\] Error', out))
        todo = [b for b in bad if tried.get(b, 0) < 25]
        if not todo:
            for b in bad: broken.append(b + ': ' + ' '.join(re.findall(r'Error:?[^\n]*\n[^\n]*', out)[:1]))
            break
        for b in todo:
            tried[b] = tried.get(b, 0) + 1
            f = W + '/' + b + '.v'
            if tried[b] == 1:
                ks, ns = probe(f)
            else:
                # what the probe did not find: admit the proof coqc stops in
                m = re.search(r'File "\./%s\.v", line (\d+)' % b, out)
                text = open(f).read()
                line = int(m.group(1)) if m else 1
                pos = sum(len(x) for x in text.splitlines(True)[:line - 1])
                qs = list(QED.finditer(text)); ks = [k for k, q in enumerate(qs) if q.start() >= pos][:1]
                ns = {k: ([x.group(2) for x in START.finditer(text, 0, qs[k].start())] or ['?'])[-1] for k in ks}
                # an error in a statement cannot be helped
                if not ks or text.rfind('Proof', 0, qs[ks[0]].start()) > pos + 2000: tried[b] = 99
            failed += [ns[k] for k in ks]
            admit_all(f, ks)
    names = sorted({t for c in json.load(open(BASE + '/MANIFEST.json'))['claims'] for t in c['theorems']})
    chk = 'From Verif Require Import %s.\n' % ' '.join(os.path.basename(x)[:-2] for x in open(W + '/_CoqProject').read().split() if x.endswith('.v'))
    thms = []
    open(W + '/theories/Chk.v', 'w').write(chk + ''.join('Goal True. idtac "@@ %s". exact I. Qed.\nPrint Assumptions %s.\n' % (n, n) for n in names))
    out = sh('timeout 600 coqc -Q theories Verif theories/Chk.v', cwd=W)
    if 'Error' in out: broken.append('check: ' + out[-300:])
    for part in out.split('@@ ')[1:]:
        n = part.split('\n')[0].strip()
        if 'Closed under' not in part: thms.append(n)
    thms = sorted(set(thms) | (set(failed) & set(names)))
    return {'lemmas': failed, 'theorems': thms, 'broken': broken}

def main():
    mus = json.load(open(sys.argv[1])); ids = sys.argv[2:]
    if not os.path.exists(BASE):
        os.makedirs('/tmp/mut', exist_ok=True)
        sh('mkdir -p %s && cd %s/rocq && tar cf - _CoqProject theories | tar xf - -C %s' % (BASE, V, BASE))
        sh('coq_makefile -f _CoqProject -o Makefile && make -j4', cwd=BASE, t=7200)
    for mu in mus:
        if ids and mu['id'] not in ids: continue
        r = run(mu)
        claims = json.load(open(BASE + '/MANIFEST.json'))['claims']
        hit = sorted({c['property'] for c in claims if set(c['theorems']) & set(r.get('theorems', []))})
        missed = [b for b in mu['breaks'] if b not in hit]
        rec = {'id': mu['id'], 'definition': mu['definition'], 'edit': mu['edit'], 'breaks': mu['breaks'], 'claim': mu['claim'],
               'lemmas_failed': r.get('lemmas', []), 'theorems_failed': r.get('theorems', []), 'properties_hit': hit,
               'not_noticed_by': missed, 'theorems_tightened': []}
        if r.get('broken'): rec['statements_broken'] = r['broken']
        if r.get('error'): rec['error'] = r['error']
        with open(os.environ.get('MUTLOG', V + '/seeded/LOG.jsonl'), 'a') as f: f.write(json.dumps(rec) + '\n')
        print(mu['id'], 'hit', hit, 'MISSED' if missed else 'ok', missed, r.get('broken'), r.get('error'), flush=True)
main()
