#!/usr/bin/env python3
"""Mutation testing of the theorems, in a scratch copy.

usage: mutate.py mutations.json [--log]
Each mutation: {"file","definition","old","new","edit","claim","props":[Props files]}.
The scratch copy gets the edit and is rebuilt.  Whenever a proof fails it is
admitted (in the scratch copy only) and the build goes on; at the end the
theorems of the Props files whose assumptions mention an admitted lemma, or
that failed themselves, are reported."""
import json, os, re, shutil, subprocess, sys
SRC = '/verif/rocq/theories'
START = re.compile(r'^\s*(?:#\[[^\]]*\]\s*)?(?:Local\s+|Global\s+)?(Theorem|Lemma|Corollary|Example|Proposition|Fact|Remark|Instance)\s+([\w\']+)', re.M)

def order():
    fs = [l.strip()[len('theories/'):] for l in open('/verif/rocq/_CoqProject') if l.strip().endswith('.v')]
    return fs

def deps(fs):
    d = {}
    for f in fs:
        t = open(f'{SRC}/{f}').read()
        mods = []
        for m in re.finditer(r'From Verif Require (?:Import|Export)([^.]*)\.', t):
            mods += m.group(1).split()
        d[f] = [m + '.v' for m in mods]
    return d

def closure(targets, d):
    seen = set(); st = list(targets)
    while st:
        x = st.pop()
        if x in seen: continue
        seen.add(x); st += d.get(x, [])
    return seen

def compile_(dirn, f, timeout=200):
    try:
        return subprocess.run(['prlimit', '--as=6000000000', 'coqc', '-Q', '.', 'Verif', f], cwd=dirn, capture_output=True, text=True, timeout=timeout)
    except subprocess.TimeoutExpired:
        class R: pass
        r = R(); r.returncode = 124; r.stdout = ''; r.stderr = 'TIMEOUT'
        return r

def admit_at(dirn, f, line):
    p = f'{dirn}/{f}'; s = open(p).read()
    off = sum(len(x) + 1 for x in s.split('\n')[:line - 1])
    eol = s.find('\n', off)
    if eol < 0: eol = len(s)
    ms = [m for m in START.finditer(s) if m.start() <= eol]
    if not ms: return None
    m = ms[-1]
    name = m.group(2)
    pr = s.find('Proof', m.end())
    ends = [x for x in (s.find('Qed.', m.end()), s.find('Defined.', m.end())) if x >= 0]
    if pr < 0 or not ends: return None
    e = min(ends); e2 = e + (4 if s[e] == 'Q' else 8)
    if e2 < off: return None
    body = s[pr:e2]
    s = s[:pr] + 'Admitted.' + '\n' * body.count('\n') + s[e2:]
    open(p, 'w').write(s)
    return name

def run(mut, base='/tmp/mut'):
    fs = order(); d = deps(fs)
    props = mut.get('props') or [f for f in fs if f.startswith('Props')]
    props = [p if p.endswith('.v') else p + '.v' for p in props]
    missing = [p for p in props if p not in fs]
    if missing: return {'error': 'unknown ' + ' '.join(missing)}
    need = closure(props, d)
    # files affected by the mutated file
    aff = {mut['file']}; changed = True
    while changed:
        changed = False
        for f in fs:
            if f in need and f not in aff and any(x in aff for x in d[f]):
                aff.add(f); changed = True
    shutil.rmtree(base, ignore_errors=True); os.makedirs(base)
    for f in fs:
        for ext in ('.v', '.vo'):
            p = f'{SRC}/{f[:-2]}{ext}'
            if os.path.exists(p): shutil.copy2(p, base)
    p = f"{base}/{mut['file']}"; s = open(p).read()
    if s.count(mut['old']) < 1: return {'error': 'pattern not found'}
    n = mut.get('nth', 0)
    parts = s.split(mut['old'])
    if len(parts) > 2 and 'nth' not in mut: return {'error': 'pattern not unique (%d)' % (len(parts) - 1)}
    s = mut['old'].join(parts[:n + 1]) + mut['new'] + mut['old'].join(parts[n + 1:])
    open(p, 'w').write(s)
    failed = []; failed_props = []; hard = None
    for f in fs:
        if f not in aff or f not in need: continue
        for _ in range(60):
            r = compile_(base, f)
            if r.returncode == 0: break
            m = re.search(r'File "\./[\w.]+", line (\d+)', r.stderr)
            name = admit_at(base, f, int(m.group(1))) if m else None
            if name is None:
                hard = f + ': ' + r.stderr[-600:]; break
            (failed_props if f.startswith('Props') else failed).append(name)
        else:
            hard = f + ': too many failures'
        if hard: break
        if f.startswith('Props'):
            out = r.stdout
            names = re.findall(r'^Print Assumptions ([\w\']+)\.', open(f'{base}/{f}').read(), re.M)
            blocks = re.split(r'(?=^Closed under the global context|^Axioms:)', out, flags=re.M)
            blocks = [b for b in blocks if b.startswith('Closed') or b.startswith('Axioms')]
            for nm, b in zip(names, blocks):
                if b.startswith('Axioms') and any(re.search(r'^(?:[\w.]+\.)?' + re.escape(x) + r'(?=[ \n:])', b, re.M) for x in failed + failed_props):
                    if nm not in failed_props: failed_props.append(nm)
    return {'failed_lemmas': failed, 'failed_theorems': sorted(set(failed_props)), 'hard': hard}

if __name__ == '__main__':
    muts = json.load(open(sys.argv[1]))
    for mut in muts:
        r = run(mut)
        print(json.dumps({'def': mut['definition'], 'edit': mut['edit'], **r}), flush=True)
        if '--log' in sys.argv and 'error' not in r:
            with open('/verif/seeded/LOG.jsonl', 'a') as o:
                o.write(json.dumps({'definition': mut['file'] + ':' + mut['definition'], 'edit': mut['edit'], 'claim_broken': mut['claim'],
                                    'theorems_failed': r['failed_theorems'], 'first_failing_lemmas': r['failed_lemmas'][:6],
                                    **({'build_stopped': r['hard'][:160]} if r['hard'] else {}),
                                    'theorems_tightened': mut.get('tightened', [])}) + '\n')
