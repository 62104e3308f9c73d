#!/usr/bin/env python3
"""Try the theorems against wrong programs.

usage: mutate.py mutations.json [LOG.jsonl]

mutations.json: list of {"id", "file", "def", "old", "new", "claim", "expect": ["C01", ...]}, or with "inside": name and
"swap": [[old, new], ...] instead of "old" and "new", for replacing everywhere within one definition ("*": in the whole file).
For every mutation not yet in the log the theories are copied to a scratch directory, `old` is replaced by
`new` in `file` (exactly one occurrence), and the files depending on it are recompiled.  A proof that no longer
compiles is replaced by Admitted in the scratch copy and recorded; the property theorems (names Cxx_...) that
fail directly, or whose Print Assumptions mention an admitted lemma, are the failed theorems.
"""
import json, os, re, shutil, subprocess, sys, time

ROOT = os.path.join(os.path.dirname(os.path.abspath(__file__)), '..', 'rocq')
SCRATCH = os.environ.get('MUT_SCRATCH', '/tmp/mutation')
START = re.compile(r'^\s*(?:#\[[^\]]*\]\s*)?(?:Local |Global )?(Lemma|Theorem|Corollary|Example|Fact|Remark|Instance|Definition|Fixpoint)\s+([\w\']+)', re.M)

def files():
    return [l.strip() for l in open(os.path.join(ROOT, '_CoqProject')) if l.strip().endswith('.v')]

def deps(name, text, known):
    ms = re.findall(r'From Verif Require(?: Import| Export)?([^.]*)\.', text)
    return {w for m in ms for w in m.split() if w in known}

def coqc(d, f, timeout):
    try:
        p = subprocess.run(['coqc', '-time', '-q', '-Q', 'theories', 'Verif', f], cwd=d, capture_output=True,
                           text=True, timeout=timeout)
        return p.returncode, p.stdout, p.stderr
    except subprocess.TimeoutExpired as e:
        out = (e.stdout or b'')
        if isinstance(out, bytes): out = out.decode(errors='replace')
        return 'timeout', out, ''

def position(text, rc, out, err):
    """character position of the failing sentence"""
    if rc != 'timeout':
        m = re.search(r'line (\d+), characters (\d+)-', err)
        if not m: return None
        lines = text.split('\n')
        return sum(len(l) + 1 for l in lines[:int(m.group(1)) - 1]) + int(m.group(2))
    ms = re.findall(r'Chars (\d+) - (\d+)', out)
    end = int(ms[-1][1]) if ms else 0
    # byte offsets
    return len(text.encode()[:end].decode(errors='replace')) + 1

def admit(text, pos):
    starts = [m for m in START.finditer(text) if m.start() <= pos]
    if not starts: return None
    m = starts[-1]
    q = re.compile(r'\b(Qed|Defined)\.').search(text, m.start())
    p = re.compile(r'\bProof\.|\bProof using[^.]*\.').search(text, m.start())
    if not q or not p or p.start() > q.start(): return None
    if pos < p.start(): return None          # the statement itself does not typecheck
    return m.group(2), text[:p.start()] + 'Admitted.' + text[q.end():]

def near(mut, names):
    """the files the theorems of the expected properties depend on (with MUT_NEAR=1 only these are recompiled)"""
    texts = {os.path.basename(f)[:-2]: open(os.path.join(ROOT, f)).read() for f in files()}
    todo = [n for n, t in texts.items() if any(re.search(r'Theorem %s_' % e, t) for e in mut.get('expect', []))]
    seen = set()
    while todo:
        n = todo.pop()
        if n in seen: continue
        seen.add(n); todo += list(deps(n, texts[n], names))
    return seen

def run(mut, names):
    only = near(mut, names) if os.environ.get('MUT_NEAR') else names
    if os.path.exists(SCRATCH): shutil.rmtree(SCRATCH)
    shutil.copytree(ROOT, SCRATCH)
    path = os.path.join(SCRATCH, 'theories', mut['file'])
    text = open(path).read()
    if 'inside' in mut:
        a = 0 if mut['inside'] == '*' else text.index('Definition %s ' % mut['inside'])
        b = -1 if mut['inside'] == '*' else text.find('\nDefinition ', a + 1)
        b = len(text) if b < 0 else b
        part = text[a:b]
        for i, (old, new) in enumerate(mut['swap']):
            if old not in part: raise SystemExit('%s: %s not found' % (mut['id'], old))
            part = part.replace(old, '@%d@' % i)
        for i, (old, new) in enumerate(mut['swap']): part = part.replace('@%d@' % i, new)
        open(path, 'w').write(text[:a] + part + text[b:])
    else:
        if text.count(mut['old']) != 1:
            raise SystemExit('%s: pattern occurs %d times' % (mut['id'], text.count(mut['old'])))
        open(path, 'w').write(text.replace(mut['old'], mut['new']))
    dirty, failed, admitted, broken = {mut['file'][:-2]}, [], [], []
    for f in files():
        n = os.path.basename(f)[:-2]
        if n not in only: continue
        p = os.path.join(SCRATCH, f)
        text = open(p).read()
        ds = deps(n, text, names)
        if n not in dirty and not (ds & dirty): continue
        if ds & set(broken):
            broken.append(n); dirty.add(n); continue
        dirty.add(n)
        for _ in range(200):
            rc, out, err = coqc(SCRATCH, f, mut.get('timeout', 240))
            if rc == 0: break
            pos = position(text, rc, out, err)
            r = admit(text, pos) if pos is not None else None
            if r is None:
                broken.append(n); print('   broken:', n, err[-300:]); break
            admitted.append(r[0])
            if re.match(r'C\d\d_', r[0]): failed.append(r[0])
            text = r[1]; open(p, 'w').write(text)
        else:
            broken.append(n)
        if rc == 0:
            # Print Assumptions outputs follow in order of the theorems
            cur = re.split(r'(?=Chars \d+ - \d+ \[Print~Assumptions~)', out)
            for chunk in cur[1:]:
                t = re.match(r'Chars \d+ - \d+ \[Print~Assumptions~([\w\']+)', chunk)
                pass
            pa = re.findall(r'Print Assumptions ([\w\']+)\.', text)
            blocks = re.findall(r'(Closed under the global context|Axioms:.*?)(?=\nChars|\Z|\nClosed|\nAxioms)', out, re.S)
            if len(pa) == len(blocks):
                for t, b in zip(pa, blocks):
                    if b.startswith('Axioms') and any(re.search(r'(^|\n|\.)%s\b' % re.escape(a), b) for a in admitted):
                        if t not in failed: failed.append(t)
            elif pa:
                print('   cannot match assumptions in', n, len(pa), len(blocks))
    return failed, admitted, broken

def main():
    muts = json.load(open(sys.argv[1]))
    log = sys.argv[2] if len(sys.argv) > 2 else os.path.join(ROOT, '..', 'seeded', 'LOG.jsonl')
    done = set()
    if os.path.exists(log):
        for l in open(log):
            if l.strip(): done.add(json.loads(l).get('id'))
    names = {os.path.basename(f)[:-2] for f in files()}
    for mut in muts:
        if mut['id'] in done: continue
        t = time.time()
        failed, admitted, broken = run(mut, names)
        thms = [x for x in failed if not re.match(r'C\d\d_case', x)]
        hit = {x[:3] for x in failed}
        missed = [e for e in mut.get('expect', []) if e not in hit]
        rec = {'id': mut['id'], 'definition': mut['file'] + ': ' + mut['def'], 'edit': mut.get('edit') or ('; '.join(o + '  ==>  ' + n for o, n in mut['swap']) if 'inside' in mut else mut['old'].strip() + '  ==>  ' + mut['new'].strip()),
               'claim_broken': mut['claim'], 'theorems_failed': thms,
               'lemmas_failed': [a for a in admitted if a not in thms], 'theorems_tightened': mut.get('tightened', [])}
        if os.environ.get('MUT_NEAR'): rec['checked'] = 'theorems of ' + ', '.join(mut.get('expect', [])) + ' and what they depend on'
        if broken: rec['files_not_compiling'] = broken
        print('%s: %s failed=%d lemmas=%s missed=%s broken=%s %.0fs' % (mut['id'], 'OK' if thms and not missed else 'CHECK', len(thms), admitted[:4], missed, broken, time.time() - t), flush=True)
        if missed or (not thms):
            if not mut.get('accept'): continue      # look at it by hand before logging
        open(log, 'a').write(json.dumps(rec) + '\n')
main()
