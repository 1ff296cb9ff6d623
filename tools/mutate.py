#!/usr/bin/env python3
"""Mutation testing of the model.  Usage: mutate.py DIR MUTANTS.json OUT.jsonl [-jN]
DIR holds pristine/ (a built copy of rocq/) and mut/ (scratch).  MUTANTS.json: a list of
{"file","old","new","claim", optional "nth", optional "also": more edits {"file","old","new"} of the same bug}.  Each mutant is applied to the scratch copy, rebuilt
with make -k, and the failing lemmas are recorded with the C-theorems that use them (by the .glob files)."""
import sys, os, re, json, subprocess, shutil, glob, time
D, MUT, OUT = sys.argv[1:4]
J = sys.argv[4] if len(sys.argv) > 4 else '-j3'
P, M = D + '/pristine', D + '/mut'
DEFRE = re.compile(r'^\s*(?:Local |Global |#\[[^\]]*\] )?(Theorem|Lemma|Example|Corollary|Definition|Fixpoint|Inductive|Record|Notation|Ltac|Instance|Fact)\s+([A-Za-z0-9_\']+)', re.M)
def restore():
    for root, _, fs in os.walk(M):
        for f in fs:
            p = os.path.join(root, f); q = P + p[len(M):]
            if not os.path.exists(q): os.remove(p)
            elif os.stat(p).st_mtime_ns != os.stat(q).st_mtime_ns: shutil.copy2(q, p)
    for root, _, fs in os.walk(P):
        for f in fs:
            q = os.path.join(root, f); p = M + q[len(P):]
            if not os.path.exists(p): shutil.copy2(q, p)
def deps():
    """lemma -> set of lemmas/definitions it mentions"""
    users = {}
    for g in glob.glob(P + '/theories/*.glob'):
        mod = os.path.basename(g)[:-5]; ds = []; rs = []
        for l in open(g, errors='replace'):
            m = re.match(r'(prf|def|ind|rec|inst|thm|coe|scheme) (\d+):\d+ \S+ (\S+)', l)
            if m: ds.append((int(m[2]), m[3])); continue
            m = re.match(r'R(\d+):\d+ Verif\.(\S+) \S+ (\S+) \S+', l)
            if m: rs.append((int(m[1]), m[2], m[3]))
        ds.sort(); import bisect; st = [d[0] for d in ds]
        for pos, rm, rn in rs:
            i = bisect.bisect_right(st, pos) - 1
            if i >= 0: users.setdefault((rm, rn), set()).add((mod, ds[i][1]))
    return users
USERS = deps()
def cthms(seeds):
    seen, todo = set(seeds), list(seeds)
    while todo:
        for u in USERS.get(todo.pop(), ()):
            if u not in seen: seen.add(u); todo.append(u)
    return sorted({n for (m, n) in seen if re.match(r'C\d\d_', n)})
def enclosing(path, line, col):
    txt = open(path).read().split('\n'); name = None
    for i, l in enumerate(txt[:line]):
        m = DEFRE.match(l)
        if m: name = m[2]
        for m in re.finditer(r'(?<=\. )(Theorem|Lemma|Example|Definition|Fixpoint)\s+([A-Za-z0-9_\']+)', l):
            if i < line - 1 or m.start() <= col: name = m[2]
    return name
def def_of(txt, pos):
    name = '?'
    for m in DEFRE.finditer(txt):
        if m.start() > pos: break
        name = m[2]
    return name
def main():
    muts = json.load(open(MUT)); done = set()
    if os.path.exists(OUT):
        for l in open(OUT): done.add(json.loads(l)['key'])
    for mu in muts:
        key = json.dumps([mu['file'], mu['old'], mu['new'], mu.get('nth', 0)])
        if key in done: continue
        restore(); f = M + '/theories/' + mu['file']; txt = open(f).read()
        idx = -1
        for _ in range(mu.get('nth', 0) + 1):
            idx = txt.find(mu['old'], idx + 1)
        if 'pos' in mu: idx = mu['pos']
        if idx < 0 or txt[idx:idx+len(mu['old'])] != mu['old']:
            print('NOT FOUND', key); open(OUT, 'a').write(json.dumps({'key': key, 'status': 'notfound'}) + '\n'); continue
        dn = def_of(txt, idx); ln = txt[:idx].count('\n') + 1
        open(f, 'w').write(txt[:idx] + mu['new'] + txt[idx+len(mu['old']):])
        bad = False
        for e in mu.get('also', []):
            g = M + '/theories/' + e['file']; tx = open(g).read()
            if e['old'] not in tx: bad = True; print('NOT FOUND', e)
            open(g, 'w').write(tx.replace(e['old'], e['new'], 1))
        if bad: open(OUT, 'a').write(json.dumps({'key': key, 'status': 'notfound'}) + '\n'); continue
        t = time.time()
        try:
            r = subprocess.run(['timeout', '-k', '5', '600', 'make', '-k', J], cwd=M, capture_output=True, text=True)
            out = r.stdout + r.stderr; rc = r.returncode
        except Exception as e: out, rc = str(e), 99
        subprocess.run(['pkill', '-f', 'coqc.*' + M]) if rc == 124 else None
        fails = []
        for m in re.finditer(r'File "\./theories/([A-Za-z0-9_]+)\.v", line (\d+), characters (\d+)-\d+:\n(?:(?!File ").*\n)*?Error', out):
            n = enclosing(M + '/theories/%s.v' % m[1], int(m[2]), int(m[3])); fails.append((m[1], n))
        status = 'survived' if rc == 0 else ('timeout' if rc == 124 else 'killed')
        if fails and fails[0] == (mu['file'][:-2], dn): status = 'stillborn'
        # a file that fails also hides what comes after in it: seeds are the failing lemmas themselves
        rec = dict(key=key, file=mu['file'], line=ln, definition=dn, old=mu['old'], new=mu['new'] + ''.join('  &&  %s: %s => %s' % (e['file'], e['old'], e['new']) for e in mu.get('also', [])), claim=mu.get('claim', ''), status=status,
                   failed=['%s.%s' % x for x in fails], theorems=cthms(fails), secs=round(time.time() - t))
        open(OUT, 'a').write(json.dumps(rec) + '\n')
        print(status, mu['file'], dn, repr(mu['old'])[:60], '->', repr(mu['new'])[:60], rec['failed'][:4], rec['secs'], flush=True)
    restore()
main()
