#!/usr/bin/env python3
"""Run seeded wrong programs against the theorems, in scratch copies outside /verif.
usage: mutate.py muts.py [name ...]   (muts.py defines M = [dict(name, file, old, new, edit, breaks), ...])
A failing Example inside a model file is removed and the build resumed, so that what counts is theorems."""
import sys, os, re, subprocess, shutil, json, runpy, time
BASE = '/tmp/mut/base'; LOG = '/tmp/mut/results.jsonl'
DEPS = json.load(open('/tmp/mut/deps.json')) if os.path.exists('/tmp/mut/deps.json') else {}

def enclosing(path, line):
    ls = open(path).read().split('\n')
    for i in range(min(line, len(ls)) - 1, -1, -1):
        m = re.match(r'\s*(?:Local )?(Lemma|Theorem|Example|Corollary|Definition|Fixpoint|Inductive|Remark|Fact)\s+([\w\']+)', ls[i])
        if m: return m.group(1), m.group(2), i
    return None, None, 0

def remove_example(path, i):
    ls = open(path).read().split('\n')
    j = i
    while not re.search(r'(Qed|Defined)\.\s*$', ls[j]): j += 1
    open(path, 'w').write('\n'.join(ls[:i] + ls[j+1:]))

def run(m, limit):
    d = '/tmp/mut/cur'
    shutil.rmtree(d, ignore_errors=True)
    subprocess.check_call(['cp', '-a', BASE, d])
    p = d + '/theories/' + m['file']
    s = open(p).read()
    assert s.count(m['old']) >= 1, (m['name'], 'old not found')
    s = s.replace(m['old'], m['new'], 1 if not m.get('all') else -1)
    open(p, 'w').write(s)
    removed = []; t0 = time.time()
    while True:
        r = subprocess.run('ulimit -v 9000000; timeout %d make -j3 2>&1' % limit, shell=True, cwd=d, stdout=subprocess.PIPE)
        out = r.stdout.decode(errors='replace')
        if r.returncode == 0: return dict(failed=None, removed=removed, secs=int(time.time()-t0))
        mm = re.search(r'File "\./?(theories/[\w.]+)", line (\d+)[^\n]*\nError', out)
        if not mm: return dict(failed=('?', out[-400:]), removed=removed, secs=int(time.time()-t0))
        kind, name, i = enclosing(d + '/' + mm.group(1), int(mm.group(2)))
        if kind == 'Example':
            removed.append(name); remove_example(d + '/' + mm.group(1), i); continue
        err = out[mm.start():][:600]
        return dict(failed=(mm.group(1), kind, name), err=err, removed=removed, secs=int(time.time()-t0))

if __name__ == '__main__':
    M = runpy.run_path(sys.argv[1])['M']
    done = set()
    if os.path.exists(LOG):
        done = {json.loads(l)['name'] for l in open(LOG)}
    for m in M:
        if len(sys.argv) > 2 and m['name'] not in sys.argv[2:]: continue
        if len(sys.argv) == 2 and m['name'] in done: continue
        r = run(m, m.get('limit', 1500))
        r['name'] = m['name']
        f = r['failed']
        if m.get('auto') and f and f[0] == 'theories/' + m['file'] and f[1] in ('Definition', 'Fixpoint', None):
            r['illtyped'] = True; print(m['name'], 'not a program', flush=True); open(LOG, 'a').write(json.dumps(r) + '\n'); continue
        if f and f[0] != '?':
            nm = f[2]
            r['theorems'] = [nm] if re.match(r'C\d+_', nm) else sorted(k for k, v in DEPS.items() if nm in v)
        print(m['name'], 'SURVIVED' if f is None else f, r['secs'], len(r.get('theorems', [])), flush=True)
        open(LOG, 'a').write(json.dumps(r) + '\n')
