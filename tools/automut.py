#!/usr/bin/env python3
"""Systematic mutants: one edit of one place in a definition of a model file, chosen at random.
usage: automut.py seed per_file > seeded/mutsN.py   (run with mutate.py, which skips edits that do not type-check)"""
import re, random, sys, os, json
T = os.path.join(os.path.dirname(os.path.abspath(__file__)), '..', 'rocq', 'theories')
FILES = ['Json','Utf8','Float64','GoTime','Codec','Any','Frame','Registry','Lang','Conn','CentralSystem','ChargePoint','Net','System','Soap','Xml','XmlSyntax','XmlWrite','Process']
def blank(s):
    """comments replaced by spaces"""
    out = []; d = 0; i = 0; q = False
    while i < len(s):
        if q:
            out.append(s[i] if d == 0 else ' ')
            if s[i] == '"': q = False
            i += 1
        elif s.startswith('(*', i): d += 1; out.append('  '); i += 2
        elif s.startswith('*)', i) and d: d -= 1; out.append('  '); i += 2
        else:
            if s[i] == '"' : q = True
            out.append(s[i] if d == 0 else ('\n' if s[i] == '\n' else ' ')); i += 1
    return ''.join(out)
def sites(b):
    """(start, end, replacement, description) in a definition's body"""
    r = []
    body = b.index(':=') + 2 if ':=' in b else 0
    strs = [m.span() for m in re.finditer(r'"[^"]*"', b)]
    instr = lambda i: any(x <= i < y for x, y in strs)
    def add(rx, f, desc):
        for m in re.finditer(rx, b):
            if m.start() >= body and not instr(m.start()): r.append((m.start(), m.end(), f(m), desc(m)))
    add(r'<\?', lambda m: '<=?', lambda m: '< becomes <=')
    add(r'<=\?', lambda m: '<?', lambda m: '<= becomes <')
    add(r'\b(N|Nat|Z)\.leb\b', lambda m: m.group(1)+'.ltb', lambda m: '<= becomes <')
    add(r'\b(N|Nat|Z)\.ltb\b', lambda m: m.group(1)+'.leb', lambda m: '< becomes <=')
    add(r'(?<![\w.\'])(\d+)(?![\w\'])', lambda m: str(int(m.group(1))+1), lambda m: '%s becomes %d' % (m.group(1), int(m.group(1))+1))
    add(r'(?<![\w.\'])([1-9]\d*)(?![\w\'])', lambda m: str(int(m.group(1))-1), lambda m: '%s becomes %d' % (m.group(1), int(m.group(1))-1))
    add(r'\btrue\b(?!\s*=>)', lambda m: 'false', lambda m: 'true becomes false')
    add(r'\bfalse\b(?!\s*=>)', lambda m: 'true', lambda m: 'false becomes true')
    add(r'&&', lambda m: '||', lambda m: '&& becomes ||')
    add(r'\|\|', lambda m: '&&', lambda m: '|| becomes &&')
    add(r'\bnegb ', lambda m: 'id ', lambda m: 'a negation is dropped')
    add(r'\bif (?!negb)([^\n]*?) then', lambda m: 'if negb (%s) then' % m.group(1), lambda m: 'the condition %s is negated' % m.group(1))
    add(r'\+\+ *\[[^\]\[]*\]', lambda m: '', lambda m: '%s is dropped' % m.group(0))
    add(r'=> Some \(', lambda m: '=> let _ := Some (', lambda m: 'x')
    r = [x for x in r if x[3] != 'x']
    for m in re.finditer(r'"([^"]+)"', b):
        if m.start() >= body: r.append((m.start(), m.end(), '"%s"' % (m.group(1)[:-1] + ('x' if m.group(1)[-1] != 'x' else 'y')), 'the text "%s" is changed' % m.group(1)))
    # branches: the result of one branch of a match becomes that of the next one
    br = [m for m in re.finditer(r'\n\s*\| [^\n]*?=> ([^\n]+)(?=\n\s*(?:\||end))', b) if m.start() >= body]
    for x, y in zip(br, br[1:]):
        if x.group(1) != y.group(1) and x.group(1).count('(') == x.group(1).count(')') and y.group(1).count('(') == y.group(1).count(')'):
            r.append((x.start(1), x.end(1), y.group(1), 'a case does what the next one does: %s' % ' '.join(y.group(1).split())[:60]))
    return r
def defs(path):
    s = open(path).read(); b = blank(s)
    for m in re.finditer(r'^(Definition|Fixpoint) ([\w\']+)', b, re.M):
        e = re.search(r'\.\s*(?=\n|$)', b[m.start():])
        # a definition ends at the first full stop at the end of a line
        end = m.start() + e.end()
        yield m.group(2), s[m.start():end], b[m.start():end]
def main():
    seed, per = int(sys.argv[1]), int(sys.argv[2]); rnd = random.Random(seed)
    files = sys.argv[3:] or FILES
    print('import json\nM=[json.loads(l) for l in r"""')
    for f in files:
        allsites = []
        for name, txt, b in defs(os.path.join(T, f + '.v')):
            ss = sites(b)
            for x in ss: allsites.append((name, txt, x))
        rnd.shuffle(allsites)
        seen = {}; n = 0
        for name, txt, (i, j, new, desc) in allsites:
            if n >= per: break
            if seen.get(name, 0) >= max(1, per // 4): continue
            seen[name] = seen.get(name, 0) + 1; n += 1
            print(json.dumps(dict(name='auto%d_%s_%d_%s' % (seed, f, n, name), file=f + '.v', old=txt, new=txt[:i] + new + txt[j:], edit='%s: %s' % (name, desc), breaks='what %s stands for (see its comment)' % name, auto=True)))
    print('""".split("\\n") if l]')
if __name__ == '__main__': main()
