#!/usr/bin/env python3
"""Transcribe messages/v1x/*/{messages,json_encode}.go into rocq/theories/Types.v.

The transcription is line by line: every line of the two files has to be
recognised, otherwise the script stops.  Output is deterministic."""
import re, sys
ROOT = '/repo/messages/v1x'
PKGS = ['cpreq', 'cpresp', 'csreq', 'csresp']

def die(pkg, fn, no, line):
    sys.exit('unrecognised line %s/%s:%d: %r' % (pkg, fn, no, line))

def q(s):
    return '"' + s.replace('"', '""') + '"'

def goty(t, pkg):
    if t in ('string', 'cpstatus.ErrorCode'): return 'TStr'
    if t == 'int': return 'TInt 64'
    if t == 'int32': return 'TInt 32'
    if t == 'float64': return 'TF64'
    if t == 'bool': return 'TBool'
    if t == 'time.Time': return 'TTime'
    if t.startswith('*'): return 'TPtr (%s)' % goty(t[1:], pkg)
    if t.startswith('[]'): return 'TSlice (%s)' % goty(t[2:], pkg)
    if re.fullmatch(r'[A-Z]\w*', t): return 'TStruct %s' % q(pkg + '.' + t)
    sys.exit('type ' + t)

def tag_get(tag, key):
    """reflect.StructTag.Lookup"""
    while tag:
        i = 0
        while i < len(tag) and tag[i] == ' ': i += 1
        tag = tag[i:]
        if not tag: break
        i = 0
        while i < len(tag) and tag[i] > ' ' and tag[i] != ':' and tag[i] != '"' and tag[i] != '\x7f': i += 1
        if i == 0 or i + 1 >= len(tag) or tag[i] != ':' or tag[i+1] != '"': break
        name, tag = tag[:i], tag[i+1:]
        i = 1
        while i < len(tag) and tag[i] != '"':
            if tag[i] == '\\': i += 1
            i += 1
        if i >= len(tag): break
        val, tag = tag[1:i], tag[i+1:]
        if name == key: return val
    return None

def jsontag(tag, fname):
    v = tag_get(tag, 'json')
    if v is None: sys.exit('no json tag ' + fname)
    parts = v.split(',')
    return (parts[0] or fname), ('omitempty' in parts[1:])

def xmltag(tag, fname):
    v = tag_get(tag, 'xml')
    if v is None: return 'MkX XElem %s false' % q(fname)
    if v == '-': return 'MkX XSkip "" false'
    parts = v.split(',')
    name, opts = parts[0], parts[1:]
    for o in opts:
        if o not in ('attr', 'chardata', 'omitempty'): sys.exit('xml opt ' + o)
    omit = 'true' if 'omitempty' in opts else 'false'
    if 'chardata' in opts:
        assert name == ''
        return 'MkX XChar "" %s' % omit
    if name == '': name = fname
    return 'MkX %s %s %s' % ('XAttr' if 'attr' in opts else 'XElem', q(name), omit)

structs = {}   # pkg -> ordered dict name -> info
actions, responses = {}, {}

def read(pkg, fn):
    return [l.rstrip('\n') for l in open('%s/%s/%s' % (ROOT, pkg, fn))]

for pkg in PKGS:
    structs[pkg] = {}
    lines = read(pkg, 'messages.go')
    i = 0
    n = len(lines)
    cur = None
    while i < n:
        l = lines[i]; no = i + 1
        if cur is None:
            m = re.fullmatch(r'type (\w+) struct \{', l)
            if m:
                cur = m.group(1)
                structs[pkg][cur] = dict(line=no, fields=[], marker='', xml=None)
            elif re.fullmatch(r'(package \w+|import \(|\)|\t"[^"]*"|//.*|)', l): pass
            elif (m := re.fullmatch(r'func \(m \*(\w+)\) Action\(\) string\s*\{ return "(\w+)" \}', l)):
                actions[(pkg, m.group(1))] = (m.group(2), no)
            elif (m := re.fullmatch(r'func \(m \*(\w+)\) GetResponse\(\) messages\.Response\s*\{ return &(\w+)\.(\w+)\{\} \}', l)):
                responses[(pkg, m.group(1))] = (m.group(2), m.group(3), no)
            elif (m := re.fullmatch(r'func \(m \*(\w+)\) GetResponse\(\) messages\.Response \{', l)):
                m2 = re.fullmatch(r'\treturn &(\w+)\.(\w+)\{\}', lines[i+1])
                if not m2 or lines[i+2] != '}': die(pkg, 'messages.go', no, l)
                responses[(pkg, m.group(1))] = (m2.group(1), m2.group(2), no)
                i += 2
            else: die(pkg, 'messages.go', no, l)
        else:
            st = structs[pkg][cur]
            if l == '}':
                st['end'] = no
                cur = None
            elif l == '' or re.fullmatch(r'\t//.*', l): pass
            elif re.fullmatch(r'\t(chargepointRequest|chargepointResponse|centralSystemRequest|centralSystemResponse)', l):
                st['marker'] = l.strip()
            elif (m := re.fullmatch(r'\tXMLName xml\.Name `json:"-" xml:"(\S+) (\S+)"`', l)):
                st['xml'] = (m.group(1), m.group(2))
            elif (m := re.fullmatch(r'\t(\w+)\s+(\S+)\s+`(.*)`', l)):
                name, ty, tag = m.groups()
                jn, jo = jsontag(tag, name)
                st['fields'].append((name, goty(ty, pkg), jn, jo, xmltag(tag, name), no))
            else: die(pkg, 'messages.go', no, l)
        i += 1

def unq(s):
    return s.replace('\\"', '"')

WR = re.compile(r'buf\.WriteString\("((?:[^"\\]|\\")*)"\)')

def parse_marshal(pkg, fn, lines, i, name):
    """lines[i] is the first line of the body; returns (encoder, index after '}')"""
    def L(): return lines[i].strip()
    if L() == 'obj := map[string]interface{}{}':
        m = re.fullmatch(r'if m\.(\w+) != nil \{', lines[i+1].strip())
        m2 = re.fullmatch(r'obj\["(\w+)"\] = m\.(\w+)', lines[i+2].strip())
        if not (m and m2 and m.group(1) == m2.group(2) and lines[i+3].strip() == '}' and
                lines[i+4].strip() == 'return json.Marshal(obj)' and lines[i+5] == '}'):
            die(pkg, fn, i+1, lines[i])
        return 'EOptMap %s %s' % (q(m2.group(1)), q(m.group(1))), i + 6
    if L() != 'buf := bytes.NewBuffer(make([]byte, 0))': die(pkg, fn, i+1, lines[i])
    i += 1
    def block(depth):
        nonlocal i
        out = []
        while True:
            l = L(); no = i + 1
            if l == '' or l.startswith('//'): i += 1; continue
            m = WR.fullmatch(l)
            if m: out.append('IWrite %s' % q(unq(m.group(1)))); i += 1; continue
            if l == 'comma := false': out.append('ICommaFalse'); i += 1; continue
            if l == 'comma = true': out.append('ISetComma'); i += 1; continue
            if l == 'if comma {':
                if lines[i+1].strip() != 'buf.WriteString(",")' or lines[i+2].strip() != '}': die(pkg, fn, no, l)
                out.append('IComma'); i += 3; continue
            m = re.fullmatch(r'if m\.(\w+) == nil \{', l)
            if m:
                m2 = re.fullmatch(r'return nil, errors\.New\("([^"\\]*)"\)', lines[i+1].strip())
                if not m2 or lines[i+2].strip() != '}': die(pkg, fn, no, l)
                out.append('IReqNil %s %s' % (q(m.group(1)), q(m2.group(1)))); i += 3; continue
            m = re.fullmatch(r'if tmp, err := json\.Marshal\(m\.(\w+)(\.Format\(time\.RFC3339\))?\); err != nil \{', l)
            if m:
                if [x.strip() for x in lines[i+1:i+5]] != ['return nil, err', '} else {', 'buf.Write(tmp)', '}']: die(pkg, fn, no, l)
                out.append('%s %s' % ('IMarshalTime' if m.group(2) else 'IMarshal', q(m.group(1)))); i += 5; continue
            m = re.fullmatch(r'if m\.(\w+) != nil \{', l)
            if m and depth == 0:
                i += 1
                body = block(1)
                if L() != '}': die(pkg, fn, i+1, L())
                i += 1
                out.append('IIfSet %s [%s]' % (q(m.group(1)), '; '.join(body))); continue
            if l == '}' and depth == 1: return out
            if l == 'rv := buf.Bytes()' and depth == 0: return out
            die(pkg, fn, no, l)
    out = block(0)
    if [x.strip() for x in lines[i:i+3]] != ['rv := buf.Bytes()', 'return rv, nil', '}']: die(pkg, fn, i+1, lines[i])
    return 'EProg [%s]' % ';\n      '.join(out), i + 3

def parse_unmarshal(pkg, fn, lines, i, name):
    flags = []
    while (m := re.fullmatch(r'\t(\w+)Received := false', lines[i])):
        flags.append(m.group(1)); i += 1
    exp = ['\tvar jsonMap map[string]json.RawMessage', '\tif err := json.Unmarshal(b, &jsonMap); err != nil {', '\t\treturn err', '\t}']
    if lines[i:i+4] != exp: die(pkg, fn, i+1, lines[i])
    i += 4
    if lines[i].strip() == '// parse all the defined properties': i += 1
    cases, strict, checks = [], False, []
    if re.fullmatch(r'\tfor (k, v|k, _) := range jsonMap \{', lines[i]) or lines[i] == '\tfor k := range jsonMap {':
        if lines[i+1].strip() != 'switch k {': die(pkg, fn, i+2, lines[i+1])
        i += 2
        while True:
            l = lines[i].strip()
            m = re.fullmatch(r'case "(\w+)":', l)
            if m:
                m2 = re.fullmatch(r'if err := json\.Unmarshal\(\[\]byte\(v\), &m\.(\w+)\); err != nil \{', lines[i+1].strip())
                if not m2 or [x.strip() for x in lines[i+2:i+4]] != ['return err', '}']: die(pkg, fn, i+1, l)
                i += 4
                flag = None
                m3 = re.fullmatch(r'(\w+)Received = true', lines[i].strip())
                if m3: flag = m3.group(1); i += 1
                cases.append((m.group(1), m2.group(1), flag)); continue
            if l == 'default:':
                if lines[i+1].strip() != 'return fmt.Errorf("additional property not allowed: \\"" + k + "\\"")': die(pkg, fn, i+2, lines[i+1])
                strict = True; i += 2; continue
            if l == '}':
                i += 1; break
            die(pkg, fn, i+1, lines[i])
        if lines[i].strip() != '}': die(pkg, fn, i+1, lines[i])
        i += 1
    while True:
        l = lines[i].strip()
        if l.startswith('//'): i += 1; continue
        m = re.fullmatch(r'if !(\w+)Received \{', l)
        if m:
            m2 = re.fullmatch(r'return errors\.New\("((?:[^"\\]|\\")*)"\)', lines[i+1].strip())
            if not m2 or lines[i+2].strip() != '}': die(pkg, fn, i+1, l)
            checks.append((m.group(1), unq(m2.group(1)))); i += 3; continue
        if l == 'return nil' and lines[i+1] == '}': i += 2; break
        die(pkg, fn, i+1, lines[i])
    cs = ';\n      '.join('MkC %s %s %s' % (q(k), q(f), 'None' if fl is None else '(Some %s)' % q(fl)) for k, f, fl in cases)
    ck = '; '.join('(%s, %s)' % (q(a), q(b)) for a, b in checks)
    return 'DTable [%s]\n     [%s]\n     %s [%s]' % ('; '.join(map(q, flags)), cs, 'true' if strict else 'false', ck), i

for pkg in PKGS:
    fn = 'json_encode.go'
    lines = read(pkg, fn)
    i = 0
    while i < len(lines):
        l = lines[i]
        if re.fullmatch(r'(package \w+|import \(|\)|\t"[^"]*"|//.*|)', l): i += 1; continue
        m = re.fullmatch(r'func \(m \*(\w+)\) MarshalJSON\(\) \(\[\]byte, error\) \{', l)
        if m:
            s = i + 1
            e, i = parse_marshal(pkg, fn, lines, i + 1, m.group(1))
            structs[pkg][m.group(1)]['enc'] = (e, s, i)
            continue
        m = re.fullmatch(r'func \(m \*(\w+)\) UnmarshalJSON\(b \[\]byte\) error \{', l)
        if m:
            s = i + 1
            e, i = parse_unmarshal(pkg, fn, lines, i + 1, m.group(1))
            structs[pkg][m.group(1)]['dec'] = (e, s, i)
            continue
        die(pkg, fn, i+1, l)

o = []
o.append('(** GENERATED by tools/gen_types.py from messages/v1x/*/messages.go and json_encode.go.')
o.append('    Every struct type with its fields and tags, and its MarshalJSON / UnmarshalJSON')
o.append('    methods statement by statement.  Do not edit. *)')
o.append('From Verif Require Import GoBase Lang.')
o.append('Open Scope string_scope.')
o.append('Open Scope list_scope.')
o.append('')
alln = []
for pkg in PKGS:
    for name, st in structs[pkg].items():
        full = pkg + '.' + name
        ident = 'd_%s_%s' % (pkg, name)
        alln.append(ident)
        enc = st.get('enc'); dec = st.get('dec')
        o.append('(** %s: messages/v1x/%s/messages.go:%d-%d;' % (full, pkg, st['line'], st['end']))
        o.append('    MarshalJSON %s; UnmarshalJSON %s *)' % (
            'json_encode.go:%d-%d' % enc[1:] if enc else 'none (reflective)',
            'json_encode.go:%d-%d' % dec[1:] if dec else 'none (reflective)'))
        o.append('Definition %s : decl := MkD %s %s' % (ident, q(full), q(st['marker'])))
        o.append('  %s' % ('None' if st['xml'] is None else '(Some (%s, %s))' % tuple(map(q, st['xml']))))
        o.append('  [%s]' % ';\n   '.join('MkF %s (%s) %s %s (%s)' % (q(f[0]), f[1], q(f[2]), 'true' if f[3] else 'false', f[4]) for f in st['fields']))
        o.append('  (%s)' % (enc[0] if enc else 'EDefault'))
        o.append('  (%s).' % (dec[0] if dec else 'DDefault'))
        o.append('')
o.append('(** All struct types of messages/v1x/*/messages.go. *)')
o.append('Definition all_decls : list decl :=')
o.append('  [%s].' % ';\n   '.join(alln))
o.append('')
o.append('(** Action() of every request type: messages/v1x/cpreq/messages.go, csreq/messages.go. *)')
o.append('Definition action_table : list (string * string) :=')
o.append('  [%s].' % ';\n   '.join('(%s, %s)  (* %s/messages.go:%d *)' % (q(k[0] + '.' + k[1]), q(v[0]), k[0], v[1]) for k, v in actions.items()))
o.append('')
o.append('(** GetResponse() of every request type: messages/v1x/cpreq/messages.go, csreq/messages.go. *)')
o.append('Definition response_table : list (string * string) :=')
o.append('  [%s].' % ';\n   '.join('(%s, %s)  (* %s/messages.go:%d *)' % (q(k[0] + '.' + k[1]), q(v[0] + '.' + v[1]), k[0], v[2]) for k, v in responses.items()))
open('/verif/rocq/theories/Types.v', 'w').write('\n'.join(o) + '\n')
print(len(alln), 'types', len(actions), 'actions', len(responses), 'responses')
