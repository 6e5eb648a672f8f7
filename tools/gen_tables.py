#!/usr/bin/env python3
"""Transcribe messages/req/actions.go, messages/res/actions.go and the switch of
soap/marshal.go into rocq/theories/Tables.v.  Every line has to be recognised."""
import re, sys
def q(s): return '"' + s.replace('"', '""') + '"'

def actions(path, pkgdoc):
    rows, pend = [], None
    lines = open(path).read().split('\n')
    start = next(i for i, l in enumerate(lines) if l.startswith('func FromActionName'))
    for i, l in enumerate(lines[start+1:], start+2):
        s = l.strip()
        if s == '' or s.startswith('//') or s == 'switch action {' or s == '}' or s == 'return nil': continue
        m = re.fullmatch(r'case "(\w+)":', s)
        if m and pend is None: pend = m.group(1); continue
        m = re.fullmatch(r'return &(\w+\.\w+)\{\}', s)
        if m and pend is not None: rows.append((pend, m.group(1), i)); pend = None; continue
        sys.exit('unrecognised %s:%d %r' % (path, i, l))
    return rows

def soap(path):
    rows, pend = [], None
    lines = open(path).read().split('\n')
    start = next(i for i, l in enumerate(lines) if 'b.Fault = &fault' in l)
    for i, l in enumerate(lines[start+1:], start+2):
        s = l.strip()
        if s == '' or s.startswith('//'): continue
        if s == 'default:': break
        m = re.fullmatch(r'case "(\w+)":', s)
        if m and pend is None: pend = m.group(1); continue
        m = re.fullmatch(r'msg = new\((\w+\.\w+)\)', s)
        if m and pend is not None: rows.append((pend, m.group(1), i)); pend = None; continue
        sys.exit('unrecognised %s:%d %r' % (path, i, l))
    return rows

def emit(name, doc, rows, out):
    out.append('(** %s *)' % doc)
    out.append('Definition %s : list (string * string) :=' % name)
    out.append('  [' + ';\n   '.join('(%s, %s)' % (q(a), q(b)) for a, b, _ in rows) + '].\n')

out = ['(** GENERATED by tools/gen_tables.py. Lookup tables of the registries. *)',
       'From Verif Require Import GoBase.', 'Open Scope string_scope.', '']
r = actions('/repo/messages/req/actions.go', ''); emit('req_actions', 'messages/req/actions.go:9-73: action name -> request type (cases of FromActionName in order; all other strings give nil)', r, out)
r = actions('/repo/messages/res/actions.go', ''); emit('res_actions', 'messages/res/actions.go:9-73: action name -> response type', r, out)
r = soap('/repo/soap/marshal.go'); emit('soap_names', 'soap/marshal.go:52-151: local name of a child of the SOAP body -> message type', r, out)
open('/verif/rocq/theories/Tables.v', 'w').write('\n'.join(out))
print(len(r))
