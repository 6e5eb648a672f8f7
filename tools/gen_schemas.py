#!/usr/bin/env python3
"""Transcribe the bundled JSON schemas ws/json/*.json into rocq/theories/Schemas.v.
Unknown keywords stop the script ("title", "$schema" and "multipleOf" carry no
information used here; SendLocalList.json has two misplaced keywords, which JSON
schema ignores)."""
import json, os, sys
D = '/repo/ws/json'
def q(s): return '"' + s.replace('"', '""') + '"'
KNOWN = {'type', 'properties', 'required', '$schema', 'title', 'additionalProperties', 'enum', 'maxLength', 'format', 'items', 'multipleOf'}
def tr(o, path, ind):
    for k in o:
        if k not in KNOWN and not (path.startswith('SendLocalList') and k in ('expiryDate', 'parentIdTag')):
            sys.exit('keyword %s in %s' % (k, path))
    t = o['type']
    pad = ' ' * ind
    if t == 'string':
        ml = o.get('maxLength')
        return 'SStr %s [%s] %s' % ('(Some %d%%nat)' % ml if ml is not None else 'None', '; '.join(q(e) for e in o.get('enum', [])), 'true' if o.get('format') == 'date-time' else 'false')
    if t == 'integer': return 'SInt'
    if t == 'number': return 'SNum'
    if t == 'boolean': return 'SBool'
    if t == 'array': return 'SArr (%s)' % tr(o['items'], path + '[]', ind + 2)
    if t == 'object':
        props = ';\n'.join('%s (%s, %s)' % (pad, q(k), tr(s, path + '.' + k, ind + 4)) for k, s in o.get('properties', {}).items())
        addl = o.get('additionalProperties', True)
        assert addl in (True, False)
        return 'SObj [%s]\n%s [%s] %s' % (('\n' + props) if props else '', pad, '; '.join(q(r) for r in o.get('required', [])), 'true' if addl else 'false')
    sys.exit('type %s' % t)
out = ['''(** GENERATED by tools/gen_schemas.py: the JSON schemas bundled with the library
    (ws/json/*.json, not used by its code), as an independent description of the
    OCPP 1.6 payloads. *)
From Verif Require Import GoBase.
Open Scope string_scope.
Open Scope list_scope.

(** A JSON schema, as far as ws/json/*.json use them. *)
Inductive schema : Type :=
| SStr (maxlen : option nat) (enum : list string) (datetime : bool)
| SInt | SNum | SBool
| SArr (items : schema)
| SObj (props : list (string * schema)) (required : list string) (additional : bool).
''']
names = []
for f in sorted(os.listdir(D)):
    n = f[:-5]
    o = json.load(open(os.path.join(D, f)))
    out.append('(** ws/json/%s *)\nDefinition s_%s : schema :=\n  %s.\n' % (f, n, tr(o, n, 2)))
    names.append(n)
out.append('(** ws/json/*.json, by title of the file. *)\nDefinition schemas : list (string * schema) :=\n  [' + ';\n   '.join('(%s, s_%s)' % (q(n), n) for n in names) + '].\n')
open('/verif/rocq/theories/Schemas.v', 'w').write('\n'.join(out))
print(len(names))
