#!/usr/bin/env python3
"""Transcribe the message types of soap/wsdl/*.wsdl into rocq/theories/Wsdl.v.

Everything below the schema element has to be recognised, otherwise the script
stops.  Output is deterministic."""
import sys
import xml.etree.ElementTree as ET
S = '{http://www.w3.org/2001/XMLSchema}'
FILES = ['ocpp_centralsystemservice_1.5_final.wsdl', 'ocpp_chargepointservice_1.5_final.wsdl']

def q(s): return '"' + s.replace('"', '""') + '"'
def kids(e): return [c for c in e if c.tag != S + 'annotation']
def die(*a): sys.exit('unrecognised: ' + ' '.join(map(str, a)))

def strs(l, ind):
    return '[' + '; '.join(map(q, l)) + ']'

def load(fn):
    sch = ET.parse('/repo/soap/wsdl/' + fn).getroot().find('.//' + S + 'schema')
    simple, comp, elems = {}, {}, []
    for c in sch:
        if c.tag == S + 'simpleType':
            (r,) = kids(c)
            if r.tag != S + 'restriction' or r.get('base') != 's:string': die(c.get('name'))
            ml, en = None, []
            for f in r:
                if f.tag == S + 'maxLength': ml = int(f.get('value'))
                elif f.tag == S + 'enumeration': en.append(f.get('value'))
                else: die(f.tag)
            simple[c.get('name')] = (ml, en)
        elif c.tag == S + 'complexType': comp[c.get('name')] = c
        elif c.tag == S + 'element': elems.append((c.get('name'), c.get('type')))
        else: die(c.tag)
    def wstr(ml, en, ind): return 'WStr %s %s' % ('None' if ml is None else '(Some %d%%nat)' % ml, strs(en, ind))
    def typ(t, ind):
        p, n = t.split(':')
        if p == 's':
            return {'string': 'WStr None []', 'anyURI': 'WStr None []', 'int': 'WInt', 'dateTime': 'WTime', 'boolean': 'WBool'}[n]
        if n in simple: return wstr(*simple[n], ind)
        if n in comp: return complex_(comp[n], ind)
        if n == 'RemoteSta1rtStopStatus': return 'WStr None []'   # not defined in the file
        die('type', t)
    def complex_(c, ind):
        ks = kids(c)
        if not ks: return 'WSeq []'
        (k,) = ks
        if k.tag == S + 'simpleContent':
            (x,) = kids(k)
            if x.tag != S + 'extension' or x.get('base') != 's:string': die('simpleContent')
            at = []
            for a in x:
                if a.tag != S + 'attribute' or a.get('use') != 'optional': die('attribute')
                at.append('(%s, %s)' % (q(a.get('name')), strs(simple[a.get('type').split(':')[1]][1], ind)))
            return 'WVal [' + (';\n' + ' ' * (ind + 1)).join(at) + ']'
        if k.tag != S + 'sequence': die(k.tag)
        ps = []
        for e in k:
            if e.tag != S + 'element': die(e.tag)
            mn, mx = e.get('minOccurs', '1'), e.get('maxOccurs', '1')
            if mn not in ('0', '1') or mx not in ('1', 'unbounded'): die(mn, mx)
            if e.get('type'): t = typ(e.get('type'), ind + 4)
            else:
                (cc,) = kids(e); t = complex_(cc, ind + 4)
            ps.append('(%s, %s, %s, %s)' % (q(e.get('name')), 'true' if mn == '1' else 'false', 'true' if mx == 'unbounded' else 'false', t))
        return 'WSeq [\n' + ' ' * ind + (';\n' + ' ' * ind).join(ps) + ']'
    return sch.get('targetNamespace'), elems, typ

out = ['''(** GENERATED by tools/gen_wsdl.py: the OCPP 1.5 service descriptions bundled with
    the library (soap/wsdl/*.wsdl, not used by its code), as an independent
    description of the SOAP messages. *)
From Verif Require Import GoBase.
Open Scope string_scope.
Open Scope list_scope.

(** A type of the service descriptions, as far as soap/wsdl/*.wsdl use XML Schema:
    strings (with a maximal length and an enumeration), integers of 32 bits,
    booleans, date-times; sequences of elements (name, required, may repeat,
    type); strings with optional attributes (name, enumeration). *)
Inductive wtype : Type :=
| WStr (maxlen : option nat) (enum : list string)
| WInt | WBool | WTime
| WSeq (parts : list (string * bool * bool * wtype))
| WVal (attrs : list (string * list string)).
''']
allv = []
for fn in FILES:
    ns, elems, typ = load(fn)
    pre = 'w_cs_' if 'central' in fn else 'w_cp_'
    for nm, t in elems:
        if nm == 'chargeBoxIdentity':
            if t != 's:string': die(nm)
            continue
        note = ''
        if nm == 'remoteStartTransactionResponse':
            note = '  The type of its status is misspelt in the file (tns:RemoteSta1rtStopStatus) and\n    undefined; taken as a string.'
        out.append('(** soap/wsdl/%s, element %s.%s *)' % (fn, nm, '\n  ' + note if note else ''))
        out.append('Definition %s%s : wtype :=\n  %s.\n' % (pre, nm, typ(t, 3)))
        allv.append('(%s, %s, %s%s)' % (q(ns), q(nm), pre, nm))
out.append('(** All messages of soap/wsdl/*.wsdl: namespace, element, type. *)')
out.append('Definition services : list (string * string * wtype) :=\n  [' + ';\n   '.join(allv) + '].')
open('/verif/rocq/theories/Wsdl.v', 'w').write('\n'.join(out) + '\n')
print(len(allv), 'elements')
