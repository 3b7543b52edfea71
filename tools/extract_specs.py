#!/usr/bin/env python3
"""Extracts the message definitions /repo/components/kafka-protocol-go/assets/protocol_spec/*.json, as they are, into
rocq/theories/M_KSpecs.v."""
import json,os
D='/repo/components/kafka-protocol-go/assets/protocol_spec'
def load(p):
    return json.loads('\n'.join(l for l in open(p).read().split('\n') if not l.strip().startswith('//')))
def lit(s):
    assert '"' not in s and all(32<=ord(c)<127 for c in s)
    return '(lit "%s")'%s if s else '[]'
def z(n): return '(%d)%%Z'%n
def dflt(d):
    if d is None: return 'RNone'
    if d is True or d is False: return 'RBool %s'%str(d).lower()
    if isinstance(d,int): return 'RNum %s'%z(d)
    assert isinstance(d,str); return 'RStr %s'%lit(d)
def field(f,ind):
    known={'name','type','mapKey','default','entityType','zeroCopy','versions','flexibleVersions','nullableVersions','taggedVersions','ignorable','tag','about','fields'}
    assert set(f)<=known,set(f)-known
    t='None' if 'tag' not in f else '(Some %s)'%z(f['tag'])
    return '%sFSpec %s %s %s %s %s %s %s %s (%s) %s'%(' '*ind,lit(f['name']),lit(f['type']),lit(f['versions']),lit(f.get('flexibleVersions','')),lit(f.get('nullableVersions','')),lit(f.get('taggedVersions','')),t,
        str(f.get('ignorable',False)).lower(),dflt(f.get('default')),fields(f.get('fields') or [],ind+1))
def fields(fs,ind): return '[]' if not fs else '[\n'+';\n'.join(field(f,ind) for f in fs)+']'
out=[];tabs={'request':[],'response':[],'header':[]}
for p in sorted(os.listdir(D)):
    m=load(os.path.join(D,p))
    if m['type'] not in tabs: continue
    n='d_'+m['name']
    out.append('(* protocol_spec/%s *)\nDefinition %s : mspec := MSpec %s %s %s [%s].'%(p,n,lit(m['validVersions']),lit(m.get('flexibleVersions','')),fields(m['fields'],1),
        '; '.join('(%s, %s)'%(lit(c['name']),fields(c['fields'],1)) for c in m.get('commonStructs',[]))))
    tabs[m['type']].append((m.get('apiKey'),n))
top='''(* GENERATED by tools/extract_specs.py from the message definitions /repo/components/kafka-protocol-go/assets/protocol_spec/*.json.  Do not edit. *)
From Coq Require Import String List ZArith.
From Verif Require Import M_GoStr M_KGen.
Import ListNotations.
Open Scope list_scope.

'''
top=top.replace('/*.json','')
for k,cn in(('request','req_specs'),('response','resp_specs')):
    out.append('Definition %s : list (Z * mspec) := [%s].'%(cn,';\n  '.join('(%s, %s)'%(z(a),n) for a,n in sorted(tabs[k]))))
out.append('Definition header_specs : list mspec := [%s].'%'; '.join(n for _,n in tabs['header']))
open('/verif/rocq/theories/M_KSpecs.v','w').write(top+'\n'.join(out)+'\n')
print({k:len(v) for k,v in tabs.items()})
