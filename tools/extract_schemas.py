#!/usr/bin/env python3
"""Extracts the message definitions from the generated Go structs of
/repo/components/kafka-protocol-go/pkg/protocol/messages into rocq/theories/M_KSchemas.v.
For every struct: the field contexts in the order in which Read, Write and SizeInBytes process them (the
script checks that the three orders agree), the Go types, the defaults of SetDefault, the fields guarded in
validateNonIgnorableFields, the flexible version range."""
import os,re,sys
ROOT='/repo/components/kafka-protocol-go/pkg/protocol/messages'
PFX='github.com/cisco-open/libnasp/components/kafka-protocol-go/pkg/protocol/messages/'
structs={}   # (dir,name) -> info
def body(src,header):
    i=src.index(header); j=src.index('\n}\n',i); return src[i:j]
for d,_,fs in os.walk(ROOT):
    for f in sorted(fs):
        if not f.endswith('.go') or f in('requests.go','responses.go'): continue
        p=os.path.join(d,f); src=open(p).read(); rel=os.path.relpath(p,ROOT); reld=os.path.dirname(rel)
        if 'SizeInBytes(version int16)' not in src: print('skip',rel,file=sys.stderr); continue
        imports={}
        for m in re.finditer(r'^\s*(?:(\w+) )?"('+re.escape(PFX)+r'[^"]+)"',src,re.M):
            path=m.group(2)[len(PFX):]; imports[m.group(1) or path.split('/')[-1]]=path
        names=re.findall(r'^type (\w+) struct \{',src,re.M); assert len(names)==1,(rel,names); S=names[0]
        camel=S[0].lower()+S[1:]
        tb=body(src,'type %s struct {'%S)
        types=dict(re.findall(r'^\t(\w+)\s+(\S+)$',tb,re.M)); types.pop('unknownTaggedFields'); types.pop('isNil')
        ctxs={}
        for m in re.finditer(r'^var (\w+) = fields\.Context\{\n(.*?)^\}',src,re.M|re.S):
            kv=dict(re.findall(r'^\t(\w+):\s+(.*),$',m.group(2),re.M)); ctxs[m.group(1)]=kv
        getters=dict(re.findall(r'^func \(o \*%s\) (\w+)\(\) \S+ \{\n\treturn o\.(\w+)\n\}'%S,src,re.M))
        sd=body(src,'func (o *%s) SetDefault() {'%S)
        vd=body(src,'func (o *%s) validateNonIgnorableFields('%S)
        rd=body(src,'func (o *%s) Read('%S); wr=body(src,'func (o *%s) Write('%S); sz=body(src,'func (o *%s) SizeInBytes('%S)
        fields=[]
        for cv,kv in ctxs.items():
            assert cv.startswith(camel),(rel,cv,camel); prop=cv[len(camel):]; fname=getters[prop]; ty=types[fname]
            kv=dict(kv); kv['name']=fname; kv['type']=ty
            m=re.search(r'o\.%s\.SetValue\((.*)\)'%fname,sd) if ty=='fields.NullableString' else re.search(r'^\to\.%s = (.*)$'%fname,sd,re.M)
            kv['def']=m.group(1) if m else None
            kv['checked']=('!%s.IsSupportedVersion(version)'%cv) in vd
            fields.append(kv)
            cd=kv.get('CustomDefaultValue'); dv=kv['def']
            if cd: assert cd.replace('"null"','"null"')==dv or re.sub(r'^\w+\((.*)\)$',r'\1',cd)==dv or cd==dv,(rel,fname,cd,dv)
        # order checks: first mention of each field in the three functions (tagged-only fields come last there)
        def first(b,k):
            n=k['name']; c=[i for i in(b.find('\t%sField := '%n),b.find('o.%s.Read('%n),b.find('o.%s.Write('%n),b.find('o.%s.SizeInBytes('%n)) if i>=0]
            assert c,(rel,n); return min(c)
        for b,bn in((rd,'Read'),(wr,'Write'),(sz,'Size')):
            reg=[k for k in fields if not('SpecTag' in k and k.get('LowestSupportedTaggedVersion','0')==k.get('LowestSupportedVersion','0') and k.get('HighestSupportedTaggedVersion','0')==k.get('HighestSupportedVersion','0'))]
            o=[first(b,k) for k in reg]; assert o==sorted(o),(rel,bn,[k['name'] for k in reg],o)
        g=lambda n:int(re.search(r'func %s%s\(\) int16 \{\n\treturn (-?\d+)'%(S,n),src).group(1))
        ak=re.search(r'func \(o \*%s\) ApiKey\(\) int16 \{\n\treturn (-?\d+)'%S,src)
        structs[(reld,S)]=dict(rel=rel,flo=g('LowestSupportedFlexVersion'),fhi=g('HighestSupportedFlexVersion'),lo=g('LowestSupportedVersion') if 'func %sLowestSupportedVersion'%S in src else None,
            hi=g('HighestSupportedVersion') if 'func %sHighestSupportedVersion'%S in src else None,fields=fields,imports=imports,key=int(ak.group(1)) if ak else None)
def coqname(k): return 's_'+('_'.join(k[0].split('/')) +'_' if k[0] else '')+k[1]
PRIM={'bool':'PBool','int8':'(PInt 1)','int16':'(PInt 2)','int32':'(PInt 4)','int64':'(PInt 8)','uint16':'PUint16','float64':'PFloat','fields.NullableString':'PStr','fields.UUID':'PUuid','[]byte':'PBytes','fields.RecordBatches':'PRec'}
out=[];done=set()
def z(n): n=int(n); return '(%d)'%n if n<0 else str(n)
def resolve(info,reld,t):
    if '.' in t: pkg,n=t.split('.'); return (info['imports'][pkg],n)
    return (reld,t)
def emit(k):
    if k in done: return
    done.add(k); info=structs[k]; fl=[]
    for f in info['fields']:
        t=f['type']
        if t in PRIM: ty='(TPrim %s)'%PRIM[t]
        elif t.startswith('[]') and t[2:] in PRIM: ty='(TArr %s)'%PRIM[t[2:]]
        else:
            arr=t.startswith('[]'); kk=resolve(info,k[0],t[2:] if arr else t); emit(kk); ty='(%s %s)'%('TArrS' if arr else 'TStruct',coqname(kk))
        dv=f['def']; d='DNone'
        if t=='bool' and dv=='true': d='(DBool true)'
        elif t in('int8','int16','int32','int64','uint16') and dv not in(None,'0'): d='(DInt %s)'%z(re.sub(r'^\w+\((.*)\)$',r'\1',dv))
        elif t=='fields.NullableString' and dv=='"null"': d='(DStr null_text)'
        elif t=='fields.NullableString': assert dv=='""',(k,f)
        elif t=='float64': assert dv=='0'
        g=lambda n:z(f.get(n,'0'))
        tag='None'
        if 'SpecTag' in f: tag='(Some %s)'%re.search(r'Tag\((\d+)\)',f['SpecTag']).group(1)
        ign='false' if (f['checked'] or int(f.get('LowestSupportedVersion','0'))<=0) else 'true'
        if f['checked']: assert int(f['LowestSupportedVersion'])>0
        fl.append('  (* %s *) FCons (mkctx %s %s %s %s %s %s %s %s %s %s) %s %s ('%(f['name'],g('LowestSupportedVersion'),g('HighestSupportedVersion'),g('LowestSupportedFlexVersion'),g('HighestSupportedFlexVersion'),g('LowestSupportedNullableVersion'),g('HighestSupportedNullableVersion'),g('LowestSupportedTaggedVersion'),g('HighestSupportedTaggedVersion'),tag,ign,d,ty))
    out.append('(* messages/%s *)\nDefinition %s : sch := Sch %s %s (\n%s\n  FNil%s.'%(info['rel'],coqname(k),z(info['flo']),z(info['fhi']),'\n'.join(fl),')'*(len(fl)+1)))
reqs={};resps={}
for k,i in sorted(structs.items()):
    emit(k)
for k,i in structs.items():
    if i['key'] is not None and k[1]=='Request': reqs[i['key']]=k
    if i['key'] is not None and k[1]=='Response': resps[i['key']]=k
# constructors by api key
for fn,tab,nm in(('requests.go',reqs,'Request'),('requests.go',resps,'Response')):
    src=open(os.path.join(ROOT,fn)).read()
    cases=dict((int(a),b) for a,b in re.findall(r'case (\d+):[^\n]*\n\t\treturn &(\w+)\.%s\{\}'%nm,src))
    print(fn,len(cases),len(tab),file=sys.stderr)
    assert {k:v[0] for k,v in tab.items()}==cases,(fn,set(cases)^set(tab))
def table(fn,pkg):
    src=open('/repo/components/kafka-protocol-go/pkg/%s/header.go'%pkg).read(); src=src[src.index('switch apiKey {'):]
    rows=[]
    for m in re.finditer(r'case (\d+):[^\n]*\n(.*?)(?=\n\tcase|\n\tdefault)',src,re.S):
        b=re.sub(r'\s*//.*','',m.group(2)); 
        conds=re.findall(r'if apiVersion (>=|==) (\d+) \{\s*return (\d)\s*\}',b); ret=re.search(r'^\t\treturn (\d)$',b,re.M).group(1)
        e=ret
        for op,n,r in reversed(conds): e='if %s then %s else %s'%(('%s <=? ver'%n) if op=='>=' else ('ver =? %s'%n),r,e)
        rows.append((int(m.group(1)),e))
    return rows
hdr=[]
for pkg in('request','response'):
    rows=table(pkg,pkg)
    lines='\n'.join('  else if key =? %d then (%s)'%(k,e) for k,e in rows).replace('  else if','  if',1)
    hdr.append('(* pkg/%s/header.go: headerVersion (-1 = unsupported api key) *)\nDefinition %s_header_version (key ver : Z) : Z :=\n%s\n  else -1.'%(pkg,'req' if pkg=='request' else 'resp',lines))
for nm,tab,cn in(('NewRequest (messages/requests.go)',reqs,'req_sch'),('NewResponse (messages/requests.go)',resps,'resp_sch')):
    hdr.append('(* %s *)\nDefinition %s (key : Z) : option sch :=\n%s\n  else None.'%(nm,cn,'\n'.join('  else if key =? %d then Some %s'%(k,coqname(tab[k])) for k in sorted(tab)).replace('  else if','  if',1)))
def supp(tab,cn):
    return '(* LowestSupportedVersion/HighestSupportedVersion of the %s messages *)\nDefinition %s : list (Z * (Z * Z)) := [%s].'%(cn,cn,'; '.join('(%d, (%s, %s))'%(k,z(structs[tab[k]]['lo']),z(structs[tab[k]]['hi'])) for k in sorted(tab)))
hdr.append(supp(reqs,'req_versions')); hdr.append(supp(resps,'resp_versions'))
top='''(* GENERATED by tools/extract_schemas.py from the generated Go structs under
   components/kafka-protocol-go/pkg/protocol/messages and the tables pkg/request/header.go,
   pkg/response/header.go.  Do not edit. *)
From Coq Require Import List ZArith Bool.
From Verif Require Import M_KBase M_KFields M_KRecords M_KSchema.
Import ListNotations.
Open Scope Z_scope.

'''
open('/verif/rocq/theories/M_KSchemas.v','w').write(top+'\n'.join(out)+'\n\n'+'\n\n'.join(hdr)+'\n\n(* every struct *)\nDefinition all_structs : list sch := [%s].\n'%('; '.join(coqname(k) for k in sorted(structs))))
print(len(structs),'structs',file=sys.stderr)
