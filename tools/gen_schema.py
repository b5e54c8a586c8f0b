#!/usr/bin/env python3
"""Reads /repo (as text) and writes the table modules of the model:
   Consts.v   string constants (STIX types, extension keys, relationship types, hash algorithms)
   Enums.v    the ten JSON enumerations
   Schema.v   every struct definition: field name, Go type, json tag
   OptTable.v every Option* function: field, value type, kind, documented object types
Every generated definition cites file and line."""
import re, os, sys
R='/repo/'
OUT='/verif/rocq/theories/'
def src(f): return open(R+f,encoding='utf-8').read().split('\n')
files=[f for f in sorted(os.listdir(R)) if f.endswith('.go') and not f.endswith('_test.go')]

def q(s): return '"'+s.replace('"','""')+'"'

# ---------------------------------------------------------------- constants
consts={}   # name -> (value,file,line)
for f in files:
    for n,l in enumerate(src(f)):
        m=re.match(r'\s*(?:const )?(\w+)(?: (\w+))? = "([^"]*)"\s*$',l)
        if m: consts[m.group(1)]=(m.group(3),f,n+1,m.group(2))
types=[(k,v) for k,v in consts.items() if v[3]=='STIXType']
exts=[(k,v) for k,v in consts.items() if k.startswith('Ext') and v[3] is None and v[1]=='data-types.go']
rels=[(k,v) for k,v in consts.items() if v[3]=='RelationshipType']
algs=[(k,v) for k,v in consts.items() if v[3]=='HashAlgorithm']
specs=[(k,v) for k,v in consts.items() if k.startswith('SpecVersion')]
dt=src('data-types.go')
i=next(n for n,l in enumerate(dt) if l.startswith('var AllTypes'))
alltypes=[]
j=i+1
while not dt[j].startswith('}'):
    alltypes.append(dt[j].strip().rstrip(',')); j+=1
with open(OUT+'Consts.v','w') as o:
    o.write('(** Generated by tools/gen_schema.py from /repo: string constants. *)\nFrom Verif Require Import GoStr.\n\n')
    for title,lst in [('STIX types',types),('Extension keys',exts),('Relationship types',rels),('Hash algorithms',algs),('Spec versions',specs)]:
        o.write('(** %s *)\n'%title)
        for k,v in lst:
            o.write('Definition %s : string := %s. (* %s:%d *)\n'%(k,q(v[0]),v[1],v[2]))
        o.write('\n')
    o.write('(** AllTypes, data-types.go:%d-%d *)\nDefinition AllTypes : list string :=\n  [%s].\n\n'%(i+1,j+1,';\n   '.join(alltypes)))
    o.write('Definition AllRelTypes : list string :=\n  [%s].\n'%(';\n   '.join(k for k,_ in rels)))

# ---------------------------------------------------------------- enums
enums={}
for f in files:
    S=src(f)
    for n,l in enumerate(S):
        m=re.match(r'type (\w+) (byte|uint8)$',l)
        if m: enums[m.group(1)]=dict(file=f,line=n+1,vals={},map=[])
    # const blocks with iota
    k=0
    while k<len(S):
        if S[k].startswith('const ('):
            k0=k; cur=None; cnt=-1; offs=0; tname=None
            k+=1
            while not S[k].startswith(')'):
                l=S[k].strip()
                if l and not l.startswith('//'):
                    cnt+=1
                    m=re.match(r'(\w+) (\w+) = iota( \+ 1)?$',l)
                    if m:
                        tname=m.group(2); offs=(1 if m.group(3) else 0)-cnt
                    name=re.match(r'(\w+|_)',l).group(1)
                    if tname in enums and name!='_':
                        enums[tname]['vals'][name]=cnt+offs
                        enums[tname].setdefault('cl',(k0+1,None))
                k+=1
            if tname in enums: enums[tname]['cl']=(k0+1,k+1)
        k+=1
for f in files:
    S=src(f)
    for n,l in enumerate(S):
        m=re.match(r'var (\w+) = map\[(\w+)\]string\{',l)
        if m and m.group(2) in enums:
            e=enums[m.group(2)]; j=n+1
            while not S[j].startswith('}'):
                mm=re.match(r'\s*(\w+):\s*"([^"]*)",',S[j])
                e['map'].append((e['vals'][mm.group(1)],mm.group(2),mm.group(1))); j+=1
            e['ml']=(n+1,j+1)
with open(OUT+'Enums.v','w') as o:
    o.write('(** Generated by tools/gen_schema.py from /repo: the JSON enumerations.\n    Each table is the Go map from enumeration value to JSON name. *)\nFrom Verif Require Import GoStr.\n\n')
    for k,e in enums.items():
        o.write('(** type %s, %s:%d; constants %s:%d-%d; names %s:%d-%d *)\n'%(k,e['file'],e['line'],e['file'],e['cl'][0],e['cl'][1],e['file'],e['ml'][0],e['ml'][1]))
        o.write('Definition map_%s : list (N * string) :=\n  [%s]%%N.\n'%(k,';\n   '.join('(%d, %s)'%(a,q(b)) for a,b,_ in e['map'])))
        o.write('\n')
    o.write('Definition enum_table : list (string * list (N * string)) :=\n  [%s].\n\n'%(';\n   '.join('(%s, map_%s)'%(q(k),k) for k in enums)))
    o.write('\n(** the names of the declared constants *)\nDefinition enum_consts : list (string * list (string * N)) :=\n  [%s]%%N.\n'%(';\n   '.join('(%s, [%s])'%(q(k),'; '.join('(%s, %d)'%(q(a),b) for a,b in e['vals'].items())) for k,e in enums.items())))

# ---------------------------------------------------------------- structs
structs={}
for f in files:
    S=src(f)
    for n,l in enumerate(S):
        m=re.match(r'type (\w+) struct \{',l)
        if m and m.group(1) not in ('Collection',):
            j=n+1; fs=[]
            while not S[j].startswith('}'):
                t=S[j].strip()
                if t and not t.startswith('//'):
                    mm=re.match(r'(\w+)\s+(\S.*?)(?:\s+`json:"([^"]*)"`)?$',t)
                    if re.match(r'^[\w.]+$',t): fs.append((t.split('.')[-1],t,None,True,j+1))
                    else: fs.append((mm.group(1),mm.group(2),mm.group(3),False,j+1))
                j+=1
            structs[m.group(1)]=dict(file=f,l0=n+1,l1=j+1,fields=fs)
named_strings={'Identifier','STIXType','Hex','HashAlgorithm','RelationshipType','WindowsPEBinaryType'}
def gty(t):
    t=t.strip()
    if t=='string': return 'GString "string"'
    if t in named_strings: return 'GString "%s"'%t
    if t in ('int','int64'): return 'GInt "%s"'%t
    if t=='bool': return 'GBool'
    if t=='float64': return 'GFloat'
    if t in enums: return 'GEnum "%s"'%t
    if t=='Timestamp': return 'GTime'
    if t=='Binary': return 'GBinary'
    if t=='Hashes': return 'GMap "Hashes" "HashAlgorithm" (GString "string")'
    if t=='Extensions': return 'GExt'
    if t=='CustomObject': return 'GMap "CustomObject" "string" GIface'
    if t=='interface{}': return 'GIface'
    if t.startswith('*'): return 'GPtr (%s)'%gty(t[1:])
    if t.startswith('[]'): return 'GSlice (%s)'%gty(t[2:])
    m=re.match(r'map\[(\w+)\](.*)$',t)
    if m: return 'GMap "" "%s" (%s)'%(m.group(1),gty(m.group(2)))
    if t in structs: return 'ty_%s'%t
    raise Exception('type '+t)
def deps(t):
    return {w for w in re.findall(r'\w+',t) if w in structs}
skip={'Bundle','Timestamp'}
order=[]; seen=set()
def visit(s):
    if s in seen or s in skip: return
    seen.add(s)
    for (_,t,_,_,_) in structs[s]['fields']:
        for d in sorted(deps(t)):
            visit(d)
    order.append(s)
for s in structs: visit(s)
# the builtin switch of processObjects
st=src('stix.go'); builtin=[]
for n,l in enumerate(st):
    m=re.match(r'\s*case (Type\w+):',l)
    if m:
        mm=re.match(r'\s*obj = &(\w+)\{\}',st[n+1])
        builtin.append((m.group(1),mm.group(1),n+1))
helper=set()   # MarshalJSON via marshalToJSONHelper
custom=set()   # addCustomProperties directly
for f in files:
    S=src(f)
    for n,l in enumerate(S):
        m=re.match(r'func \(\w+ \*(\w+)\) MarshalJSON\(\)',l)
        if m and 'marshalToJSONHelper' in S[n+1]: helper.add(m.group(1))
        m=re.match(r'func \(\w+ \*(\w+)\) addCustomProperties',l)
        if m: custom.add(m.group(1))
with open(OUT+'Schema.v','w') as o:
    o.write('(** Generated by tools/gen_schema.py from /repo: all struct definitions. *)\nFrom Verif Require Import GoStr Consts GoTypes.\n\n')
    for s in order:
        d=structs[s]
        o.write('(** type %s struct, %s:%d-%d *)\nDefinition fs_%s : list (fmeta * gty) :=\n  ['%(s,d['file'],d['l0'],d['l1'],s))
        out=[]
        for (name,t,tag,emb,line) in d['fields']:
            parts=(tag or '').split(',')
            out.append('(Fmeta %s %s %s %s, %s) (* %s:%d *)'%(q(name),q(parts[0]),'true' if 'omitempty' in parts else 'false','true' if emb else 'false',gty(t),d['file'],line))
        body=';\n   '.join(x.rsplit(' (*',1)[0] for x in out)
        # keep citations on each line
        lines=[]
        for idx,x in enumerate(out):
            a,c=x.rsplit(' (*',1)
            lines.append(a+(';' if idx<len(out)-1 else '')+' (*'+c)
        o.write('\n   '.join(lines)+'\n  ].\n')
        o.write('Definition ty_%s : gty := GStruct %s fs_%s.\n\n'%(s,q(s),s))
    o.write('(** The type switch of processObjects, stix.go:%d-%d: STIX type, Go type. *)\nDefinition builtin_types : list (string * gty) :=\n  [%s].\n\n'%(builtin[0][2],builtin[-1][2]+1,';\n   '.join('(%s, ty_%s)'%(a,b) for a,b,_ in builtin)))
    o.write('(** Go types whose MarshalJSON is marshalToJSONHelper (one-line methods in the object files). *)\nDefinition helper_types : list string :=\n  [%s].\n\n'%(';\n   '.join(q(x) for x in sorted(helper))))
    o.write('(** Types with a method addCustomProperties of their own (stix.go:31-33); embedding promotes it. *)\nDefinition custom_prop_types : list string :=\n  [%s].\n'%('; '.join(q(x) for x in sorted(custom))))
# ---------------------------------------------------------------- options
S=src('option.go'); opts=[]
for n,l in enumerate(S):
    m=re.match(r'func (Option\w+)\((\w+) (.*)\) STIXOption \{',l)
    if m:
        body=' '.join(x.strip() for x in S[n+1:n+6])
        doc=[]; k=n-1
        while S[k].startswith('//'):
            doc.insert(0,S[k][2:].strip()); k-=1
        docs=[x[2:].strip() for x in doc if x.startswith('- ')]
        if 'setField' in body:
            mm=re.search(r'setField\(obj, "(\w+)", (\w+), reflect\.(\w+)\)',body)
            assert mm.group(2)==m.group(2),l
            opts.append((m.group(1),mm.group(1),m.group(3),mm.group(3),docs,n+1))
        else: extopt=(m.group(1),docs,n+1)
SDO=[b for a,b,_ in builtin if any(x[0]=='STIXDomainObject' for x in structs[b]['fields'])]
SCO=[b for a,b,_ in builtin if any(x[0]=='STIXCyberObservableObject' for x in structs[b]['fields'])]
SRO=[b for a,b,_ in builtin if any(x[0]=='STIXRelationshipObject' for x in structs[b]['fields'])]
def expand(d):
    r=[]
    for x in d:
        x=x.rstrip('.')
        if x=='STIX Domain Objects': r+=SDO
        elif x=='STIX Relationships Objects': r+=SRO
        elif x=='STIX Cyber-observable Objects': r+=SCO
        elif x=='STIX ExtensionDefinition': r.append('ExtensionDefinition')
        elif x=='All types execpt Bundle and Extension': r+=[b for a,b,_ in builtin if b!='ExtensionDefinition']
        else: r.append(x)
    return r
with open(OUT+'OptTable.v','w') as o:
    o.write('(** Generated by tools/gen_schema.py from /repo/option.go: the option constructors. *)\nFrom Verif Require Import GoStr Consts GoTypes Schema.\n\n')
    o.write('(** An option constructor: its name, the field it sets, the type of its argument,\n    the kind it passes to setField, and the object types its comment names\n    (option.go:14-1448). *)\n')
    o.write('Record optrow := OptRow { or_name : string; or_field : string; or_ty : gty; or_kind : gkind; or_docs : list string }.\n\n')
    o.write('(** name, field and kind passed to setField, type of the value, object types named in the doc comment *)\nDefinition option_table : list optrow :=\n  [')
    rows=[]
    for (name,field,t,kind,docs,line) in opts:
        rows.append(('OptRow %s %s (%s) K%s [%s]'%(q(name),q(field),gty(t),kind,'; '.join(q(x) for x in expand(docs))),line))
    o.write('\n   '.join(r+(';' if i<len(rows)-1 else '')+' (* option.go:%d *)'%ln for i,(r,ln) in enumerate(rows)))
    o.write('\n  ].\n\n(** OptionExtension, option.go:%d, documented object types *)\nDefinition option_extension_docs : list string := [%s].\n'%(extopt[2],'; '.join(q(x) for x in expand(extopt[1]))))
# ---------------------------------------------------------------- typed accessors
S=src('stix.go'); sing=[]; plur=[]
for n,l in enumerate(S):
    m=re.match(r'func \(c \*Collection\) (\w+)\((id Identifier)?\) (\[\])?\*(\w+) \{',l)
    if not m: continue
    j=n
    while S[j]!='}': j+=1
    body='\n'.join(S[n:j+1]); ty=re.findall(r'getObject\((\w+)',body)+re.findall(r'c\.objects\[(\w+)\]',body)
    g=re.findall(r'\.\(\*(\w+)\)',body)
    assert len(set(ty))==1 and len(g)==1
    (sing if m.group(2) else plur).append((m.group(1),ty[0],g[0],n+1))
with open(OUT+'Accessors.v','w') as o:
    o.write('(** Generated by tools/gen_schema.py from /repo/stix.go: the typed accessors of Collection. *)\nFrom Verif Require Import GoStr Consts.\n\n')
    for nm,rows,d in (('singular_accessors',sing,'X(id): method name, type passed to getObject, asserted Go type'),('plural_accessors',plur,'Xs(): method name, bucket iterated, asserted Go type')):
        o.write('(** %s *)\nDefinition %s : list (string * string * string) :=\n  ['%(d,nm))
        o.write('\n   '.join('(%s, %s, %s)%s (* stix.go:%d *)'%(q(a),b,q(c),';' if i<len(rows)-1 else '',ln) for i,(a,b,c,ln) in enumerate(rows)))
        o.write('\n  ].\n\n')
    o.write('(** The type switch of processObjects, stix.go:%d-%d, Go types by name. *)\nDefinition builtin_names : list (string * string) :=\n  [%s].\n'%(builtin[0][2],builtin[-1][2]+1,';\n   '.join('(%s, %s)'%(a,q(b)) for a,b,_ in builtin)))
print(len(types),len(exts),len(rels),len(enums),len(structs),len(builtin),len(opts),len(helper),sorted(set(b for _,b,_ in builtin)-helper),sorted(custom))
