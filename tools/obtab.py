#!/usr/bin/env python3
# Copies the text tables of /repo/lunar/lunar_ob.cpp into Coq (ObTab.v) and reads the festival and era texts
# into structured tables (ObSpecTab.v) with its own small parser.
import re, os
src=open('/repo/lunar/lunar_ob.cpp',encoding='utf-8').read()
out=os.path.join(os.path.dirname(os.path.abspath(__file__)),'..','rocq','theories')
def lits(t):
    t=re.sub(r'//[^\n]*(?=\n)',lambda m:'' ,t) if False else t
    r=[];i=0
    while i<len(t):
        if t.startswith('//',i):
            i=t.index('\n',i)
        elif t.startswith('/*',i):
            i=t.index('*/',i)+2
        elif t[i]=='"':
            j=i+1
            while t[j]!='"': j+=2 if t[j]=='\\' else 1
            assert '\\' not in t[i:j]
            r.append(t[i+1:j]); i=j+1
        else: i+=1
    return r
def q(s): return '"'+s.replace('"','""')+'"'
def lineof(s): return src[:src.index(s)].count('\n')+1
def endline(pos): return src[:pos].count('\n')+1
o=['(** Tables of lunar/lunar_ob.cpp, copied mechanically by tools/obtab.py. *)',
'From Coq Require Import ZArith List Ascii String.','From Verif Require Import Str.','Import ListNotations.','Open Scope Z_scope.','']
for n in ['str_num','str_yxmc','str_jqmc','str_gan','str_zhi','str_rmc','str_xz']:
    m=re.search(r'const char \*'+n+r'\[\]\s*=\s*\{(.*?)\};',src,re.S)
    l=lits(m.group(1))
    o.append('(** lunar/lunar_ob.cpp:%d *)'%endline(m.start()))
    o.append('Definition %s : list bytes := [%s].'%(n,'; '.join('B '+q(x) for x in l)))
a=src.index('OBA::wFtv'); b=src.index('};',a)
o.append('(** lunar/lunar_ob.cpp:%d-%d *)'%(endline(a),endline(b)))
o.append('Definition wFtv : list bytes := [%s].'%';\n  '.join('B '+q(x) for x in lits(src[a:b])))
a=src.index('void OBA::init()'); b=src.index('split(s,"|")',a)
sft=''.join(lits(src[a:src.index('mystl::vector',a)]))
o.append('(** lunar/lunar_ob.cpp:%d-%d  the text s of OBA::init *)'%(endline(src.index('s=s+',a)),endline(src.index('mystl::vector',a))-1))
o.append('Definition sFtv_text : bytes := Eval vm_compute in List.concat [%s].'%';\n  '.join('B '+q(x) for x in lits(src[a:src.index('mystl::vector',a)])))
a=src.index('void OBB::init()'); b=src.index('JNB = split',a)
jl=lits(src[a:b]); jt=''.join(jl)
o.append('(** lunar/lunar_ob.cpp:%d-%d  the text s of OBB::init *)'%(endline(src.index('s=s',a)),endline(b)-2))
o.append('Definition JNB_text : bytes := Eval vm_compute in List.concat [%s].'%';\n  '.join('B '+q(x) for x in jl))
open(os.path.join(out,'ObTab.v'),'w',encoding='utf-8').write('\n'.join(o)+'\n')
# structured tables
o=['(** The festival and era tables of lunar/lunar_ob.cpp in structured form (read by tools/obtab.py).  They are used only',
'    in specifications; that they agree with the texts in the code is proved in ObProps.v / EraProps.v. *)',
'From Coq Require Import ZArith List Ascii String.','From Verif Require Import Str ObSpec.','Import ListNotations.','Open Scope Z_scope.','']
def fest(e):
    m=re.match(r'^(\d\d)(.)(?:(\d{4})-(\d{4}))?(.*)$',e)
    d,k,f,t,n=m.groups()
    lim='(Some (%s, %s))'%(f,t) if f else 'None'
    k={'#':'Holiday','I':'Major','.':'Minor'}[k]
    return 'mkFest %d %s %s (B %s)'%(int(d),k,lim,q(n))
o.append('Definition festivals : list (list festival) := [')
o.append(';\n'.join('  [ '+';\n    '.join(fest(e) for e in mth.split(','))+' ]' for mth in sft.split('|'))+' ].')
def wf(e):
    m=re.match(r'^(\d\d)(\d)(\d)(.)(.*)$',e); mo,k,w,t,n=m.groups()
    return 'mkWFest %d %s %s %s (B %s)'%(int(mo),k,w,{'#':'Holiday','I':'Major','.':'Minor'}[t],q(n))
a=src.index('OBA::wFtv'); b=src.index('};',a)
o.append('Definition week_festivals : list week_festival := [')
o.append(';\n'.join('  '+wf(e) for e in lits(src[a:b]))+' ].')
f=jt.split(','); assert len(f)%7==0
es=[f[i:i+7] for i in range(0,len(f),7)]
o.append('Definition eras : list era := [')
o.append(';\n'.join('  mkEra (%d) %d %d (B %s) (B %s) (B %s) (B %s)'%((int(e[0]),int(e[1]),int(e[2]))+tuple(q(x) for x in e[3:])) for e in es)+' ].')
open(os.path.join(out,'ObSpecTab.v'),'w',encoding='utf-8').write('\n'.join(o)+'\n')
print(len(es),len(jt.encode()),len(sft.encode()))
