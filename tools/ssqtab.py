#!/usr/bin/env python3
# Writes rocq/theories/SsqTab.v: the tables of lunar/lunar_ssq.cpp, copied mechanically.
import re,sys
src=open('/repo/lunar/lunar_ssq.cpp',encoding='utf-8').read()
def nums(name):
    m=re.search(r'double SSQ::'+name+r'\[\]=\{(.*?)\};',src,re.S)
    body=re.sub(r'//[^\n]*','',m.group(1))
    return [x.strip() for x in body.split(',') if x.strip()]
def lit(x):
    a,_,b=x.partition('.')
    return 'lit %d %d'%(int(a+b),10**len(b))
out=['(** Tables of lunar/lunar_ssq.cpp, copied mechanically by tools/ssqtab.py. *)',
'From Coq Require Import ZArith List Ascii String.','From Verif Require Import F64 Str.','Import ListNotations.','Open Scope Z_scope.','']
for name,lines in (('suoKB','27-41'),('qiKB','43-81')):
    v=nums(name)
    out.append('(** lunar/lunar_ssq.cpp:%s *)'%lines)
    out.append('Definition %s : list f64 :=\n  [ %s ].\n'%(name,';\n    '.join('; '.join(lit(x) for x in v[i:i+2]) for i in range(0,len(v),2))))
def strs(name,lines):
    i=src.index(name+' = //'); j=src.index('",\n',i)+1
    parts=re.findall(r'"([^"]*)"',src[i:j])
    out.append('(** lunar/lunar_ssq.cpp:%s *)'%lines)
    out.append('Definition %s : bytes := B (\n  "%s")%%string.\n'%(name,'" ++\n  "'.join(parts)))
strs('suoS','89-110'); strs('qiS','112-118')
i=src.index('string_replace(str, "J"'); rules=re.findall(r'string_replace\(str, "(.)", (?:"(\d+)"|(o\d?))\);',src)
os={m[0]:m[1] for m in re.findall(r'(o\d?) = "(0+)"',src)}
out.append('(** lunar/lunar_ssq.cpp:132-161 (with the blocks of zeros of lines 119-124): the replacements in program order *)')
out.append('Definition jieya_rules : list (ascii * bytes) :=\n  [ %s ].'%(';\n    '.join('("%s"%%char, B "%s")'%(c,d or os[o]) for c,d,o in rules)))
assert len(rules)==30
open('/verif/rocq/theories/SsqTab.v','w').write('\n'.join(out)+'\n')
