#!/usr/bin/env python3
# Copies the place table of mylib/lat_lon_data.cpp into rocq/theories/PosTab.v.
import re,os
src=open('/repo/mylib/lat_lon_data.cpp','rb').read()
a=src.index(b'const char *JW[]={'); b=src.index(b'};',a)
line=src[:a].count(b'\n')+1
rows=re.findall(rb'"([^"]*)"',src[a:b])
out=['(** The place table of mylib/lat_lon_data.cpp, copied mechanically by tools/postab.py. *)',
 'From Coq Require Import List String.','From Verif Require Import Str.','Import ListNotations.','']
for i,r in enumerate(rows):
    out+=['(** mylib/lat_lon_data.cpp:%d *)'%(line+1+i),'Definition row%d : bytes := B "%s".'%(i,r.decode('utf8'))]
out+=['(** mylib/lat_lon_data.cpp:%d-%d *)'%(line,line+len(rows)+1),'Definition JW : list bytes := [%s].'%'; '.join('row%d'%i for i in range(len(rows)))]
open(os.path.join(os.path.dirname(__file__),'..','rocq','theories','PosTab.v'),'w').write('\n'.join(out)+'\n')
