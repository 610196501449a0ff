#!/usr/bin/env python3
# Generates rocq/theories/D_Maps.v from the tables in /repo/src/bsdconv.h
import re
src=open('/repo/src/bsdconv.h').read().split('\n')
out=['(** Generated by tools/gen_maps.py: the digit tables of src/bsdconv.h:394-402, verbatim. *)','From Verif Require Import Base.','Local Open Scope Z_scope.','']
for name in ('oct','dec','hex'):
    for ln,l in enumerate(src,1):
        m=re.match(r'int %s\[256\]=\{(.*)\};'%name,l)
        if m:
            v=m.group(1).split(',')
            assert len(v)==256
            out.append('(** int %s[256] (src/bsdconv.h:%d) *)'%(name,ln))
            out.append('Definition %s_table : list Z := ['%name+'; '.join('(%s)'%x if x.startswith('-') else x for x in v)+'].')
open('/verif/rocq/theories/D_Maps.v','w').write('\n'.join(out)+'\n')
