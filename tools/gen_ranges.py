#!/usr/bin/env python3
"""Extract the range tables of /repo/modules into rocq/theories/D_Ranges.v."""
import re,glob,os
def parse(fn,consts={}):
    s=open(fn,encoding='utf8',errors='replace').read()
    s=re.sub(r'//[^\n]*','',s); s=re.sub(r'/\*.*?\*/','',s,flags=re.S)
    out=[]
    for m in re.finditer(r'static const struct (\w+) (\w+)\[\]\s*=\s*\{(.*?)\n?\};',s,re.S):
        rows=[tuple(consts[x.strip()] if x.strip() in consts else int(x.strip(),0) for x in r.split(',') if x.strip()) for r in re.findall(r'\{([^{}]*)\}',m.group(3))]
        out.append(rows)
    assert len(out)==1,(fn,len(out))
    return out[0]
def rows(rs): return "; ".join("(%s)"%", ".join(hex(x) if i<2 else str(x) for i,x in enumerate(r)) for r in rs)
o=["(** Generated by tools/gen_ranges.py from /repo/modules: the range tables of the filters, the scorers and the",
"    intermediate modules, verbatim. *)","From Verif Require Import Base.","Local Open Scope N_scope.",""]
fl=[]
for f in sorted(glob.glob('/repo/modules/filter/*.c')):
    n=os.path.basename(f)[:-2]
    s=open(f).read()
    if 'include "unicode_range.c"' not in s or n=='unicode_range': continue
    fl.append(n)
    o.append("(** modules/filter/%s.c, ranges[] *)"%n)
    o.append("Definition filter_%s : list (N * N) := [%s]."%(n,rows(parse(f))))
o.append("Definition filter_tables : list (str * list (N * N)) := [%s]."%"; ".join('(s_ "%s", filter_%s)'%(n,n) for n in fl))
tl=[]
for f in sorted(glob.glob('/repo/modules/filter/*.c')):
    s=open(f).read(); n=os.path.basename(f)[:-2]
    m=re.search(r'#define TYPE (\w+)',s)
    if m and 'include "type.c"' in s: tl.append('(s_ "%s", %s)'%(n,hex(int(m.group(1),0))))
o.append("(** modules/filter/{ANSI,BYTE,CNS11643,UNICODE}.c, #define TYPE *)")
o.append("Definition filter_types : list (str * N) := [%s]."%"; ".join(tl))
sl=[]
for f in sorted(glob.glob('/repo/modules/scorer/*.c')):
    n=os.path.basename(f)[:-2]
    s=open(f).read()
    if 'include "unicode_range.c"' not in s: continue
    sl.append(n)
    o.append("(** modules/scorer/%s.c, ranges[] *)"%n)
    o.append("Definition scorer_%s : list (N * N * N) := [%s]."%(n,rows(parse(f))))
o.append("Definition scorer_tables : list (str * list (N * N * N)) := [%s]."%"; ".join('(s_ "%s", scorer_%s)'%(n,n) for n in sl))
o.append("(** modules/inter/_WIDTH.h, width_table[]; widths: HALF 1, FULL 2, AMBI written 3 (-1 in C, WIDTH.c:3-5) *)")
o.append("Definition width_table : list (N * N * N) := [%s]."%rows(parse('/repo/modules/inter/_WIDTH.h',{'HALF':1,'FULL':2,'AMBI':3})))
o.append("(** modules/inter/_AMBIGUOUS.h, ambiguous[] *)")
o.append("Definition ambiguous_table : list (N * N) := [%s]."%rows(parse('/repo/modules/inter/_AMBIGUOUS.h')))
o.append("(** modules/inter/_NF-CCC.h, ccc_table[] *)")
o.append("Definition ccc_table : list (N * N * N) := [%s]."%rows(parse('/repo/modules/inter/_NF-CCC.h')))
o.append("(** modules/from/_GB18030.c:43-57 and modules/to/_GB18030.c:10-24, gb18030_table[] *)")
o.append("Definition gb_from_table : list (N * N * N) := [%s]."%rows(parse('/repo/modules/from/_GB18030.c')))
o.append("Definition gb_to_table : list (N * N * N) := [%s]."%rows(parse('/repo/modules/to/_GB18030.c')))
open('/verif/rocq/theories/D_Ranges.v','w').write("\n".join(o)+"\n")
