#!/usr/bin/env python3
# Generates rocq/theories/D_Aliases.v from /repo/modules/{from,inter,to,filter}/alias.
import re
def load(t):
    r=[]
    for i,l in enumerate(open(f'/repo/modules/{t}/alias'),1):
        l=l.rstrip('\n')
        if not l or l.startswith('#'): continue
        k,v=re.split(r'\t+',l)[:2]
        r.append((k,v,i))
    return r
tabs={t:load(t) for t in ['from','inter','to','filter']}
deps={}
for t in ['from','inter','to']:
    for k,v,_ in tabs[t]:
        deps.setdefault(k,set()).update(x.split('#')[0] for x in re.split('[|:,]',v))
memo={}
def rank(n,stack=()):
    if n in stack: raise Exception('cycle '+str(stack))
    if n not in deps: return 0
    if n not in memo: memo[n]=1+max(rank(m,stack+(n,)) for m in deps[n])
    return memo[n]
out=["(** Generated by tools/gen_alias.py from /repo/modules/{from,inter,to,filter}/alias (all lines).","    Each entry is (alias, expansion). *)","From Verif Require Import Base.",""]
for t in tabs:
    out.append(f"(** modules/{t}/alias lines {tabs[t][0][2]}-{tabs[t][-1][2]} *)")
    out.append(f"Definition alias_{t} : list (str * str) := [")
    out.append(";\n".join(f'  (s_ "{k}", s_ "{v}")' for k,v,_ in tabs[t]))
    out.append("].\n")
out.append("(** Rank witnessing that the shipped from/inter/to aliases are acyclic (depth of expansion). *)")
out.append("Definition alias_rank : list (str * nat) := [")
out.append(";\n".join(f'  (s_ "{k}", {rank(k)})' for k in deps))
out.append("].")
open('/verif/rocq/theories/D_Aliases.v','w').write("\n".join(out)+"\n")
