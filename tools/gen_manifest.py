#!/usr/bin/env python3
"""Builds MANIFEST.json from the T_*.v files: every Theorem named Cxx_... is attached to property Cxx.
Status: 'partial' if listed in PARTIAL (with the note saying what is missing), otherwise 'proved'."""
import re,glob,json,collections
import os
notes=json.load(open(os.path.join(os.path.dirname(__file__),'manifest_notes.json')))
th=collections.OrderedDict()
for f in sorted(glob.glob('/verif/rocq/theories/T_*.v')):
    for m in re.finditer(r'^(?:Theorem|Corollary) (C(\d\d+)_\w+)',open(f).read(),re.M):
        th.setdefault('C'+m.group(2),[]).append(m.group(1))
claims=[]
for l in open('/verif/properties.jsonl'):
    pid=json.loads(l)['id']
    n=notes.get(pid,{})
    if pid in th:
        claims.append({'property':pid,'status':n.get('status','proved'),'theorems':th[pid],'note':n.get('note','')})
    elif n.get('status')=='not_applicable':
        claims.append({'property':pid,'status':'not_applicable','theorems':[],'note':n['note']})
json.dump({'claims':claims},open('/verif/MANIFEST.json','w'),indent=1)
print(len(claims),'claims')
