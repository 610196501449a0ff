#!/usr/bin/env python3
# Generates rocq/theories/D_Charsets.v (the tables of /repo/modules, verbatim) and rocq/theories/S_Pages.v (the code pages of the standard,
# from Python's codecs, independently of /repo).
R='/repo/modules/'
def rd(p): return [l.split('#')[0].split() for l in open(p) if l.split('#')[0].strip()]
def by(h): return '['+'; '.join('0x'+h[i:i+2] for i in range(0,len(h),2))+']'
F=['CP1251','CP1252','CP1253','CP1254','CP1255','CP1256','CP1257','CP1258','CP874','ISO-8859-1']
T=['CP1251','CP1252','CP1253','CP874','ISO-8859-1']
nm=lambda c:c.replace('-','_').lower()
out=['(** Generated by tools/gen_charsets.py: tables of single byte charsets, verbatim: pattern and replacement of every line. *)','From Verif Require Import Base.','Local Open Scope N_scope.','']
def table(d,c,n):
    p='%s/%s.txt'%(d,c); rows=rd(R+p)
    for a in rows: assert len(a)==2 and all(x in '0123456789ABCDEFabcdef' for x in a[0]+a[1]) and len(a[0])%2==0 and len(a[1])%2==0,(p,a)
    out.append('(** modules/%s *)'%p); out.append('Definition %s : list (list N * list N) := ['%n+';\n  '.join('; '.join('(%s, %s)'%(by(a[0]),by(a[1])) for a in rows[i:i+6]) for i in range(0,len(rows),6))+'].')
for c in F: table('from','_'+c,nm(c)+'_from')
for c in T: table('to','_'+c,nm(c)+'_to')
table('from','FALLBACK-UNICODE','fallback_from')
open('/verif/rocq/theories/D_Charsets.v','w').write('\n'.join(out)+'\n')
PY={'CP1251':'cp1251','CP1252':'cp1252','CP1253':'cp1253','CP1254':'cp1254','CP1255':'cp1255','CP1256':'cp1256','CP1257':'cp1257','CP1258':'cp1258','CP874':'cp874'}
o=['(** Generated by tools/gen_charsets.py from Python\'s codecs, not from the code under study: the characters of the bytes 80..FF of the Windows code','    pages; [None]: the code page does not use the byte. *)','From Verif Require Import Base.','Local Open Scope N_scope.','']
for c,py in PY.items():
    v=[]
    for b in range(128,256):
        try: v.append('Some 0x%X'%ord(bytes([b]).decode(py)))
        except UnicodeDecodeError: v.append('None')
    o.append('Definition upper_%s : list (option N) := ['%nm(c)+';\n  '.join('; '.join(v[i:i+8]) for i in range(0,128,8))+'].')
open('/verif/rocq/theories/S_Pages.v','w').write('\n'.join(o)+'\n')
