#!/usr/bin/env python3
"""D_Bonus.v: the lines of modules/inter/ZH-BONUS.txt and ZH-BONUS-PHRASE.txt.  usage: gen_bonus.py [repo]"""
import sys,os
repo=sys.argv[1] if len(sys.argv)>1 else '/repo'
out=['(** Generated by tools/gen_bonus.py from modules/inter/ZH-BONUS.txt and ZH-BONUS-PHRASE.txt: the lines "key TAB ?bonus,replacement"; the bonus is the',
     '    first datum of the output. *)','From Verif Require Import Base Types S_Source.','Local Open Scope N_scope.']
for nm,f in (('zh_bonus','ZH-BONUS.txt'),('zh_bonus_phrase','ZH-BONUS-PHRASE.txt')):
    es=[]
    for l in open(os.path.join(repo,'modules/inter',f)):
        l=l.rstrip('\r\n')
        if l.startswith('#') or not l: continue
        k,o=l.split('\t'); assert o[0]=='?'
        pat=[]
        for i,c in enumerate(k.split(',')):
            if i: pat.append('PSep')
            pat+=['PByte 0x'+c[j:j+2] for j in range(0,len(c),2)]
        dat=['['+'; '.join('0x'+c[j:j+2] for j in range(0,len(c),2))+']' for c in o[1:].split(',')]
        es.append('  mkEntry [%s] [%s]'%('; '.join(pat),'; '.join(dat)))
    out.append(f'Definition {nm} : list sentry := [\n'+';\n'.join(es)+'\n].')
open('/verif/rocq/theories/D_Bonus.v','w').write('\n'.join(out)+'\n')
