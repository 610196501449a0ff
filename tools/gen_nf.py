#!/usr/bin/env python3
"""D_Nf.v from /repo/modules/inter/_NFD.txt and _NFC-MAP.txt (every line after the first)."""
import re
def ch(x):
    assert x.startswith('01') and len(x) >= 4 and not (len(x) > 4 and x[2:4] == '00'), x
    return int(x[2:], 16)
def lines(f):
    ls = open('/repo/modules/inter/' + f).read().split('\n')
    assert ls[0].startswith('Source:') and ls[-1] == ''
    for l in ls[1:-1]:
        assert re.fullmatch(r'[0-9A-F,]+\t[0-9A-F,]+', l), l
        a, b = l.split('\t')
        yield [ch(x) for x in a.split(',')], [ch(x) for x in b.split(',')]
o = ["(** Generated by tools/gen_nf.py from modules/inter/_NFD.txt and modules/inter/_NFC-MAP.txt: do not edit. *)",
     "From Coq Require Import NArith List.", "Import ListNotations.", "Local Open Scope N_scope.",
     "(** modules/inter/_NFD.txt, all lines but the first (\"Source: ...\"): a character and its decomposition. *)",
     "Definition nfd_source : list (N * list N) := ["]
o.append(';\n'.join('(0x%X,[%s])' % (a[0], ';'.join('0x%X' % x for x in b)) for a, b in lines('_NFD.txt')) + '].')
o.append("(** modules/inter/_NFC-MAP.txt, all lines but the first: two characters and the one they make. *)")
o.append("Definition nfc_source : list (N * N * N) := [")
rows = []
for a, b in lines('_NFC-MAP.txt'):
    assert len(a) == 2 and len(b) == 1
    rows.append('(0x%X,0x%X,0x%X)' % (a[0], a[1], b[0]))
o.append(';\n'.join(rows) + '].')
open('/verif/rocq/theories/D_Nf.v', 'w').write('\n'.join(o) + '\n')
