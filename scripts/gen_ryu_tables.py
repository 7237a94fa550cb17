#!/usr/bin/env python3
"""Copies the tables of benchmark/ryu/d2s_full_table.h and f2s_full_table.h into RyuTables.v."""
import re
R='/repo/benchmark/ryu/'
src=open(R+'d2s_full_table.h').read()
i=src.index('DOUBLE_POW5_INV_SPLIT['); j=src.index('DOUBLE_POW5_SPLIT[')
def pairs(s):
    s=s[s.index('=')+1:]
    return [(int(a),int(b)) for a,b in re.findall(r'\{\s*(\d+)u,\s*(\d+)u\s*\}',s)]
INV=pairs(src[i:j]); POW=pairs(src[j:])
fs=open(R+'f2s_full_table.h').read()
a=fs.index('FLOAT_POW5_INV_SPLIT['); b=fs.index('FLOAT_POW5_SPLIT[')
num=lambda s:[int(x) for x in re.findall(r'(\d+)u',s[s.index('='):])]
FINV=num(fs[a:b]); FPOW=num(fs[b:])
assert (len(INV),len(POW),len(FINV),len(FPOW))==(342,326,55,47)
def lines(xs,n):
    return ';\n'.join('  '+'; '.join(xs[k:k+n]) for k in range(0,len(xs),n))
o='''(** * The tables of Ryu, copied from benchmark/ryu (written by scripts/gen_ryu_tables.py) *)

From Coq Require Import ZArith List.
Import ListNotations.
Open Scope Z_scope.

(** d2s_full_table.h:27-199.  An entry is (element 0, element 1): the low and the high word. *)
Definition DOUBLE_POW5_INV_SPLIT : list (Z * Z) := [
%s].
(** d2s_full_table.h:201-365 *)
Definition DOUBLE_POW5_SPLIT : list (Z * Z) := [
%s].
(** f2s_full_table.h:24-38, compiled in with RYU_FLOAT_FULL_TABLE only *)
Definition FLOAT_POW5_INV_SPLIT : list Z := [
%s].
(** f2s_full_table.h:40-53, likewise *)
Definition FLOAT_POW5_SPLIT : list Z := [
%s].
'''%(lines(['(%d, %d)'%p for p in INV],2),lines(['(%d, %d)'%p for p in POW],2),lines([str(x) for x in FINV],4),lines([str(x) for x in FPOW],4))
open('/verif/rocq/theories/RyuTables.v','w').write(o)
