#!/usr/bin/env python3
"""For every power of ten the power of two 2^q with 2^(q-53) < 10^e < 2^(q-52), and the integer part of 2^q / 10^e (PowerTables.v)."""
from fractions import Fraction as Q
import sys
def row(e):
    p=Q(10)**e; q=-1200
    while not (Q(2)**(q-53)<p<Q(2)**(q-52) or Q(2)**(q-53)==p): q+=1
    return q,int(Q(2)**q/p)
w=(open(sys.argv[1],'w') if len(sys.argv)>1 else sys.stdout).write
w('(** * Powers of two at which 10^e lies between a half and one unit in the last place, written by scripts/gen_powers.py and checked in Powers.v *)\n\n')
w('From Coq Require Import ZArith List.\nImport ListNotations.\nOpen Scope Z_scope.\n\n')
w('(** [(q, t)] for 10^0, 10^1, ...: [2^(q-53) <= 10^e < 2^(q-52)] and t is the integer part of [2^q / 10^e] *)\n')
w('Definition upper_rows : list (Z * Z) := [\n  '+';\n  '.join('(%d, %d)'%row(e) for e in range(0,294))+'].\n')
w('(** the same for 10^-1, 10^-2, ... *)\n')
w('Definition lower_rows : list (Z * Z) := [\n  '+';\n  '.join('(%d, %d)'%row(-e) for e in range(1,324))+'].\n')
