#!/usr/bin/env python3
# Transcribes the cache tables of /repo/grisu_exact.h into rocq/theories/Tables.v (pure text processing).
import re
src=open('/repo/grisu_exact.h').read().split('\n')
def find(s):
    for n in range(len(src)):
        if s in src[n]: return n
a=find('struct cache_holder<float>'); b=find('struct cache_holder<double>'); c=find('get_cache(int k)')
l32=[int(x,16) for l in src[a:b] for x in re.findall(r'0x([0-9a-f]{16})',l)]
l64=[]
for l in src[b:c]:
    m=re.findall(r'0x([0-9a-f]{16})',l)
    if m: l64.append((m[0],m[1]))
with open('/verif/rocq/theories/Tables.v','w') as f:
    f.write('''(** * The two precomputed cache tables, transcribed literally from the header.
    Generated by scripts/gen_tables.py from grisu_exact.h; the order is the order of the source. *)

From Coq Require Import ZArith List.
Import ListNotations.
Open Scope Z_scope.

(** grisu_exact.h:471-549, [cache_holder<float>::cache]: std::uint64_t entries. *)
Definition cache_float : list Z := [
''')
    f.write(';\n'.join('  0x%016x'%x for x in l32)+'\n].\n\n')
    f.write('(** grisu_exact.h:554-1171, [cache_holder<double>::cache]: [uint128{high, low}] entries. *)\nDefinition cache_double : list (Z * Z) := [\n')
    f.write(';\n'.join('  (0x%s, 0x%s)'%x for x in l64)+'\n].\n')
