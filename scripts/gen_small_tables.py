# Copies the tables of benchmark/ryu/d2s.h into rocq/theories/SmallTables.v
import re
s=open('/repo/benchmark/ryu/d2s.h').read()
def nums(name):
    m=re.search(r' '+name+r'\[[^=]*=\s*\{(.*?)\n\};',s,re.S); body=re.sub(r'//.*','',m.group(1))
    a=s[:m.start()].count('\n')+1; b=s[:m.end()].count('\n')+1
    return [x for x in re.findall(r'(0x[0-9a-f]+|\d+)(?:u|ull)?',body)],a,b
def lines(xs,n):
    return ';\n  '.join('; '.join(xs[i:i+n]) for i in range(0,len(xs),n))
o='(** * The compact tables of Ryu, copied from benchmark/ryu/d2s.h (written by scripts/gen_small_tables.py) *)\n\nFrom Coq Require Import ZArith List.\nImport ListNotations.\nOpen Scope Z_scope.\n'
for name,pair,n in [('DOUBLE_POW5_TABLE',0,4),('DOUBLE_POW5_SPLIT2',1,2),('POW5_OFFSETS',0,6),('DOUBLE_POW5_INV_SPLIT2',1,2),('POW5_INV_OFFSETS',0,6)]:
    v,a,b=nums(name)
    if pair: v=['(%s, %s)'%(v[i],v[i+1]) for i in range(0,len(v),2)]
    o+='\n(** d2s.h:%d-%d%s *)\nDefinition %s : list %s := [\n  %s].\n'%(a,b,'.  An entry is (element 0, element 1).' if pair else '',name,'(Z * Z)' if pair else 'Z',lines(v,n))
open('/verif/rocq/theories/SmallTables.v','w').write(o)
