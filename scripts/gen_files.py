#!/usr/bin/env python3
"""Writes rocq/theories/FileTexts.v: the files of test_results as strings, unchanged."""
R='/repo/test_results/'
out=['(** * The files of test_results, character for character (written by scripts/gen_files.py) *)','',
     'From Coq Require Import String.','Open Scope string_scope.','']
for n in ['binary32_generated_cache.txt','binary64_generated_cache.txt','binary32_negative_k.csv','binary32_positive_k.csv','binary64_negative_k.csv','binary64_positive_k.csv']:
    s=open(R+n,newline='').read()
    assert '"' not in s and '\r' not in s and s.isascii()
    out.append('(** test_results/%s *)'%n)
    out.append('Definition %s : string :=\n"%s".\n'%(n.replace('.','_'),s))
open('/verif/rocq/theories/FileTexts.v','w').write('\n'.join(out))
