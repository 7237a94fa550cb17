#!/usr/bin/env python3
# Generates rocq/theories/RyuFarey.v (witnesses only; they are checked in Coq).
import re, os, sys, io, contextlib
from fractions import Fraction as F
here = os.path.dirname(os.path.abspath(__file__))
sys.path.insert(0, here)
with contextlib.redirect_stdout(io.StringIO()):
    from gen_farey import neighbours
src = open('/repo/benchmark/ryu/d2s_full_table.h').read()
i = src.index('DOUBLE_POW5_INV_SPLIT['); j = src.index('DOUBLE_POW5_SPLIT[')
def pairs(s):
    s = s[s.index('=') + 1:]
    return [(int(a), int(b)) for a, b in re.findall(r'\{\s*(\d+)u,\s*(\d+)u\s*\}', s)]
INV = pairs(src[i:j]); POW = pairs(src[j:])
fs = open('/repo/benchmark/ryu/f2s_full_table.h').read()
a = fs.index('FLOAT_POW5_INV_SPLIT['); b = fs.index('FLOAT_POW5_SPLIT[')
num = lambda s: [int(x) for x in re.findall(r'(\d+)u', s)]
FINV = num(fs[a:b]); FPOW = num(fs[b:])
l10_2 = lambda e: (e * 78913) >> 18
l10_5 = lambda e: (e * 732923) >> 20
p5b = lambda e: ((e * 1217359) >> 19) + 1
def dbl(e2):
    if e2 >= 0:
        q = l10_2(e2) - (e2 > 3); k = 125 + p5b(q) - 1; i = -e2 + q + k
        lo, hi = INV[q]
        return i, (hi << 64) + lo, 2 ** (e2 - q), 5 ** q
    q = l10_5(-e2) - (-e2 > 1); i = -e2 - q; k = p5b(i) - 125; j = q - k
    lo, hi = POW[i]
    return j, (hi << 64) + lo, 5 ** i, 2 ** q
def flt(e2, full, less):
    if e2 >= 0:
        q = l10_2(e2) - less; k = (59 if full else 61) + p5b(q) - 1; i = -e2 + q + k
        return i, FINV[q] if full else INV[q][1] + 1, 2 ** (e2 - q), 5 ** q
    q = l10_5(-e2) - less; i = -e2 - q; k = p5b(i) - 61; j = q - k
    return j, FPOW[i] if full else POW[i][1], 5 ** i, 2 ** q
def witness(xs, N):
    a, b, c, d = neighbours(min(xs), max(xs), N)
    assert F(a, b) <= min(xs) and max(xs) < F(c, d) and b * c - a * d == 1 and b + d > N
    return '(%#x, %#x, %#x, %#x)' % (a, b, c, d)
D = []
for e2 in range(-1076, 970):
    j, m, S, T = dbl(e2)
    D.append(witness([F(S, T), F(m, 2 ** j)], 2 ** 55 + 2))
R = []
L = []
for e2 in range(-151, 103):
    A = [flt(e2, x, 0) for x in (0, 1)]
    S, T = A[0][2:]
    R.append(witness([F(S, T)] + [F(t[1], 2 ** t[0]) for t in A], 2 ** 26 + 2))
    # the last removed digit is needed unless nothing was removed or the interval is wide
    q = l10_2(e2) if e2 >= 0 else l10_5(-e2)
    if q == 0 or 3 * S >= 11 * T or e2 == -151:
        L.append('(0, 0, 0, 0)')
    else:
        A = [flt(e2, x, 1) for x in (0, 1)]
        L.append(witness([4 * F(*A[0][2:])] + [4 * F(t[1], 2 ** t[0]) for t in A], 2 ** 24))
o = '''(** * Witnesses for the exactness of Ryu's products (generated by scripts/gen_ryu_farey.py).
    Entry for a binary exponent: (a, b, c, d), two neighbouring fractions a/b and c/d around the exact factor and
    the ones from the tables.  Nothing is assumed about them; they are checked in [RyuScale.v]. *)

From Coq Require Import ZArith List.
Import ListNotations.
Open Scope Z_scope.

'''
for n, l in (('ryu_double', D), ('ryu_float', R), ('ryu_float_last', L)):
    o += 'Definition %s : list (Z * Z * Z * Z) := [\n  ' % n + ';\n  '.join(l) + '].\n'
open(os.path.join(here, '../rocq/theories/RyuFarey.v'), 'w').write(o)
