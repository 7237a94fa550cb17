#!/usr/bin/env python3
"""Writes theories/LengthTables.v (the files of /repo/test_results) and theories/LengthCerts.v (for every call
of minmax_euclid the multipliers of the least and the greatest residue; checked in Coq, so not trusted)."""
import csv, os
T = os.path.join(os.path.dirname(__file__), '..', 'rocq', 'theories')

def floor_log10_pow2(e):
    if e >= 0: return len(str(1 << e)) - 1
    s = len(str(1 << -e))
    return -s

def rows(name):
    return [(int(r[0]), int(r[1])) for r in list(csv.reader(open('/repo/test_results/' + name)))[1:] if r]

def final(a, b, n):
    """s a - t b = m least, w b - u a = d, s w - u t = 1, s, u <= n < s + u"""
    s, t, m, u, w, d = 1, a // b, a % b, 0, 1, b
    while s + u <= n:
        if d > m:
            k = min((d - 1) // m, (n - u) // s); u += k * s; w += k * t; d -= k * m
        else:
            k = min((m - 1) // d, (n - s) // u); s += k * u; t += k * w; m -= k * d
    return s, u, t, w, m, d

def cert(a, b, n):
    if b <= n: return 'Run'
    s, u, t, w, m, d = final(a, b, n)
    if b.bit_length() - min(m, d).bit_length() >= 64: return 'Run'
    return 'Near %s %s %s %s' % tuple(hex(v) for v in (s, u, t, w))

def neg(q, p, rs):
    for e, _ in rs:
        k = -floor_log10_pow2(e + 6); b = 5 ** -k; x = q - p - 2 + e + k
        yield '(%s, %s, %s)' % (cert(1 << x, b, 1 << (p + 2)), cert(1 << (x + 2), b, 1 << (p + 1)), hex(((1 << (p + 2)) - 1 << (x - 1)) // b))

def pos(q, p, rs):
    for e, _ in rs:
        k = -floor_log10_pow2(e + 6); a = 5 ** k; x = -e - k - (q - p - 2)
        yield '(%s, %s)' % tuple(cert(a, 1 << y, n) if y > 0 else 'Run' for y, n in ((x, 1 << (p + 2)), (x - 2, 1 << (p + 1))))

def wrap(items, width):
    out, line = [], ''
    for i in items:
        if line and len(line) + len(i) + 2 > width:
            out.append('  ' + line); line = ''
        line += i + '; '
    out.append('  ' + line)
    return '\n'.join(out).rstrip().rstrip(';').replace('; \n', ';\n')

names = [('binary32', 32, 23), ('binary64', 64, 52)]
with open(os.path.join(T, 'LengthTables.v'), 'w') as o:
    o.write('(** * The results of verify_cache_length recorded in test_results (written by scripts/gen_lengths.py) *)\n\n'
            'From Coq Require Import ZArith List.\nImport ListNotations.\nOpen Scope Z_scope.\n')
    for n, q, p in names:
        for s in ('negative', 'positive'):
            f = '%s_%s_k' % (n, s); r = rows(f + '.csv')
            o.write('\n(** test_results/%s.csv, lines 2-%d: (e, required_bits) *)\nDefinition %s : list (Z * Z) := [\n%s].\n'
                    % (f, len(r) + 1, f, wrap(['(%d, %d)' % x for x in r], 116)))
with open(os.path.join(T, 'LengthCerts.v'), 'w') as o:
    o.write('(** * Multipliers that attain the extreme residues, for [LengthCheck] (written by scripts/gen_lengths.py) *)\n\n'
            'From Coq Require Import ZArith List.\nImport ListNotations.\nOpen Scope Z_scope.\n\n'
            '(** multipliers s and u of the least and the greatest residue of a modulo b, and the quotients: s a - t b is\n'
            '    the least, u a - (w - 1) b the greatest; or nothing: then the algorithm has to be followed *)\n'
            'Inductive cert := Near (s u t w : Z) | Run.\n')
    for n, q, p in names:
        r = rows(n + '_negative_k.csv')
        o.write('\n(** with the quotient of the edge case *)\nDefinition %s_negative_certs : list (cert * cert * Z) := [\n%s].\n' % (n, wrap(list(neg(q, p, r)), 10)))
        r = rows(n + '_positive_k.csv')
        o.write('\nDefinition %s_positive_certs : list (cert * cert) := [\n%s].\n' % (n, wrap(list(pos(q, p, r)), 10)))
    o.write('\n(** 2^64 / k for k = 1, 2, ... *)\nDefinition parts : list Z := [\n%s].\n' % wrap(['%d' % (2 ** 64 // k) for k in range(1, 1801)], 116))
