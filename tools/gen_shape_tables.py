#!/usr/bin/env python3
"""Copy the tables of the noise shaping into rocq/theories/ShapeTables.v."""
import re, struct
from fractions import Fraction

def block(path, pat):
    lines = open(path).read().split('\n')
    i = next(k for k, l in enumerate(lines) if re.search(pat, l))
    text, j = '', i
    while True:
        l = lines[j]
        text += (l[l.index('=') + 1:] if j == i else l) + '\n'
        if '{' in text and text.count('{') == text.count('}'):
            return re.sub(r'/\*.*?\*/', '', text, flags=re.S), i + 1, j + 1
        j += 1

def f32(s):
    """Binary32 value of a literal of type float (single rounding)."""
    s = s.strip()
    v = float.fromhex(s) if s.startswith('0x') or s.startswith('-0x') else float(s.rstrip('f'))
    return Fraction(struct.unpack('f', struct.pack('f', v))[0])

def num(s, k):
    m = re.match(r'(\d+)\.f / (\d+)$', s.strip())
    v = Fraction(int(m.group(1)), int(m.group(2))) if m else f32(s)
    v = v * 2 ** k
    assert v.denominator == 1, (s, k)
    return int(v)

def floats(text):
    return [t for t in re.findall(r'-?\d+\.f / \d+|-?0x[0-9a-f]+p-?\d+|-?\d+\.\d+e[+-]\d+', text)]

def row(vs, k): return '[' + '; '.join('%d' % num(v, k) for v in vs) + ']'

out = ['(** * Tables of the spectral and temporal noise shaping',
       '    Copied from /repo/src by /verif/tools/gen_shape_tables.py; data only. *)',
       'From Coq Require Import ZArith List.', 'Import ListNotations.', 'Local Open Scope Z_scope.', '']

def emit2(path, pat, name, coq, rows, cols, k):
    text, a, b = block('/repo/src/' + path, pat)
    vs = floats(text)
    assert len(vs) == rows * cols, (name, len(vs))
    out.append('(** src/%s lines %d-%d, %s: binary32 values times 2^%d. *)' % (path, a, b, name, k))
    out.append('Definition %s : list (list Z) := [' % coq)
    out.append(';\n'.join('  ' + row(vs[cols*i:cols*i+cols], k) for i in range(rows)) + '].\n')

def emit1(path, pat, name, coq, n, k):
    text, a, b = block('/repo/src/' + path, pat)
    vs = floats(text)
    assert len(vs) == n, (name, len(vs))
    out.append('(** src/%s lines %d-%d, %s: binary32 values times 2^%d. *)' % (path, a, b, name, k))
    out.append('Definition %s : list Z := %s.\n' % (coq, row(vs, k)))

emit2('tables.c', r'lc3_sns_lfcb\[32\]', 'lc3_sns_lfcb', 'sns_lfcb', 32, 8, 32)
emit2('tables.c', r'lc3_sns_hfcb\[32\]', 'lc3_sns_hfcb', 'sns_hfcb', 32, 8, 32)
text, a, b = block('/repo/src/tables.c', r'lc3_sns_vq_gains\[4\]')
rows = re.findall(r'\{ (\d), \(const float \[\]\)\{([^}]*)\}', text)
assert [int(c) for c, _ in rows] == [2, 4, 4, 8]
out.append('(** src/tables.c lines %d-%d, lc3_sns_vq_gains: counts, values times 2^12. *)' % (a, b))
out.append('Definition sns_vq_gains : list (Z * list Z) := [')
out.append(';\n'.join('  (%s, %s)' % (c, row(floats(t), 12)) for c, t in rows) + '].\n')
for c, t in rows: assert int(c) == len(floats(t))
emit2('sns.c', r'dct16_m\[16\]\[16\]', 'dct16_m', 'dct16_m', 16, 16, 28)
for g in (14, 18, 22, 26, 30, 34):
    emit1('sns.c', r'ge_%d\[LC3_MAX_BANDS\]' % g, 'ge_%d' % g, 'ge_%d' % g, 64, 23)
emit1('tns.c', r'lag_window\[\]', 'lag_window', 'tns_lag_window', 9, 24)
emit1('tns.c', r'q_thr\[\]', 'q_thr', 'tns_q_thr', 8, 15)
emit1('tns.c', r'q_inv\[\]', 'q_inv', 'tns_q_inv', 9, 15)
open('/verif/rocq/theories/ShapeTables.v', 'w').write('\n'.join(out))
