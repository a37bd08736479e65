#!/usr/bin/env python3
"""Copy the tables of the transform into rocq/theories/MdctTables.v (windows) and
rocq/theories/MdctTwiddles.v. The decimal numbers of the source are rounded to the nearest
binary32 number, as the compiler does, and stored multiplied by 2^47 (windows) or 2^80
(twiddles): the product is exact."""
import re, struct
from fractions import Fraction

SCALE = 2 ** 47

def f32(text, scale=SCALE):
    exact = Fraction(text)
    # binary64 then binary32: the double rounding is checked to be harmless
    v = Fraction(struct.unpack('f', struct.pack('f', float(text)))[0])
    bits = struct.unpack('I', struct.pack('f', float(v)))[0]
    for n in (bits - 1, bits + 1):
        if 0 <= n < 2 ** 32:
            w = struct.unpack('f', struct.pack('I', n))[0]
            if w == w and abs(w) < 2:
                assert abs(exact - v) <= abs(exact - Fraction(w)), text
    s = v * scale
    assert s.denominator == 1, text
    return int(s)

src = open('/repo/src/tables.c').read()
out = ['(** * Windows of the transform',
       '    Copied from /repo/src/tables.c by /verif/tools/gen_mdct_tables.py; data only. *)',
       'From Coq Require Import ZArith List.', 'Import ListNotations.', 'Local Open Scope Z_scope.', '']
wins = []
for m in re.finditer(r'static const float (mdct_win_\w+)\[[^\]]*\]\s*=\s*\{(.*?)\};', src, re.S):
    body = re.sub(r'/\*.*?\*/', '', m.group(2), flags=re.S)
    vals = [f32(v.strip()) for v in body.split(',') if v.strip()]
    a = src.count('\n', 0, m.start()) + 1
    b = src.count('\n', 0, m.end()) + 1
    out.append('(** src/tables.c lines %d-%d, %s: binary32 values times 2^47. *)' % (a, b, m.group(1)))
    out.append('Definition %s : list Z := [' % m.group(1)[5:])
    out.append(';\n'.join('  ' + '; '.join(map(str, vals[i:i + 8])) for i in range(0, len(vals), 8)) + '].\n')
    wins.append(m.group(1)[5:])
# lc3_mdct_win
i = src.index('const float *lc3_mdct_win[')
j = src.index('};', i)
text = src[i:j]
rows = re.split(r'\[LC3_DT_\w+\s*\]\s*=', text)[1:]
assert re.findall(r'\[LC3_DT_(\w+)\s*\]', text) == ['2M5', '5M', '7M5', '10M']
a, b = src.count('\n', 0, i) + 1, src.count('\n', 0, j) + 1
out.append('(** src/tables.c lines %d-%d, lc3_mdct_win, by duration and sample rate. *)' % (a, b))
out.append('Definition mdct_win : list (list (list Z)) := [')
out.append(';\n'.join('  [' + '; '.join(re.findall(r'mdct_(win_\w+)', r)) + ']' for r in rows) + '].')
open('/verif/rocq/theories/MdctTables.v', 'w').write('\n'.join(out) + '\n')

# Twiddles
S2 = 2 ** 80
cell = r'\{\s*([-+.e0-9]+)\s*,\s*([-+.e0-9]+)\s*\}'
out = ['(** * Twiddles of the transform',
       '    Copied from /repo/src/tables.c by /verif/tools/gen_mdct_tables.py; data only.',
       '    The numbers are the binary32 values times 2^80. *)',
       'From Coq Require Import ZArith List.', 'From Verif Require Import MdctModel.',
       'Import ListNotations.', 'Local Open Scope Z_scope.', '']
def pairs(body):
    return [(f32(a, S2), f32(b, S2)) for a, b in re.findall(cell, body)]
def cite(m):
    return 'src/tables.c lines %d-%d' % (src.count('\n', 0, m.start()) + 1, src.count('\n', 0, m.end()) + 1)
for m in re.finditer(r'static const struct lc3_(fft_bf3_twiddles|fft_bf2_twiddles|mdct_rot_def) (\w+) = \{\s*\.(\w+) = (\d+)/(\d+), \.\w = [^{]*\{(.*?)\n    \}\n\};', src, re.S):
    kind, name, _, num, den, body = m.groups()
    n = int(num) // int(den)
    p = pairs(body)
    assert len(re.findall(r'[0-9]e[-+]', body)) == 2 * len(p)
    out.append('(** %s, %s. *)' % (cite(m), name))
    if kind == 'fft_bf3_twiddles':
        q = list(zip(p[0::2], p[1::2]))
        rows = ['((%d, %d), (%d, %d))' % (*a, *b) for a, b in q]
        out.append('Definition %s : @bf3_twiddles Z := mkBf3 %d [' % (name, n))
    else:
        rows = ['(%d, %d)' % a for a in p]
        out.append('Definition %s : @%s Z := %s %d [' % (name, 'bf2_twiddles' if kind[4:7] == 'bf2' else 'mdct_rot', 'mkBf2' if kind[4:7] == 'bf2' else 'mkRot', n))
    out.append(';\n'.join('  ' + '; '.join(rows[i:i + 4]) for i in range(0, len(rows), 4)) + '].\n')
def table(start, conv):
    i = src.index(start); i = src.index('{', i) if '=\n' in src[i:i+80] or '= {' in src[i:i+80] else i
    j = src.index('};', i)
    return src.count('\n', 0, src.index(start)) + 1, src.count('\n', 0, j) + 1, src[i:j]
a, b, t = table('const struct lc3_fft_bf3_twiddles *lc3_fft_twiddles_bf3[]', None)
out.append('(** src/tables.c lines %d-%d, lc3_fft_twiddles_bf3. *)' % (a, b))
out.append('Definition tab_bf3 : list (@bf3_twiddles Z) := [%s].' % '; '.join(re.findall(r'&(\w+)', t)))
a, b, t = table('const struct lc3_fft_bf2_twiddles *lc3_fft_twiddles_bf2[]', None)
out.append('(** src/tables.c lines %d-%d, lc3_fft_twiddles_bf2. *)' % (a, b))
out.append('Definition tab_bf2 : list (list (@bf2_twiddles Z)) := [%s].' % '; '.join('[%s]' % '; '.join(re.findall(r'&(\w+)', r)) for r in re.findall(r'\{([^{}]*)\}', t)))
i = src.index('const struct lc3_mdct_rot_def * lc3_mdct_rot['); j = src.index('};', src.index('LC3_DT_10M', i)); t = src[i:j]
rows = re.split(r'\[LC3_DT_\w+\s*\]\s*=', t)[1:]
assert re.findall(r'\[LC3_DT_(\w+)\s*\]', t) == ['2M5', '5M', '7M5', '10M']
out.append('(** src/tables.c lines %d-%d, lc3_mdct_rot, by duration and sample rate. *)' % (src.count('\n', 0, i) + 1, src.count('\n', 0, j) + 1))
out.append('Definition tab_rot : list (list (@mdct_rot Z)) := [')
out.append(';\n'.join('  [' + '; '.join(re.findall(r'&(mdct_rot_\w+)', r)) + ']' for r in rows) + '].')
# fft_5
mc = open('/repo/src/mdct.c').read()
k = {n: f32(v, S2) for n, v in re.findall(r'static const float (cos1|cos2|sin1|sin2) = \s*([-0-9.]+);', mc)}
l = mc.count('\n', 0, mc.index('static const float cos1')) + 1
out.append('(** src/mdct.c lines %d-%d. *)' % (l, l + 4))
out.append('Definition tab_5 : @fft5_consts Z := mkK5 (%d) (%d) (%d) (%d).' % (k['cos1'], k['cos2'], k['sin1'], k['sin2']))
open('/verif/rocq/theories/MdctTwiddles.v', 'w').write('\n'.join(out) + '\n')
