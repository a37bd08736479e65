#!/usr/bin/env python3
"""Copy the integer tables of /repo/src/tables.c into rocq/theories/Tables.v."""
import re
src = open('/repo/src/tables.c').read()
lines = src.split('\n')

def lineno(name):
    for i, l in enumerate(lines):
        if re.search(r'\b%s\b.*=\s*\{' % re.escape(name), l) and not l.startswith(' '):
            return i + 1
    raise KeyError(name)

def block(name):
    """(numbers, first line, last line) of the initialiser of `name`."""
    i = lineno(name) - 1
    depth, j, text = 0, i, ''
    first = True
    while True:
        l = lines[j]
        if first:
            l = l[l.index('=') + 1:]
            first = False
        l = re.sub(r'/\*.*?\*/', '', l)
        text += l + '\n'
        depth = text.count('{') - text.count('}')
        if depth == 0:
            break
        j += 1
    return [int(x) for x in re.findall(r'-?\d+', text)], i + 1, j + 1

def chunk(l, n):
    assert len(l) % n == 0, (len(l), n)
    return [l[i:i + n] for i in range(0, len(l), n)]

def zl(l):
    return '[' + '; '.join(str(x) for x in l) + ']'

out = []
w = out.append
w('(** * Integer tables of the codec')
w('    Copied from /repo/src/tables.c by /verif/tools/gen_tables.py; data only. *)')
w('From Coq Require Import ZArith List.')
w('Import ListNotations.')
w('Local Open Scope Z_scope.')
w('')

def model_table(name, coq):
    nums, a, b = block(name)
    ms = chunk(nums, 34)
    w('(** src/tables.c lines %d-%d, %s: one list of (low, range) per model. *)' % (a, b, name))
    w('Definition %s : list (list (Z * Z)) := [' % coq)
    w(';\n'.join('  [' + '; '.join('(%d, %d)' % (m[2*i], m[2*i+1]) for i in range(17)) + ']' for m in ms))
    w('].\n')
    return len(ms)

def rows(name, coq, n):
    nums, a, b = block(name)
    rs = chunk(nums, n)
    w('(** src/tables.c lines %d-%d, %s. *)' % (a, b, name))
    w('Definition %s : list (list Z) := [' % coq)
    w(';\n'.join('  ' + zl(r) for r in rs))
    w('].\n')
    return len(rs)

print(model_table('lc3_tns_order_models', 'tns_order_models'))
print(rows('lc3_tns_order_bits', 'tns_order_bits', 8))
print(model_table('lc3_tns_coeffs_models', 'tns_coeffs_models'))
print(rows('lc3_tns_coeffs_bits', 'tns_coeffs_bits', 17))
print(rows('lc3_sns_mpvq_offsets', 'sns_mpvq_offsets', 11))
print(model_table('lc3_spectrum_models', 'spectrum_models'))
print(rows('lc3_spectrum_bits', 'spectrum_bits', 17))

nums, a, b = block('lc3_spectrum_lookup')
assert len(nums) == 2*2*256*4
w('(** src/tables.c lines %d-%d, lc3_spectrum_lookup [rate][half][state][k]. *)' % (a, b))
w('Definition spectrum_lookup : list (list (list (list Z))) := [')
w(';\n'.join('  [' + ';\n   '.join('[' + ';\n    '.join(zl(q) for q in chunk(hh, 4)) + ']'
     for hh in chunk(rr, 1024)) + ']' for rr in chunk(nums, 2048)))
w('].\n')

dts = ['2m5', '5m', '7m5', '10m']
srs = ['8k', '16k', '24k', '32k', '48k', '48k_hr', '96k_hr']
for dt in dts:
    for sr in srs:
        nm = 'band_lim_%s_%s' % (dt, sr)
        try:
            i = [k for k, l in enumerate(lines) if l.startswith('static const int %s[]' % nm)][0]
        except IndexError:
            continue
        nums, a, b = block(nm)
        w('(** src/tables.c lines %d-%d. *)' % (a, b))
        w('Definition %s : list Z := %s.\n' % (nm, zl(nums)))
w('(** src/tables.c lines 4325-4354, lc3_band_lim [dt][sr]; [] stands for NULL. *)')
w('Definition band_lim : list (list (list Z)) := [')
w(';\n'.join('  [' + '; '.join('[]' if (dt == '7m5' and 'hr' in sr) else 'band_lim_%s_%s' % (dt, sr) for sr in srs) + ']' for dt in dts))
w('].\n')
open('/verif/rocq/theories/Tables.v', 'w').write('\n'.join(out))
