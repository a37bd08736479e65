#!/usr/bin/env python3
"""Copy the tables of the long term postfilter into rocq/theories/LtpfTables.v."""
import re
from decimal import Decimal

def block(path, name):
    lines = open(path).read().split('\n')
    i = next(k for k, l in enumerate(lines) if re.search(r'\b%s\b.*=\s*\{' % re.escape(name), l))
    text, j = '', i
    while True:
        l = lines[j]
        text += (l[l.index('=') + 1:] if j == i else l) + '\n'
        if text.count('{') == text.count('}'):
            return text, i + 1, j + 1
        j += 1

SCALE = 10 ** 18
def dec(x):
    v = Decimal(x) * SCALE
    assert v == int(v), x
    return int(v)

out = ['(** * Tables of the long term postfilter',
       '    Copied from /repo/src by /verif/tools/gen_ltpf_tables.py; data only. *)',
       'From Coq Require Import ZArith List.', 'Import ListNotations.', 'Local Open Scope Z_scope.', '']

for name, coq in (('lc3_ltpf_cnum', 'ltpf_cnum'), ('lc3_ltpf_cden', 'ltpf_cden')):
    text, a, b = block('/repo/src/tables.c', name)
    rates = re.split(r'\[LC3_SRATE_\w+\]\s*=', text)[1:]
    labels = re.findall(r'\[LC3_SRATE_(\w+)\]', text)
    assert labels == ['8K', '16K', '24K', '32K', '48K'], labels
    out.append('(** src/tables.c lines %d-%d, %s: decimal values times 10^18, by rate. *)' % (a, b, name))
    out.append('Definition %s : list (list (list Z)) := [' % coq)
    rr = []
    for r in rates:
        rows = re.findall(r'\(const float \[\]\)\s*\{([^}]*)\}', r)
        assert len(rows) == 4
        rr.append('  [' + ';\n   '.join('[' + '; '.join('%d' % dec(v.strip()) for v in row.split(',') if v.strip()) + ']' for row in rows) + ']')
    out.append(';\n'.join(rr) + '].\n')

for r, n in (('8k', 10), ('16k', 20), ('32k', 40), ('24k', 30), ('48k', 60), ('96k', 120)):
    text, a, b = block('/repo/src/ltpf.c', 'h_%s_12k8_q15' % r)
    nums = [int(x) for x in re.findall(r'-?\d+', text)]
    out.append('(** src/ltpf.c lines %d-%d, h_%s_12k8_q15. *)' % (a, b, r))
    out.append('Definition h_%s : list Z := [' % r)
    out.append(';\n'.join('  ' + '; '.join(map(str, nums[i:i + n])) for i in range(0, len(nums), n)) + '].\n')

open('/verif/rocq/theories/LtpfTables.v', 'w').write('\n'.join(out))
