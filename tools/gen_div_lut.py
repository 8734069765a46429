#!/usr/bin/env python3
"""Transcribe /repo/src/probability/div_lut.rs into rocq/theories/ModelDivLut*.v."""
import re, os
src = open('/repo/src/probability/div_lut.rs').read()
i = src.index('RECIPROCAL: ')
r8 = re.findall(r'\d+', src[src.index('= [', 0) + 3:i])
r8 = r8[:256]
ps = re.findall(r'\((\d+),(\d+)\)', src[i:])
assert len(ps) == 65536 and len(r8) == 256
out = os.path.join(os.path.dirname(os.path.abspath(__file__)), '..', 'rocq', 'theories')
for k in range(4):
    with open(os.path.join(out, 'ModelDivLut%d.v' % k), 'w') as f:
        f.write('(** Transcription of entries %d..%d of RECIPROCAL, /repo/src/probability/div_lut.rs:19-4116\n'
                '    (generated by tools/gen_div_lut.py). *)\nFrom Verif Require Import Prelude.\n' % (k * 16384, k * 16384 + 16383))
        if k == 0:
            f.write('\n(** RECIPROCAL8, /repo/src/probability/div_lut.rs:1-18 *)\nDefinition RECIPROCAL8 : list Z := [\n  ' + '; '.join(r8) + '].\n')
        for j in range(8):
            b = k * 16384 + j * 2048
            f.write('\n(** entries %d..%d *)\nDefinition RECIPROCAL_%d : list (Z * Z) := [\n' % (b, b + 2047, k * 8 + j))
            rows = ['; '.join('(%s,%s)' % p for p in ps[b + 8 * r: b + 8 * r + 8]) for r in range(256)]
            f.write(';\n'.join(rows) + '].\n')
