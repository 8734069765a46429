#!/usr/bin/env python3
"""Transcribe /repo/src/codec/crc32_table.rs into rocq/theories/ModelCrcTable.v."""
import re, os
src = open('/repo/src/codec/crc32_table.rs').read()
i = src.index('TABLE16')
j = src.index('\n];', i)
vs = re.findall(r'0x[0-9a-fA-F]+|\b\d+\b', src[src.index('=', i):j])
vs = [int(v, 0) for v in vs]
assert len(vs) == 4096, len(vs)
n0 = src[:i].count('\n') + 1
n1 = src[:j].count('\n') + 1
out = os.path.join(os.path.dirname(os.path.abspath(__file__)), '..', 'rocq', 'theories', 'ModelCrcTable.v')
with open(out, 'w') as f:
    f.write('(** Transcription of /repo/src/codec/crc32_table.rs:%d-%d\n    (generated by tools/gen_crc_table.py). *)\nFrom Verif Require Import Prelude.\n' % (n0, n1))
    f.write('\n(** TABLE16, /repo/src/codec/crc32_table.rs *)\nDefinition TABLE16 : list (list Z) := [\n')
    rows = []
    for k in range(16):
        t = vs[256 * k: 256 * k + 256]
        rows.append('[' + ';\n '.join('; '.join(str(x) for x in t[8 * r: 8 * r + 8]) for r in range(32)) + ']')
    f.write(';\n'.join(rows) + '].\n')
