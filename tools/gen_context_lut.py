#!/usr/bin/env python3
"""Writes rocq/theories/ModelContextLut.v from /repo/src/constants.rs."""
import re
src = open('/repo/src/constants.rs').read()
out = ['(** Context lookup tables, src/constants.rs (generated by tools/gen_context_lut.py). *)',
       'From Verif Require Import Prelude.', '']
for name, lines in (('UTF8_CONTEXT_LOOKUP', '1-18'), ('SIGNED_3_BIT_CONTEXT_LOOKUP', '20-28')):
    body = re.search(name + r': \[u8; \d+\] =\s*\[(.*?)\];', src, re.S).group(1)
    v = [int(x) for x in body.replace('\n', ' ').split(',')]
    assert len(v) == (512 if name[0] == 'U' else 256)
    out.append('(** src/constants.rs:%s *)' % lines)
    out.append('Definition %s : list Z :=' % name)
    rows = ['   ' + '; '.join(map(str, v[i:i + 32])) for i in range(0, len(v), 32)]
    out.append('  [' + ';\n'.join(rows).lstrip() + '].')
open('/verif/rocq/theories/ModelContextLut.v', 'w').write('\n'.join(out) + '\n')
