#!/usr/bin/env python3
"""Generate rocq/theories/Cat_<locale>.v from the message catalogues (.mo files) in /repo.
The binary format is read directly (as Python's gettext.GNUTranslations._parse does); nothing of /repo is run."""
import struct
def read_mo(p):
    b = open(p, 'rb').read()
    magic, ver, n, o, t = struct.unpack('<5I', b[:20])
    assert magic == 0x950412de
    out = []
    for i in range(n):
        ml, mo = struct.unpack('<2I', b[o + 8 * i:o + 8 * i + 8])
        tl, to = struct.unpack('<2I', b[t + 8 * i:t + 8 * i + 8])
        m, s = b[mo:mo + ml], b[to:to + tl]
        assert b'\0' not in m and b'\0' not in s and b'\4' not in m  # no plural forms, no contexts
        out.append((m.decode('utf-8'), s.decode('utf-8')))
    return out
def q(s): return '"' + s.replace('"', '""') + '"'
for l in ['es', 'fr', 'ja', 'zh']:
    rel = f'httplint/translations/{l}/LC_MESSAGES/messages.mo'
    cat = read_mo('/repo/' + rel)
    with open(f'/verif/rocq/theories/Cat_{l}.v', 'w') as f:
        f.write(f'(** GENERATED by tools/gencat.py from /repo/{rel}: do not edit.\n'
                '    Every (message, translation) pair of the catalogue, as UTF-8 text. *)\n'
                'From Coq Require Import String List.\nImport ListNotations.\nLocal Open Scope string_scope.\n')
        f.write(f'Definition catalogue : list (string * string) := [\n')
        f.write(';\n'.join(f'({q(a)},\n {q(b)})' for a, b in cat))
        f.write('].\n')
