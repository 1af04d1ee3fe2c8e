#!/usr/bin/env python3
"""Writes Model/UnicodeTables.v: the code points from 128 on that \\d and \\w of Python's re match."""
import re, sys, unicodedata

def ranges(p):
    r = re.compile(p); out = []; s = None
    for c in range(128, 0x110000):
        m = not 0xD800 <= c <= 0xDFFF and bool(r.match(chr(c)))
        if m and s is None: s = c
        if not m and s is not None: out.append((s, c - 1)); s = None
    if s is not None: out.append((s, 0x10FFFF))
    return out

def emit(name, l):
    rows = []
    for i in range(0, len(l), 8):
        rows.append('    ' + '; '.join('(%d, %d)' % x for x in l[i:i + 8]))
    return 'Definition %s : list (N * N) :=\n  [\n%s ]%%N.\n' % (name, ';\n'.join(rows))

with open('/verif/rocq/theories/Model/UnicodeTables.v', 'w') as f:
    f.write('(** Ranges of code points from 128 on that [\\d] and [\\w] of Python\'s re match (Unicode %s),\n'
            '    written by tools/unicode.py. *)\n' % unicodedata.unidata_version)
    f.write('From Coq Require Import List NArith.\nImport ListNotations.\n')
    f.write('(** str.isdecimal, used by re for \\d *)\n' + emit('digit_ranges', ranges(r'\d')))
    f.write('(** str.isalnum or underscore, used by re for \\w *)\n' + emit('word_ranges', ranges(r'\w')))
