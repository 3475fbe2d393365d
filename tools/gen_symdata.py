#!/usr/bin/env python3
"""Writes rocq/theories/SymData.v: the lines of /repo/player/iivision.dbg that
start with "sym", verbatim, in order (the other lines are ignored by the parser,
theorem C52_other_lines_ignored)."""
lines = open('/repo/player/iivision.dbg').read().split('\n')
syms = [l for l in lines if l.startswith('sym')]
assert all(32 <= ord(c) < 127 or c == '\t' for l in syms for c in l)
with open('/verif/rocq/theories/SymData.v', 'w') as f:
    f.write('(** Generated by tools/gen_symdata.py from player/iivision.dbg (15769-18112):\n'
            '    the lines that start with "sym", verbatim. *)\n'
            'From Verif Require Import Base SymbolModel.\n\n'
            'Definition sym_lits : list lit := [\n')
    f.write(';\n'.join('  "%s"%%lit' % l.replace('"', '""') for l in syms))
    f.write('].\nNotation sym_lines := (map str sym_lits).\n')
