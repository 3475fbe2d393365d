#!/usr/bin/env python3
"""Writes rocq/theories/SymCert.v: opcode and address for each "op_" symbol, in
file order.  Only a certificate: SymbolProofs.v checks it against SymData.v."""
import re
out = []
for l in open('/repo/player/iivision.dbg').read().split('\n'):
    m = re.match(r'sym\t.*name="op_([a-z0-9_]+)".*val=(0x[0-9A-F]+)', l)
    if m:
        t = re.match(r'tick_(\d+)_page_(\d+)$', m.group(1))
        out.append('(%s, %s)' % ('TICK %s %s' % t.groups() if t else m.group(1).upper(), m.group(2)))
with open('/verif/rocq/theories/SymCert.v', 'w') as f:
    f.write('(** Generated by tools/gen_symcert.py: opcode and address of each opcode symbol of\n'
            '    player/iivision.dbg (15769-18112), in file order; checked in SymbolProofs.v. *)\n'
            'From Verif Require Import Base OpcodeModel.\n\nDefinition op_table : list (cmd * Z) := [\n  ')
    f.write(';\n  '.join('; '.join(out[i:i+4]) for i in range(0, len(out), 4)))
    f.write('].\n')
