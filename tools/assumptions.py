#!/usr/bin/env python3
"""Regenerates rocq/theories/Assumptions.v: the assumptions of each theorem of the *Props.v files, printed by the build."""
import re, glob, os
root = os.path.dirname(os.path.dirname(os.path.abspath(__file__)))
fs = sorted(os.path.basename(f)[:-2] for f in glob.glob(root + '/rocq/theories/*Props.v'))
s = '(** Generated by tools/assumptions.py: what each theorem depends on besides the kernel. *)\n'
s += ''.join(f'From Verif Require {f}.\n' for f in fs)
for f in fs:
    for m in re.finditer(r"^(?:Theorem|Corollary)\s+([\w']+)", open(f'{root}/rocq/theories/{f}.v').read(), re.M):
        s += f'Print Assumptions {f}.{m.group(1)}.\n'
open(root + '/rocq/theories/Assumptions.v', 'w').write(s)
