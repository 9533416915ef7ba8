#!/usr/bin/env python3
"""Rewrite the trailing Print Assumptions block of every Props*.v file: one line per theorem C<nn>_*."""
import re, sys, glob, os
here = os.path.dirname(os.path.abspath(__file__))
for p in sorted(glob.glob(os.path.join(here, '../theories/Props*.v'))):
    t = open(p).read()
    names = re.findall(r'^Theorem (C\d\d\w*)', t, re.M)
    t = re.sub(r'^Print Assumptions .*\n', '', t, flags=re.M).rstrip('\n') + '\n'
    t += '\n' + ''.join(f'Print Assumptions {n}.\n' for n in names)
    if t != open(p).read():
        open(p, 'w').write(t)
