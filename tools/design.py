#!/usr/bin/env python3
"""Insert the list of theorems that use an axiom (from the output of Print Assumptions) into DESIGN.md."""
import re, sys
out = open(sys.argv[1]).read()
ax, cur = [], None
for l in out.splitlines():
    if l.startswith('=='): cur = l[2:]
    elif l.startswith('Axioms'): ax.append(cur)
print(', '.join('`%s`' % a for a in ax))
