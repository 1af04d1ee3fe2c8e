#!/usr/bin/env python3
"""Append the missing `Print Assumptions` lines to a Properties file."""
import re, sys
for path in sys.argv[1:]:
    s = open(path).read()
    names = re.findall(r'^Theorem (C\d\d\w*)', s, re.M)
    have = set(re.findall(r'Print Assumptions (\w+)', s))
    add = [n for n in names if n not in have]
    if add:
        s = s.rstrip('\n') + '\n\n' + ''.join('Print Assumptions %s.\n' % n for n in add)
        open(path, 'w').write(s)
