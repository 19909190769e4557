#!/usr/bin/env python3
"""Expand citations of the form @{file:sym1,sym2,...} in a .v file to file:first-last line ranges.
A symbol is a function, a method (Name or Recv.Name) or a type in /repo/<file>."""
import re, sys
def ranges(path):
    L = open(path).read().split('\n'); out = {}
    i = 0
    while i < len(L):
        m = re.match(r'(?:func (?:\(\w+ \*?(\w+)\) )?(\w+)\(|type (\w+) )', L[i])
        if m:
            j = i
            if not (L[i].rstrip().endswith('}') or (m.group(3) and not L[i].rstrip().endswith('{'))):
                while L[j] != '}': j += 1
            names = [m.group(2) or m.group(3)]
            if m.group(1): names += [m.group(1) + '.' + m.group(2)]
            for n in names: out.setdefault(n, []).append((i + 1, j + 1))
            i = j
        i += 1
    return out
def expand(s):
    def r(m):
        f, syms = m.group(1), m.group(2).split(',')
        R = ranges('/repo/' + f); spans = []
        for y in syms:
            y = y.strip()
            if y not in R: raise SystemExit(f'{f}: no {y}')
            if len(R[y]) > 1: raise SystemExit(f'{f}: {y} ambiguous {R[y]}')
            spans.append(R[y][0])
        spans.sort()
        return f + ':' + ','.join(f'{a}-{b}' for a, b in spans)
    return re.sub(r'@\{([^:}]+):([^}]+)\}', r, s)
for p in sys.argv[1:]:
    s = expand(open(p).read()); open(p, "w").write(s)
