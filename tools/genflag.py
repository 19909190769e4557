#!/usr/bin/env python3
"""Generate rocq/theories/FlagTable.v from the text of /repo/ie/*.go: one name and one definition per bool method of *IE, and the
HasX/SetXFlag methods of the XxxFields structs.  A body that matches none of the known idioms is an error."""
import re, glob, sys
sys.dont_write_bytecode = True
sys.path.insert(0, '/verif/tools')
from genacc import methods, cases, norm
OUT = '/verif/rocq/theories/FlagTable.v'
HAS = r'has(\d)(?:st|nd|rd|th)Bit'
def structs():
    has, sets, cite = {}, {}, {}
    for f in sorted(glob.glob('/repo/ie/*.go')):
        if f.endswith('_test.go'): continue
        s = open(f).read()
        for m in re.finditer(r'(?ms)^func \((\w+) \*?(\w+)Fields\) ((?:Has|Is|Set)\w+)\((.*?)\) ?(\w*) ?\{\n(.*?)^\}', s):
            v, st, name, args, ret, b = m.groups(); b = norm(b)
            line = s[:m.start()].count('\n') + 1
            x = re.match(r'^return ' + HAS + r'\(' + v + r'\.Flags\)$', b)
            y = re.match(r'^' + v + r'\.Flags \|= (0x[0-9a-f]+|\d+)$', b)
            if st == 'OuterHeaderCreation': continue
            if st == 'NumberOfUEIPAddresses': name = name.replace('HasNum', 'Has')   # HasNumIPv4 goes with SetIPv4Flag
            if x and name.startswith('Has') and not args: has[st, name[3:]] = int(x.group(1))
            elif y and re.match(r'Set\w+Flag$', name) and not args: sets[st, name[3:-4]] = int(y.group(1), 0)
            else: raise SystemExit(f'{f}: {name}: {b}')
            cite.setdefault((st, name[3:] if x else name[3:-4]), []).append((f.split('/')[-1], line, line + m.group(0).count('\n')))
    if set(has) != set(sets): raise SystemExit(str(set(has) ^ set(sets)))
    return has, sets, cite
HASF, SETF, CITE = structs()
OHC = {'HasTEID': 'OH_TEID', 'HasIPv4': 'OH_IPv4', 'HasIPv6': 'OH_IPv6', 'HasPortNumber': 'OH_Port', 'HasCTag': 'OH_CTag', 'HasSTag': 'OH_STag',
       'IsN19': 'OH_N19', 'IsN6': 'OH_N6', 'IsLLSSMCTEID': 'OH_LLSSM'}
def body(name, b):
    if b == 'return false': return 'BFalse'
    m = re.match(r'if len\(i\.Payload\) < (\d+) \{\nreturn false\n\}\n(.*)$', b, re.S)
    n = 0; full = b
    if m: n = int(m.group(1)); b = m.group(2)
    m = re.match(r'^return ' + HAS + r'\(i\.Payload\[(\d)\]\)$', b)
    if m: return f'BPay {n} {m.group(2)} {m.group(1)}'
    m = re.match(r'^return ' + HAS + r'\(i\.Payload\[(\d)\]\) && !' + HAS + r'\(i\.Payload\[(\d)\]\)$', b)
    if m and m.group(2) == m.group(4): return f'BPayAndNot {n} {m.group(2)} {m.group(1)} {m.group(3)}'
    m = re.match(r'^return \(i\.Payload\[0\]>>7\)&0x01 (==|!=) 1$', b)
    if m: return f'BTop {n} {"true" if m.group(1) == "==" else "false"}'
    m = re.match(r'^v, err := i\.(\w+)\(\)\nif err != nil \{\nreturn false\n\}\n(?:if len\(v\) < (\d) \{\nreturn false\n\}\n)?return (.*)$', b, re.S)
    if m:
        a, lv, r = m.groups(); lv = int(lv or 0)
        x = re.match(HAS + r'\(v\)$', r)
        if x and not lv: return ['B_len', n, f'BVal A_{a} {x.group(1)}']
        x = re.match(HAS + r'\(v\[(\d)\]\)$', r)
        if x: return ['B_len', n, f'BOct A_{a} {lv} {x.group(2)} {x.group(1)}']
        x = re.match(r'v\.(\w+)\(\)$', r)
        if x and a == 'OuterHeaderCreation': return ['B_len', n, f'BOhc A_{a} {OHC[x.group(1)]}']
        if x and (a, x.group(1)[3:]) in HASF: return ['B_len', n, f'BFld A_{a} {HASF[a, x.group(1)[3:]]}']
    raise SystemExit(f'{name}: unknown body\n{full}')
def lenbody(x):
    if isinstance(x, str): return x
    return f'BLen {x[1]} ({x[2]})' if x[1] else x[2]
def table():
    for f, a, e, name, args, ret, b in methods():
        if ret != 'bool' or name in ('IsVendorSpecific', 'IsGrouped'): continue
        if args: raise SystemExit(name + ' has arguments')
        gs = []
        while True:
            m = re.match(r'if i\.Type != (\w+) \{\nreturn false\n\}\n', b)
            if m: gs.append(f'GType T_{m.group(1)}'); b = b[m.end():]; continue
            m = re.match(r'if len\(i\.Payload\) < (\d+) \{\nreturn false\n\}\n(?=switch)', b)
            if m: gs.append(f'GLen {m.group(1)}'); b = b[m.end():]; continue
            break
        m = re.match(r'(?s)switch i\.Type \{\n(.*)\n\}$', b)
        cs = []; d = None
        if m:
            for ts, x in cases(m.group(1)):
                if ts == ['default']: d = lenbody(body(name, x))
                else: cs.append((ts, lenbody(body(name, x))))
        else: d = lenbody(body(name, b))
        yield name, f, a, e, gs, cs, d
if __name__ == '__main__':
    T = list(table())
    o = open(OUT, 'w')
    o.write('(** Generated by tools/genflag.py from the text of /repo/ie/*.go.\n    The bool methods of *IE, except IsVendorSpecific and IsGrouped (IE.v), and the HasX and SetXFlag methods of the XxxFields structs. *)\nFrom Verif Require Import Base IETypes IE Access AccTable Flags.\n\n')
    o.write('Inductive flag :=\n' + '\n'.join('| B_' + t[0] for t in T) + '.\n\n')
    o.write('Definition all_flags : list flag := [\n  ' + ';\n  '.join('B_' + t[0] for t in T) + '].\n\n')
    o.write('Definition flag_id (f : flag) : N :=\n  match f with\n' + '\n'.join(f'  | B_{t[0]} => {i}%N' for i, t in enumerate(T)) + '\n  end.\n\n')
    o.write('Definition flag_def (f : flag) : fdef :=\n  match f with\n')
    for name, f, a, e, gs, cs, d in T:
        o.write(f'  | B_{name} => (* ie/{f}:{a}-{e} *)\n      mkfdef [{"; ".join(gs)}]\n        [' + ';\n         '.join(f'([{"; ".join("T_" + t for t in ts)}], {x})' for ts, x in cs) + f'] ({d})\n')
    o.write('  end.\n\n')
    S = sorted(HASF, key=lambda x: (CITE[x][0], x))
    nm = lambda x: f'S_{x[0]}_{x[1]}'
    o.write('(** flags of the structs: which struct, the bit HasX tests, the mask SetXFlag ors in *)\nInductive sflag :=\n' + '\n'.join('| ' + nm(x) for x in S) + '.\n\n')
    o.write('Definition all_sflags : list sflag := [\n  ' + ';\n  '.join(map(nm, S)) + '].\n\n')
    o.write('Definition sflag_def (s : sflag) : fkind * N * N :=\n  match s with\n')
    for x in S:
        c = ', '.join(f'ie/{f}:{a}-{e}' for f, a, e in CITE[x])
        o.write(f'  | {nm(x)} => (K_{x[0]}, {HASF[x]}, {SETF[x]})%N (* {c} *)\n')
    o.write('  end.\n'); o.close()
    print(len(T), len(S))
