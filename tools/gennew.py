#!/usr/bin/env python3
"""Generate rocq/theories/NewTable.v from the text of /repo/ie/*.go: one name per IE constructor (a function returning *IE),
with the IE type it makes and the shape of its body.  A body that matches none of the known shapes is an error."""
import re, glob, sys
sys.dont_write_bytecode = True
OUT = '/verif/rocq/theories/NewTable.v'
def norm(b):
    b = re.sub(r'(?m)//.*$', '', b)
    b = re.sub(r'(?m)^\s+', '', b); b = re.sub(r'(?m)\s+$', '', b)
    return re.sub(r'\n+', '\n', b).strip()
def functions():
    for f in sorted(glob.glob('/repo/ie/*.go')):
        if f.endswith('_test.go') or f.endswith('/ie.go'): continue
        s = open(f).read()
        for m in re.finditer(r'(?ms)^func (New\w+)\(([^)]*)\) \*IE \{\n(.*?)^\}', s):
            line = s[:m.start()].count('\n') + 1
            yield f.split('/')[-1], line, line + m.group(0).count('\n'), m.group(1)[3:], m.group(2), norm(m.group(3))
def params(a):
    out = []; pend = []
    for p in [x.strip() for x in a.split(',') if x.strip()]:
        w = p.split(' ', 1)
        pend.append(w[0])
        if len(w) == 2:
            out += [(n, w[1]) for n in pend]; pend = []
    assert not pend, a
    return out
# bodies modelled by hand in New.v, recognized by name (the text is compared with the digest below)
HAND = dict(AccessAvailabilityInformation='SAccessAvailability', AdditionalUsageReportsInformation='SAuri', DLBufferingSuggestedPacketCount='SSuggestedCount',
 DownlinkDataServiceInformation='SDownlinkData', DroppedDLTrafficThreshold='SDroppedDL', FailedRuleID='SFailedRuleID', FlowInformation='SFlowInformation',
 ForwardingPolicy='SForwardingPolicy', FQCSID='SFQCSID', GBR='SRates', MBR='SRates', IPVersion='SIPVersion', Multiplier='SMultiplier', NFInstanceID='SNFInstanceID',
 NodeID='SNodeID', NodeIDHeuristic='SNodeIDHeuristic', OuterHeaderRemoval='SOuterHeaderRemoval', SNSSAI='SSNSSAI', TimeQuotaMechanism='STimeQuotaMechanism',
 TSNBridgeID='STSNBridgeID', UEIPAddressPoolIdentity='SPoolIdentity', UPFunctionFeatures='SUPFeatures')
TIMER = 'var unit, value uint8\nswitch {\ncase duration%(10*time.Hour) == 0:'
def shape(name, ps, b):
    "(type or None, shape)"
    if name in HAND: return ('NodeID' if name == 'NodeIDHeuristic' else name), HAND[name]
    m = re.match(r'^return newGroupedIE\((\w+), 0, (.*)\)$', b)
    if m:
        t, r = m.groups()
        if ps and ps[-1][1] == '...*IE': assert r == ps[-1][0] + '...'; s = 'SGroup'
        else:
            l = [n for n, ty in ps if ty == '*IE']; assert r == ', '.join(l), b; s = 'SGroup%d' % len(l)
        if t == 'typ': assert ps[0] == ('typ', 'IEType'); return None, 'SGroupT' + s[6:]
        return t, s
    m = re.match(r'^return New(UpdateBAR|UsageReport|TSCManagementInformation|PortManagementInformationForTSC)\((\w+), (\w+)(\.\.\.)?\)$', b)
    if m: return m.group(2), 'SGroup' if m.group(4) else 'SGroup1'
    m = re.match(r'^return newUint(\d+)ValIE\((\w+), (.*)\)$', b)
    if m:
        k, t, e = int(m.group(1)) // 8, m.group(2), m.group(3)
        if len(ps) == 1 and e == ps[0][0]: assert ps[0][1] == 'uint%d' % (8*k), (name, ps); return t, 'SUint %d' % k
        if name == 'OffendingIE': assert e == 'uint16(itype)'; return t, 'SUint 2'
        if len(ps) == 1:
            v, ty = ps[0]
            mm = re.match(r'^' + v + r'&(0x[0-9a-f]+)$', e)
            if mm: assert k == 1 and ty == 'uint8'; return t, 'SMask ' + mm.group(1)
            if ty == 'time.Duration':
                d = {f'uint32({v}.Seconds())': (4, 'SSecs32'), f'uint16({v}.Seconds())': (2, 'SSecs16'), f'uint32({v}.Milliseconds())': (4, 'SMillis'),
                     f'uint64({v}.Nanoseconds())': (8, 'SNanos'), f'uint8({v}/50000000)': (1, 'S50ms')}[e]
                assert d[0] == k; return t, d[1]
        e0 = re.sub(r'^uint8\((.*)\)$', r'\1', e)
        sh = {}
        for x in e0.split('|'):
            mm = re.match(r'^\(?(\w+)(?:<<(\d))?\)?$', x); assert mm, (name, e)
            sh[mm.group(1)] = int(mm.group(2) or 0)
        assert k == 1 and list(sorted(sh)) == sorted(n for n, _ in ps), (name, e, ps)
        assert (e0 != e) == (ps[0][1] == 'int') and len({ty for _, ty in ps}) == 1
        return t, ('SInts' if e0 != e else 'SOcts') + ' [' + '; '.join(str(sh[n]) for n, _ in ps) + ']%N'
    m = re.match(r'^u64sec := uint64\(ts\.Sub\(time\.Date\(1900, time\.January, 1, 0, 0, 0, 0, time\.UTC\)\)\) / 1000000000\nreturn newUint32ValIE\((\w+), uint32\(u64sec\)\)$', b)
    if m: return m.group(1), 'STime'
    if b.startswith(TIMER):
        m = re.search(r'return newUint8ValIE\((\w+), unit\+\(value&0x1f\)\)$', b); return m.group(1), 'STimer'
    m = re.match(r'^return newStringIE\((\w+), (\w+)\)$', b)
    if m: assert ps == [(m.group(2), 'string')]; return m.group(1), 'SString'
    m = re.match(r'^return newFQDNIE\((\w+), (\w+)\)$', b)
    if m: assert ps == [(m.group(2), 'string')]; return m.group(1), 'SFQDN'
    m = re.match(r'^return New\((\w+), (\w+)\)$', b)
    if m: assert ps == [(m.group(2), '...uint8')]; return m.group(1), 'SOctets'
    m = re.match(r'^(?:fields|f) := New(\w+)Fields\((.*)\)\nb, err := (?:fields|f)\.Marshal\(\)\nif err != nil \{\nreturn nil\n\}\nreturn New\((\w+), b\)$', b)
    if m: assert m.group(1) == m.group(3) == name and re.sub(r'\.\.\.', '', m.group(2)) == ', '.join(n for n, _ in ps), (name, m.groups(), ps); return name, 'SFields K_' + name
    sys.exit('no shape: %s\n%s' % (name, b))
L = []
P = {}
timers = set()
for f, a, e, name, ar, b in functions():
    t, s = shape(name, params(ar), b)
    if s == 'STimer': timers.add(re.sub(r'newUint8ValIE\(\w+', '', b))
    L.append((f, a, e, name, t, s)); P[name] = [n for n, _ in params(ar)]
assert len(timers) == 1
o = ['''(** Generated by tools/gennew.py from the text of /repo/ie/*.go.
    The IE constructors: every function that returns an *IE, except those of ie/ie.go (modelled in IE.v and New.v).
    The shapes are defined in New.v. *)
From Coq Require Import String.
From Verif Require Import Base IETypes IE Access AccTable FlagTable New.

Inductive con :=''']
o += ['| N_' + n for _, _, _, n, _, _ in L]; o[-1] += '.'
o.append('\n(** the name in the source *)\nDefinition con_name (c : con) : string :=\n  match c with')
o += ['  | N_%s => "New%s"' % (n, n) for _, _, _, n, _, _ in L]
o.append('  end%string.\n\n(** the IE type; the four constructors that take it as an argument have None *)\nDefinition con_type (c : con) : option N :=\n  match c with')
o += ['  | N_%s => %s' % (n, 'Some T_' + t if t else 'None') for _, _, _, n, t, _ in L]
o.append('  end.\n\n(** the code of the constructor *)\nDefinition con_shape (c : con) : shape :=\n  match c with')
o += ['  | N_%s => %s (* ie/%s:%d-%d *)' % (n, s, f, a, e) for f, a, e, n, _, s in L]
o.append('  end.\n\n(** the accessor named after the constructor: the longest accessor name the constructor name begins with *)\nDefinition con_reader (c : con) : acc :=\n  match c with')
accs = re.findall(r'^\| A_(\w+)', open('/verif/rocq/theories/AccTable.v').read(), re.M)
def reader(n): return max([a for a in accs if n.startswith(a)], key=len)
o += ['  | N_%s => A_%s' % (n, reader(n)) for _, _, _, n, _, _ in L]
flags = set(re.findall(r'^\| (B_\w+)', open('/verif/rocq/theories/FlagTable.v').read(), re.M))
o.append('  end.\n\n(** the bool methods named after the parameters, for the constructors that pack one-bit parameters into an octet *)\nDefinition con_flags (c : con) : list flag :=\n  match c with')
for _, _, _, n, _, s in L:
    if s.startswith(('SInts', 'SOcts', 'SMask 0x01')) and n != 'GateStatus':
        fs = ['B_Has' + x.upper() for x in P[n]]; assert set(fs) <= flags, fs
        o.append('  | N_%s => [%s]' % (n, '; '.join(fs)))
o.append('  | _ => []')
o.append('  end.\n\nDefinition all_cons : list con :=\n  [' + ';\n   '.join('N_' + n for _, _, _, n, _, _ in L) + '].')
open(OUT, 'w').write('\n'.join(o) + '\n')
print(len(L))
import collections
for k, v in collections.Counter(s for *_, s in L).most_common(): print(v, k)
