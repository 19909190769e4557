#!/usr/bin/env python3
"""Generate rocq/theories/AccTable.v from the text of /repo/ie/*.go: one name per accessor method of *IE and one
definition per accessor (guards, type cases, body of each case).  A body that matches none of the known idioms is an error."""
import re, glob, sys
OUT = '/verif/rocq/theories/AccTable.v'
def norm(b):
    b = re.sub(r'(?s)/\*.*?\*/', '', b)
    b = re.sub(r'(?m)//.*$', '', b)
    b = re.sub(r'(?m)^\s+', '', b); b = re.sub(r'(?m)\s+$', '', b)
    return re.sub(r'\n+', '\n', b).strip()
def methods():
    for f in sorted(glob.glob('/repo/ie/*.go')):
        if f.endswith('_test.go'): continue
        s = open(f).read()
        for m in re.finditer(r'(?ms)^func \(i \*IE\) (\w+)\(([^)]*)\) ?(.*?) ?\{\n(.*?)^\}', s):
            line = s[:m.start()].count('\n') + 1
            yield f.split('/')[-1], line, line + m.group(0).count('\n'), m.group(1), m.group(2), m.group(3), norm(m.group(4))
ZE = r'(?:0|0, 0|nil|""|time\.Time\{\}|false)'
def cases(sw):
    out = []; depth = 0; lines = sw.split('\n'); i = 0
    while i < len(lines):
        l = lines[i]
        if depth == 0 and (l.startswith('case ') or l.startswith('default:')):
            h = l
            while not h.endswith(':'): i += 1; h += ' ' + lines[i]
            cur = [h, []]; out.append(cur)
        else:
            cur[1].append(l); depth += l.count('{') - l.count('}')
        i += 1
    return [(re.split(r',\s*', h[5:-1]) if h != 'default:' else ['default'], '\n'.join(x)) for h, x in out]
VIA = re.compile(r'^ies, err := i\.(\w+)\(\)\nif err != nil \{\nreturn ' + ZE + r', err\n\}\nfor _, x := range ies \{\n(?:if x\.Type == (\w+) \{\nreturn x\.(\w+)\(\)\n\}|switch (x|i)\.Type \{\ncase ([\w,\s]+?):\nreturn x\.(\w+)\(\)\n\})\n\}\nreturn ' + ZE + r', ErrIENotFound$')
TIMER = '''var d time.Duration
switch (i.Payload[0] & 0xe0) >> 5 {
case 0x07:
d = time.Duration(math.MaxInt64)
case 0x04:
d = time.Duration(i.Payload[0]&0x1f) * 10 * time.Hour
case 0x03:
d = time.Duration(i.Payload[0]&0x1f) * time.Hour
case 0x02:
d = time.Duration(i.Payload[0]&0x1f) * 10 * time.Minute
case 0x01:
d = time.Duration(i.Payload[0]&0x1f) * time.Minute
case 0x00:
d = time.Duration(i.Payload[0]&0x1f) * 2 * time.Second
default:
d = 0
}
return d, nil'''
U = 'binary.BigEndian.Uint'
LEAF = {
 'return ParseMultiIEs(i.Payload)': 'LChildren', 'return i.ValueAsUint8()': 'LUint 1', 'return i.ValueAsUint16()': 'LUint 2',
 'return i.ValueAsUint32()': 'LUint 4', 'return i.ValueAsUint64()': 'LUint 8', 'return i.ValueAsString()': 'LString', 'return i.ValueAsFQDN()': 'LFQDN',
 'return i.valueAs3GPPTimestamp()': 'LTime', 'return i.Payload, nil': 'LPayload', TIMER: 'LTimer',
 f'return time.Duration({U}32(i.Payload[0:4])) * time.Second, nil': 'LSecs32',
 f't := {U}32(i.Payload[0:4])\nreturn time.Duration(t) * time.Second, nil': 'LSecs32',
 f'return time.Duration({U}32(i.Payload[0:4])) * time.Millisecond, nil': 'LMillis32',
 f'return time.Duration({U}64(i.Payload[0:8])), nil': 'LNanos64',
 f'return time.Duration({U}16(i.Payload[0:2])) * time.Second, nil': 'LSecs16',
 'return time.Duration(int64(i.Payload[0]) * 50000000), nil': 'LOctet50ms',
 f'num := {U}16(i.Payload[0:2])\nreturn num & 0x7fff, nil': 'LAuri',
 'if len(i.Payload) < 1 {\nreturn nil, io.ErrUnexpectedEOF\n}\nreturn i.Payload, nil': 'LApplyAction',
 'if i.Length == 1 {\nreturn uint16(i.Payload[0]), nil\n}\nif i.Length >= 2 {\nreturn i.ValueAsUint16()\n}\nreturn 0, io.ErrUnexpectedEOF': 'LSuggestedCount',
 'n, err := i.ValueAsUint16()\nif err != nil {\nreturn 0, err\n}\nreturn IEType(n), nil': 'LUint 2', 'return i.Payload[1], nil': 'LPPI',
 'if len(i.Payload) < 1 {\nreturn 0, io.ErrUnexpectedEOF\n}\nreturn i.Payload[0] & 0x07, nil': 'LFlowDirection',
 'return (i.Payload[0] >> 4) & 0x0f, nil': 'LNodeIDType',
 f'return {U}32(i.Payload[8:12]), nil': 'LExponent',
 'return i.Payload[:16], nil': 'LNFInstanceID', 'return i.Payload[0] & 0x07, nil': 'LPPIndicator',
 'if len(i.Payload) < 2 {\nreturn 0, io.ErrUnexpectedEOF\n}\nreturn i.Payload[2], nil': 'LQFI',
 'return i.Payload[0:4], nil': 'LSNSSAI', 'return i.Payload[0] & 0x3f, nil': 'LTGPPInterface',
}
# bodies given by hand in Access.v, recognized by accessor and first line
HAND = {('FailedRuleID', 'switch i.Payload[0] {'): 'LFailedRuleID', ('FlowDescription', f'l := {U}16(i.Payload[1:3])'): 'LFlowDescription',
 ('NodeAddress', 'switch (i.Payload[0] >> 4) & 0x0f {'): 'LNodeAddress', ('CSIDs', 'offset := 0'): 'LCSIDs', ('NodeID', 'switch i.Payload[0] {'): 'LNodeID',
 ('TSNBridgeID', 'if !has1stBit(i.Payload[0]) {'): 'LTSNBridgeID',
 ('FTEID', 'return nil, errors.New("cannot determine which value to return. Use LocalFTEID or LocalFTEIDN instead")'): 'LFail EOther'}
THEN = re.compile(r'^(?:v|n|x|_), err := i\.(\w+)\(\)\nif err != nil \{\nreturn ' + ZE + r', err\n\}\n(.*)$', re.S)
POST = {'return (v >> 2) & 0x03, nil': 'PBits 2 3', 'return v & 0x03, nil': 'PBits 0 3', 'return (v >> 2) & 0x03, v & 0x03, nil': 'PGateULDL',
 'return utils.Uint40To64(v[0:5]), nil': 'PU40 0 5', 'return utils.Uint40To64(v[5:10]), nil': 'PU40 5 10', 'return v[0], nil': 'PIndex0',
 'if len(v) < 2 {\nreturn 0, io.ErrUnexpectedEOF\n}\nreturn v[1], nil': 'PIndex1', 'return utils.Uint24To32(v[1:4]), nil': 'PSD',
 'return utils.DecodeFQDN(i.Payload), nil': 'POwnFQDN',
 'return ParseCTAGFields(x.CTAG)': 'PCTag', 'return ParseSTAGFields(x.STAG)': 'PSTag',
 'l := len(v)\nif l < 1 {\nreturn "", io.ErrUnexpectedEOF\n}\nidlen := int(v[0])\nif l < idlen+1 {\nreturn "", io.ErrUnexpectedEOF\n}\nreturn string(v[1 : idlen+1]), nil': 'PPolicyID',
 'if len(v) < 2 {\nreturn "", io.ErrUnexpectedEOF\n}\nidlen := int(binary.BigEndian.Uint16(v[0:2]))\nif len(v) < idlen+2 {\nreturn "", io.ErrUnexpectedEOF\n}\nreturn string(v[2 : idlen+2]), nil': 'PPoolID'}
FIELDS = re.compile(r'^(?:(\w+), err := Parse(\w+)Fields\(i\.Payload\)\nif err != nil \{\nreturn nil, err\n\}\nreturn \1, nil|return Parse(\w+)Fields\(i\.Payload\))$')
INV = re.compile(r'^return ' + ZE + r', &InvalidTypeError\{Type: i\.Type\}$')
KIND = {'uint8': 'KN', 'uint16': 'KN', 'uint32': 'KN', 'uint64': 'KN', 'IEType': 'KN', 'string': 'KS', '[]byte': 'KB', '[]*IE': 'KIEs', 'time.Time': 'KT',
        'time.Duration': 'KD', 'net.HardwareAddr': 'KB', '[]uint16': 'KNs', 'uint8, uint8': 'KNN', 'ul, dl uint8, err': 'KNN', '*IE': 'KIE'}
def body(name, x):
    if x in LEAF: return f'Leaf ({LEAF[x]})' if ' ' in LEAF[x] else 'Leaf ' + LEAF[x]
    k = (name, x.split('\n')[0])
    if k in HAND: return f'Leaf ({HAND[k]})' if ' ' in HAND[k] else 'Leaf ' + HAND[k]
    if INV.match(x): return 'Leaf LInvalid'
    m = FIELDS.match(x)
    if m: return f'Leaf (LFields K_{m.group(2) or m.group(3)})'
    m = VIA.match(x)
    if m:
        c, one, b1, xi, many, b2 = m.groups()
        ts = [one] if one else re.split(r',\s*', many)
        return f'{"ViaOwn" if xi == "i" else "Via"} A_{c} [{"; ".join("T_" + t for t in ts)}] A_{b1 or b2}'
    if x == 'v, err := i.NetworkInstanceFQDN()\nif err != nil {\nreturn "", err\n}\nif v != "" {\nreturn v, nil\n}\nreturn i.NetworkInstance()':
        return 'OrElse A_NetworkInstanceFQDN A_NetworkInstance'
    m = THEN.match(x)
    if m and m.group(2) in POST: return f'Then A_{m.group(1)} ' + (f'({POST[m.group(2)]})' if ' ' in POST[m.group(2)] else POST[m.group(2)])
    raise SystemExit(f'{name}: unknown body\n{x}')
SKIP = {'Marshal', 'FindByType', 'ValueAsUint8', 'ValueAsUint16', 'ValueAsUint32', 'ValueAsUint64', 'ValueAsString', 'ValueAsFQDN', 'ValueAsGrouped',
        'valueAs3GPPTimestamp', 'LocalFTEIDN'}
def table():
    for f, a, e, name, args, ret, b in methods():
        if not re.search(r'error\)$', ret) or name in SKIP: continue
        if args: raise SystemExit(name + ' has arguments')
        gs = []
        while True:
            m = re.match(r'if (?:len\(i\.Payload\) < (\d+)|(len\(i\.Payload\) == 0)|i\.Type != (\w+)) \{\nreturn ' + ZE + r', (.*)\n\}\n', b)
            if not m: break
            n, z, t, err = m.groups()
            if t:
                if err != '&InvalidTypeError{Type: i.Type}': raise SystemExit(name + ': ' + err)
                gs.append(f'GType T_{t}')
            else:
                if err != 'io.ErrUnexpectedEOF': raise SystemExit(name + ': ' + err)
                gs.append(f'GLen {n or 1}')
            b = b[m.end():]
        m = re.match(r'(?s)switch i\.Type \{\n(.*)\n\}$', b)
        cs = []; d = None
        if m:
            for ts, x in cases(m.group(1)):
                if ts == ['default']: d = body(name, x)
                else: cs.append((ts, body(name, x)))
        else: d = body(name, b)
        kind = re.match(r'\((.*?),? ?error\)$', ret).group(1)
        if kind.startswith('*') and kind.endswith('Fields'): k = f'KF K_{kind[1:-6]}'
        else: k = KIND.get(kind) or ('KNN' if kind == 'ul, dl uint8, err' else None)
        if name == 'NodeID': k = 'KNode'
        if not k: raise SystemExit(f'{name}: kind {kind} ({ret})')
        yield name, f, a, e, gs, cs, d, k
if __name__ == '__main__':
    T = list(table())
    o = open(OUT, 'w')
    o.write('(** Generated by tools/genacc.py from the text of /repo/ie/*.go.\n    The accessor methods of *IE: every method returning a value and an error, except those of ie/ie.go and ie/ie_grouped.go\n    (modelled in IE.v) and LocalFTEIDN, which takes an argument (AccRun.v). *)\nFrom Verif Require Import Base IETypes IE Access.\n\n')
    o.write('Inductive acc :=\n' + '\n'.join('| A_' + t[0] for t in T) + '.\n\n')
    o.write('Definition all_accs : list acc := [\n  ' + ';\n  '.join('A_' + t[0] for t in T) + '].\n\n')
    o.write('Definition acc_id (a : acc) : N :=\n  match a with\n' + '\n'.join(f'  | A_{t[0]} => {i}%N' for i, t in enumerate(T)) + '\n  end.\n\n')
    o.write('Inductive kind := KN | KNN | KNs | KB | KS | KNode | KIEs | KT | KD | KF (k : fkind).\n(** the result type in the Go signature (other than error) *)\nDefinition acc_kind (a : acc) : kind :=\n  match a with\n' + '\n'.join(f'  | A_{t[0]} => {t[7]}' for t in T) + '\n  end.\n\n')
    o.write('Definition acc_def (a : acc) : adef acc :=\n  match a with\n')
    for name, f, a, e, gs, cs, d, k in T:
        o.write(f'  | A_{name} => (* ie/{f}:{a}-{e} *)\n      mkdef [{"; ".join(gs)}]\n        [' + ';\n         '.join(f'([{"; ".join("T_" + t for t in ts)}], {x})' for ts, x in cs) + f'] ({d})\n')
    o.write('  end.\n'); o.close()
    print(len(T))
