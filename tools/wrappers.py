#!/usr/bin/env python3
"""Check that the one-line wrappers of /repo have the expected bodies and cite them in the comments of the
definitions that model them: ParseXxxFields, (f *XxxFields) Marshal, ParseX, MessageTypeName, SEID, IsRequest.
Usage: wrappers.py [--write].  A comment that is already there is replaced."""
import glob, os, re, sys, textwrap
T = '/verif/rocq/theories/'
def norm(s): return re.sub(r'\s+', ' ', s).strip()
PARSE = lambda v, x: norm(f'{v} := &{x}{{}} if err := {v}.UnmarshalBinary(b); err != nil {{ return nil, err }} return {v}, nil')
MARSHAL = norm('b := make([]byte, f.MarshalLen()) if err := f.MarshalTo(b); err != nil { return nil, err } return b, nil')
out = {k: [] for k in ('fparse', 'fmarshal', 'mparse', 'name', 'seid', 'isreq')}
odd = []
for f in sorted(glob.glob('/repo/ie/*.go') + glob.glob('/repo/message/*.go')):
    if f.endswith('_test.go'): continue
    s = open(f).read(); name = f[len('/repo/'):]
    for m in re.finditer(r'^func (?:\((\w+) \*(\w+)\) )?(\w+)\([^\n]*\{\n(.*?)^\}', s, flags=re.S | re.M):
        rv, rt, fn, body = m.group(1), m.group(2), m.group(3), norm(m.group(4))
        a = s[:m.start()].count('\n') + 1; b = s[:m.end()].count('\n') + 1
        kind = None
        if name.startswith('ie/'):
            x = re.fullmatch(r'Parse(\w+Fields)', fn)
            if x and not rt: kind, ok = 'fparse', body == PARSE('f', x.group(1))
            elif rt and rt.endswith('Fields') and fn == 'Marshal': kind, ok = 'fmarshal', body == MARSHAL
        else:
            x = re.fullmatch(r'Parse(\w+)', fn)
            if x and not rt and x.group(1) != 'Header': kind, ok = 'mparse', body == PARSE('m', x.group(1))
            elif rt and rt != 'Header' and fn == 'MessageTypeName': kind, ok = 'name', bool(re.fullmatch(r'return ("[^"]*"|fmt.Sprintf\("Unknown \(%d\)", m.Header.Type\))', body))
            elif rt and rt != 'Header' and fn == 'SEID': kind, ok = 'seid', body == 'return m.Header.seid()'
            elif rt and rt != 'Header' and fn == 'IsRequest': kind, ok = 'isreq', body in ('return true', 'return false')
        if kind:
            if ok: out[kind].append(f'{name}:{a}-{b}')
            else: odd.append((name, fn, body))
for o in odd: print('differs:', *o)
print({k: len(v) for k, v in out.items()})
WHERE = {'fparse': ('Access.v', 'Definition fparse ', 'The wrappers ParseXxxFields'),
         'fmarshal': ('New.v', 'Definition fmarshal ', 'The wrappers (f *XxxFields) Marshal'),
         'mparse': ('Message.v', 'Definition msg_parse ', 'The wrappers ParseX'),
         'name': ('Message.v', 'Record kind ', 'MessageTypeName of each message'),
         'seid': ('Message.v', 'Definition msg_seid ', 'SEID of each message'),
         'isreq': ('Message.v', 'Record kind ', 'IsRequest of each message')}
if '--write' in sys.argv:
    for k, (file, anchor, head) in WHERE.items():
        s = open(T + file).read()
        s = re.sub(r'\(\*\* ' + re.escape(head) + r' \(tools/wrappers\.py\): .*?\*\)\n', '', s, flags=re.S)
        c = '\n'.join(textwrap.wrap(f'(** {head} (tools/wrappers.py): ' + ', '.join(out[k]) + ' *)', 150, subsequent_indent='    ', break_on_hyphens=False, break_long_words=False)) + '\n'
        if anchor:
            i = s.index(anchor)
            # before the comment that belongs to the definition, if there is one
            j = s.rfind('(**', 0, i)
            if j >= 0 and '*)' in s[j:i] and s[j:i].rstrip().endswith('*)') and s[j:i].count('*)') == 1: i = j
            s = s[:i] + c + s[i:]
        else:
            i = s.index('\n\n') + 2
            s = s[:i] + c + s[i:]
        open(T + file, 'w').write(s)
