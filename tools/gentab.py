import re,sys
sys.path.insert(0,'/tmp/w')
from msgs import out,norm
msgsrc=open('/repo/message/message.go').read()
codes=dict((a,int(b)) for a,b in re.findall(r'(MsgType\w+)\s+uint8 = (\d+)',msgsrc))
disp=re.findall(r'case (MsgType\w+):\n\t\tm = &(\w+)\{\}',msgsrc)
def line(src,pat): return src[:src.index(pat)].count('\n')+1
W=[]
W.append('''(** Tables of the 24 message types, transcribed from message/*.go (one record per file): the struct
    fields, the constructor, the UnmarshalBinary switch, and the field orders of MarshalTo, MarshalLen
    and SetLength.  Each column is transcribed from its own function, so that agreement between them is
    something to prove (MessageProofs.v), not something built in.
    Field numbers index the struct fields other than Header and IEs.
    Generated by tools/gentab.py from the sources. *)
From Coq Require Import String.
From Verif Require Import Base IETypes Message.
Local Open Scope string_scope.
Local Open Scope N_scope.
Local Open Scope list_scope.
''')
def sw(body,idx,multi):
    r=[]
    m=re.search(r'switch i\.Type \{(.*)default:',body,re.S)
    seg=m.group(1)
    for mm in re.finditer(r'case ([\w., \n\t]+):\n(.*?)(?=\n\t*case |\Z)',seg,re.S):
        st=norm(mm.group(2))
        a=re.fullmatch(r'm\.(\w+) = i',st); b=re.fullmatch(r'm\.(\w+) = append\(m\.(\w+), i\)',st)
        assert a or b,st
        if b: assert b.group(1)==b.group(2)
        for t in mm.group(1).split(','):
            t=t.strip(); assert t.startswith('ie.')
            f=(a or b).group(1)
            assert multi[f]==bool(b)
            r.append('(T_%s, %s %d)'%(t[3:],'ASet' if a else 'AApp',idx[f]))
    n=len(re.findall(r'case ',seg)); 
    tail=body[m.end():]
    assert norm(tail).startswith('m.IEs = append(m.IEs, i) } }'),tail
    return '['+';\n     '.join(r)+']'
order=[n for _,n in disp]+['Generic']
for n in order:
    d=out[n]; fs=[(f,t) for f,t in d['fields'] if f!='IEs']
    assert d['fields'][-1]==('IEs','[]*ie.IE')
    idx={f:i for i,(f,t) in enumerate(fs)}; multi={f:t=='[]*ie.IE' for f,t in fs}
    F=d['funcs']; 
    def rng(fn): return '%d-%d'%(F[fn][0],F[fn][1])
    # constructor
    s,e,args,body=F['New'+n]; b=norm(body)
    hm=re.search(r'Header: NewHeader\( (.*?) \),?',b).group(1)
    code='MsgType'+n
    hm=re.sub(r',$','',hm.strip())
    if hm=='1, 0, 0, 0, %s, 0, seq, 0, nil'%code: hs='HNode'
    elif hm=='1, fo, mp, 1, %s, seid, seq, pri, nil'%code: hs='HSession'
    elif n=='Generic': assert hm=='1, 0, 0, 1, msgType, seid, seq, 0, nil',hm; hs='HGeneric'
    else: raise Exception(hm)
    if hs=='HSession': assert args.startswith('mp, fo uint8, seid uint64, seq uint32, pri uint8, ies ...*ie.IE'),args
    if 'switch i.Type' in b:
        ct='CSwitch\n    '+sw(body,idx,multi); assert b.endswith('m.SetLength() return m')
    else:
        ps=re.findall(r'(\w+): (\w+),',b[b.index('NewHeader('):])
        ps=[(f,v) for f,v in ps]
        assert ps[-1]==('IEs','ies'),ps
        ps=ps[:-1]
        a=args.split('seq uint32, ')[1]
        a=a.replace('pri uint8, ','')
        a=re.sub(r' \*ie\.IE','',a).split(', ies ...')[0] if 'ies ...' in a and not a.startswith('ies') else ''
        names=[x.strip() for x in a.split(',') if x.strip()]
        assert sorted(names)==sorted(v for f,v in ps),(n,names,ps)
        mp={v:f for f,v in ps}
        assert b.endswith('m.SetLength() return m')
        ct='CFields [%s]%%nat'%'; '.join(str(idx[mp[x]]) for x in names)
    # unmarshal
    ub=F['UnmarshalBinary'][3]; u=norm(ub)
    pre='var err error m.Header, err = ParseHeader(b) if err != nil { return err } if len(m.Header.Payload) < 2 { return nil } '
    assert u.startswith(pre); u=u[len(pre):]
    mode='IAppend'
    if n=='Generic':
        assert u=='m.IEs, err = ie.ParseMultiIEs(m.Header.Payload) if err != nil { return err } return nil'; us='[]'; mode='IReplace'
    else:
        p2='ies, err := ie.ParseMultiIEs(m.Header.Payload) if err != nil { return err } '
        assert u.startswith(p2); u=u[len(p2):]
        if u=='m.IEs = append(m.IEs, ies...) return nil': us='[]'
        else:
            assert u.startswith('for _, i := range ies { switch i.Type {') and u.endswith('default: m.IEs = append(m.IEs, i) } } return nil'),u
            us=sw(ub,idx,multi)
    # orders
    def orders(fn,b):
        b=re.sub(r'if i := m\.(\w+); i != nil \{ if err := i\.MarshalTo\(m\.(?:Header\.)?Payload\[offset:\]\); err != nil \{ return err \} offset \+= i\.MarshalLen\(\) \}',r'ONE(\1)',b)
        b=re.sub(r'for _, i := range m\.(\w+) \{ if err := i\.MarshalTo\(m\.(?:Header\.)?Payload\[offset:\]\); err != nil \{ return err \} offset \+= i\.MarshalLen\(\) \}',r'MANY(\1)',b)
        b=b.replace('for _, ie := range m.IEs { if ie == nil { continue } if err := ie.MarshalTo(m.Header.Payload[offset:]); err != nil { return err } offset += ie.MarshalLen() }','IES')
        b=re.sub(r'if i := m\.(\w+); i != nil \{ l \+= i\.MarshalLen\(\) \}',r'ONE(\1)',b)
        b=re.sub(r'for _, i := range m\.(\w+) \{ l \+= i\.MarshalLen\(\) \}',r'MANY(\1)',b)
        b=b.replace('for _, ie := range m.IEs { if ie == nil { continue } l += ie.MarshalLen() }','IES')
        b=b.replace('for _, ie := range m.IEs { l += ie.MarshalLen() }','IES_NONIL')
        b=b.replace('if m.Header.Payload != nil { m.Header.Payload = nil } m.Header.Payload = make([]byte, m.MarshalLen()-m.Header.MarshalLen()) offset := 0','PRE')
        b=b.replace('m.Header.SetLength() return m.Header.MarshalTo(b)','POST')
        b=b.replace('l := m.Header.MarshalLen() - len(m.Header.Payload) - 4','PRE4').replace('l := m.Header.MarshalLen() - len(m.Header.Payload)','PRE')
        return b
    def lst(b,pre,post):
        assert b.startswith(pre) and b.endswith(post),(n,b)
        mid=b[len(pre):len(b)-len(post)].split()
        r=[]
        for x in mid:
            m=re.fullmatch(r'(ONE|MANY)\((\w+)\)',x); assert m,(n,x)
            assert multi[m.group(2)]==(m.group(1)=='MANY')
            r.append(str(idx[m.group(2)]))
        return '['+'; '.join(r)+']%nat'
    mt=lst(orders('MarshalTo',norm(F['MarshalTo'][3])),'PRE ','IES POST')
    ml=lst(orders('MarshalLen',norm(F['MarshalLen'][3])),'PRE ','IES return l')
    sl=norm(F['SetLength'][3])
    if sl=='m.Header.Length = uint16(m.MarshalLen() - 4)': st='None'
    else: st='(Some %s)'%lst(orders('SetLength',sl),'PRE4 ','IES_NONIL m.Header.Length = uint16(l)')
    mm=norm(F['Marshal'][3]); assert mm=='b := make([]byte, m.MarshalLen()) if err := m.MarshalTo(b); err != nil { return nil, err } return b, nil',mm
    pm=norm(F['Parse'+n][3]); assert pm=='m := &%s{} if err := m.UnmarshalBinary(b); err != nil { return nil, err } return m, nil'%n,pm
    assert norm(F['SEID'][3])=='return m.Header.seid()'
    nm=re.fullmatch(r'return "(.*)"',norm(F['MessageTypeName'][3]))
    nm='(Some "%s")'%nm.group(1) if nm else 'None'
    rq=norm(F['IsRequest'][3]).replace('return ','')
    W.append('(** %s: New %s, Marshal/MarshalTo %d-%d, UnmarshalBinary %s, MarshalLen %s, SetLength %s *)'%(d['file'],rng('New'+n),F['Marshal'][0],F['MarshalTo'][1],rng('UnmarshalBinary'),rng('MarshalLen'),rng('SetLength')))
    W.append('Definition K_%s : kind := mkKind "%s" %s'%(n,n,codes.get(code,0)))
    W.append('  (* fields *) [%s]'%';\n     '.join('("%s", %s)'%(f,'true' if multi[f] else 'false') for f,t in fs))
    W.append('  (* New *) %s (%s)'%(hs,ct))
    W.append('  (* UnmarshalBinary *) %s\n    %s'%(mode,us))
    W.append('  (* MarshalTo *) %s'%mt)
    W.append('  (* MarshalLen *) %s'%ml)
    W.append('  (* SetLength *) %s'%st)
    W.append('  (* MessageTypeName, IsRequest *) %s %s.\n'%(nm,rq))
W.append('(** The switch of message.Parse, message/message.go:66-116. *)')
W.append('Definition dispatch : list (N * kind) :=\n  ['+';\n   '.join('(%d, K_%s)'%(codes[c],n) for c,n in disp)+'].')
W.append('Definition kinds : list kind := map snd dispatch ++ [K_Generic].')
open('/verif/rocq/theories/MsgTables.v','w').write('\n'.join(W)+'\n')
