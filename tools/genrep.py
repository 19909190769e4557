import re
exec(open('/verif/tools/gengo.py').read().split("if __name__")[0])
S={}
for fn in ['Fields1','Fields2','Fields3','Fields4']:
    s=open('/verif/rocq/theories/%s.v'%fn).read()
    for m in re.finditer(r'Record (\w+) := \{([^}]*)\}',s):
        S[m.group(1)]=[tuple(y.strip() for y in x.split(' : ')) for x in m.group(2).split(';')]
kinds=re.search(r'Definition fzero.*?end\.',open('/verif/rocq/theories/Reuse.v').read(),re.S).group(0)
K={}
for m in re.finditer(r'\| ([^=]*) => F_(\w+) ',kinds):
    for k in m.group(1).split('|'): K[k.strip()[2:]]=m.group(2)
C={'N':'GN','bslice':'GB','list N':None,'list (list N)':'GL','Z':'GT'}
print('''(** The contents of the Coq records as members of the Go structs, with their Go names.
    Members no method reads or writes are left out: TEID and ChooseID of AlternativeSMFIPAddressFields and CPPFCPEntityIPAddressFields,
    Flags of HeaderEnrichmentFields. *)
From Coq Require Import String.
From Verif Require Import Base Codec Fields1 Fields2 Fields3 Fields4 Access Reuse Go GoFields.
Open Scope string_scope.
''')
groups={}
for t in sorted(K):
    mem=members(t+'Fields'); r=K[t]; fs=S[r]
    names=list(mem)
    if r=='altip': names=['Flags','IPv4Address','IPv6Address']
    if r=='henr': names=names[1:]
    assert len(names)==len(fs),(t,names,fs)
    l=[]
    for n,(p,ty) in zip(names,fs):
        c=C[ty]; v='(%s f)'%p
        if ty=='list N':
            if mem[n]=='string': c='GS'
            else: c='GB'; v='(Some (%s f))'%p
        l.append('("%s", %s %s)'%(n,c,v))
    groups.setdefault((r,'; '.join(l)),[]).append(t)
cnt={}
nm={}
for (r,l),ts in groups.items():
    n='rep_'+r+('' if r not in cnt else str(cnt[r]))
    cnt[r]=cnt.get(r,0)+1
    for t in ts: nm[t]=n
    print('(** '+', '.join(where[t+'Fields','type'] for t in ts)+' *)')
    print('Definition %s (f : %s) : store :=\n  [%s].'%(n,r,l))
print('''
Definition rep (k : fkind) (f : fields) : option store :=
  match k, f with''')
for t in sorted(K): print('  | K_%s, F_%s f => Some (%s f)'%(t,K[t],nm[t]))
print('''  | _, _ => None
  end.''')
