#!/usr/bin/env python3
"""Writes theories/Spare.v: the decoders of Fields1.v to Fields4.v and the case bodies of Access.v again, on a slice of
length L of a memory M that goes on to the slice's capacity.  b[lo:hi] is bounded by the capacity, b[i] and len(b) by L.
The text of each definition is taken from those files; only the primitive operations are replaced."""
import re,sys
T='/verif/rocq/theories/'
src=''.join(open(T+f'Fields{k}.v').read()+'\n' for k in (1,2,3,4))
order='fteid fseid ueip altip srcip ulip mptcp pmf rpeer mcast volm vol3 nue delays prate dlfl prstat tag sdf ohc userid henr redir macaddr upri trace pfdc macl'.split()
def cut(name):
    i=src.index(f'Definition {name} ' if f'Definition {name} ' in src else f'Fixpoint {name} ')
    j=re.compile(r'\.\n').search(src,i).end()
    pre=src.rfind('(**',0,i); c=src[pre:src.index('*)',pre)+2]
    return c,src[i:j]
def conv(t):
    t=re.sub(r'\(b : list N\) ?','',t)
    t=re.sub(r'let l := length b in\n','let l := L in\n',t)
    t=t.replace('length b','L')
    t=re.sub(r'need ((?:\([^()]*(?:\([^()]*\))?[^()]*\)|\w+)) in b ;;',r'room \1 ;;',t)
    t=re.sub(r'r <- from b o ;; need (\([^;]*\)|\d+) in r ;;',r'_ <- cfrom o ;; room (o + \1) ;;',t)
    t=re.sub(r'\bindex b ',r'cindex ',t)
    t=re.sub(r'\bslice b ',r'slice M ',t)
    t=re.sub(r'\bgetr (\d) b ',r'getr \1 M ',t)
    t=re.sub(r'\b(rd|rdf) (\([^()]*\)|\d+) b ',r'c\1 \2 ',t)
    t=re.sub(r'\b(rdb|rdn|rds|rdsf|rdnf) (\([^()]*(?:\([^()]*\)[^()]*)*\)|\w+) (\([^()]*\)|\d+) b ',r'c\1 \2 \3 ',t)
    t=re.sub(r'\b(rd8s|rd16s (?:true|false)|rd_rate) (\([^()]*\)|\w+) b o',r'c\1 \2 o',t)
    t=re.sub(r'\brd1 b o',r'crd1 o',t)
    t=re.sub(r'\bskip_nil (\w+) b o',r'cskip_nil \1 o',t)
    t=re.sub(r'\brd_macs (\([^()]*(?:\([^()]*\)[^()]*)*\)|k) b ',r'crd_macs \1 ',t)
    t=t.replace('pfd_items p ','citems (length p) (skipn (o - length p) M) ')
    t=re.sub(r'\b(\w+)_parse\b',r'\1_cap',t)
    return t
out=[]
def emit(name,new):
    c,t=cut(name)
    t=conv(t)
    t=re.sub(r'\b'+name+r'\b',new,t)
    bad=re.search(r'\bb\b',t)
    if bad: print('left over b in',name,':',t); sys.exit(1)
    out.append(c+'\n'+t)
for f in order:
    if f=='prate': emit('rd_rate','crd_rate')
    if f=='trace': emit('rd1','crd1'); emit('skip_nil','cskip_nil')
    if f=='pfdc': emit('rd16s','crd16s')
    if f=='macl': emit('rd_macs','crd_macs')
    emit(f+'_parse',f+'_cap')
head=open('/verif/tools/spare_head.txt').read(); tail=open('/verif/tools/spare_tail.txt').read()
acc=open(T+'Access.v').read(); i=acc.index('Definition fparse'); i=acc.index('  | K_',i); j=acc.index('\n  end',i)
tail=tail.replace('@FPARSE@',re.sub(r'(\w+)_parse b\)',r'\1_cap L M)',acc[i:j]))
open(sys.argv[1],'w').write(head+''.join(out)+tail)
