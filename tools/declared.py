"""Prints rocq/theories/Declared.v: the declarations of src/ast/nodes.rs as data."""
import re,sys
src=open((sys.argv[1] if len(sys.argv)>1 else '/repo')+'/src/ast/nodes.rs').read()
L=src.split('\n')
def strip(l): return re.sub(r'//.*','',l)
def split0(b):
    d=0;cur='';vs=[]
    for ch in b:
        if ch in '({<':d+=1
        if ch in ')}>':d-=1
        if ch==',' and d==0: vs.append(cur.strip());cur=''
        else:cur+=ch
    if cur.strip():vs.append(cur.strip())
    return vs
def q(s): return f'lit "{s}"'
def lst(xs): return '['+'; '.join(xs)+']'
rows=[]
for i,l in enumerate(L):
    m=re.match(r'pub (enum|struct) (Node\w+)',l)
    if not m: continue
    j=i
    while L[j]!='}': j+=1
    body=' '.join(strip(x) for x in L[i+1:j])
    name=m.group(2)
    if m.group(1)=='struct':
        vs=[(name,[x.replace('pub ','').split(':')[0].strip() for x in split0(body)],len(split0(body)))]
    else:
        vs=[]
        for v in split0(body):
            n=re.match(r'\w+',v).group(0);rest=v[len(n):].strip()
            parts=split0(rest[1:-1]) if rest else []
            labels=[x.split(':')[0].strip() for x in parts] if rest.startswith('{') else []
            vs.append((n,labels,len(parts)))
    rows.append((name,i+1,j+1,vs))
print('''(** The declarations of src/ast/nodes.rs: of each type its variants in order, of
    each variant its name, the names of its fields if they have names, and how many
    fields it has.  A struct is its only variant.  Printed by tools/declared.py. *)
From Verif Require Import Chars Lexer.

Definition declarations : list (str * list (str * list str * nat)) :=
  [''' )
print(';\n'.join(f'   (* nodes.rs:{a}-{b} *)\n   ({q(n)}, '+lst([f'({q(v)}, {lst([q(x) for x in ls])}, {k}%nat)' for v,ls,k in vs])+')' for n,a,b,vs in rows))
print('  ].')
