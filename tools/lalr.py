#!/usr/bin/env python3
"""Builds the LALR(1) automaton of the normalised grammar (theories/Cfg.v) and
writes it as Coq data (theories/Tables.v).

usage:  cd rocq && coqc -Q theories Verif ../tools/dump_grammar.v.txt (copied to a .v file) > /tmp/dump.txt
        python3 ../tools/lalr.py /tmp/dump.txt theories/Tables.v

Nothing here is trusted: the Coq file Lr.v contains a checker for the tables
that is run by the kernel (LrCheck.v), and the theorems are proved from it."""
import sys, re, collections
txt=open(sys.argv[1]).read()
m=re.search(r'= (\[\(100.*?\])\s*: list \(N \* list \(list N\)\)',txt,re.S)
G=eval(m.group(1).replace(';',','))
g=open('theories/Grammar.v').read()
def cons(name):
    m=re.search(r'Inductive '+name+r' :=(.*?)\.\n',g,re.S)
    return re.findall(r'\w+',m.group(1))
tks=cons('tk'); nts=cons('nt')
EOF=63
P={b:rs for b,rs in G}
def isT(x): return x<100
def name(b):
    if b<100: return f'(BT {tks[b]})'
    if b<200: return f'(BN {nts[b-100]})'
    if b<400: return f'(BP (Nt {nts[b-300]}))'
    return f'(BS {nts[b-400]})'
for b in P:
    for r in P[b]: assert r
first={b:set() for b in P}
for t in range(len(tks)): first[t]={t}
ch=True
while ch:
    ch=False
    for b in P:
        for r in P[b]:
            n=first[b]|first[r[0]]
            if n!=first[b]: first[b]=n; ch=True
# LR(0)
def closure0(kernel):
    items=list(kernel); seen=set(items); i=0
    while i<len(items):
        b,j,d=items[i]; i+=1
        r=P[b][j]
        if d<len(r) and not isT(r[d]):
            for k in range(len(P[r[d]])):
                it=(r[d],k,0)
                if it not in seen: seen.add(it); items.append(it)
    return items
starts=[b for b in P if b>=400]
states=[]; index={}; trans=[]
def add(kernel):
    k=tuple(sorted(kernel))
    if k in index: return index[k]
    index[k]=len(states); states.append(closure0(k)); trans.append({}); return index[k]
for b in starts: add([(b,0,0)])
i=0
while i<len(states):
    by=collections.OrderedDict()
    for (b,j,d) in states[i]:
        r=P[b][j]
        if d<len(r): by.setdefault(r[d],[]).append((b,j,d+1))
    for x,k in by.items(): trans[i][x]=add(k)
    i+=1
# LALR lookaheads by propagation
la=[{it:set() for it in s} for s in states]
for n,b in enumerate(starts): la[n][(b,0,0)].add(EOF)
work=collections.deque(range(len(states))); inq=set(work)
while work:
    s=work.popleft(); inq.discard(s)
    ch=True
    while ch:
        ch=False
        for (b,j,d) in states[s]:
            r=P[b][j]
            if d<len(r) and not isT(r[d]):
                f=first[r[d+1]] if d+1<len(r) else la[s][(b,j,d)]
                for k in range(len(P[r[d]])):
                    t=la[s][(r[d],k,0)]
                    if not f<=t: t|=f; ch=True
    for (b,j,d) in states[s]:
        r=P[b][j]
        if d<len(r):
            q=trans[s][r[d]]; t=la[q][(b,j,d+1)]
            if not la[s][(b,j,d)]<=t:
                t|=la[s][(b,j,d)]
                if q not in inq: work.append(q); inq.add(q)
conf=0
acts=[]
for s in range(len(states)):
    a={}
    for x,q in trans[s].items():
        if isT(x): a[x]=f'Shift {q}'
    for (b,j,d) in states[s]:
        if d==len(P[b][j]):
            for t in la[s][(b,j,d)]:
                v=f'Reduce {name(b)} {j}'
                if t in a and a[t]!=v: print('CONFLICT',s,t,a[t],v); conf+=1
                a[t]=v
    acts.append(a)
print(len(states),'states',conf,'conflicts',sum(map(len,states)),'items')
assert conf==0
# ranks: unit productions strictly increase the rank
rank={t:0 for t in range(len(tks))}
def rk(b,path=()):
    assert b not in path,'unit cycle'
    if b in rank: return rank[b]
    v=0
    for r in P[b]:
        if len(r)==1: v=max(v,1+rk(r[0],path+(b,)))
    rank[b]=v; return v
for b in P: rk(b)
# productive witness: production whose nonterminals all have smaller depth
depth={t:0 for t in range(len(tks))}; wit={}
ch=True
while ch:
    ch=False
    for b in P:
        for j,r in enumerate(P[b]):
            if all(x in depth for x in r):
                v=1+max(depth[x] for x in r)
                if b not in depth or v<depth[b]:
                    depth[b]=v; wit[b]=j; ch=True
mask=lambda s: sum(1<<x for x in s)
o=open(sys.argv[2],'w')
w=o.write
w('''(** GENERATED by tools/lalr.py from the grammar of Cfg.v; do not edit.
    The LALR(1) automaton of src/parser/parser.lalrpop with one start state per
    entry point.  Nothing in this file is trusted: LrCheck.v checks it. *)
From Verif Require Import Chars Lexer Ast Grammar Cfg.

(** An entry of the action table. *)
Inductive action := Shift (s : N) | Reduce (b : bsym) (j : nat).

Record state := mkstate { st_actions : list (N * action); st_gotos : list (N * N) }.

''')
w('Definition states : list state := [\n')
w(';\n'.join('mkstate ['+'; '.join(f'({t}, {v})' for t,v in sorted(acts[s].items()))+']\n  ['+'; '.join(f'({x}, {q})' for x,q in sorted(trans[s].items()) if not isT(x))+']' for s in range(len(states))))
w('\n].\n\n')
w('(** Start state of each entry point. *)\nDefinition start_state (A : nt) : N := nt_code A.\n\n')
assert [b-400 for b in starts]==list(range(len(nts)))
w('(** Certificates used by the checker only: LR(1) items (production, dot, look-ahead\n    set as a bit mask) of every state, FIRST sets, ranks and depths. *)\n')
w('Definition state_items : list (list (bsym * nat * nat * N)) := [\n')
w(';\n'.join('['+'; '.join(f'({name(b)}, {j}%nat, {d}%nat, {mask(la[s][(b,j,d)])})' for (b,j,d) in states[s])+']' for s in range(len(states))))
w('\n].\n\n')
w('Definition first_table : list (N * N) := [\n'+'; '.join(f'({b}, {mask(first[b])})' for b in sorted(first))+'].\n\n')
w('Definition rank_table : list (N * N) := [\n'+'; '.join(f'({b}, {rank[b]})' for b in sorted(rank))+'].\n\n')
w('(** production used to build a shortest tree of each symbol, and its depth *)\n')
w('Definition depth_table : list (N * (nat * N)) := [\n'+'; '.join(f'({b}, ({wit[b]}%nat, {depth[b]}))' for b in sorted(wit))+'].\n')
o.close()
