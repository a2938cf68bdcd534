"""LR(0) automaton of asn1.y matched against the tables of y.go."""
from gosrc import *
Pact=table('yyPact')[0]; Act=table('yyAct')[0]; Chk=table('yyChk')[0]; Def=table('yyDef')[0]
Pgo=table('yyPgo')[0]; R1=table('yyR1')[0]; R2=table('yyR2')[0]; Exca=table('yyExca')[0]
Last=912; Flag=-1000
C={a:b-57344+2 for a,b,_ in consts()}
RULES=rules()
NT={lhs:R1[n] for n,lhs,_,_,_ in RULES}
SYM={}
def sym(s): return C[s] if s in C else -NT[s]
PRODS={n:(NT[lhs],[sym(s) for s in rhs]) for n,lhs,rhs,_,_ in RULES}
PRODS[0]=(0,[-NT['ModuleDefinition'],1])
BYLHS={}
for n,(l,r) in PRODS.items(): BYLHS.setdefault(l,[]).append(n)
NAME={v:k for k,v in C.items()}; NAME.update({-v:k for k,v in NT.items()}); NAME[1]='$end'
def shift(s,t):
    n=Pact[s]
    if n<=Flag: return None
    n+=t
    if n<0 or n>=Last: return None
    n=Act[n]
    return n if Chk[n]==t else None
def default(s,t):
    n=Def[s]
    if n==-2:
        xi=0
        while not(Exca[xi]==-1 and Exca[xi+1]==s): xi+=2
        xi+=2
        while True:
            n=Exca[xi]
            if n<0 or n==t: break
            xi+=2
        n=Exca[xi+1]
    return n
def goto(s,a):
    g=Pgo[a]; j=g+s+1
    if j>=Last: return Act[g]
    q=Act[j]
    return q if Chk[q]==-a else Act[g]
def closure(I):
    I=set(I); st=list(I)
    while st:
        p,d=st.pop()
        r=PRODS[p][1]
        if d<len(r) and r[d]<0:
            for q in BYLHS[-r[d]]:
                if (q,0) not in I: I.add((q,0)); st.append((q,0))
    return frozenset(I)
def build():
    start=closure({(0,0)})
    st={start:0}; inv={0:start}; edges=[]; todo=[start]
    while todo:
        I=todo.pop(); s=st[I]
        nxt={}
        for p,d in I:
            r=PRODS[p][1]
            if d<len(r) and r[d]!=1: nxt.setdefault(r[d],set()).add((p,d+1))
        for X,K in nxt.items():
            J=closure(K)
            q=shift(s,X) if X>0 else goto(s,-X)
            if q is None: print('no shift',s,NAME[X]); continue
            if J in st:
                if st[J]!=q: print('mismatch',s,NAME[X],st[J],q)
            else:
                if q in inv: print('clash',q)
                st[J]=q; inv[q]=J; todo.append(J)
            edges.append((s,X,q))
    return inv,edges
if __name__=='__main__':
    inv,edges=build()
    print(len(inv),len(edges))
    # conflicts: which reduce items lose
    es={(s,X) for s,X,_ in edges}
    for s in range(432):
        for t in range(1,129):
            if shift(s,t) is not None and (s,t) not in es: print('extra shift',s,NAME[t])
    for s in sorted(inv):
        red=[p for p,d in inv[s] if d==len(PRODS[p][1])]
        acts=set(default(s,t) for t in range(1,129))
        if len(red)>1 or (red and any((s,t) in es for t in range(1,129))):
            def show(p): return NAME[-PRODS[p][0]]+' -> '+' '.join(NAME[x] for x in PRODS[p][1])
            print(s,'reductions:',[ (p,show(p)) for p in red],'shifts:',[NAME[t] for t in range(1,129) if (s,t) in es], 'acts',acts)
