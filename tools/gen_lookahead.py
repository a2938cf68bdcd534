"""Generates Lookahead.v: LALR(1) lookaheads of the grammar of asn1.y without the
derivations that lose a conflict (Conflicts.v), on the automaton of y.go.  The
tables are checked in Complete.v, nothing here is trusted."""
from lalr import *
inv,edges=build()
E={(s,X):q for s,X,q in edges}
T=lambda s:C[s]
EXCL={113,45,191}
LOSE={(n,T('OPEN_ROUND')) for n in (77,157,174,175,176,184,219,220,221,222)}|{(n,T('COMMA')) for n in (102,139,140,166,167)}
LOSE|={(40,T('TYPEORMODULEREFERENCE')),(40,T('VALUEIDENTIFIER'))}
FORB={(131,288),(192,196),(292,194)}
P=dict(PRODS); P[292]=PRODS[190]
base=lambda n:190 if n==292 else n
def sub(n,d):
    X=P[n][1][d]; out=[]
    for m in range(1,292):
        if P[m][0]!=-X or m in EXCL or (n,m) in FORB: continue
        out.append(292 if (n,m)==(187,190) else m)
    return out
nul={n:False for n in P}; first={n:set() for n in P}
ch=True
while ch:
    ch=False
    for n,(l,r) in P.items():
        f=first[n];k=len(f); ok=True
        for d,x in enumerate(r):
            if x>0: f.add(x); ok=False;break
            subs=sub(n,d)
            for m in subs: f|=first[m]
            if not any(nul[m] for m in subs): ok=False;break
        if ok and not nul[n]: nul[n]=True; ch=True
        if len(f)!=k: ch=True
def FIRST(n,d,la):
    out=set(); r=P[n][1]
    for i in range(d,len(r)):
        x=r[i]
        if x>0: out.add(x); return out
        for m in sub(n,i): out|=first[m]
        if not any(nul[m] for m in sub(n,i)): return out
    return out|la
LA={s:{} for s in inv}
LA[0][(0,0)]={1}; work=[(0,(0,0))]
def add(s,it,la):
    cur=LA[s].get(it)
    if cur is None: LA[s][it]=set(la); work.append((s,it)); return
    if not la<=cur: cur|=la; work.append((s,it))
while work:
    s,(n,d)=work.pop()
    l,r=P[n]; la=set(LA[s][(n,d)])
    if d<len(r):
        X=r[d]
        if X==1: continue
        if X<0:
            f=FIRST(n,d+1,la)
            for m in sub(n,d):
                g={t for t in f if (base(m),t) not in LOSE}
                if g: add(s,(m,0),g)
        add(E[(s,X)],(n,d+1),la)
# Runs that end: tokens on which a state only reduces until a syntax error, and the
# other tokens with which a state is entered by a goto.
def path(s,n):
    p=[]
    for X in PRODS[n][1]: s=E[(s,X)]; p.append(s)
    return p
red={}
for s in inv:
    for n,d in inv[s]:
        if d==0 and n>0:
            p=path(s,n); red.setdefault((p[-1] if p else s,n),[]).append(s)
act={(q,t):(('s',shift(q,t)) if shift(q,t) is not None else ('r',default(q,t))) for q in inv for t in range(1,129)}
W={(q,t) for (q,t),a in act.items() if a[0]=='r' and a[1]>=0}
ch=True
while ch:
    ch=False
    for (q,t) in sorted(W):
        n=act[(q,t)][1]
        if n!=0 and any((goto(s,PRODS[n][0]),t) not in W for s in red.get((q,n),[])):
            W.discard((q,t)); ch=True
En={q:set() for q in inv}
ch=True
while ch:
    ch=False
    for (q,n),ss in red.items():
        for t in range(1,129):
            if act[(q,t)]!=('r',n) or (q,t) in W or not (q==0 or Chk[q]>0 or t in En[q]): continue
            for s in ss:
                g=goto(s,PRODS[n][0])
                if (g,t) not in W and t not in En[g]: En[g].add(t); ch=True
Wm=[sum(1<<t for t in range(1,129) if (q,t) in W) for q in range(432)]
Em=[sum(1<<t for t in En[q]) for q in range(432)]
mask=lambda la:sum(1<<t for t in la)
masks=sorted({mask(la) for s in LA for la in LA[s].values()}|{mask(f) for f in first.values()}|set(Wm)|set(Em))
ix={m:i for i,m in enumerate(masks)}
with open('/verif/rocq/theories/Lookahead.v','w') as f:
    f.write('''(** Lookahead tables for Complete.v, where they are checked.  Generated by
    tools/gen_lookahead.py; not part of the model. *)
From Coq Require Import ZArith List.
Import ListNotations.
Local Open Scope Z_scope.

(** Sets of tokens, as bit masks. *)
Definition token_sets : list N :=
  [''')
    f.write(';\n   '.join('%d%%N'%m for m in masks))
    f.write('''].

(** For each rule (number 292 is rule 190 directly below rule 187): the tokens a
    phrase can begin with, as an index into [token_sets], and whether it can be
    empty. *)
Definition first_sets : list (nat * bool) :=
  [''')
    f.write('; '.join('(%d%%nat, %s)'%(ix[mask(first[n])],'true' if nul[n] else 'false') for n in range(293)))
    f.write('''].

(** For each state: rule, position of the dot, and the tokens that can follow the
    rule. *)
Definition look_items : list (list (Z * Z * nat)) :=
  [''')
    f.write(';\n   '.join('['+'; '.join('(%d, %d, %d%%nat)'%(n,d,ix[mask(la)]) for (n,d),la in sorted(LA[s].items()))+']' for s in range(432)))
    f.write('''].

(** For each state: the tokens on which the driver reports an error before it
    shifts anything, as an index into [token_sets]. *)
Definition hopeless_sets : list nat :=
  [''')
    f.write('; '.join('%d%%nat'%ix[m] for m in Wm))
    f.write('''].

(** For each state entered by a goto: the other tokens that can be next then. *)
Definition entry_sets : list nat :=
  [''')
    f.write('; '.join('%d%%nat'%ix[m] for m in Em))
    f.write('].\n')
print(len(masks),sum(len(v) for v in LA.values()))
