"""Generates Automaton.v: productions, LR(0) item sets, successors and weights.

The file is data for proofs: the theorems about it are checked in DriverTables.v
against the tables of y.go (Tables.v)."""
from lalr import *
out='/verif/rocq/theories/'
inv,edges=build()
N=len(inv)
E={(s,X):q for s,X,q in edges}
succ={s:[] for s in inv}
for s,X,q in edges: succ[s].append(q)
acts={s:{n for n in (default(s,t) for t in range(1,129) if shift(s,t) is None) if n>0} for s in inv}
cons=[]
for s0 in inv:
    for (n,d) in inv[s0]:
        if d==0 and n>0:
            path=[];s=s0
            for X in PRODS[n][1]: s=E[(s,X)]; path.append(s)
            if n in acts[s]: cons.append((path,s,goto(s0,PRODS[n][0])))
nullable=set()
while True:
    k=len(nullable)
    for n,(l,r) in PRODS.items():
        if all(x<0 and -x in nullable for x in r): nullable.add(l)
    if len(nullable)==k: break
g={s:(20 if (Chk[s]>0 or s==0) else 1 if -Chk[s] in nullable else 10) for s in inv}
h={s:0 for s in inv}
ch=True
while ch:
    ch=False
    for path,top,t in cons:
        need=g[t]+h[t]+1-sum(g[x] for x in path)
        if h[top]<need: h[top]=need; ch=True
def wrap(items,width=92):
    lines=[];cur=''
    for i,s in enumerate(items):
        s=s+(';' if i<len(items)-1 else '')
        if cur and len(cur)+1+len(s)>width: lines.append(cur); cur=s
        else: cur=(cur+' '+s) if cur else s
    lines.append(cur)
    return '\n   '.join(lines)
lst=lambda l:'['+'; '.join(map(str,l))+']'
nts=[]
for n,l,r,a,ln in RULES:
    if l not in nts: nts.append(l)
with open(out+'Automaton.v','w') as f:
    f.write('''(** Productions of asn1.y and the LR(0) automaton behind the tables of y.go, with
    the weights of the termination argument.  Generated by
    tools/gen_automaton.py; data for proofs only (the model does not use it), what
    it says of the tables is checked in [DriverTables]. *)
From Coq Require Import ZArith List.
From Verif Require Import Grammar.
Import ListNotations.
Local Open Scope Z_scope.

''')
    f.write('(** Productions by number (yyR1 and yyR2, y.go:542-606, and asn1.y): left side and right side; a\n    terminal is its internal number (57342 less than its constant), a nonterminal\n    is minus its number in yyR1; number 0 is the production of $accept. *)\nDefinition prods : list (Z * list Z) :=\n  [%s].\n\n'%wrap(['(%d, %s)'%(PRODS[n][0],lst(PRODS[n][1])) for n in sorted(PRODS)]))
    f.write('(** The LR(0) items (production, position of the dot) of each state. *)\nDefinition state_items : list (list (Z * Z)) :=\n  [%s].\n\n'%wrap([lst(['(%d,%d)'%x for x in sorted(inv[s])]) for s in range(N)]))
    f.write('(** The successors of each state. *)\nDefinition state_succs : list (list Z) :=\n  [%s].\n\n'%wrap([lst(sorted(succ[s])) for s in range(N)]))
    f.write('(** Weight of a stack entry, by state. *)\nDefinition weight_entry : list Z :=\n  [%s].\n\n'%wrap([str(g[s]) for s in range(N)]))
    f.write('(** Weight of the top of the stack, by state. *)\nDefinition weight_top : list Z :=\n  [%s].\n\n'%wrap([str(h[s]) for s in range(N)]))
    mx=max(NT.values())
    by={v:k for k,v in NT.items()}
    f.write('(** The nonterminal of a number of yyR1. *)\nDefinition nonterms : list (option nonterm) :=\n  [%s].\n'%wrap([('Some N_'+by[i]) if i in by else 'None' for i in range(mx+1)]))
    f.write('\n(** The number of a nonterminal. *)\nDefinition nt_number (N : nonterm) : Z :=\n  match N with\n'+''.join('  | N_%s => %d\n'%(by[i],i) for i in sorted(by))+'  end.\n')
