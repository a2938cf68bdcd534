"""Generates Tokens.v and Tables.v from /repo/y.go."""
from gosrc import *
out='/verif/rocq/theories/'
def ident(n): return 'T_'+n
with open(out+'Tokens.v','w') as f:
    f.write('(** Token constants of y.go:75-199, generated by tools/gen_tables.py. *)\n')
    f.write('From Coq Require Import ZArith.\nLocal Open Scope Z_scope.\n\n')
    for n,v,l in consts():
        f.write('(** y.go:%d *)\nDefinition %s : Z := %d.\n'%(l,ident(n),v))
def wrap(nums,sep='; '):
    lines=[];cur=''
    for x in nums:
        s=str(x) if not isinstance(x,str) else x
        if len(cur)+len(s)>90: lines.append(cur); cur=''
        cur+= (s+sep)
    lines.append(cur)
    return '\n   '.join(lines).rstrip().rstrip(';')
with open(out+'Tables.v','w') as f:
    f.write('(** Parser tables of y.go, copied number by number by tools/gen_tables.py. *)\n')
    f.write('From Coq Require Import ZArith String List.\nImport ListNotations.\nLocal Open Scope Z_scope.\n\n')
    for t in ['yyExca','yyAct','yyPact','yyPgo','yyR1','yyR2','yyChk','yyDef','yyTok1','yyTok2','yyTok3']:
        nums,a,b=table(t)
        f.write('(** y.go:%d-%d (%d entries) *)\nDefinition %s : list Z :=\n  [%s].\n\n'%(a,b,len(nums),t,wrap(nums)))
    names,a,b=toknames()
    f.write('(** y.go:%d-%d *)\nDefinition yyToknames : list string :=\n  [%s]%%string.\n\n'%(a,b,wrap(['"%s"'%n for n in names])))
    f.write('(** y.go:334 *)\nDefinition yyEofCode : Z := 1.\n(** y.go:335 *)\nDefinition yyErrCode : Z := 2.\n(** y.go:336 *)\nDefinition yyInitialStackSize : nat := 16%nat.\n\n')
    f.write('(** y.go:378 *)\nDefinition yyPrivate : Z := 57344.\n\n(** y.go:380 *)\nDefinition yyLast : Z := 912.\n\n(** y.go:765 *)\nDefinition yyFlag : Z := -1000.\n')
L=open('/repo/lexer.go').read().split('\n')
with open(out+'Reserved.v','w') as f:
    f.write('(** RESERVED_WORDS of lexer.go:14-97, generated by tools/gen_tables.py. *)\n')
    f.write('From Coq Require Import ZArith String List.\nFrom Verif Require Import Tokens.\nImport ListNotations.\nLocal Open Scope string_scope.\n\n')
    f.write('(** lexer.go:14-97: word and token constant, in source order. *)\nDefinition RESERVED_WORDS : list (string * Z) :=\n  [')
    items=[]
    for l in L[:100]:
        m=re.match(r'\s*"([\w-]+)":\s*(\w+),',l)
        if m: items.append('("%s", T_%s)'%(m.group(1),m.group(2)))
    f.write(';\n   '.join(items)+'].\n')
