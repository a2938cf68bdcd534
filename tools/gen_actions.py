"""Generates Actions.v (model of the actions in y.go) and Grammar.v (the grammar of
asn1.y as an inductive relation)."""
import re
import gosrc
from goexpr import *
out='/verif/rocq/theories/'
CONST={n for n,_,_ in gosrc.consts()}
tokconst=lambda s: 'T_'+s if s in CONST else None
union=[(f,t) for f,t in gosrc.union_fields() if f not in('SequenceType','SequenceOfType')]
UT=dict(union); FIELDGO=dict(union)
acts=gosrc.actions(); rules=gosrc.rules(); ty=gosrc.types()
RL={n:(l,r,a,ln) for n,l,r,a,ln in rules}

def parse_action(lines):
    """-> (env statements, target, expr text)"""
    env=[]
    for l in lines:
        m=re.match(r'(\w+) := (.*)$',l)
        if m: env.append((m.group(1),m.group(2))); continue
        m=re.match(r'yyVAL\.(\w+) = (.*)$',l)
        if m: tgt=m.group(1); ex=m.group(2); continue
        m=re.match(r'yylex\.\(\*MyLexer\)\.result = (.*)$',l)
        if m: tgt='result'; ex=m.group(1); continue
        assert l.startswith('//line'),l
    return env,tgt,ex

HDR='''(** Model of the semantic actions of y.go:1061-2239 (the body of [switch yynt]).
    Generated by tools/gen_actions.py from y.go; one definition per [case]. *)
From Coq Require Import ZArith String List SpecFloat.
From Verif Require Import GoBase Tokens Ast RealNum.
Import ListNotations.
Local Open Scope string_scope.
Local Open Scope list_scope.
Local Open Scope Z_scope.

'''
with open(out+'Actions.v','w') as f:
    f.write(HDR)
    f.write('(** yySymType, y.go:14-74, without [yys] (kept beside the value in the parser\n    stack) and without the fields SequenceType and SequenceOfType, which no action\n    uses. *)\n')
    f.write('Record yySymType (P R : Type) : Type := {\n')
    f.write(';\n'.join('  yy_%s : %s'%(n,coq_type(t)) for n,t in union)+'\n}.\n')
    for n,_ in union: f.write('Arguments yy_%s {P R}.\n'%n)
    f.write('\n(** Zero value of yySymType. *)\nDefinition yy_zero {P R : Type} : yySymType P R := {|\n')
    f.write(';\n'.join('  yy_%s := %s'%(n,zero(t)) for n,t in union)+'\n|}.\n\n')
    for n,t in union:
        f.write('(** yyVAL.%s = x *)\nDefinition set_%s {P R : Type} (y : yySymType P R) (x : %s) : yySymType P R := {|\n'%(n,n,coq_type(t)))
        f.write(';\n'.join('  yy_%s := %s'%(m,'x' if m==n else 'yy_%s y'%m) for m,_ in union)+'\n|}.\n\n')
    # map
    MAPF={'Type':'tmap f g','ObjectIdElement':'oe_map g','ObjectIdentifierValue':'map (oe_map g)','Value':'value_map g',
     'Assignment':'amap f g','AssignmentList':'map (amap f g)','ModuleBody':'mb_map f g','Constraint':'csmap f g','ConstraintSpec':'csmap f g',
     'ElementSetSpec':'emap f g','Unions':'map (map (imap f g))','Intersections':'map (imap f g)','IntersectionElements':'imap f g',
     'Exclusions':'emap f g','Elements':'emap f g','SubtypeConstraint':'map (emap f g)','RangeEndpoint':'re_map g','NamedType':'nmap f g',
     'ComponentType':'cmap f g','ComponentTypeLists':'ctl_map f g','ComponentTypeList':'map (cmap f g)','Tag':'tag_map g',
     '[]NamedBit':'map (nb_map g)','NamedBit':'nb_map g','[]SymbolsFromModule':'map (sfm_map g)','SymbolsFromModule':'sfm_map g',
     'GlobalModuleReference':'gmr_map g','[]NamedType':'map (nmap f g)','ChoiceType':'ct_map f g','ChoiceExtension':'option_map (nmap f g)',
     '[]ChoiceExtension':'map (option_map (nmap f g))','[]ExtensionAddition':'map (cmap f g)'}
    f.write('(** Following the pointers of every field (no Go counterpart, see Ast.v). *)\nDefinition yy_map {P R P\' R\' : Type} (f : P -> P\') (g : R -> R\') (y : yySymType P R)\n  : yySymType P\' R\' := {|\n')
    f.write(';\n'.join('  yy_%s := %s'%(n,('%s (yy_%s y)'%(MAPF[t],n)) if t in MAPF else 'yy_%s y'%n) for n,t in union)+'\n|}.\n\n')
    f.write('''Section Actions.
  Context {P R : Type}.
  (** Taking the address of a field of the stack: [&yyDollar[k].Value] and
      [&yyDollar[k].DefinedValue], given the index [k] and the present content;
      [new_DefinedValue] is the address of a fresh variable with that content. *)
  Context (addr_Value : nat -> value R -> P).
  Context (addr_DefinedValue : nat -> DefinedValue -> R).
  Context (new_DefinedValue : DefinedValue -> R).

  (** What an action does: new yyVAL and, for rule 1, the assignment to
      lexer.result.  [d k] is yyDollar[k], [v] is yyVAL after its default
      assignment. *)
  Definition action : Type :=
    (nat -> yySymType P R) -> yySymType P R -> yySymType P R * option (ModuleDefinition P R).

  (** Rules without an action: yyVAL keeps its default. *)
  Definition act_default : action := fun _ v => (v, None).

''')
    for n in sorted(acts):
        nr,lines,a,b=acts[n]
        env,tgt,ex=parse_action(lines)
        def dollar(k,fld): return ('(yy_%s (d %d%%nat))'%(fld,k),FIELDGO[fld])
        def addr(tr):
            i0=tr.i
            assert tr.eat()=='yyDollar'
            tr.eat('[');k=int(tr.eat());tr.eat(']');tr.eat('.');fld=tr.eat()
            return ('(addr_%s %d (yy_%s (d %d%%nat)))'%(fld,k,fld,k),'*'+FIELDGO[fld])
        cpy=lambda t,ty:'(new_%s %s)'%(ty,t)
        tr=Tr(ex,dollar,addr,cpy,tokconst)
        for nm,e in env:
            t2=Tr(e,dollar,addr,cpy,tokconst); tr.env[nm]=t2.expr()
        t,gt=tr.expr()
        assert tr.i==len(tr.t),(n,tr.t[tr.i:])
        f.write('  (** y.go:%d-%d: %s *)\n'%(a,b-1 if False else b,ex.replace('(*','( *') if len(ex)<150 else 'case %d'%n))
        if tgt=='result':
            f.write('  Definition act_%d : action := fun d v =>\n    (v, Some %s).\n\n'%(n,t))
        else:
            f.write('  Definition act_%d : action := fun d v =>\n    (set_%s v %s, None).\n\n'%(n,tgt,coerce(t,gt,FIELDGO[tgt])))
    N=len(rules)
    f.write('  (** switch yynt, y.go:1061-2239, as a table indexed by the rule number. *)\n  Definition actions : list action :=\n    [act_default')
    for n in range(1,N+1):
        f.write(';\n     '+('act_%d'%n if n in acts else 'act_default'))
    f.write('].\nEnd Actions.\n')

# ---------------------------------------------------------------- Grammar.v
nts=[]
for n,l,r,a,ln in rules:
    if l not in nts: nts.append(l)
with open(out+'Grammar.v','w') as f:
    f.write('''(** The rules section of asn1.y as an inductive relation: specification of what
    the parser has to do.  Generated by tools/gen_actions.py from asn1.y; one
    constructor per production, its value is the text of the action with $k
    standing for the value of the k-th symbol.  The tree has no pointers: the
    address of a value stands for that value. *)
From Coq Require Import ZArith String List SpecFloat.
From Verif Require Import GoBase Tokens Ast RealNum.
Import ListNotations.
Local Open Scope string_scope.
Local Open Scope list_scope.
Local Open Scope Z_scope.

(** A token as the grammar sees it: its kind (a constant of Tokens.v), the
    identifier text and the number it carries. *)
Record token : Type := {
  tk_kind : Z;
  tk_name : string;
  tk_number : Z
}.

(** The nonterminals of asn1.y. *)
Inductive nonterm : Type :=
''')
    f.write('\n'.join('| N_%s'%x for x in nts)+'.\n\n')
    used=[]
    for x in nts:
        t=ty.get(x)
        if t and t not in used: used.append(t)
    P={'P':'Value','R':'DefinedValue'}
    f.write('(** Values of nonterminals: one constructor per %union field that types a\n    nonterminal (asn1.y:14-74), and one for nonterminals without a type. *)\nInductive sem : Type :=\n| S_none\n')
    def spec_type(t):
        return re.sub(r'\bR\b','DefinedValue',re.sub(r'\bP\b','(value DefinedValue)',coq_type(t)))
    f.write('\n'.join('| S_%s (x : %s)'%(u,spec_type(FIELDGO[u])) for u in used)+'.\n\n')
    f.write('''(** A symbol of a right side with its value: a token, or a nonterminal and the
    value of its phrase. *)
Inductive item : Type :=
| Tk (t : token)
| Nt (N : nonterm) (v : sem).

(** [rule_k X l v]: by the k-th production of asn1.y a sequence of symbols with
    values [l] makes an [X] with value [v]. *)

''')
    for n,l,r,a,ln in rules:
        vars_=[];prem=[];words=[]
        vty={}
        for k,x in enumerate(r,1):
            if x in nts:
                t=ty.get(x)
                if t: vars_.append('v%d'%k); vty[k]=FIELDGO[t]; words.append('Nt N_%s (S_%s v%d)'%(x,t,k))
                else: words.append('Nt N_%s S_none'%x)
            else:
                vars_.append('t%d'%k); prem.append('tk_kind t%d = T_%s'%(k,x)); words.append('Tk t%d'%k)
                t=ty.get(x)
                if t in('name','Number'): vty[k]=FIELDGO[t]
        def dollar(k,fld):
            x=r[k-1]
            if x in nts: return ('v%d'%k,vty[k])
            return ('(tk_%s t%d)'%({'name':'name','Number':'number'}[ty[x]],k),vty[k])
        def addr(tr):
            k=int(tr.eat()[1:]); t,u=dollar(k,None); return (t,'*'+u)
        lt=ty.get(l)
        if a is None:
            val='S_none' if lt is None else None
            if val is None:
                t,u=dollar(1,None); val='(S_%s %s)'%(lt,coerce(t,u,FIELDGO[lt]))
            com='$$ = $1' if lt else ''
        else:
            stm=[s.strip() for s in re.split(r';|\n',a) if s.strip()]
            env=[];ex=None
            for s in stm:
                m=re.match(r'(\w+) := (.*)$',s)
                if m: env.append((m.group(1),m.group(2))); continue
                m=re.match(r'\$\$ = (.*)$',s)
                if m: ex=m.group(1); continue
                m=re.match(r'yylex\.\(\*MyLexer\)\.result = (.*)$',s,re.S)
                if m: ex=s; continue
                ex=(ex or '')+s
            if 'MyLexer' in ex:
                ex=a[a.index('=')+1:].strip()
            cpy=lambda t,ty:t
            tr=Tr(ex,dollar,addr,cpy,tokconst)
            for nm,e in env: tr.env[nm]=Tr(e,dollar,addr,cpy,tokconst).expr()
            t,u=tr.expr(); assert tr.i==len(tr.t),(n,ex)
            if lt is None and u=='ModuleDefinition':
                val='(S_module %s)'%t
            else: val='(S_%s %s)'%(lt,coerce(t,u,FIELDGO[lt]))
        f.write('(** asn1.y:%d *)\nInductive rule_%d : nonterm -> list item -> sem -> Prop :=\n| G_%d : %s%srule_%d N_%s [%s] %s.\n\n'%(
            ln,n,n,('forall '+' '.join(vars_)+',\n    ') if vars_ else '',''.join(p+' ->\n    ' for p in prem),n,l,';\n      '.join(words),val))
    f.write('''(** The productions in the order of asn1.y, counted from 1 as goyacc does. *)
Definition rule_table : list (nonterm -> list item -> sem -> Prop) :=
  [(fun _ _ _ => False)''')
    for n,*_ in rules: f.write(';%srule_%d'%('\n   ' if n%10==1 else ' ',n))
    f.write('''].

(** [rule n X l v]: production number [n]. *)
Definition rule (n : Z) : nonterm -> list item -> sem -> Prop :=
  nth (Z.to_nat n) rule_table (fun _ _ _ => False).

(** Derivation trees: tokens and uses of productions. *)
Inductive tree : Type :=
| Leaf (t : token)
| Node (n : Z) (l : list tree).

(** The tokens of a tree from left to right. *)
Fixpoint leaves (T : tree) : list token :=
  match T with
  | Leaf t => [t]
  | Node _ l => flat_map leaves l
  end.

(** [yields T i]: every node of [T] is a use of its production, and the root is the
    symbol and value [i]. *)
Inductive yields : tree -> item -> Prop :=
| yields_leaf t : yields (Leaf t) (Tk t)
| yields_node n N its v l :
    rule n N its v -> Forall2 yields l its -> yields (Node n l) (Nt N v).

(** [derives X ts v]: the tokens [ts] are a phrase of the nonterminal [X] with
    value [v]. *)
Definition derives (N : nonterm) (ts : list token) (v : sem) : Prop :=
  exists T, yields T (Nt N v) /\\ leaves T = ts.
'''.replace('\\\\','\\'))
s=open(out+'Grammar.v').read()
s=s.replace('| S_none\n| S_','| S_none\n| S_module (x : ModuleDefinition (value DefinedValue) DefinedValue)\n| S_',1)
open(out+'Grammar.v','w').write(s)
