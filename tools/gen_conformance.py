"""Writes rocq/theories/Conformance.v: the tests of the repository, run on the model.

Go literals of the test files are parsed here and printed as Coq terms; expected Go
source is parsed as far as generated files go.  Usage: gen_conformance.py > FILE"""
import re, math, sys
sys.path.insert(0,__file__.rsplit('/',1)[0])
REPO='/repo/'

def lines_of(src, i): return src.count('\n',0,i)+1
def cstr(s): return '"%s"'%s.replace('"','""')
def clist(l): return '['+'; '.join(l)+']'
def z(n): return '(%d)'%n if n<0 else str(n)

# ---------------------------------------------------------------- Go literals
TOK=re.compile(r'''\s+|//[^\n]*|(?P<str>"(?:\\.|[^"\\])*"|`[^`]*`)|(?P<num>\d+\.\d+|\d+)|(?P<id>\[\]\w+|\w+)|(?P<op>[{}(),:&\-+.])''')
def tokenize(s):
    i=0; out=[]
    while i<len(s):
        m=TOK.match(s,i)
        if not m: raise Exception('token %r'%s[i:i+30])
        if m.lastgroup: out.append((m.lastgroup,m.group(m.lastgroup),m.end()))
        i=m.end()
    return out
def unquote(t):
    if t[0]=='`': return t[1:-1]
    return re.sub(r'\\(.)',lambda m:{'n':'\n','t':'\t'}.get(m.group(1),m.group(1)),t[1:-1])

class P:
    def __init__(s,toks): s.t=toks; s.i=0
    def peek(s,k=0): return s.t[s.i+k][1] if s.i+k<len(s.t) else None
    def eat(s,x=None):
        t=s.t[s.i]; s.i+=1
        if x and t[1]!=x: raise Exception('expected %s got %s'%(x,t))
        return t
    def expr(s):
        e=s.prim()
        while s.peek()=='+' : s.eat(); e=('str',e[1]+s.prim()[1])
        return e
    def prim(s):
        k,t,_=s.t[s.i]
        if t=='&': s.eat(); return s.prim()
        if t=='-': s.eat(); return ('num','-'+s.eat()[1])
        if k=='str': s.eat(); return ('str',unquote(t))
        if k=='num': s.eat(); return ('num',t)
        if t=='{': return ('lit',None,s.body())
        s.eat()
        if s.peek()=='{': return ('lit',t,s.body())
        if s.peek()=='(':
            s.eat(); e=s.expr(); s.eat(')'); return ('conv',t,e)
        return ('id',t)
    def body(s):
        s.eat('{'); out=[]
        while s.peek()!='}':
            if s.peek(1)==':' and s.t[s.i][0]=='id':
                k=s.eat()[1]; s.eat(':'); out.append((k,s.expr()))
            else: out.append((None,s.expr()))
            if s.peek()==',': s.eat()
        s.eat('}'); return out

def parse_at(src,i):
    """the literal that begins at src[i]"""
    p=P(tokenize_prefix(src[i:])); return p.expr()
def tokenize_prefix(s):
    """tokens up to the brace that closes the literal"""
    i=0; out=[]; depth=0
    while True:
        m=TOK.match(s,i)
        if not m: raise Exception('token %r'%s[i:i+40])
        if m.lastgroup:
            out.append((m.lastgroup,m.group(m.lastgroup),m.end()))
            x=m.group(m.lastgroup)
            if x=='{': depth+=1
            if x=='}':
                depth-=1
                if depth==0: return out
        i=m.end()

# ---------------------------------------------------------------- to Coq
STRUCT={
 'TypeAssignment':[('TypeReference','string'),('Type','Type')],
 'ValueAssignment':[('ValueReference','string'),('Type','Type'),('Value','Value')],
 'ConstraintedType':[('Type','Type'),('Constraint','Constraint')],
 'Constraint':[('ConstraintSpec','ConstraintSpec')],
 'IntersectionElements':[('Elements','Elements'),('Exclusions','Elements')],
 'ValueRange':[('LowerEndpoint','RangeEndpoint'),('UpperEndpoint','RangeEndpoint')],
 'RangeEndpoint':[('Value','Value'),('IsOpen','bool')],
 'SingleValue':[('Value','Value')],'TypeConstraint':[('Type','Type')],'SizeConstraint':[('Constraint','Constraint')],
 'RestrictedStringType':[('LexType','token')],'SequenceType':[('Components','ComponentTypeList'),('ExtensionAdditions','ExtensionAdditions')],
 'SetType':[('Components','ComponentTypeList'),('ExtensionAdditions','ExtensionAdditions')],
 'NamedComponentType':[('NamedType','NamedType'),('IsOptional','bool'),('Default','option')],
 'NamedType':[('Identifier','string'),('Type','Type')],
 'TaggedType':[('Tag','Tag'),('Type','Type'),('TagType','tagtype'),('HasTagType','bool')],
 'Tag':[('Class','class'),('ClassNumber','Value')],'SequenceOfType':[('Type','Type')],'SetOfType':[('Type','Type')],
 'ChoiceType':[('AlternativeTypeList','[]NamedType'),('ExtensionTypes','[]ChoiceExtension')],
 'EnumeratedType':[('RootEnumeration','[]EnumerationItem'),('AdditionalEnumeration','[]EnumerationItem')],
 'IntegerType':[('NamedNumberList','[]NamedNumber')],'NamedNumber':[('Name','string'),('Value','NamedNumberValue')],
 'BitStringType':[('NamedBits','[]NamedBit')],'AnyType':[('CaptureId','string')],
 'ObjectIdElement':[('Name','string'),('ID','int'),('Reference','refopt')],
 'DefinedValue':[('ModuleName','string'),('ValueName','string')],
 'SymbolsFromModule':[('SymbolList','[]Symbol'),('Module','GlobalModuleReference')],
 'GlobalModuleReference':[('Reference','string'),('AssignedIdentifier','Value')],
 'DefinitiveObjIdComponent':[('Name','string'),('Id','int')],
 'ModuleIdentifier':[('Reference','string'),('DefinitiveIdentifier','[]DefinitiveObjIdComponent')],
 'ModuleBody':[('AssignmentList','AssignmentList'),('Imports','[]SymbolsFromModule')],
 'ModuleDefinition':[('ModuleIdentifier','ModuleIdentifier'),('TagDefault','tagtype'),('ExtensibilityImplied','bool'),('ModuleBody','ModuleBody')],
}
SL={'AssignmentList':'Assignment','Unions':'Intersections','Intersections':'IntersectionElements','SubtypeConstraint':'Elements',
    'ComponentTypeList':'Component','ExtensionAdditions':'Component','ObjectIdentifierValue':'ObjectIdElement'}
ZERO={'string':'""','int':'0','bool':'false','Value':'VNil','Type':'TNil','Elements':'ENil','option':'None','refopt':'None','tagtype':'0','class':'0',
      'ConstraintSpec':'CSNil','Constraint':'CSNil','NamedNumberValue':'NNil'}
def fields(name,body):
    spec=STRUCT[name]; vals={}
    for n,(k,e) in enumerate(body):
        key=k if k else spec[n][0]
        ty=dict(spec)[key]; vals[key]=conv(e,ty)
    return [vals.get(k) or zero(t) for k,t in spec]
def zero(t):
    if t in ZERO: return ZERO[t]
    if t.startswith('[]') or t in SL: return '[]'
    return struct(t,[],t)
def flt(x):
    s='false'
    if x<0: s='true'; x=-x
    if x==0: return '(S754_zero false)'
    m,e=math.frexp(x); m=int(m*2**53); e-=53
    return '(S754_finite %s %d %s)'%(s,m,z(e))
def struct(name,body,want):
    f=fields(name,body)
    rec=lambda *ns: '{| '+'; '.join('%s := %s'%(n,v) for n,v in zip(ns,f))+' |}'
    if name=='TypeAssignment': return '(AType %s %s)'%tuple(f)
    if name=='ValueAssignment': return '(AValue %s %s %s)'%tuple(f)
    if name=='ConstraintedType': return '(TConstrained %s %s)'%tuple(f)
    if name=='Constraint': return f[0]
    if name=='IntersectionElements': return '(Intersect %s %s)'%tuple(f)
    if name=='ValueRange': return '(EValueRange %s %s)'%tuple(f)
    if name=='RangeEndpoint': return rec('re_Value','re_IsOpen')
    if name=='SingleValue': return '(ESingleValue %s)'%f[0]
    if name=='TypeConstraint': return '(EType %s)'%f[0]
    if name=='SizeConstraint': return '(ESize %s)'%f[0]
    if name=='RestrictedStringType': return '(TRestrictedString %s)'%f[0]
    if name=='SequenceType': return '(TSequence %s %s)'%tuple(f)
    if name=='SetType': return '(TSet %s %s)'%tuple(f)
    if name=='NamedComponentType': return '(CNamed %s %s %s)'%tuple(f)
    if name=='NamedType':
        t='(Named %s %s)'%tuple(f); return '(Some %s)'%t if want=='ChoiceExtension' else t
    if name=='TaggedType': return '(TTagged %s %s %s %s)'%tuple(f)
    if name=='Tag': return rec('tag_Class','tag_ClassNumber')
    if name=='SequenceOfType': return '(TSequenceOf %s)'%f[0]
    if name=='SetOfType': return '(TSetOf %s)'%f[0]
    if name=='ChoiceType': return '(TChoice %s %s)'%tuple(f)
    if name=='EnumeratedType': return '(TEnumerated %s)'%rec('et_RootEnumeration','et_AdditionalEnumeration')
    if name=='IntegerType': return '(TInteger %s)'%f[0]
    if name=='NamedNumber':
        t=rec('nn_Name','nn_Value'); return '(EINumber %s)'%t if want=='EnumerationItem' else t
    if name=='BitStringType': return '(TBitString %s)'%f[0]
    if name=='AnyType': return '(TAny %s)'%f[0]
    if name=='ObjectIdElement': return rec('oe_Name','oe_ID','oe_Reference')
    if name=='DefinedValue':
        t=rec('dv_ModuleName','dv_ValueName')
        return {'refopt':'(Some %s)'%t,'NamedNumberValue':'(NDefined %s)'%t,'Value':'(VDefined %s)'%t}[want]
    if name=='SymbolsFromModule': return rec('sfm_SymbolList','sfm_Module')
    if name=='GlobalModuleReference': return rec('gmr_Reference','gmr_AssignedIdentifier')
    if name=='DefinitiveObjIdComponent': return rec('doc_Name','doc_Id')
    if name=='ModuleIdentifier': return rec('mi_Reference','mi_DefinitiveIdentifier')
    if name=='ModuleBody': return rec('mb_AssignmentList','mb_Imports')
    if name=='ModuleDefinition': return rec('md_ModuleIdentifier','md_TagDefault','md_ExtensibilityImplied','md_ModuleBody')
    raise Exception(name)
EMPTY={'BooleanType':'TBoolean','RealType':'TReal','ObjectIdentifierType':'TObjectIdentifier','OctetStringType':'TOctetString',
       'CharacterStringType':'TCharacterString','NullType':'TNull'}
def conv(e,want):
    k=e[0]
    if k=='str': return cstr(e[1])
    if k=='num':
        if want=='int': return z(int(e[1]))
        raise Exception(e)
    if k=='id':
        if want=='token': return 'T_'+e[1]
        return e[1]
    if k=='conv':
        t,x=e[1],e[2]
        if t in('Identifier','ValueReference') and want in('string',): return cstr(x[1])
        if t=='Identifier' and want=='EnumerationItem': return '(EIIdentifier %s)'%cstr(x[1])
        if t=='TypeReference': return {'string':'%s','Type':'(TReference %s)','Symbol':'(SymType %s)'}[want]%cstr(x[1])
        if t=='Number': return {'Value':'(VNumber %s)','NamedNumberValue':'(NNumber %s)'}[want]%z(int(x[1]))
        if t=='Real': return '(VReal %s)'%flt(float(x[1]))
        if t=='Boolean': return '(VBoolean %s)'%x[1]
        if t=='SingleElementConstraint': return '(SingleElementConstraint %s)'%conv(x,'Elements')
        raise Exception(e)
    name,body=e[1],e[2]
    if name is None: name=want
    if name in EMPTY: return EMPTY[name]
    if name in SL or name.startswith('[]'):
        l=clist([conv(x,SL.get(name) or name[2:]) for _,x in body])
        if want in('ConstraintSpec','Constraint'): return '(CSSubtype %s)'%l
        if want=='Elements': return '(EUnions %s)'%l
        if want=='Value': return '(VObjectIdentifier %s)'%l
        return l
    return struct(name,body,want)

# ---------------------------------------------------------------- Go source of generated files
def gofile(src):
    toks=re.findall(r'`[^`]*`|"[^"]*"|\[\]|\w+(?:\.\w+)*|[{}()=\-]|\n',src)
    pos=[0]
    def peek(): return toks[pos[0]] if pos[0]<len(toks) else None
    def eat(): pos[0]+=1; return toks[pos[0]-1]
    def nl():
        while peek()=='\n': eat()
    def typ():
        t=eat()
        if t=='[]': return '(EArray %s)'%typ()
        if t=='struct':
            assert eat()=='{'; fs=[]
            nl()
            while peek()!='}':
                n=eat(); ty=typ(); tag='None'
                if peek().startswith('`'): tag='(Some %s)'%cstr(eat())
                fs.append('Field %s %s %s'%(cstr(n),ty,tag)); nl()
            eat(); return '(EStruct %s)'%clist(fs)
        return '(EIdent %s)'%cstr(t)
    def spec(kind):
        n=eat()
        if kind=='type':
            a='false'
            if peek()=='=': eat(); a='true'
            return 'TypeSpec %s %s %s'%(cstr(n),a,typ())
        ty=typ(); assert eat()=='='
        v=eat()
        if v=='-': v='-'+eat()
        val='(EIdent %s)'%cstr(v) if re.match(r'[A-Za-z]',v) and v not in('true','false') else '(EBasicLit %s)'%cstr(v)
        return 'ValueSpec %s %s %s'%(cstr(n),ty,val)
    nl(); assert eat()=='package'; name=eat(); decls=[]
    nl()
    while peek():
        k=eat()
        if k=='import': decls.append(('Import',['ImportSpec %s'%eat()]))
        else:
            ss=[]
            if peek()=='(':
                eat(); nl()
                while peek()!=')': ss.append(spec(k)); nl()
                eat()
            else: ss=[spec(k)]
            decls.append(({'type':'Type','var':'Var'}[k],ss))
        nl()
    return '{| gf_name := %s; gf_decls := %s |}'%(cstr(name),clist('{| gd_tok := Tok%s; gd_specs := %s |}'%(k,clist(s)) for k,s in decls))

# ---------------------------------------------------------------- the tests
out=[]
w=out.append
w('''(** The tests of the repository (lexer_test.go, parser_test.go, codegen_test.go,
    examples/examples_test.go, examples/rfc4120_test.go, examples/rfc5280_test.go, internal/utils/dump_test.go),
    run on the model.  Written by tools/gen_conformance.py from the test files.  Nothing depends on this file: it is evidence that the model
    computes what the code computes, where the authors wrote that down.

    Expected Go source is compared as a tree (the tests print it with go/printer).  Tests
    that the repository skips, and tests that run the go command, are left out. *)
From Coq Require Import ZArith String List Bool SpecFloat.
From Verif Require Import GoBase Utf8 Unicode Reader Stream Tokens Ast Lexer RealNum Parser GoAst Codegen Wireshark WiresharkTime CodegenSpec GoCheck SoundCheck ParserRuns PropsCodegen PropsNames PropsCompile Wire WireRead.
Import ListNotations.
Local Open Scope string_scope.
Local Open Scope list_scope.
Local Open Scope Z_scope.

(** lexForString, lexer_test.go:9-12 *)
Definition lexForString (s : string) := new_lexer (stream_of_bytes (bytes_of_string s)).

(** A call of Lex; the tests expect no error. *)
Definition lex_one (s : string) : option (Z * lexval) :=
  match Lex stream_ops ascii_tables 1000 (lexForString s) lexval0 with
  | Ok (t, v, x) => match lx_err x with None => Some (t, v) | Some _ => None end
  | _ => None
  end.

(** testError, lexer_test.go:54-62 *)
Definition lex_error (s : string) : option string :=
  match Lex stream_ops ascii_tables 1000 (lexForString s) lexval0 with Ok (_, _, x) => lx_err x | _ => None end.

(** Calls of Lex until the end, as in TestRealSyntax (lexer_test.go:351-366). *)
Fixpoint lex_all (n : nat) (x : lexer stream) : list Z :=
  match n with
  | O => []
  | S n' => match Lex stream_ops ascii_tables 1000 x lexval0 with
            | Ok (t, _, x') => if t =? 0 then [0] else t :: lex_all n' x'
            | _ => []
            end
  end.

(** testNotFails, parser_test.go:11-17 *)
Definition parsed (s : string) : option Module_ :=
  match ParseString ascii_tables 5000 s with Ok (ParseOk m) => m | _ => None end.

(** fmt.Sprint of floats is a parameter of the model; the tests print one. *)
Definition test_fmt (x : spec_float) : string := if SFeqb x %s then "3.14" else "".

(** generateDeclarationsString, codegen_test.go:13-22 (without the printer) *)
Definition generated (m : Module_) : option gofile :=
  match Generate ascii_tables test_fmt ex_params 100 m with Ok (GenOk f) => Some f | _ => None end.

(** testModule, codegen_test.go:24-31 *)
Definition testModule (l : list Assignment_) : Module_ :=
  {| md_ModuleIdentifier := {| mi_Reference := "My-ASN1-ModuleName"; mi_DefinitiveIdentifier := [] |};
     md_TagDefault := 0; md_ExtensibilityImplied := false; md_ModuleBody := {| mb_AssignmentList := l; mb_Imports := [] |} |}.
''')
out[-1]=out[-1].replace('%s',flt(3.14))
# lexer
src=open(REPO+'lexer_test.go').read()
w('(** * lexer_test.go *)\n')
FUNC=re.compile(r'^func (Test\w+)\(t \*testing.T\) \{\n(.*?)(?=^func |\Z)',re.S|re.M)
S=r'("(?:\\.|[^"\\])*"|`[^`]*`)'
n=0
groups={}
for m in FUNC.finditer(src):
    tests=[]; name=m.group(1); body=re.sub(r'^\s*//.*$','',m.group(2),flags=re.M)
    for c in re.finditer(r'testLexemType\(t, %s, (\w+)\)'%S,body): tests.append('option_map fst (lex_one %s) = Some T_%s'%(cstr(unquote(c.group(1))),c.group(2)))
    for c in re.finditer(r'testLexem\(t, \w+, %s, (\w+), %s\)'%(S,S),body):
        tests.append('option_map (fun p => (fst p, lv_name (snd p))) (lex_one %s) = Some (T_%s, %s)'%(cstr(unquote(c.group(1))),c.group(2),cstr(unquote(c.group(3)))))
    for c in re.finditer(r'testNumber\(t, %s, Number\((\d+)\)\)'%S,body):
        tests.append('option_map (fun p => (fst p, lv_Number (snd p))) (lex_one %s) = Some (T_NUMBER, %s)'%(cstr(unquote(c.group(1))),c.group(2)))
    for c in re.finditer(r'testError\(t, %s, %s\)'%(S,S),body): tests.append('lex_error %s = Some %s'%(cstr(unquote(c.group(1))),cstr(unquote(c.group(2)))))
    if tests:
        n+=len(tests)
        w('(** lexer_test.go:%d *)\nExample %s :\n  %s.\nProof. vm_compute. repeat split. Qed.\n'%(lines_of(src,m.start()),name,' /\\\n  '.join(tests)))
def line(s): return lines_of(src,src.index(s))
w('''(** lexer_test.go:%d *)
Example TestNoSpacing : lex_all 5 (lexForString "myIdentifier(") = [T_VALUEIDENTIFIER; T_OPEN_ROUND; 0].
Proof. vm_compute. reflexivity. Qed.
'''%line('func TestNoSpacing'))
w('''(** lexer_test.go:%d *)
Example TestRangeSynax : lex_all 10 (lexForString "INTEGER (-2147483648..2147483647)") =
  [T_INTEGER; T_OPEN_ROUND; T_MINUS; T_NUMBER; T_RANGE_SEPARATOR; T_NUMBER; T_CLOSE_ROUND; 0].
Proof. vm_compute. reflexivity. Qed.
'''%line('func TestRangeSynax'))
w('''(** lexer_test.go:%d *)
Example TestRealSyntax :
  lex_all 10 (lexForString "-1.2e5") = [T_MINUS; T_NUMBER; T_DOT; T_NUMBER; T_EXPONENT; T_NUMBER; 0] /\\
  lex_all 10 (lexForString "-1.2 e5") = [T_MINUS; T_NUMBER; T_DOT; T_NUMBER; T_VALUEIDENTIFIER; 0].
Proof. vm_compute. repeat split. Qed.
'''%line('func TestRealSyntax'))
peek=re.findall(r'lexer\.peekRunes\((\d)\); v != "([^"]*)"',src)
base=re.search(r'lexForString\("(a[^"]*)"\)',src).group(1)
w('''(** lexer_test.go:%d *)
Definition peek (n : nat) (x : lexer stream) : option string := match peekRunes stream_ops 1000 x n with Ok (_, s) => Some s | _ => None end.
Example TestPeekRunes :
  %s /\\
  (let x := lexForString "abc" in let x := fst (readRune stream_ops x) in let x := fst (readRune stream_ops x) in peek 2 x = Some "c").
Proof. vm_compute. repeat split. Qed.
'''%(line('func TestPeekRunes'),' /\\\n  '.join('peek %s (lexForString %s) = Some %s'%(k,cstr(base),cstr(v)) for k,v in peek[:4])))
# parser
src=open(REPO+'parser_test.go').read()
w('(** * parser_test.go *)\n')
w('''(** parser_test.go:%d *)
Example TestParseMinimalModule :
  parsed "MyModule DEFINITIONS ::= BEGIN END" <> None /\\
  parsed "MyModule { mymodule } DEFINITIONS ::= BEGIN END" <> None /\\
  option_map md_TagDefault (parsed "MyModule DEFINITIONS IMPLICIT TAGS ::= BEGIN END") = Some TAGS_IMPLICIT /\\
  option_map md_ExtensibilityImplied (parsed "MyModule DEFINITIONS EXTENSIBILITY IMPLIED ::= BEGIN END") = Some true.
Proof. vm_compute. repeat split; discriminate. Qed.
'''%line('func TestParseMinimalModule'))
w('''(** parser_test.go:%d *)
Example TestRealBuilder :
  %s.
Proof. vm_compute. repeat split. Qed.
'''%(line('func TestRealBuilder'),' /\\\n  '.join('parseRealNumber %s %s %s = %s'%(a,b,z(int(c)),flt(float(r))) for a,b,c,r in re.findall(r'parseRealNumber\((\d+), (\d+), (-?\d+)\), Real\(([\d.]+)\)',src))))
SKIP=[]
for m in FUNC.finditer(src):
    name,body=m.group(1),m.group(2)
    c=re.search(r'content := (`[^`]*`)',body)
    ln=lines_of(src,m.start())
    if c:
        text=cstr(unquote(c.group(1)))
        e=re.search(r'(expected\w*) := ',body)
        val=parse_at(body,e.end())
        ty=re.search(r'GetType\("([\w-]+)"\)',body)
        if name=='TestParseImports': stmt='option_map (fun m => mb_Imports (md_ModuleBody m)) (parsed %s) =\n  Some %s'%(text,conv(val,'[]SymbolsFromModule'))
        elif name=='TestDefinitiveIdentifier': stmt='option_map md_ModuleIdentifier (parsed %s) =\n  Some {| mi_Reference := "KerberosV5Spec2"; mi_DefinitiveIdentifier := %s |}'%(text,conv(val,'[]DefinitiveObjIdComponent'))
        elif ty: stmt='option_map (fun m => al_GetType (mb_AssignmentList (md_ModuleBody m)) "%s") (parsed %s) =\n  Some (Some ("%s", %s))'%(ty.group(1),text,ty.group(1),conv(val,'Type'))
        else: stmt='option_map (fun m => mb_AssignmentList (md_ModuleBody m)) (parsed %s) =\n  Some %s'%(text,conv(val,'AssignmentList'))
        w('(** parser_test.go:%d *)\nExample %s :\n  %s.\nProof. vm_compute. reflexivity. Qed.\n'%(ln,name,stmt))
    elif 'testCases := ' in body:
        i=body.index('}{')+1
        cases=parse_at(body,i)[2]; tests=[]
        for _,cs in cases:
            d=dict(cs[2])
            if 'skipReason' in d: SKIP.append(d['name'][1]); continue
            tests.append('(* %s *)\n  option_map (fun m => mb_AssignmentList (md_ModuleBody m)) (parsed %s) =\n  Some %s'%(d['name'][1],cstr(d['content'][1]),conv(d['expected'],'AssignmentList')))
        w('(** parser_test.go:%d *)\nExample %s :\n  %s.\nProof. vm_compute. repeat split. Qed.\n'%(ln,name,' /\\\n  '.join(tests)))
# codegen
src=open(REPO+'codegen_test.go').read()
w('(** * codegen_test.go *)\n')
for m in FUNC.finditer(src):
    name,body=m.group(1),m.group(2); ln=lines_of(src,m.start())
    mm=re.search(r'\tm := (testModule\()?',body)
    if mm:
        val=parse_at(body,mm.end()); term=conv(val,'AssignmentList' if mm.group(1) else 'ModuleDefinition')
        if mm.group(1): term='(testModule %s)'%term
        e=body.index('expected := ')+len('expected := ')
        toks=[]; i=e
        exp=''
        while True:
            t=re.compile(r'\s*(`[^`]*`|"(?:\\.|[^"\\])*")').match(body,i); exp+=unquote(t.group(1)); i=t.end()
            p=re.compile(r'\s*\+').match(body,i)
            if not p: break
            i=p.end()
        w('(** codegen_test.go:%d *)\nExample %s :\n  generated %s =\n  Some %s.\nProof. vm_compute. reflexivity. Qed.\n'%(ln,name,term,gofile(exp)))
    else:
        mc=re.search(r'test[cC]ases := \[\]e2eTestCase',body)
        cases=parse_at(body,mc.end())[2]; tests=[]
        for _,cs in cases:
            d=dict(cs[2])
            tests.append('(* %s *)\n  match parsed %s with Some m => generated m | None => None end =\n  Some %s'%(d['name'][1],cstr(d['asnModule'][1]),gofile(d['goModule'][1])))
        w('(** codegen_test.go:%d *)\nExample %s :\n  %s.\nProof. vm_compute. repeat split. Qed.\n'%(ln,name,' /\\\n  '.join(tests)))
# examples
src=open(REPO+'examples/examples_test.go').read()
w('(** * examples/examples_test.go *)\n')
w('''(** testExampleParsing and testGeneration, examples_test.go:10-33 *)
Definition example_ok (s : string) (n : nat) : bool :=
  match ParseString ascii_tables (Z.to_nat 40000) s with
  | Ok (ParseOk (Some m)) => Nat.eqb (length (mb_AssignmentList (md_ModuleBody m))) n
  | _ => false
  end.
Definition example_generates (s : string) : bool :=
  match ParseString ascii_tables (Z.to_nat 40000) s with
  | Ok (ParseOk (Some m)) =>
      match gen_ {| gp_Package := "testname"; gp_IntegerRepr := "" |} m with Ok (GenOk f) => String.eqb (gf_name f) "testname" | _ => false end
  | _ => false
  end.
''')
for m in FUNC.finditer(src):
    name,body=m.group(1),m.group(2); ln=lines_of(src,m.start())
    f=re.search(r'"(\w+\.asn1)"',body).group(1); text=open(REPO+'examples/'+f).read(); d=f.replace('.asn1','')
    plain=re.sub(r'/\*.*?\*/','',text,flags=re.S)
    plain=re.sub(r'--.*?(--|$)','',plain,flags=re.M)
    n=len(re.findall(r'::=',plain))-1
    stmt='example_ok %s %d = true'%(d,n)
    if 't.Skip' not in body: stmt+=' /\\ example_generates %s = true'%d
    w('(** examples/%s *)\nDefinition %s : string := %s.\n'%(f,d,cstr(text)))
    w('(** examples_test.go:%d; the number of assignments is counted in the file. *)\nExample %s : %s.\nProof. vm_compute. repeat split. Qed.\n'%(ln,name,stmt))
src=open(REPO+'internal/utils/dump_test.go').read()
w('(** * internal/utils/dump_test.go *)\n')
dump=re.search(r'repr := (`[^`]*`)',src).group(1)
want=[int(x,16) for x in re.search(r'\[\]byte\{([^}]*)\}',src).group(1).split(',')]
w('''(** dump_test.go:5 *)
Example TestParseWiresharkHex :
  match ParseWiresharkHex %s with Ok l => firstn 4 l = %s /\\ length l = %d%%nat | _ => False end.
Proof. vm_compute. repeat split. Qed.
'''%(cstr(unquote(dump)),clist(map(str,want)),len(re.findall(r' [0-9a-f][0-9a-f]\b',dump))))
# messages
def der(b):
    """the elements of an encoding, as terms of the type tlv"""
    out=[]; i=0
    while i<len(b):
        cls,comp,num=b[i]>>6,(b[i]>>5)&1,b[i]&31; i+=1
        if num==31:
            num=0
            while True:
                num=num*128+(b[i]&127); i+=1
                if not b[i-1]&128: break
        n=b[i]; i+=1
        if n&128:
            k=n&127; n=int.from_bytes(b[i:i+k],'big'); i+=k
        c=b[i:i+n]; i+=n
        C=['CLASS_UNIVERSAL','CLASS_APPLICATION','CLASS_CONTEXT_SPECIFIC','CLASS_PRIVATE'][cls]
        if comp: body='Nested %s'%clist(der(c))
        elif cls==0: body='Octets (%s)'%prim(num,c)
        else: body='Octets (POctets %s)'%clist(map(str,c))
        out.append('TLV %s %d (%s)'%(C,num,body))
    return out
def seconds(y,mo,d,h,mi,s):
    import datetime
    t=datetime.datetime(y,mo,d,h,mi,s)-datetime.datetime(1,1,1); return t.days*86400+t.seconds
def prim(num,c):
    if num==1: return 'PBool %s'%('true' if c[0] else 'false')
    if num in (2,10): return 'PInt %s'%z(int.from_bytes(c,'big',signed=True))
    if num==3: return 'PBits %s %d'%(clist(map(str,c[1:])),8*(len(c)-1)-c[0])
    if num==6:
        arcs=[]; v=0
        for x in c:
            v=v*128+(x&127)
            if not x&128: arcs.append(v); v=0
        a=min(arcs[0]//40,2); return 'POid %s'%clist(map(str,[a,arcs[0]-40*a]+arcs[1:]))
    if num in (12,18,19,20,22,27): return 'PString %s'%cstr(c.decode('ascii'))
    if num==24:
        m=re.match(rb'(\d{4})(\d\d)(\d\d)(\d\d)(\d\d)(\d\d)Z$',c); return 'PGeneralized %d'%seconds(*map(int,m.groups()))
    if num==23:
        m=re.match(rb'(\d\d)(\d\d)(\d\d)(\d\d)(\d\d)(\d\d)Z$',c); y,*r=map(int,m.groups()); return 'PUtc %d'%seconds(y+(2000 if y<50 else 1900),*r)
    return 'POctets %s'%clist(map(str,c))
def golit(s):
    """a Go value of the tests: composite literals, with or without field names"""
    T=re.compile(r'\s+|(utils\.ParseWiresharkTime\("[^"]*"\)|"[^"]*"|0x[0-9a-f]+|\d+|\[\][\w.]+|[\w.]+|[{},:])')
    toks=[m.group(1) for m in T.finditer(s) if m.group(1)]; i=[0]
    def eat(): i[0]+=1; return toks[i[0]-1]
    def val():
        t=eat()
        if t.startswith('"'): return 'LVal (GString %s)'%t
        if t[0].isdigit(): return 'LVal (GInt %d)'%int(t,0)
        if t.startswith('utils.'): return 'LVal (GTime %d)'%seconds(*map(int,re.findall(r'\d+',t)))
        if t=='{': i[0]-=1; return lit('')
        return lit(t)
    def lit(ty):
        assert eat()=='{'; items=[]; named=False
        while toks[i[0]]!='}':
            if toks[i[0]+1]==':': k=eat(); eat(); items.append((k,val())); named=True
            else: items.append((None,val()))
            if toks[i[0]]==',': eat()
        eat()
        if ty=='[]byte': return 'LVal (GBytes (Some %s))'%clist(re.search(r'GInt (\d+)',v).group(1) for _,v in items)
        if ty=='asn1.BitString':
            d=dict(items); return 'LVal (GBits (%s) %s)'%(re.search(r'Some \[.*?\]',d['Bytes']).group(0),re.search(r'\d+',d['BitLength']).group(0))
        if ty.startswith('[]'): return 'LSlice %s'%clist(v for _,v in items)
        if named: return 'LStruct %s'%clist('(%s, %s)'%(cstr(k),v) for k,v in items)
        return 'LPositional %s'%clist(v for _,v in items)
    return val()
w('(** * examples/rfc4120_test.go and codegen_compilation_test.go *)\n')
w('(** The times of the messages below, rfc4120_test.go:82,109-110. *)\nExample WiresharkTimes :\n  %s.\nProof. repeat split. Qed.\n' % ' /\\\n  '.join(
    'ParseWiresharkTime "%s" = Ok (%d, 0)'%(t,seconds(*map(int,re.findall(r'\d+',t)))) for t in re.findall(r'ParseWiresharkTime\("([^"]*)"\)',open('/repo/examples/rfc4120_test.go').read())))
w("""(** The Kerberos module and its generated file. *)
Definition module_in (s : string) : option Module_ :=
  match ParseString ascii_tables (Z.to_nat 40000) s with Ok (ParseOk m) => m | _ => None end.
Definition file_in (s : string) (p : GenParams) : option gofile :=
  match module_in s with
  | Some m => match Generate ascii_tables test_fmt p 100 m with Ok (GenOk f) => Some f | _ => None end
  | None => None
  end.
Definition krb5 : option Module_ := Eval vm_compute in module_in rfc4120.
Definition krb5_go : option gofile := Eval vm_compute in file_in rfc4120 ex_params.

(** The text is accepted, and the file generated for it compiles (GoCheck.v), by C74. *)
Definition compiles_for (s : string) (p : GenParams) : Prop :=
  exists m f, parses ascii_tables s (ParseOk (Some m)) /\ Generate ascii_tables ex_fmt p 100 m = Ok (GenOk f) /\ compiles f.
Definition sound_text (fuel : nat) (s : string) (p : GenParams) : bool :=
  forallb (fun b => b <? 128) (bytes_of_string s) &&
  match ParseString ascii_tables fuel s with
  | Ok (ParseOk (Some m)) =>
      match Generate ascii_tables ex_fmt p 100 m with Ok (GenOk f) => true | _ => false end &&
      soundb (integer_repr p) (mb_AssignmentList (md_ModuleBody m)) 30
  | _ => false
  end.
Lemma sound_compiles fuel s p : gp_Package p = "" \/ go_identifier (gp_Package p) -> sound_text fuel s p = true -> compiles_for s p.
Proof.
  intros P H. unfold sound_text in H. apply andb_prop in H as [A H].
  destruct (ParseString ascii_tables fuel s) as [[[m|]|]| |] eqn:E; try discriminate.
  destruct (Generate ascii_tables ex_fmt p 100 m) as [[|f]| |] eqn:G; try discriminate.
  assert (R : parses ascii_tables s (ParseOk (Some m))) by exact (ParseString_parses _ _ _ _ E).
  exists m, f. split; [exact R|]. split; [exact G|]. eapply C74_compiles_partial; try eassumption.
  - apply Forall_forall. intros b I. rewrite forallb_forall in A. apply Z.ltb_lt. now apply A.
  - reflexivity.
  - now apply soundb_sound in H.
Qed.

(** codegen_compilation_test.go:172 *)
Example TestKerberosCompiles : compiles_for rfc4120 ex_params.
Proof. apply (sound_compiles (Z.to_nat 40000)); [now left|]. vm_compute. reflexivity. Qed.
(** The go:generate line of rfc5280_test.go (10-12), whose output the tests there compile. *)
Example TestX509Compiles : compiles_for rfc5280 {| gp_Package := "examples"; gp_IntegerRepr := "big.Int" |}.
Proof.
  apply (sound_compiles (Z.to_nat 40000)); [right; split; [split; [now left|reflexivity]|]|vm_compute; reflexivity].
  split; [discriminate|]. cbn. intuition discriminate.
Qed.
(** Generated, but not compiled, by examples_test.go:50. *)
Example SNMPSMI_compiles : compiles_for rfc1155 ex_params.
Proof. apply (sound_compiles (Z.to_nat 40000)); [now left|]. vm_compute. reflexivity. Qed.

(** Marshals a value of the type named [g] and unmarshals the result. *)
Definition there_and_back (f : gofile) (g : string) (v : gval) : option gval :=
  match marshal (fun l => l) f 20 g v with
  | Some [x] => unmarshal f 20 g x
  | _ => None
  end.

(** codegen_compilation_test.go:113-146: the zero value of each generated type is
    marshalled and the result unmarshalled, without an error. *)
Example TestKerberosRuns :
  match krb5, krb5_go with
  | Some m, Some f =>
      forallb (fun a => match a with
                        | AType n _ =>
                            let g := goifyName ascii_tables n in
                            match zero_of f 20 (EIdent g) with
                            | Some v => match there_and_back f g v with Some _ => true | None => false end
                            | None => false
                            end
                        | _ => true
                        end) (mb_AssignmentList (md_ModuleBody m)) = true
  | _, _ => False
  end.
Proof. vm_compute. reflexivity. Qed.

(** Go composite literals; fields without a value are zero. *)
Inductive golit : Type :=
| LVal (v : gval)
| LStruct (l : list (string * golit))
| LPositional (l : list golit)
| LSlice (l : list golit).

Fixpoint value_of (f : gofile) (e : goexpr) (x : golit) {struct x} : option gval :=
  match x with
  | LVal v => Some v
  | LStruct l =>
      match kind_of f 20 e with
      | Some (KStruct fs) =>
          let given := map (fun p => (fst p, match find (fun fd => match fd with Field n _ _ => String.eqb n (fst p) end) fs with
                                             | Some (Field _ t _) => value_of f t (snd p)
                                             | None => None
                                             end)) l in
          option_map GStruct
            (fold_right (fun fd acc => match fd, acc with
                                       | Field n t _, Some vs =>
                                           match (match find (fun p => String.eqb n (fst p)) given with
                                                  | Some (_, v) => v
                                                  | None => zero_of f 20 t
                                                  end) with
                                           | Some v => Some (v :: vs)
                                           | None => None
                                           end
                                       | _, None => None
                                       end) (Some []) fs)
      | _ => None
      end
  | LPositional l =>
      match kind_of f 20 e with
      | Some (KStruct fs) =>
          option_map GStruct
            ((fix go (fs : list gofield) (l : list golit) {struct l} : option (list gval) :=
                match fs, l with
                | [], [] => Some []
                | Field _ t _ :: fs', x' :: l' =>
                    match value_of f t x', go fs' l' with Some v, Some vs => Some (v :: vs) | _, _ => None end
                | _, _ => None
                end) fs l)
      | _ => None
      end
  | LSlice l =>
      match kind_of f 20 e with
      | Some (KSlice _ t) =>
          option_map (fun vs => GSlice (Some vs))
            ((fix go (l : list golit) : option (list gval) :=
                match l with
                | [] => Some []
                | x' :: l' => match value_of f t x', go l' with Some v, Some vs => Some (v :: vs) | _, _ => None end
                end) l)
      | _ => None
      end
  end.

(** messageTest, rfc4120_test.go:27-55: the message is read as the expected value, and
    the expected value survives being marshalled and unmarshalled. *)
Definition messageTest (g : string) (x : tlv) (expected : golit) : Prop :=
  match krb5_go with
  | Some f =>
      value_of f (EIdent g) expected <> None /\\
      unmarshal f 20 g x = value_of f (EIdent g) expected /\\
      match value_of f (EIdent g) expected with
      | Some v => there_and_back f g v = Some v
      | None => False
      end
  | None => False
  end.
""")
src=open(REPO+'examples/rfc4120_test.go').read()
for m in FUNC.finditer(src):
    name,body=m.group(1),m.group(2)
    if 'msgBytes' not in body: continue
    dump=re.search(r'`([^`]*)`',body).group(1)
    b=bytes(int(x,16) for l in dump.split('\n') for x in l.split(' ')[1:] if x)
    ty=re.search(r'new\((\w+)\)',body).group(1)
    lit=re.search(r'expected := (.*?\n\t\})\n',body,re.S).group(1)
    d,=der(b)
    w('(** rfc4120_test.go:%d *)\nExample %s :\n  messageTest %s\n    (%s)\n    (%s).\nProof. vm_compute. repeat split; discriminate. Qed.\n'%(lines_of(src,m.start()),name,cstr(ty),d,golit(lit)))
# certificate
import base64
src=open(REPO+'examples/rfc5280_test.go').read()
pem=re.search(r'-----BEGIN CERTIFICATE-----(.*?)-----END',open(REPO+'examples/testdata/_.google.crt').read(),re.S).group(1)
w('(** * examples/rfc5280_test.go *)\n')
w("""(** The module of RFC 5280, generated with -default-integer-repr big.Int
    (rfc5280_test.go:10-12), and testdata/_.google.crt. *)
Definition pkix_go : option gofile := Eval vm_compute in file_in rfc5280 {| gp_Package := "examples"; gp_IntegerRepr := "big.Int" |}.
Definition certificate : tlv := %s.

(** rfc5280_test.go:19-31 (the serial number is looked at here).  The value that is read
    cannot be marshalled again: the NULL parameters of the signature algorithm have become
    nil (C77). *)
Example TestX509Parsing :
  match pkix_go with
  | Some f =>
      match unmarshal f 20 "Certificate" certificate with
      | Some (GStruct (GStruct (version :: serial :: l) :: rest) as v) =>
          version = GBig (Some 2) /\\ serial = GBig (Some %d) /\\
          marshal (fun l => l) f 20 "Certificate" v = None
      | _ => False
      end
  | None => False
  end.
Proof. vm_compute. repeat split. Qed.
"""%(der(base64.b64decode(pem))[0],0x263ed182f7fb230e0ad3ddaea3df7d88))
print('\n'.join(out),end='')
print(SKIP,file=sys.stderr)
