"""Translates the Go expressions of the semantic actions to Coq terms.

Expression results are (term, type) where type is the Go type name; `coerce`
inserts the constructor that stands for the implicit conversion of a struct to an
interface."""
import re

FIELD_TYPES={}   # union field -> Go type (normalised), filled by the generators

COQ_TYPE={
 'string':'string','Number':'Z','int':'Z','bool':'bool','Real':'spec_float','Boolean':'bool',
 'ModuleIdentifier':'ModuleIdentifier','DefinitiveObjIdComponent':'DefinitiveObjIdComponent',
 'DefinitiveIdentifier':'list DefinitiveObjIdComponent',
 'Type':'atype P R','ObjectIdElement':'ObjectIdElement R','DefinedValue':'DefinedValue',
 'ObjectIdentifierValue':'list (ObjectIdElement R)','Value':'value R','Assignment':'assignment P R',
 'AssignmentList':'list (assignment P R)','ModuleBody':'ModuleBody P R','ValueReference':'string',
 'TypeReference':'string','ModuleReference':'string','Identifier':'string',
 'Constraint':'ConstraintSpec P R','ConstraintSpec':'ConstraintSpec P R','ElementSetSpec':'Elements P R',
 'Unions':'list (list (IntersectionElements P R))','Intersections':'list (IntersectionElements P R)',
 'IntersectionElements':'IntersectionElements P R','Exclusions':'Elements P R','Elements':'Elements P R',
 'SubtypeConstraint':'list (Elements P R)','RangeEndpoint':'RangeEndpoint R','NamedType':'NamedType P R',
 'ComponentType':'component P R','ComponentTypeLists':'ComponentTypeLists P R',
 'ComponentTypeList':'list (component P R)','Tag':'Tag R','NamedBit':'NamedBit R',
 'SymbolsFromModule':'SymbolsFromModule R','Symbol':'Symbol','GlobalModuleReference':'GlobalModuleReference R',
 'ChoiceType':'ChoiceType P R','ChoiceExtension':'option (NamedType P R)','ExtensionAddition':'component P R',
 'NamedNumber':'NamedNumber','EnumeratedType':'EnumeratedType','EnumerationItem':'EnumerationItem',
 'NamedNumberValue':'NamedNumberValue',
}
SLICES={ # named slice types -> element
 'DefinitiveIdentifier':'DefinitiveObjIdComponent','ObjectIdentifierValue':'ObjectIdElement',
 'AssignmentList':'Assignment','Unions':'Intersections','Intersections':'IntersectionElements',
 'SubtypeConstraint':'ElementSetSpec','ComponentTypeList':'ComponentType',
 'ExtensionAdditions':'ExtensionAddition',
}
def elem(t):
    if t.startswith('[]'): return t[2:]
    return SLICES.get(t)
def coq_type(t):
    if t.startswith('[]'): return 'list (%s)'%COQ_TYPE[t[2:]]
    return COQ_TYPE[t]

# struct -> (constructor builder, [(field, type)], result type)
def rec(prefix,fields,result,name=None):
    def build(vals):
        return '{| '+'; '.join('%s_%s := %s'%(prefix,f,v) for (f,_),v in zip(fields,vals))+' |}'
    return (build,fields,result)
def con(c,fields,result):
    def build(vals):
        return '(%s)'%(' '.join([c]+vals)) if vals else c
    return (build,fields,result)
STRUCTS={
 'ModuleDefinition':rec('md',[('ModuleIdentifier','ModuleIdentifier'),('TagDefault','int'),('ExtensibilityImplied','bool'),('ModuleBody','ModuleBody')],'ModuleDefinition'),
 'ModuleIdentifier':rec('mi',[('Reference','string'),('DefinitiveIdentifier','DefinitiveIdentifier')],'ModuleIdentifier'),
 'DefinitiveObjIdComponent':rec('doc',[('Name','string'),('Id','int')],'DefinitiveObjIdComponent'),
 'ModuleBody':rec('mb',[('AssignmentList','AssignmentList'),('Imports','[]SymbolsFromModule')],'ModuleBody'),
 'SymbolsFromModule':rec('sfm',[('SymbolList','[]Symbol'),('Module','GlobalModuleReference')],'SymbolsFromModule'),
 'GlobalModuleReference':rec('gmr',[('Reference','string'),('AssignedIdentifier','Value')],'GlobalModuleReference'),
 'DefinedValue':rec('dv',[('ModuleName','ModuleReference'),('ValueName','ValueReference')],'DefinedValue'),
 'TypeAssignment':con('AType',[('TypeReference','TypeReference'),('Type','Type')],'Assignment'),
 'ValueAssignment':con('AValue',[('ValueReference','ValueReference'),('Type','Type'),('Value','Value')],'Assignment'),
 'NamedType':con('Named',[('Identifier','Identifier'),('Type','Type')],'NamedType'),
 'BooleanType':con('TBoolean',[],'Type'),'RealType':con('TReal',[],'Type'),'NullType':con('TNull',[],'Type'),
 'ObjectIdentifierType':con('TObjectIdentifier',[],'Type'),
 'OctetStringType':con('TOctetString',[],'Type'),'CharacterStringType':con('TCharacterString',[],'Type'),
 'IntegerType':con('TInteger',[('NamedNumberList','[]NamedNumber')],'Type'),
 'NamedNumber':rec('nn',[('Name','Identifier'),('Value','NamedNumberValue')],'NamedNumber'),
 'IdentifiedIntegerValue':con('VIdentifiedInteger',[('Name','string')],'Value'),
 'EnumeratedType':rec('et',[('RootEnumeration','[]EnumerationItem'),('AdditionalEnumeration','[]EnumerationItem')],'EnumeratedType'),
 'BitStringType':con('TBitString',[('NamedBits','[]NamedBit')],'Type'),
 'NamedBit':rec('nb',[('Name','Identifier'),('Index','Value')],'NamedBit'),
 'SequenceType':con('TSequence',[('Components','ComponentTypeList'),('ExtensionAdditions','ExtensionAdditions')],'Type'),
 'SetType':con('TSet',[('Components','ComponentTypeList'),('ExtensionAdditions','ExtensionAdditions')],'Type'),
 'ComponentTypeLists':rec('ctl',[('Components','ComponentTypeList'),('ExtensionAdditions','ExtensionAdditions'),('TrailingComponents','ComponentTypeList')],'ComponentTypeLists'),
 'NamedComponentType':con('CNamed',[('NamedType','NamedType'),('IsOptional','bool'),('Default','*Value')],'ComponentType'),
 'ComponentsOfComponentType':con('CComponentsOf',[('Type','Type')],'ComponentType'),
 'SetOfType':con('TSetOf',[('Type','Type')],'Type'),'SequenceOfType':con('TSequenceOf',[('Type','Type')],'Type'),
 'AnyType':con('TAny',[('Identifier','Identifier')],'Type'),
 'ChoiceType':rec('ct',[('AlternativeTypeList','[]NamedType'),('ExtensionTypes','[]ChoiceExtension')],'ChoiceType'),
 'TaggedType':con('TTagged',[('Tag','Tag'),('Type','Type'),('TagType','int'),('HasTagType','bool')],'Type'),
 'Tag':rec('tag',[('Class','int'),('ClassNumber','Value')],'Tag'),
 'ObjectIdElement':rec('oe',[('Name','string'),('ID','int'),('Reference','*DefinedValue')],'ObjectIdElement'),
 'RestrictedStringType':con('TRestrictedString',[('LexType','int')],'Type'),
 'ConstraintedType':con('TConstrained',[('Type','Type'),('Constraint','Constraint')],'Type'),
 'Constraint':(lambda v:v[0],[('ConstraintSpec','ConstraintSpec')],'Constraint'),
 'IntersectionElements':con('Intersect',[('Elements','Elements'),('Exclusions','Exclusions')],'IntersectionElements'),
 'Exclusions':(lambda v:v[0],[('Elements','Elements')],'Exclusions'),
 'SingleValue':con('ESingleValue',[('Value','Value')],'Elements'),
 'ValueRange':con('EValueRange',[('LowerEndpoint','RangeEndpoint'),('UpperEndpoint','RangeEndpoint')],'Elements'),
 'RangeEndpoint':rec('re',[('Value','Value'),('IsOpen','bool')],'RangeEndpoint'),
 'SizeConstraint':con('ESize',[('Constraint','Constraint')],'Elements'),
 'TypeConstraint':con('EType',[('Type','Type')],'Elements'),
 'InnerTypeConstraint':con('EInner',[],'Elements'),
}
# types whose field list orders differ from Go declaration order must not be built positionally:
# checked against ast.go by check_structs().
def check_structs():
    src=open('/repo/ast.go').read()
    for name,(b,fields,_) in STRUCTS.items():
        m=re.search(r'type %s struct ?\{(.*?)\n?\}'%name,src,re.S)
        assert m,name
        fs=[]
        for l in m.group(1).split('\n'):
            l=l.split('//')[0].strip()
            if l:
                a=l.split(); fs.append((a[0],a[1] if len(a)>1 else a[0]))
        if name=='IdentifiedIntegerValue': fs=fs[1:]
        assert fs==fields or [ (f,t.replace('[]','')) for f,t in fs]==[(f,t.replace('[]','')) for f,t in fields],(name,fs,fields)
check_structs()

ZERO={'string':'""','int':'0','Number':'0','bool':'false','ModuleReference':'""','ValueReference':'""','Identifier':'""',
 'TypeReference':'""','Value':'VNil','Type':'TNil','*Value':'None','*DefinedValue':'None','Exclusions':'ENil','Elements':'ENil',
 'Assignment':'ANil','Constraint':'CSNil','ConstraintSpec':'CSNil','ElementSetSpec':'ENil','ComponentType':'CNil',
 'Symbol':'SymNil','ChoiceExtension':'None','EnumerationItem':'EINil','NamedNumberValue':'NNil',
 'Real':'(S754_zero false)','NamedType':'(Named "" TNil)','IntersectionElements':'(Intersect ENil ENil)'}
def zero(t):
    if elem(t): return '[]'
    if t in ZERO: return ZERO[t]
    if t in STRUCTS:
        b,fs,_=STRUCTS[t]; return b([zero(x) for _,x in fs])
    raise Exception('zero '+t)

def coerce(term,ty,to):
    if ty==to: return term
    if ty=='nil': return zero(to)
    C={('TypeReference','Type'):'(TReference %s)',('NamedType','Type'):'(TNamed %s)',
       ('EnumeratedType','Type'):'(TEnumerated %s)',
       ('ChoiceType','Type'):'(let c := %s in TChoice (ct_AlternativeTypeList c) (ct_ExtensionTypes c))',
       ('Number','Value'):'(VNumber %s)',('Real','Value'):'(VReal %s)',('Boolean','Value'):'(VBoolean %s)',
       ('DefinedValue','Value'):'(VDefined %s)',('ObjectIdentifierValue','Value'):'(VObjectIdentifier %s)',
       ('Number','NamedNumberValue'):'(NNumber %s)',('DefinedValue','NamedNumberValue'):'(NDefined %s)',
       ('NamedNumber','EnumerationItem'):'(EINumber %s)',('Identifier','EnumerationItem'):'(EIIdentifier %s)',
       ('TypeReference','Symbol'):'(SymType %s)',('ModuleReference','Symbol'):'(SymModule %s)',('ValueReference','Symbol'):'(SymValue %s)',
       ('SubtypeConstraint','ConstraintSpec'):'(CSSubtype %s)',
       ('Unions','ElementSetSpec'):'(EUnions %s)',('Exclusions','ElementSetSpec'):'(EExclusions %s)',
       ('ElementSetSpec','Elements'):'%s',('ComponentType','ExtensionAddition'):'%s',
       ('NamedType','ChoiceExtension'):'(Some %s)',
       ('untyped','int'):'%s',('untyped','Number'):'%s',('untyped','bool'):'%s',('untyped','string'):'%s',
       ('name','string'):'%s'}
    if (ty,to) in C: return C[(ty,to)]%term
    ne=lambda t: elem(t) and elem(t)
    if elem(ty) and elem(to) and elem(ty)==elem(to): return term
    raise Exception('coerce %s : %s -> %s'%(term,ty,to))

CONSTS={'TAGS_EXPLICIT':'TAGS_EXPLICIT','TAGS_IMPLICIT':'TAGS_IMPLICIT','TAGS_AUTOMATIC':'TAGS_AUTOMATIC',
 'CLASS_UNIVERSAL':'CLASS_UNIVERSAL','CLASS_APPLICATION':'CLASS_APPLICATION','CLASS_PRIVATE':'CLASS_PRIVATE','CLASS_CONTEXT_SPECIFIC':'CLASS_CONTEXT_SPECIFIC'}

class Tr:
    """dollar(k, field or None) -> (term, type); addr(term expr) -> pointer term"""
    def __init__(self,text,dollar,addr,cpyaddr,tokconst):
        self.t=re.findall(r'"[^"]*"|\$\d+|\.\.\.|\w+|\S',text); self.i=0
        self.dollar=dollar; self.addr=addr; self.cpyaddr=cpyaddr; self.tokconst=tokconst; self.env={}
    def peek(self,k=0): return self.t[self.i+k] if self.i+k<len(self.t) else None
    def eat(self,x=None):
        r=self.t[self.i]; self.i+=1
        if x is not None: assert r==x,(r,x,self.t)
        return r
    def expr(self):
        tok=self.peek()
        if tok=='&':
            self.eat()
            if self.peek() in STRUCTS or self.peek()=='ModuleDefinition':
                return self.expr()
            if self.peek() in self.env:
                t,ty=self.env[self.eat()]; return (self.cpyaddr(t,ty),'*'+ty)
            return self.addr(self)
        if tok=='-':
            self.eat(); t,ty=self.expr(); return ('(wrap64 (- %s))'%t,ty)
        t,ty=self.primary()
        while self.peek()=='.':
            self.eat('.'); f=self.eat()
            if f=='IntValue': self.eat('(');self.eat(')'); ty='int'
            elif f=='UnaryMinus':
                self.eat('(');self.eat(')')
                t='(wrap64 (- %s))'%t if ty=='Number' else '(SFopp %s)'%t
            else:
                b,fs,res=STRUCTS[ty]
                d=dict(fs); pre={'ComponentTypeLists':'ctl','ObjectIdElement':'oe'}[ty]
                t='(%s_%s %s)'%(pre,f,t); ty=('opt' if d[f].startswith('*') else '')+d[f]
        return t,ty
    def primary(self):
        tok=self.eat()
        if re.match(r'\$\d+$',tok): return self.dollar(int(tok[1:]),None)
        if tok=='yyDollar':
            self.eat('[');k=int(self.eat());self.eat(']');self.eat('.');return self.dollar(k,self.eat())
        if tok=='nil': return ('nil','nil')
        if tok in('true','false'): return (tok,'bool')
        if re.match(r'\d+$',tok): return (tok,'untyped')
        if tok.startswith('"'): return (tok,'string')
        if tok in self.env: return self.env[tok]
        if tok=='make':
            self.eat('('); ty=self.type(); self.eat(',');self.eat('0');self.eat(')'); return ('[]',ty)
        if tok=='append':
            self.eat('('); t,ty=self.expr()
            while self.peek()==',':
                self.eat(','); u,uy=self.expr()
                if self.peek()=='...': self.eat(); t='(%s ++ %s)'%(t,coerce(u,uy,ty))
                else: t='(%s ++ [%s])'%(t,coerce(u,uy,elem(ty)))
            self.eat(')'); return (t,ty)
        if tok=='math':
            self.eat('.');self.eat('Inf');self.eat('(')
            neg=self.peek()=='-'
            if neg:self.eat()
            self.eat('1');self.eat(')'); return ('(S754_infinity %s)'%('true' if neg else 'false'),'Real')
        if tok=='parseRealNumber':
            self.eat('(');a=[]
            while True:
                t,ty=self.expr(); a.append(coerce(t,ty,'Number'))
                if self.eat()==')':break
            return ('(parseRealNumber %s)'%' '.join(a),'Real')
        if tok=='SingleElementConstraint':
            self.eat('(');t,ty=self.expr();self.eat(')')
            return ('(SingleElementConstraint %s)'%coerce(t,ty,'Elements'),'Constraint')
        if tok=='[': 
            self.eat(']'); e=self.eat(); return self.composite('[]'+e)
        if self.peek()=='{': return self.composite(tok)
        if self.peek()=='(':
            self.eat('(');t,ty=self.expr();self.eat(')')
            return (t,tok)   # conversion between types with the same Coq representation
        if tok in CONSTS: return (tok,'int')
        if self.tokconst(tok): return (self.tokconst(tok),'int')
        raise Exception(tok)
    def type(self):
        if self.peek()=='[': self.eat();self.eat(']');return '[]'+self.eat()
        return self.eat()
    def composite(self,ty):
        self.eat('{')
        if elem(ty):
            xs=[]
            while self.peek()!='}':
                t,u=self.expr(); xs.append(coerce(t,u,elem(ty)))
                if self.peek()==',': self.eat()
            self.eat('}')
            return ('['+'; '.join(xs)+']',ty)
        b,fs,res=STRUCTS[ty]
        vals={}
        pos=0
        while self.peek()!='}':
            if self.peek(1)==':':
                f=self.eat();self.eat(':')
            else: f=fs[pos][0]
            t,u=self.expr(); ft=dict(fs)[f]
            vals[f]='(Some %s)'%t if ft.startswith('*') and u.startswith('*') else (t if ft==u or 'opt'+ft==u else coerce(t,u,ft))
            pos+=1
            if self.peek()==',':self.eat()
        self.eat('}')
        return (b([vals.get(f,None) or zero(ft) for f,ft in fs]),res)
