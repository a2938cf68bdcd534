"""Reads /repo/y.go and /repo/asn1.y (as text) for the generators."""
import re
Y=open('/repo/y.go').read()
YL=Y.split('\n')
G=open('/repo/asn1.y').read()

def consts():
    out=[]
    for i,l in enumerate(YL):
        m=re.match(r'const (\w+) = (\d+)$',l)
        if m and int(m.group(2))>=57346: out.append((m.group(1),int(m.group(2)),i+1))
    return out

def table(name):
    """numbers of `var name = [...]intN{...}` with first/last line"""
    for i,l in enumerate(YL):
        if re.match(r'var %s = \[\.\.\.\]'%name,l):
            j=i+1; nums=[]
            while not YL[j].startswith('}'):
                nums+= [int(x) for x in re.findall(r'-?\d+',YL[j])]
                j+=1
            return nums,i+1,j+1
    raise Exception(name)

def toknames():
    for i,l in enumerate(YL):
        if l.startswith('var yyToknames'):
            j=i+1; out=[]
            while not YL[j].startswith('}'):
                m=re.match(r'\s*"(.*)",',YL[j]); out.append(m.group(1)); j+=1
            return out,i+1,j+1

def actions():
    """rule -> (nrhs, expr text lines, first line, last line)"""
    out={}
    i=next(k for k,l in enumerate(YL) if l.strip()=='switch yynt {')
    cur=None
    j=i+1
    while True:
        l=YL[j]
        if l=='\t}': break
        m=re.match(r'\tcase (\d+):',l)
        if m:
            cur=int(m.group(1)); out[cur]=[None,[],j+1,None]
        else:
            m=re.match(r'\t\tyyDollar = yyS\[yypt-(\d+) : yypt\+1\]',l)
            if m: out[cur][0]=int(m.group(1))
            elif l.startswith('\t\t\t'): out[cur][1].append(l.strip())
            if cur is not None: out[cur][3]=j+1
        j+=1
    return out

def strip_comments(s):
    # blank out comments (keep line structure)
    r=[];i=0
    while i<len(s):
        if s.startswith('/*',i):
            j=s.index('*/',i)+2
            r.append(re.sub(r'[^\n]',' ',s[i:j])); i=j
        elif s.startswith('//',i):
            j=s.find('\n',i); j=len(s) if j<0 else j
            r.append(' '*(j-i)); i=j
        else: r.append(s[i]); i+=1
    return ''.join(r)

def union_fields():
    """order and Go types of %union"""
    m=re.search(r'%union\{(.*?)\n\}',G,re.S)
    out=[]
    for l in m.group(1).split('\n'):
        l=l.strip()
        if l:
            a=l.split(None,1); out.append((a[0],a[1].strip()))
    return out

def types():
    t={}
    for m in re.finditer(r'%type <(\w+)>([^\n]*)',strip_comments(G)):
        for n in m.group(2).split(): t[n]=m.group(1)
    for m in re.finditer(r'%token <(\w+)>\s*(\w+)',G): t[m.group(2)]=m.group(1)
    return t

def rules():
    """list of (number, lhs, [rhs], action or None, line) numbered from 1 as goyacc does"""
    g=strip_comments(G)
    parts=g.split('%%')
    sec=parts[1]; off=parts[0].count('\n')
    # tokenise
    toks=[];i=0;line=off+1
    while i<len(sec):
        c=sec[i]
        if c=='\n': line+=1; i+=1
        elif c.isspace(): i+=1
        elif c=='{':
            d=0;j=i
            while True:
                if sec[j]=='{': d+=1
                if sec[j]=='}':
                    d-=1
                    if d==0: break
                j+=1
            toks.append(('act',sec[i+1:j].strip(),line)); line+=sec[i:j].count('\n'); i=j+1
        elif c in ':|;': toks.append((c,c,line)); i+=1
        else:
            m=re.match(r'\w+',sec[i:]); assert m,sec[i:i+30]
            toks.append(('id',m.group(0),line)); i+=m.end()
    out=[];n=0;k=0
    while k<len(toks):
        assert toks[k][0]=='id',toks[k]
        lhs=toks[k][1]; assert toks[k+1][0]==':'; k+=2
        while True:
            rhs=[];act=None;ln=toks[k][2] if k<len(toks) else line
            while k<len(toks) and toks[k][0] in('id','act'):
                if toks[k][0]=='id' and k+1<len(toks) and toks[k+1][0]==':': break
                if toks[k][0]=='id': rhs.append(toks[k][1])
                else: act=toks[k][1]
                ln=toks[k][2]; k+=1
            n+=1; out.append((n,lhs,rhs,act,ln))
            if k<len(toks) and toks[k][0]=='|': k+=1; continue
            if k<len(toks) and toks[k][0]==';': k+=1
            break
    return out
