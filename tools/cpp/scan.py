import re,os,sys
R='/repo/'
INC=['mlkem','mlkem/sys','mlkem/native','mlkem/native/aarch64','mlkem/native/x86_64','fips202','fips202/native']
def strip(t):
    # remove comments, keep newlines
    t=re.sub(r'/\*.*?\*/',lambda m:'\n'*m.group(0).count('\n')+' ',t,flags=re.S)
    return t
DIR=r'^\s*#\s*(if|ifdef|ifndef|elif|else|endif|define|undef|include|error|pragma)\b(.*)$'
def logical(path):
    t=strip(open(R+path).read())
    asm=path.endswith('.S')
    out=[];ls=t.split('\n');i=0
    while i<len(ls):
        n=i+1;l=ls[i]
        if re.match(DIR,l):
            while l.rstrip().endswith('\\'):
                i+=1;l=l.rstrip()[:-1]+' '+ls[i]
            out.append((n,'D',l))
        else:
            l=re.sub(r'//.*','',l)
            out.append((n,'T',l))
        i+=1
    return out
def parse(path):
    """tree: list of ('inc',n,f)|('def',n,name,params,body)|('undef')|('err',n)|('txt',n,s)|('if',[(n,cond,tree)...])"""
    L=logical(path);pos=0
    def block(depth):
        nonlocal pos
        t=[]
        while pos<len(L):
            n,k,l=L[pos]
            if k=='T':
                t.append(('txt',n,l));pos+=1;continue
            m=re.match(DIR,l);d,a=m.group(1),m.group(2).strip()
            if d in('elif','else','endif'):
                assert depth>0,(path,n);return t
            pos+=1
            if d in('if','ifdef','ifndef'):
                c=a if d=='if' else ('defined(%s)'%a.split()[0] if d=='ifdef' else '!defined(%s)'%a.split()[0])
                br=[]
                b=block(depth+1);br.append((n,c,b))
                while True:
                    n2,k2,l2=L[pos];m2=re.match(DIR,l2);d2,a2=m2.group(1),m2.group(2).strip();pos+=1
                    if d2=='endif':break
                    b=block(depth+1);br.append((n2,a2 if d2=='elif' else '1',b))
                t.append(('if',br))
            elif d=='define':
                mm=re.match(r'(\w+)(\([^)]*\))?\s*(.*)$',a,re.S);t.append(('def',n,mm.group(1),mm.group(2),mm.group(3).strip()))
            elif d=='undef':t.append(('undef',n,a.split()[0]))
            elif d=='include':
                mm=re.match(r'"([^"]*)"',a)
                if mm:
                    f=None
                    for base in [os.path.dirname(path)]+INC:
                        q=os.path.normpath(os.path.join(base,mm.group(1)))
                        if os.path.isfile(R+q):f=q;break
                    assert f,(path,n,a);t.append(('inc',n,f))
                elif not a.startswith('<'):t.append(('incm',n,a))
            elif d=='error':t.append(('err',n))
        assert depth==0,path
        return t
    return block(0)
import glob
def g(p):return sorted(x[len(R):] for x in glob.glob(R+p))
PORT=g('mlkem/*.c')+g('mlkem/debug/*.c')+g('fips202/*.c')
NAT=g('mlkem/native/aarch64/*.[csS]')+g('mlkem/native/x86_64/*.[csS]')+g('fips202/native/aarch64/*.S')+g('fips202/native/x86_64/xkcp/*.c')
trees={}
def load(f):
    if f in trees:return
    trees[f]=None
    trees[f]=parse(f)
    def w(t):
        for x in t:
            if x[0]=='inc':load(x[2])
            elif x[0]=='if':
                for b in x[1]:w(b[2])
    w(trees[f])
for f in PORT+NAT:load(f)
if __name__=='__main__':
    print(len(PORT),len(NAT),len(trees))
    def w(f,t):
        for x in t:
            if x[0]=='incm':print(f,x)
            if x[0]=='if':
                for b in x[1]:w(f,b[2])
    for f in trees:w(f,trees[f])
