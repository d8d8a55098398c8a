import re,sys
sys.path.insert(0,sys.path[0])
from gen import *
NS=['MLKEM_NAMESPACE','_MLKEM_NAMESPACE','FIPS202_NAMESPACE','_FIPS202_NAMESPACE']
# ---- expressions
def lex(s):return re.findall(r'defined|\w+|&&|\|\||==|!=|>=|<=|[!()+*/<>-]',s)
def pexpr(s):
    t=lex(s);p=[0]
    def peek():return t[p[0]] if p[0]<len(t) else None
    def nxt():p[0]+=1;return t[p[0]-1]
    def prim():
        x=nxt()
        if x=='(':
            e=orr();assert nxt()==')';return e
        if x=='!':return ('Not',prim())
        if x=='defined':
            if peek()=='(':
                nxt();m=nxt();assert nxt()==')'
            else:m=nxt()
            return ('Defined',m)
        m=re.match(r'^(0x[0-9a-fA-F]+|\d+)[uUlL]*$',x)
        if m:return ('Num',int(m.group(1),0))
        return ('Name',x)
    def lvl(ops,sub):
        def f():
            e=sub()
            while peek() in ops:
                o=nxt();e=(ops[o],e,sub())
            return e
        return f
    mul=lvl({'*':'Mul','/':'Div'},prim);add=lvl({'+':'Add','-':'Sub'},mul)
    rel=lvl({'>=':'Ge'},add);eq=lvl({'==':'Eq','!=':'Ne'},rel);an=lvl({'&&':'And'},eq);orr=lvl({'||':'Or'},an)
    e=orr();assert p[0]==len(t),s
    return e
def enames(e):
    if e[0] in('Defined','Name'):return {e[1]}
    return set().union(*[enames(x) for x in e[1:] if isinstance(x,tuple)]) if e[0]!='Num' else set()
RM=set()
def body(x):
    _,n,m,par,b=x
    if par is None:
        mm=re.match(r'^(_?\w+NAMESPACE)\((\w+)\)$',b)
        if mm:return ('space',mm.group(1),mm.group(2))
        if b=='':return ('empty',)
        try:return ('exp',pexpr(b))
        except Exception:return ('empty',)
    mm=re.match(r'^(\w+)##s$',b)
    if mm:return ('prefix',mm.group(1))
    return ('empty',)
def keepdef(m):return m in RM or m in TR or m in NS
def item(x):
    _,n,k,(ns,nm),cur=x
    if k=='use':
        if nm=='state_ptr' and cur.startswith('KeccakF1600_State'):return ('bytes',n,cur)
        if nm in TR and nm!=cur:return ('use',n,cur,nm)
        return None
    if nm in TR:return (k,n,ns,nm)
    return None
def prune(t,P):
    out=[];seen=set()
    for x in t:
        if x[0]=='item':
            i=item(x)
            if i:
                key=(i[0],)+i[2:]
                if i[0] in('use','bytes') and key in seen:continue
                seen.add(key);out.append(('item',i))
        elif x[0]=='def':
            if keepdef(x[2]):out.append(('def',x[1],x[2],body(x)))
        elif x[0]=='undef':
            if keepdef(x[2]):out.append(('undef',x[1],x[2]))
        elif x[0]=='inc':
            if P.get(x[2]):out.append(('inc',x[1],x[2]))
        elif x[0] in('err','incm'):out.append(x)
        elif x[0]=='if':
            br=[(n,c,prune(b,P)) for n,c,b in x[1]]
            if any(b for _,_,b in br):
                # trailing empty branches that do not matter are kept as they are
                out.append(('if',[(n,pexpr(c),b) for n,c,b in br]))
    return out
P={f:True for f in T2}
while True:
    # files: iterate emptiness
    Q=None
    PP={f:[] for f in T2}
    while True:
        Q={f:prune(T2[f],PP) for f in T2}
        # a file containing only its guard counts as empty
        def only_guard(t):
            return len(t)==1 and t[0][0]=='if' and len(t[0][1])==1 and len(t[0][1][0][2])==1 and t[0][1][0][2][0][0]=='def'
        Q={f:([] if only_guard(Q[f]) else Q[f]) for f in Q}
        if {f for f in Q if Q[f]}=={f for f in PP if PP[f]}:break
        PP=Q
    new=set(RM)
    def cond(x):
        if x[0]=='if':
            for n,c,b in x[1]:new.update(enames(c))
        if x[0]=='def' and x[3][0]=='exp' and x[2] in RM:new.update(enames(x[3][1]))
    for f in Q:w(Q[f],cond)
    if new==RM:break
    RM|=new
FILES=[f for f in sorted(Q) if Q[f]]
ARITH=[f for f in PORT if f.startswith('mlkem')];
if __name__=='__main__':
    cnt={f:0 for f in FILES}
    for f in FILES:
        def c(x,f=f):cnt[f]+=1
        w(Q[f],c)
    print(cnt,sum(cnt.values()));print(sorted(RM))
    print([f for f in PORT+NAT if not Q[f]])
