import re,sys
sys.path.insert(0,sys.path[0])
from scan import *
DISP=['poly_tobytes','poly_frombytes','poly_tomont','poly_reduce','poly_mulcache_compute','poly_ntt','poly_invntt_tomont','polyvec_basemul_acc_montgomery_cached','rej_uniform','KeccakF1600_StatePermute','KeccakF1600x4_StatePermute']
# ---- items
class St:
    def __init__(s):s.depth=0;s.head='';s.cur=None;s.kind=None
    def copy(s):
        r=St();r.__dict__.update(s.__dict__);return r
def headname(h):
    h=h.strip()
    h=re.sub(r'__contract__\s*\(.*\)\s*$','',h,flags=re.S).strip()
    h=re.sub(r'STATIC_ASSERT\s*\((?:[^()]|\([^()]*\))*\)','',h).strip()
    if re.match(r'(typedef|struct|union|enum|extern)\b',h):return None
    loc=bool(re.match(r'(static|STATIC_TESTABLE|STATIC_INLINE_TESTABLE)\b',h))
    if '=' in h:
        m=re.match(r'.*?(\w+)\s*(\[[^\]]*\])*\s*=\s*$',h,re.S)
        return (loc,m.group(1),'data') if m else None
    m=re.match(r'[^(]*?(\w+)\s*\(',h,re.S)
    return (loc,m.group(1),'fn') if m else None
def text(st,s,n,asm,out):
    if asm:
        m=re.match(r'^(_?\w+NAMESPACE)\((\w+)\):',s)
        if m:
            out.append(('item',n,'provide',(m.group(1),m.group(2)),None));st.cur=m.group(2)
        return
    for tok in re.findall(r'[A-Za-z_]\w*|"(?:[^"\\]|\\.)*"|\'[^\']*\'|[^\sA-Za-z_]|\s+',s+'\n'):
        if st.depth==0:
            if tok=='{':
                h=headname(st.head)
                if h:
                    st.cur=h[1];out.append(('item',n,'local' if h[0] else 'provide',(None,h[1]),None))
                else:st.cur=None
                st.depth=1;st.head=''
            elif tok==';':
                h=st.head.strip()
                m=re.match(r'(?:volatile\s+)?(?:int|uint64_t)\s+(\w+)\s*(=\s*0)?$',h)
                if m:out.append(('item',n,'provide',(None,m.group(1)),None))
                st.head=''
            elif tok=='}':st.head=''
            else:st.head+=tok
        else:
            if tok=='{':st.depth+=1
            elif tok=='}':
                st.depth-=1
                if st.depth==0:st.cur=None;st.head=''
            elif re.match(r'[A-Za-z_]',tok) and st.cur:
                out.append(('item',n,'use',(None,tok),st.cur))
def conv(t,st,asm):
    out=[]
    for x in t:
        if x[0]=='txt':text(st,x[2],x[1],asm,out)
        elif x[0]=='if':
            brs=[];ends=[]
            for (n,c,b) in x[1]:
                s2=st.copy();brs.append((n,c,conv(b,s2,asm)));ends.append(s2)
            ok=[e for e in ends]
            st.__dict__.update(ends[0].__dict__)
            if any(e.depth!=ends[0].depth for e in ends):print('DEPTH',x[1][0][0],[e.depth for e in ends],file=sys.stderr)
            out.append(('if',brs))
        else:out.append(x)
    return out
T2={}
for f in trees:
    T2[f]=conv(trees[f],St(),f.endswith('.S') or f.endswith('.inc'))
# ---- names
prov=set();loc=set()
def w(t,fn):
    for x in t:
        fn(x)
        if x[0]=='if':
            for b in x[1]:w(b[2],fn)
for f in NAT:
    w(T2[f],lambda x:prov.add(x[3][1]) if x[0]=='item' and x[2]=='provide' else None)
for f in T2:
    if 'profiles' in f:w(T2[f],lambda x:loc.add(x[3][1]) if x[0]=='item' and x[2]=='local' else None)
TR=prov|loc|set(DISP)
if __name__=='__main__':
    print(sorted(prov));print(sorted(loc))
