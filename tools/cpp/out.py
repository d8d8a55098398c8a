import sys
sys.path.insert(0,sys.path[0])
from emit import *
TH='/verif/rocq/theories/'
prefixes=[];idents=set()
def cid(m):idents.add(m);return 'i_'+m
def cf(f):return 'f_'+re.sub(r'\W','_',f)
def ce(e):
    k=e[0]
    if k=='Num':return '(Num %d)'%e[1]
    if k in('Name','Defined'):return '(%s %s)'%(k,cid(e[1]))
    return '(%s %s)'%(k,' '.join(ce(x) for x in e[1:]))
def cb(b):
    if b[0]=='empty':return 'Other'
    if b[0]=='exp':return '(Expr %s)'%ce(b[1])
    if b[0]=='space':return '(Apply %s %s)'%(cid(b[1]),cid(b[2]))
    if b[0]=='prefix':
        if b[1] not in prefixes:prefixes.append(b[1])
        return '(Paste p_%s)'%b[1].strip('_') if not b[1].startswith('_') else '(Paste u_%s)'%b[1].strip('_')
def nm(ns,x):return '(Plain %s)'%cid(x) if ns is None else '(Spaced %s %s)'%(cid(ns),cid(x))
def ct(t,ind):
    s=' '*ind;r=[]
    for x in t:
        if x[0]=='item':
            i=x[1]
            if i[0]=='use':r.append('Item (Use %s (Plain %s)) (* %d *)'%(cid(i[2]),cid(i[3]),i[1]))
            elif i[0]=='bytes':r.append('Item (Bytes %s) (* %d *)'%(cid(i[2]),i[1]))
            else:r.append('Item (%s %s) (* %d *)'%('Local' if i[0]=='local' else 'Provide',nm(i[2],i[3]),i[1]))
        elif x[0]=='def':r.append('Define %s %s (* %d *)'%(cid(x[2]),cb(x[3]),x[1]))
        elif x[0]=='inc':r.append('Include %s (* %d *)'%(cf(x[2]),x[1]))
        elif x[0]=='err':r.append('Error (* %d *)'%x[1])
        elif x[0]=='incm':r.append('IncludeNamed (* %d *)'%x[1])
        elif x[0]=='if':
            def chain(br):
                if not br:return '[]'
                n,c,b=br[0]
                if c==('Num',1):return ct(b,ind+2)
                rest=br[1:]
                no='[]' if not rest else (ct(rest[0][2],ind+2) if rest[0][1]==('Num',1) else '[\n'+' '*(ind+2)+chain(rest)+']')
                return 'If (* %d *) %s\n%s  %s\n%s  %s'%(n,ce(c),s,ct(b,ind+2),s,no)
            r.append(chain(x[1]))
        else:assert 0,x
    if not r:return '[]'
    return '[ '+(';\n'+s+'  ').join(r)+' ]'
defs=[]
for f in FILES:
    if not Q[f]:continue
    defs.append('(* /repo/%s; the numbers are its line numbers *)\nDefinition c_%s : list line :=\n  %s.\n'%(f,cf(f)[2:],ct(Q[f],2)))
# extra files without tracked contents are still sources
SRC=PORT+NAT
files=sorted(set(FILES)|set(SRC))
EXTRA=['__AARCH64EL__','_M_ARM64','__ASSEMBLER__']
for e in EXTRA:cid(e)
ids=sorted(idents)
o=open(TH+'ModelCppNames.v','w')
o.write('''(* The names that occur in the preprocessor directives of the library and the
   files they occur in.  Written by a script from the text of /repo; the
   script is described in DESIGN.md (C74). *)
From Coq Require Import PArith List.
Import ListNotations.

(* every macro that a retained condition tests (for instance
   /repo/mlkem/sys/cpucap.h 6-41, /repo/mlkem/native/profile.h 5-70), every
   function and table that has more than one definition or a definition in
   the native directories, and every function that uses one of these *)
Inductive ident : Set :=
''')
o.write('\n'.join('| i_'+x for x in ids)+'.\n\n')
o.write('(* all of them: no counterpart in the code *)\nDefinition all_idents : list ident :=\n  ['+';\n   '.join('i_'+x for x in ids)+'].\n\n')
o.write('(* a number for every name: no counterpart in the code *)\nDefinition code (i : ident) : positive :=\n  match i with\n'+'\n'.join('  | i_%s => %d'%(x,n+1) for n,x in enumerate(ids))+'\n  end%positive.\n\n')
o.write('(* what the namespace macros put before a name: /repo/mlkem/params.h 16-24,\n   /repo/fips202/namespace.h 8-9; u_ stands for a leading underscore *)\nInductive prefix : Set :=\n'+'\n'.join('| %s'%('p_'+p.strip('_') if not p.startswith('_') else 'u_'+p.strip('_')) for p in prefixes)+'.\n\n')
o.write('(* the files of /repo/mlkem and /repo/fips202 that are compiled or included\n   and hold a retained directive *)\nInductive file : Set :=\n'+'\n'.join('| '+cf(f) for f in files)+'.\n\n')
o.write('(* the files that the compiler treats as assembly (suffix .S), for which\n   it predefines __ASSEMBLER__ *)\nDefinition assembly (f : file) : bool :=\n  match f with\n'+'\n'.join('  | %s'%cf(f) for f in files if f.endswith('.S'))+' => true\n  | _ => false\n  end.\n')
o.close()
o=open(TH+'ModelSources.v','w')
o.write('''(* The preprocessor directives, definitions and uses of the source files.
   Written by a script from the text of /repo, see DESIGN.md (C74).  Each
   definition names its file; each directive carries its line number. *)
From Coq Require Import ZArith List.
Import ListNotations.
Require Import Verif.ModelCppNames Verif.ModelCpp.
Open Scope Z_scope.

''')
o.write('\n'.join(defs))
o.write('\n(* the text of a file: /repo/mlkem, /repo/fips202 *)\nDefinition contents (f : file) : list line :=\n  match f with\n'+'\n'.join('  | %s => %s'%(cf(f),'c_'+cf(f)[2:] if f in FILES and Q[f] else '[]') for f in files)+'\n  end.\n\n')
o.write('(* the files compiled by every build: /repo/mk/schemes.mk 2,\n   /repo/mk/crypto.mk 4 (wildcards) *)\nDefinition portable_sources : list file :=\n  ['+';\n   '.join(cf(f) for f in PORT)+'].\n\n')
o.write('(* the further files of a build with OPT=1: /repo/mk/schemes.mk 3-4,\n   /repo/mk/crypto.mk 5-6 (wildcards) *)\nDefinition native_sources : list file :=\n  ['+';\n   '.join(cf(f) for f in NAT)+'].\n')
o.close()
print(len(ids),prefixes,len(files))
