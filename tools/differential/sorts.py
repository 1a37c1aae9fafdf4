"""Compares Timsort.v (up to two runs, where the versions of CPython agree) and heappush of PySort.v with the Python interpreter at hand,
also for comparisons that are no order: python3 sorts.py SEED COUNT"""
import random,subprocess,sys,re,heapq
import os,tempfile
HERE=os.path.dirname(os.path.abspath(__file__)); THEORIES=os.path.join(HERE,'..','..','rocq','theories'); TMP=tempfile.mkdtemp()
r=random.Random(int(sys.argv[1])); N=int(sys.argv[2])
out=[]
for t in range(N):
    A,B,C,M=r.randint(1,500),r.randint(1,500),r.randint(0,50),r.choice([101,7,211])
    T=r.randint(0,M); n=r.choice([2,3,10,40,63,64,65,66,90,100,120,125])
    mode=r.random()
    class X:
        def __init__(s,v): s.v=v
        def __lt__(s,o):
            i,j=s.v,o.v
            if mode<0.4: return (i*A+j*B+C*i*j)%M<T
            if mode<0.7: return i//A<j//A and (i*j)%M!=0
            return i%M<j%M
    l=[r.randint(0,600) for _ in range(n)]
    if r.random()<0.4: # runs
        l=[]; 
        while len(l)<min(n,50): 
            k=sorted(r.randint(0,600) for _ in range(r.randint(1,80))); l+=k if r.random()<0.6 else k[::-1]
    f='(fun i j => (i * %d + j * %d + %d * i * j) mod %d <? %d)'%(A,B,C,M,T) if mode<0.4 else '(fun i j => (i / %d <? j / %d) && negb ((i * j) mod %d =? 0))'%(A,A,M) if mode<0.7 else '(fun i j => i mod %d <? j mod %d)'%(M,M)
    L=lambda l:'['+'; '.join(map(str,l))+']'
    x=[X(v) for v in l]; x.sort(); out.append('leqb (cpython_sort Z %s %s) %s'%(f,L(l),L([a.v for a in x])))
    h=[X(v) for v in l[:60]]; k=r.randint(0,600); heapq.heappush(h,X(k)); out.append('leqb (heappush %s %s %d) %s'%(f,L(l[:60]),k,L([a.v for a in h])))
H='''From Coq Require Import ZArith List Bool. From Verif Require Import Py PySort Timsort.
Import ListNotations. Open Scope Z_scope.
Fixpoint leqb (a b : list Z) : bool := match a, b with [], [] => true | x :: a, y :: b => if Z.eqb x y then leqb a b else false | _, _ => false end.
Fixpoint bad (i : Z) (l : list bool) : list Z := match l with [] => [] | b :: l => if b then bad (i + 1) l else i :: bad (i + 1) l end.
'''
open(TMP+'/t.v','w').write(H+'Definition t := [\n'+';\n'.join(out)+'].\nEval vm_compute in bad 0 t.\n')
p=subprocess.run('ulimit -v 6000000; timeout 900 coqc -Q %s Verif %s/t.v'%(THEORIES,TMP),shell=True,capture_output=True,text=True)
print(p.stderr[-400:]); L=[int(x) for x in re.findall(r'\d+',p.stdout.split(':')[0])]
print(len(out),'checks',len(L),'bad',[out[i][:90] for i in L[:5]])
