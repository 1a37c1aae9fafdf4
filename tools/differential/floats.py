"""Compares the floats of PyFloat.v, FrequencyFloat.v and Show.v with those of the Python interpreter at hand: python3 floats.py SEED COUNT"""
import random,struct,math,subprocess,sys,re
import os,tempfile
HERE=os.path.dirname(os.path.abspath(__file__)); THEORIES=os.path.join(HERE,'..','..','rocq','theories'); TMP=tempfile.mkdtemp()
r=random.Random(int(sys.argv[1])); N=int(sys.argv[2])
def fl(x):
    if math.isnan(x): return 'S754_nan'
    if math.isinf(x): return '(S754_infinity %s)'%('true' if x<0 else 'false')
    if x==0: return '(S754_zero %s)'%('true' if math.copysign(1,x)<0 else 'false')
    m,e=math.frexp(abs(x)); m=int(m*2**53); e-=53
    if e<-1074: m>>=(-1074-e); e=-1074
    return '(S754_finite %s %d (%d))'%('true' if x<0 else 'false',m,e)
def rf():
    k=r.random()
    if k<0.3: return struct.unpack('<d',r.randbytes(8))[0]
    if k<0.5: return r.uniform(-1e3,1e3)
    if k<0.6: return float(r.randint(-2**60,2**60))
    if k<0.7: return r.choice([0.0,-0.0,math.inf,-math.inf,math.nan,5e-324,2.2250738585072014e-308,1.7976931348623157e308,1.0,-1.0])
    if k<0.8: return r.uniform(-1,1)*2.0**r.randint(-1074,-1000)
    if k<0.9: return round(r.uniform(0,10),r.randint(0,5))
    return r.randint(-1000,1000)/2**r.randint(0,12)
out=[]
def b(x): return 'true' if x else 'false'
def div(x,y):
    try: return x/y
    except ZeroDivisionError: return None
for i in range(N):
    x,y=rf(),rf()
    out.append('feqb (fmul %s %s) %s'%(fl(x),fl(y),fl(x*y)))
    if y!=0: out.append('feqb (fdiv %s %s) %s'%(fl(x),fl(y),fl(x/y)))
    for o,f in (('flt',lambda a,c:a<c),('fle',lambda a,c:a<=c),('feq',lambda a,c:a==c)): out.append('Bool.eqb (%s %s %s) %s'%(o,fl(x),fl(y),b(f(x,y))))
    out.append('feqb (fmax %s %s) %s'%(fl(x),fl(y),fl(max(x,y))))
    out.append('feqb (fmin %s %s) %s'%(fl(x),fl(y),fl(min(x,y))))
    try: e='Ok (%d)'%int(x)
    except Exception as ex: e='Err '+type(ex).__name__
    out.append('rz (int_of_float %s) (%s)'%(fl(x),e))
    n=r.choice([r.randint(-10**9,10**9),r.getrandbits(r.randint(1,1100)),-r.getrandbits(r.randint(50,60)),2**r.randint(0,1030)+r.randint(-1,1)])
    m=r.choice([r.randint(-10**9,10**9),r.getrandbits(r.randint(1,1100)),-r.getrandbits(r.randint(50,60)),0,1,12])
    try: e='(Ok %s)'%fl(float(n))
    except OverflowError: e='(Err OverflowError)'
    out.append('rf (to_float (%d)) %s'%(n,e))
    try: e='(Ok %s)'%fl(n/m)
    except (OverflowError,ZeroDivisionError) as ex: e='(Err %s)'%type(ex).__name__
    out.append('rf (int_truediv (%d) (%d)) %s'%(n,m,e))
    z=abs(x)
    if z!=0 and math.isfinite(z):
        s=repr(z)
        out.append('leqb Z.eqb (repr_float shortest_digits %s) %s'%(fl(x),'['+'; '.join(str(ord(c)) for c in repr(x))+']'))
    if math.isfinite(x) and abs(x)<1e6: out.append('leqb Z.eqb (fixed3 %s) %s'%(fl(x),'['+'; '.join(str(ord(c)) for c in '%.3f'%x)+']'))
H='''From Coq Require Import ZArith List String Bool SpecFloat.
From Verif Require Import Py PyFloat Show FrequencyFloat PyAst PySem.
Import ListNotations. Open Scope Z_scope.
Fixpoint leqb {A} (f : A -> A -> bool) (a b : list A) : bool := match a, b with [], [] => true | x :: a, y :: b => if f x y then leqb f a b else false | _, _ => false end.
Definition feqb (a b : float) : bool := match a, b with S754_zero s, S754_zero t => Bool.eqb s t | S754_infinity s, S754_infinity t => Bool.eqb s t | S754_nan, S754_nan => true
  | S754_finite s m e, S754_finite t n f => Bool.eqb s t && Pos.eqb m n && Z.eqb e f | _, _ => false end.
Definition ee (a b : err) : bool := match a, b with ValueError, ValueError | OverflowError, OverflowError | ZeroDivisionError, ZeroDivisionError => true | _, _ => false end.
Definition rz (a b : res Z) := match a, b with Ok x, Ok y => Z.eqb x y | Err x, Err y => ee x y | _, _ => false end.
Definition rf (a b : res float) := match a, b with Ok x, Ok y => feqb x y | Err x, Err y => ee x y | _, _ => false end.
Fixpoint bad (i : Z) (l : list bool) : list Z := match l with [] => [] | b :: l => if b then bad (i + 1) l else i :: bad (i + 1) l end.
'''
open(TMP+'/t.v','w').write(H+'Definition t := [\n'+';\n'.join(out)+'].\nEval vm_compute in bad 0 t.\n')
p=subprocess.run('ulimit -v 6000000; timeout 900 coqc -Q %s Verif %s/t.v'%(THEORIES,TMP),shell=True,capture_output=True,text=True)
print(p.stderr[-400:]); L=[int(x) for x in re.findall(r'\d+',p.stdout.split(':')[0])]
print(len(out),'checks',len(L),'bad')
from collections import Counter
print(Counter(out[i].split()[0]+' '+out[i].split()[1] for i in L)); 
for i in L[:6]: print(out[i])
