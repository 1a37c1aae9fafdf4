"""Compares the machine of PySem.v with the Python interpreter at hand on generated programs (none of them is code of the project).

    python3 programs.py FIRST LAST     runs the programs with these numbers, after the build of ../../rocq

Output: a count per verdict (0 not covered by the machine, 1 the same result, 2 another result, 3 not finished) and the numbers with 2."""
import warnings; warnings.simplefilter("ignore")
import sys,ast,re,subprocess,math,io,signal,os,tempfile
HERE=os.path.dirname(os.path.abspath(__file__)); sys.path.insert(0,HERE); THEORIES=os.path.join(HERE,'..','..','rocq','theories'); TMP=tempfile.mkdtemp()
from programs_gen import *
code=open(os.path.join(HERE,'..','source_trees.py')).read().rsplit("if sys.argv[1:]==['counterexamples']",1)[0]
def export(src):
    ns={}; exec(code,ns)
    ns['cur_file']='x'; tree=ast.parse(src); ns['modname']='m'; ns['modfuns']={s.name for s in tree.body if type(s) is ast.FunctionDef}
    # dataclass decorator: a call
    for s in tree.body:
        if type(s) is ast.ClassDef: ns['cls'](s)
        else: ns['fun'](s,'m.'+s.name)
    return ns
def fl(x,ns):
    if math.isnan(x): return 'S754_nan'
    if math.isinf(x): return '(S754_infinity %s)'%('true' if x<0 else 'false')
    if x==0: return '(S754_zero %s)'%('true' if math.copysign(1,x)<0 else 'false')
    m,e=math.frexp(abs(x)); m=int(m*2**53); e-=53
    if e<-1074: m>>=(-1074-e); e=-1074
    return '(S754_finite %s %d (%d))'%('true' if x<0 else 'false',m,e)
def tree(v,ns,depth=0):
    L=lambda xs:'['+'; '.join(xs)+']'
    if v is None: return 'TNone'
    if v is True: return '(TBool true)'
    if v is False: return '(TBool false)'
    if isinstance(v,int): return '(TInt (%d))'%v
    if isinstance(v,float): return '(TFloat %s)'%fl(v,ns)
    if isinstance(v,str): return '(TStr %s)'%L([str(ord(c)) for c in v])
    if isinstance(v,(bytes,memoryview)): return '(TBytes %s)'%L([str(c) for c in bytes(v)])
    if isinstance(v,tuple): return '(TTup %s)'%L([tree(x,ns) for x in v])
    if isinstance(v,list): return '(TLst %s)'%L([tree(x,ns) for x in v])
    if isinstance(v,dict): return '(TDct %s)'%L([tree(k,ns)+'; '+tree(x,ns) for k,x in v.items()])
    if isinstance(v,io.BytesIO): return '(TFile %s %d)'%(L([str(c) for c in v.getvalue()]),v.tell())
    return '(TObj "%s" %s)'%(type(v).__name__,L(['("%s", %s)'%(k,tree(x,ns)) for k,x in v.__dict__.items()]))
HEAD='''From Coq Require Import ZArith List String Bool SpecFloat.
From Verif Require Import Py PyFloat PySort Timsort Show DecFacts PyAst PySem Tone.
Import ListNotations.
Open Scope Z_scope.
Open Scope string_scope.
Inductive tree := TNone | TBool (b : bool) | TInt (z : Z) | TFloat (f : float) | TStr (s : list Z) | TBytes (s : list Z) | TTup (l : list tree) | TLst (l : list tree) | TDct (l : list tree) | TFile (s : list Z) (p : nat) | TObj (c : string) (l : list (string * tree)) | TBad.
Fixpoint leqb {A} (f : A -> A -> bool) (a b : list A) : bool := match a, b with [], [] => true | x :: a, y :: b => if f x y then leqb f a b else false | _, _ => false end.
Definition feqb (a b : float) : bool := match a, b with S754_zero s, S754_zero t => Bool.eqb s t | S754_infinity s, S754_infinity t => Bool.eqb s t | S754_nan, S754_nan => true
  | S754_finite s m e, S754_finite t n f => Bool.eqb s t && Pos.eqb m n && Z.eqb e f | _, _ => false end.
Fixpoint eqb (n : nat) (a b : tree) : bool := match n with O => false | S n => match a, b with
  | TNone, TNone => true | TBool x, TBool y => Bool.eqb x y | TInt x, TInt y => Z.eqb x y | TFloat x, TFloat y => feqb x y
  | TStr x, TStr y | TBytes x, TBytes y => leqb Z.eqb x y | TTup x, TTup y | TLst x, TLst y | TDct x, TDct y => leqb (eqb n) x y
  | TFile x p, TFile y q => leqb Z.eqb x y && Nat.eqb p q
  | TObj c x, TObj d y => String.eqb c d && leqb (fun u v => String.eqb (fst u) (fst v) && eqb n (snd u) (snd v)) x y | _, _ => false end end.
Fixpoint reify (n : nat) (h : heap) (v : value) : tree := match n with O => TBad | S n => match v with
  | VNone => TNone | VBool b => TBool b | VInt z => TInt z | VFloat f => TFloat f | VStr s => TStr s | VBytes s => TBytes s
  | VTuple l => TTup (map (reify n h) l) | VObj c f => TObj c (map (fun x => (fst x, reify n h (snd x))) f)
  | VRef a => match get h a with Some (HList l) => TLst (map (reify n h) l) | Some (HDict _ l) => TDct (concat (map (fun x => [reify n h (fst x); reify n h (snd x)]) l))
     | Some (HInst c f) => TObj c (map (fun x => (fst x, reify n h (snd x))) f) | Some (HFile d p) => TFile d p | _ => TBad end
  | _ => TBad end end.
Definition ex_python : python :=
  mkPython ascii_digit shortest_digits (fun _ => Err OverflowError) (fun x => x) (fun _ _ _ => f_half) (fun _ a _ => a) cpython_sort.
Section X. Variable P : program.
Fixpoint adv (n : nat) (s : state) : state := match n with O => s | S n => match step P ex_python s with Some t => adv n t | None => s end end.
Definition ltof (key : option Z) (h : heap) (x y : value) : bool :=
  match sort_key key x, sort_key key y with Some u, Some w => match adv 3000 (Cm CLt u w h []) with Rt (VBool b) _ [] => b | _ => false end | _, _ => false end.
Fixpoint go (n : nat) (s : state) : state := match n with O => s | S n =>
  match s with
  | Sort a key h K => match get h a with Some (HList l) => go n (Rt VNone (put h a (HList (cpython_sort value (ltof key h) l))) K) | _ => Stuck end
  | Push a v h K => match get h a with Some (HList l) => go n (Rt VNone (put h a (HList (heappush (ltof None h) l v))) K) | _ => Stuck end
  | _ => match step P ex_python s with Some t => go n t | None => s end end end.
Definition err_eqb (a b : err) : bool := match a, b with ValueError, ValueError | TypeError, TypeError | OverflowError, OverflowError | ZeroDivisionError, ZeroDivisionError | AssertionError, AssertionError | KeyError, KeyError | IndexError, IndexError => true | _, _ => false end.
(* 0 stuck, 1 same, 2 differs, 3 not finished *)
Definition verdict (r : res tree) : Z := match go 60000 (Ca (VFun "m.main") [] [] (mkHeap [] 0) []) with
  | Rt v h [] => match r with Ok t => if eqb 50 (reify 50 h v) t then 1 else 2 | Err _ => 2 end
  | Thr e _ => match r with Err f => if err_eqb e f then 1 else 2 | Ok _ => 2 end
  | Stuck => 0 | _ => 3 end.
End X.
'''
def job(seeds,name):
    out=[HEAD]; used=[]; pre=None
    for sd in seeds:
        src=program(sd)
        signal.alarm(5)
        try: k,v,_=run(src)
        except Exception as e: print(sd,'gen',repr(e)); continue
        finally: signal.alarm(0)
        if k=='Ok' and big(v): continue
        try: ns=export(src)
        except Exception as e:
            print(sd,'export',repr(e)[:200]); continue
        if pre is None:
            fl_=[(q,i) for q,i in ns['funs'] if q!='m.main']; n=len(ns['out'])
            out+= [x for x in ns['out']]
            i=[j for j,x in enumerate(out) if 'Definition src_m_main ' in x]
            out=[x for j,x in enumerate(out) if j not in i]
            pre='[%s]'%'; '.join('("%s", %s)'%f for f in fl_); out.append('Definition base_funs : list (string * fundef) := %s.\nDefinition base_classes : list (string * classdef) := [%s].\n'%(pre,'; '.join(ns['classes'])))
            out.append('''Definition base_defaults : list (string * list (string * value)) := [("m.add", [("b", VInt 7)]); ("m.counter.inc", [("m", VInt 2)]); ("P.__init__", [("y", VInt 3)])].\n''')
        mine=[x for x in ns['out'] if 'Definition src_m_main' in x]
        ids=[(q,i) for q,i in ns['funs'] if q.startswith('m.main')]
        for x in mine:
            for q,i in ids: pass
            out.append(re.sub(r'\(\*\*.*?\*\)','',re.sub(r'Definition (src_m_main\w*)',lambda m:'Definition p%d_%s'%(sd,m.group(1)),x),flags=re.S))
        exp='(Ok %s)'%tree(v,ns) if k=='Ok' else '(Err %s)'%v
        out.append('Definition r%d := verdict (mkProgram (base_funs ++ [%s]) base_classes [] base_defaults) %s.\n'%(sd,'; '.join('("%s", p%d_%s)'%(q,sd,i) for q,i in ids),exp))
        used.append(sd)
    out.append('Set Printing Depth 100000.\nEval vm_compute in [%s].\n'%'; '.join('(%d, r%d)'%(s,s) for s in used))
    open('%s/%s.v'%(TMP,name),'w').write('\n'.join(out))
    p=subprocess.run('ulimit -v 6000000; timeout 900 coqc -Q %s Verif %s/%s.v'%(THEORIES,TMP,name),shell=True,capture_output=True,text=True)
    if p.returncode: print(p.stdout[-500:],p.stderr[-1500:]); return {}
    return {int(a):int(b) for a,b in re.findall(r'\(\s*(\d+),\s*(\d+)\)',p.stdout)}
if __name__=='__main__':
    a,b=int(sys.argv[1]),int(sys.argv[2])
    from collections import Counter
    for i in range(a,b,50):
        r=job(range(i,min(b,i+50)),'fz%d'%a); print(i,Counter(r.values()),[k for k,v in r.items() if v==2],'unfinished',[k for k,v in r.items() if v==3]); sys.stdout.flush()
