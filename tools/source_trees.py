import ast, struct, sys, math
REPO='/repo/'
MODS=[('signature','src/melodia/core/signature.py'),('tone','src/melodia/core/tone.py'),('note','src/melodia/core/note.py'),
      ('track','src/melodia/core/track.py'),('chord','src/melodia/music/chord.py'),('midi','src/melodia/io/midi.py'),
      ('processing','src/melodia/processing/track.py')]
# the tests that draw random numbers: module, file, functions
TESTS=[('test_track','tests/melodia/core/test_track.py',['random_track','test_track_eq']),
       ('test_midi_serialize','tests/melodia/io/test_midi_serialize.py',['random_track_without_overlaps','test_midi_serialize'])]
imported=set()  # modules of melodia that a test imports
BIN={ast.Add:'Add',ast.Sub:'Sub',ast.Mult:'Mult',ast.Div:'Div',ast.FloorDiv:'FloorDiv',ast.Mod:'Mod',ast.Pow:'Pow',
     ast.LShift:'LShift',ast.RShift:'RShift',ast.BitAnd:'BitAnd',ast.BitOr:'BitOr'}
CMP={ast.Eq:'CEq',ast.NotEq:'CNe',ast.Lt:'CLt',ast.LtE:'CLe',ast.Gt:'CGt',ast.GtE:'CGe',ast.Is:'CIs',ast.IsNot:'CIsNot',ast.In:'CIn',ast.NotIn:'CNotIn'}
def S(s):
    for c in s:
        assert 32<=ord(c)<127 or c=='\n', repr(s)
    return '"'+s.replace('"','""')+'"'
def L(xs): return '['+'; '.join(xs)+']'
def Z(n): return str(n) if n>=0 else '(%d)'%n
def fl(x):
    if x==0: return '(S754_zero %s)'%('true' if math.copysign(1,x)<0 else 'false')
    m,e=math.frexp(abs(x)); m=int(m*2**53); e-=53
    return '(S754_finite %s %d (%d))'%('true' if x<0 else 'false',m,e)
def const(v):
    if v is None: return 'VNone'
    if v is True: return '(VBool true)'
    if v is False: return '(VBool false)'
    if isinstance(v,int): return '(VInt %s)'%Z(v)
    if isinstance(v,float): return '(VFloat %s)'%fl(v)
    if isinstance(v,str): return '(VStr (lit %s))'%S(v)
    if isinstance(v,bytes): return '(VBytes %s)'%L([str(b) for b in v])
    raise Exception(repr(v))
def E(e):
    t=type(e)
    if t is ast.Constant: return '(EConst %s)'%const(e.value)
    if t is ast.Name: return '(EName %s)'%S(glob(e.id))
    if t is ast.Attribute and type(e.value) is ast.Name and e.value.id in imported: return '(EName %s)'%S(e.value.id+'.'+e.attr)
    if t is ast.Attribute: return '(EOp (OAttr %s) [%s])'%(S(e.attr),E(e.value))
    if t is ast.Subscript:
        if type(e.slice) is ast.Slice:
            s=e.slice; assert s.step is None
            if s.lower is None: return '(EOp OSliceTo %s)'%L([E(e.value),E(s.upper)])
            if s.upper is None: return '(EOp OSliceFrom %s)'%L([E(e.value),E(s.lower)])
            return '(EOp OSlice %s)'%L([E(e.value),E(s.lower),E(s.upper)])
        return '(EOp OIndex %s)'%L([E(e.value),E(e.slice)])
    if t is ast.Call:
        spec=[];args=[E(e.func)]
        for a in e.args:
            if type(a) is ast.Starred: spec.append('AStar'); args.append(E(a.value))
            else: spec.append('APos'); args.append(E(a))
        for k in e.keywords:
            assert k.arg; spec.append('AKey %s'%S(k.arg)); args.append(E(k.value))
        return '(EOp (OCall %s) %s)'%(L(spec),L(args))
    if t is ast.BinOp: return '(EOp (OBin %s) %s)'%(BIN[type(e.op)],L([E(e.left),E(e.right)]))
    if t is ast.UnaryOp:
        return '(EOp %s [%s])'%({ast.Not:'ONot',ast.USub:'ONeg',ast.UAdd:'OPos'}[type(e.op)],E(e.operand))
    if t is ast.BoolOp:
        c={ast.And:'EAnd',ast.Or:'EOr'}[type(e.op)]
        r=E(e.values[-1])
        for v in reversed(e.values[:-1]): r='(%s %s %s)'%(c,E(v),r)
        return r
    if t is ast.Compare:
        return '(ECmp %s %s)'%(E(e.left),L(['(%s, %s)'%(CMP[type(o)],E(x)) for o,x in zip(e.ops,e.comparators)]))
    if t is ast.IfExp: return '(EIf %s %s %s)'%(E(e.test),E(e.body),E(e.orelse))
    if t is ast.Tuple: return '(EOp OTuple %s)'%L([E(x) for x in e.elts])
    if t is ast.List: return '(EOp OList %s)'%L([E(x) for x in e.elts])
    if t is ast.Dict: return '(EOp ODict %s)'%L([y for k,v in zip(e.keys,e.values) for y in (E(k),E(v))])
    if t is ast.JoinedStr:
        parts=[];args=[]
        for p in e.values:
            if type(p) is ast.Constant: parts.append('FLit %s'%S(p.value))
            else:
                assert p.conversion==-1
                sp='' if p.format_spec is None else ''.join(q.value for q in p.format_spec.values)
                parts.append('FVal %s'%S(sp)); args.append(E(p.value))
        return '(EOp (OFormat %s) %s)'%(L(parts),L(args))
    if t in (ast.ListComp,ast.GeneratorExp,ast.DictComp):
        assert len(e.generators)==1; g=e.generators[0]; assert not g.ifs and not g.is_async
        if t is ast.DictComp: k='CompDict'; elt='(EOp OTuple %s)'%L([E(e.key),E(e.value)])
        else: k='CompList' if t is ast.ListComp else 'CompGen'; elt=E(e.elt)
        return '(EComp %s %s %s %s)'%(k,elt,T(g.target),E(g.iter))
    raise Exception(ast.dump(e))
def T(t):
    if type(t) is ast.Name: return '(TName %s)'%S(t.id)
    if type(t) is ast.Tuple: return '(TTuple %s)'%L([T(x) for x in t.elts])
    if type(t) is ast.Attribute:
        assert type(t.value) is ast.Name
        return '(TAttr %s %s)'%(S(t.value.id),S(t.attr))
    if type(t) is ast.Subscript: return '(TIndex %s %s)'%(E(t.value),E(t.slice))
    raise Exception(ast.dump(t))
out=[]      # definitions
funs=[]     # (name, coq ident)
def load(t):
    if type(t) is ast.Name: return '(EName %s)'%S(t.id)
    assert type(t) is ast.Attribute and type(t.value) is ast.Name
    return '(EOp (OAttr %s) [EName %s])'%(S(t.attr),S(t.value.id))
def is_doc(s): return type(s) is ast.Expr and type(s.value) is ast.Constant and isinstance(s.value.value,str)
def B(ss,q,ind):
    r=[]
    for s in ss:
        if is_doc(s) or type(s) in (ast.Pass,ast.Nonlocal): continue
        r+=ST(s,q,ind)
    sep=';\n'+' '*ind
    if not r: return '[]'
    if len(r)==1 and len(r[0])+ind<100: return '['+r[0]+']'
    return '['+sep.join(r)+']'
def ST(s,q,ind):
    t=type(s)
    if t is ast.Expr:
        if type(s.value) is ast.Yield: return ['SYield %s'%E(s.value.value)]
        return ['SExpr %s'%E(s.value)]
    if t is ast.Assign:
        assert len(s.targets)==1
        return ['SAssign %s %s'%(T(s.targets[0]),E(s.value))]
    if t is ast.AnnAssign:
        if s.value is None: return []
        return ['SAssign %s %s'%(T(s.target),E(s.value))]
    if t is ast.AugAssign:
        return ['SAssign %s (EOp (OBin %s) [%s; %s])'%(T(s.target),BIN[type(s.op)],load(s.target),E(s.value))]
    if t is ast.If:
        return ['SIf %s\n%s%s\n%s%s'%(E(s.test),' '*(ind+2),B(s.body,q,ind+3),' '*(ind+2),B(s.orelse,q,ind+3))]
    if t is ast.While:
        assert not s.orelse
        return ['SWhile %s\n%s%s'%(E(s.test),' '*(ind+2),B(s.body,q,ind+3))]
    if t is ast.For:
        assert not s.orelse
        return ['SFor %s %s\n%s%s'%(T(s.target),E(s.iter),' '*(ind+2),B(s.body,q,ind+3))]
    if t is ast.Return: return ['SReturn %s'%(E(s.value) if s.value else '(EConst VNone)')]
    if t is ast.Raise: return ['SRaise %s'%E(s.exc)]
    if t is ast.Assert:
        exc='(EOp (OCall [APos]) [EName "AssertionError"; %s])'%E(s.msg) if s.msg else '(EOp (OCall []) [EName "AssertionError"])'
        return ['SIf %s\n%s[]\n%s[SRaise %s]'%(E(s.test),' '*(ind+2),' '*(ind+2),exc)]
    if t is ast.Break: return ['SBreak']
    if t is ast.Continue: return ['SContinue']
    if t is ast.Delete:
        x,=s.targets; assert type(x) is ast.Subscript
        return ['SExpr (EOp ODel %s)'%L([E(x.value),E(x.slice)])]
    if t is ast.With:
        i,=s.items
        return ['SAssign %s %s'%(T(i.optional_vars),E(i.context_expr))]+[x for y in s.body for x in ST(y,q,ind)]
    if t is ast.FunctionDef:
        fun(s,q+'.'+s.name); free=freevars(s)
        return ['SDef %s %s %s'%(S(s.name),S(q+'.'+s.name),L([S(x) for x in free]))]
    raise Exception(ast.dump(s))
def assigned(f):
    a={x.arg for x in f.args.args}
    nl=set()
    def walk(n,top):
        for c in ast.iter_child_nodes(n):
            if isinstance(c,ast.FunctionDef): a.add(c.name); continue
            if isinstance(c,(ast.ListComp,ast.GeneratorExp,ast.DictComp)): walk(c.generators[0].iter,False); continue
            if isinstance(c,ast.Nonlocal): nl.update(c.names)
            if isinstance(c,ast.Name) and isinstance(c.ctx,ast.Store): a.add(c.id)
            walk(c,False)
    walk(f,True)
    return a-nl
def used(f): return {n.id for n in ast.walk(f) if isinstance(n,ast.Name)}
cur=[]
modfuns=set(); modname=''
def glob(x):
    if x in modfuns and not any(x in assigned(f) for f in cur): return modname+'.'+x
    return x
def freevars(f):
    outer=assigned(cur[-1])
    return sorted((used(f)-assigned(f))&outer)
def fun(f,q):
    assert not f.args.vararg and not f.args.kwarg and not f.args.kwonlyargs and not f.args.posonlyargs
    cells=set()
    cur.append(f)
    for n in ast.walk(f):
        if isinstance(n,ast.FunctionDef) and n is not f: cells|=set(freevars(n))
    args=f.args.args; d=[None]*(len(args)-len(f.args.defaults))+list(f.args.defaults)
    for x in f.args.defaults: x._q=q
    gen=any(isinstance(n,ast.Yield) for n in ast.walk(f))
    body=B(f.body,q,5)
    cur.pop()
    ident='src_'+q.replace('.','_')
    out.append('(** %s (%s %d-%d). *)\nDefinition %s : fundef :=\n  mkFun %s\n    %s\n    %s %s\n    %s.\n'%(
        q,cur_file,f.lineno,f.end_lineno,ident,S(q),
        L(['(%s, %s)'%(S(a.arg),'None' if x is None else 'Some '+E(x)) for a,x in zip(args,d)]),
        L([S(x) for x in sorted(cells)]),'true' if gen else 'false',body))
    funs.append((q,ident))
classes=[]
def cls(c):
    attrs=[];fields=[];dc=False
    for d in c.decorator_list:
        assert type(d) is ast.Call and d.func.id=='dataclass'; dc=True
    mutable=False
    for s in c.body:
        if is_doc(s) or type(s) is ast.Pass: continue
        if type(s) is ast.Assign and s.targets[0].id=='__slots__': continue
        if type(s) is ast.AnnAssign and dc: fields.append(s.target.id); assert s.value is None; continue
        assert type(s) is ast.FunctionDef, ast.dump(s)
        kind='KMethod'
        for d in s.decorator_list: kind={'property':'KProperty','classmethod':'KClassMethod','staticmethod':'KStatic'}[d.id]
        fun(s,c.name+'.'+s.name)
        attrs.append('(%s, %s)'%(S(s.name),kind))
        if s.name!='__init__':
            for n in ast.walk(s):
                if isinstance(n,ast.Attribute) and isinstance(n.ctx,ast.Store): mutable=True
    bases=[b.id for b in c.bases]
    classes.append('(%s, mkClass %s %s %s %s)'%(S(c.name),L([S(b) for b in bases]),L(attrs),
        'true' if not mutable else 'false', '(Some '+L([S(x) for x in fields])+')' if dc else 'None'))
def counterexamples():
    """The programs of counterexamples.py, for PyCounter.v."""
    global cur_file,modfuns,modname
    import os
    cur_file='tools/counterexamples.py'
    tree=ast.parse(open(os.path.join(os.path.dirname(os.path.abspath(__file__)),'counterexamples.py')).read())
    modname='counterexamples'; modfuns=set(); imported.add('midi')
    for s in tree.body:
        if type(s) is ast.FunctionDef: fun(s,modname+'.'+s.name)
    print('(** The programs of tools/counterexamples.py as syntax trees of PyAst.v, written out by tools/source_trees.py.\n    No proofs in this file. *)')
    print('From Coq Require Import ZArith List String.\nFrom Verif Require Import Py PyFloat PyAst.\nImport ListNotations.\nOpen Scope Z_scope.\nOpen Scope string_scope.\n')
    print('\n'.join(out))
def raises(s):
    """The exception that a statement `with pytest.raises(e):` expects."""
    if type(s) is not ast.With: return None
    c=s.items[0].context_expr
    return c.args[0].id if type(c) is ast.Call and ast.unparse(c.func)=='pytest.raises' else None
class Simple(ast.NodeTransformer):
    """list(e) is [x for x in e]; bytes.fromhex('..') and negative floats are literals."""
    def visit_Call(self,n):
        self.generic_visit(n); f=ast.unparse(n.func)
        if f=='list': return ast.ListComp(elt=ast.Name('x',ast.Load()),generators=[ast.comprehension(ast.Name('x',ast.Store()),n.args[0],[],0)])
        if f=='bytes.fromhex': return ast.Constant(bytes.fromhex(n.args[0].value))
        return n
    def visit_UnaryOp(self,n):
        self.generic_visit(n)
        if type(n.op) is ast.USub and type(n.operand) is ast.Constant and type(n.operand.value) is float: return ast.Constant(-n.operand.value)
        return n
def sets_attribute(s): return type(s) is ast.Assign and type(s.targets[0]) is ast.Attribute
# not run: floats computed by pow, lists compared by ==, a list made from a generator, and the test of C78
LEFT_OUT=['test_tone_to_frequency','test_track_add','test_track_eq','test_midi_read_chunks']
def tests():
    """The tests of the project, for PyTests.v: each test without its `with pytest.raises` blocks, and for every such block
    the statements before it (without such blocks) and its body.  A test ends where it sets an attribute of a note."""
    global cur_file,modfuns,modname
    rows=[]
    for p in ['core/test_signature','core/test_tone','core/test_note','core/test_track','io/test_midi_read','io/test_midi_write']:
        cur_file='tests/melodia/%s.py'%p; tree=ast.parse(open(REPO+cur_file).read())
        modname=p.split('/')[1]; modfuns=set()
        for f in tree.body:
            if type(f) is not ast.FunctionDef or not f.name.startswith('test_') or f.name in LEFT_OUT: continue
            f=Simple().visit(f)
            for k,x in enumerate(f.body):
                if sets_attribute(x): f.body=f.body[:k]; break
            parts=[(f.name,[s for s in f.body if not raises(s)],None)]
            for s in f.body:
                if raises(s):
                    k=f.body.index(s); parts.append(('%s_raises%d'%(f.name,len(parts)),[x for x in f.body[:k] if not raises(x)]+s.body,raises(s)))
            for n,body,e in parts:
                g=ast.FunctionDef(name=n,args=f.args,body=body,decorator_list=[],lineno=f.lineno,end_lineno=f.end_lineno)
                fun(g,modname+'.'+n); rows.append('(%s, %s)'%(funs[-1][1],'Err '+e if e else 'Ok VNone'))
    print('(** The tests of the project as syntax trees of PyAst.v, written out by tools/source_trees.py: each test without its\n    [with pytest.raises] blocks, and for each of these the statements before it and its body.  Left out:\n    %s,\n    and what follows an assignment to an attribute of a note.  No proofs in this file. *)'%', '.join(LEFT_OUT))
    print('From Coq Require Import ZArith List String SpecFloat.\nFrom Verif Require Import Py PyFloat PyAst.\nImport ListNotations.\nOpen Scope Z_scope.\nOpen Scope string_scope.\n')
    print('\n'.join(out))
    print('(** The tests and how they should end. *)\nDefinition tests : list (fundef * res value) :=\n  [%s].'%(';\n   '.join(rows)))
def main():
    global cur_file,modfuns,modname
    modst={}
    for m,p in MODS:
        cur_file=p.replace('src/melodia/','')
        tree=ast.parse(open(REPO+p).read())
        top=[]; modname=m; modfuns={s.name for s in tree.body if type(s) is ast.FunctionDef}
        for s in tree.body:
            if type(s) in (ast.Import,ast.ImportFrom) or is_doc(s): continue
            if type(s) is ast.ClassDef: cls(s)
            elif type(s) is ast.FunctionDef: fun(s,m+'.'+s.name)
            else: top.append(s)
        if top:
            out.append('(** The module level assignments and loops of %s. *)\nDefinition src_module_%s : list stmt :=\n    %s.\n'%(cur_file,m,B(top,m,5)))
    for m,p,names in TESTS:
        cur_file=p
        tree=ast.parse(open(REPO+p).read())
        modname=m; modfuns={s.name for s in tree.body if type(s) is ast.FunctionDef}
        imported.clear()
        for s in tree.body:
            if type(s) is ast.ImportFrom and s.module=='melodia.io': imported.update(a.name for a in s.names)
            if type(s) is ast.FunctionDef and s.name in names: fun(s,m+'.'+s.name)
    print('(** The source text of melodia as syntax trees of PyAst.v, written out by a script from the files of\n    the repository (Python\'s own parser gives the trees).  No proofs in this file. *)')
    print('From Coq Require Import ZArith List String.\nFrom Verif Require Import Py PyFloat PyAst.\nImport ListNotations.\nOpen Scope Z_scope.\nOpen Scope string_scope.\n')
    print('\n'.join(out))
    print('(** All functions, by qualified name. *)\nDefinition functions : list (string * fundef) :=\n  [%s].\n'%(';\n   '.join('(%s, %s)'%(S(q),i) for q,i in funs)))
    print('(** All classes. *)\nDefinition classes : list (string * classdef) :=\n  [%s].\n'%(';\n   '.join(classes)))
if sys.argv[1:]==['counterexamples']: counterexamples()
elif sys.argv[1:]==['tests']: tests()
else: main()
