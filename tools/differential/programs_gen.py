"""The generator of the programs of programs.py."""
import random,ast,sys,json,subprocess,os,re,math,io,heapq,struct
from operator import itemgetter
from collections import defaultdict
from collections.abc import Iterable
from dataclasses import dataclass
class G:
    def __init__(s,seed):
        s.r=random.Random(seed); s.vars={}; s.n=0; s.lines=[]; s.loop=0; s.depthf=0; s.genv=0
    def fresh(s,t):
        s.n+=1; x='v%d'%s.n; return x
    def pick(s,t):
        l=[x for x,u in s.vars.items() if u==t]
        return s.r.choice(l) if l else None
    def e(s,t,d=3):
        r=s.r
        if d<=0 or r.random()<0.2:
            v=s.pick(t)
            if v and r.random()<0.75: return v
            return s.const(t)
        return getattr(s,'e_'+t)(d-1)
    def const(s,t):
        r=s.r
        if t=='int':
            k=r.random()
            if k<0.6: return str(r.randint(0,9))
            if k<0.8: return '(-%d)'%r.randint(1,300)
            if k<0.95: return str(r.randint(10,1000))
            return str(r.choice([2**31,2**53,2**53+1,2**64-1,10**20,255,256,127,128]))
        if t=='bool': return r.choice(['True','False'])
        if t=='str': return repr(r.choice(['','a','b','xyz','a b','0','12','-7','[{']) ) if r.random()<0.9 else repr(''.join(r.choice('abc01 ') for _ in range(r.randint(0,5))))
        if t=='bytes': return repr(bytes(r.choice([0,1,65,127,128,255,r.randint(0,255)]) for _ in range(r.randint(0,5))))
        if t=='float': return r.choice(['0.0','0.5','1.0','0.75','0.1','3.0','1e300','1e-300','127.0','2.5','0.3','1e16','123456.789'])
        if t=='tup': return '(%s)'%''.join(str(r.randint(-3,5))+', ' for _ in range(r.randint(0,3)))
        if t=='lst': return '[%s]'%', '.join(str(r.randint(-3,9)) for _ in range(r.randint(0,5)))
        if t=='dct': return '{%s}'%', '.join('%d: %d'%(r.randint(0,4),r.randint(-9,9)) for _ in range(r.randint(0,4)))
        if t=='ltup': return '[%s]'%', '.join('(%d, %d)'%(r.randint(0,3),r.randint(0,9)) for _ in range(r.randint(0,8)))
        if t=='P': return 'P(%s)'%', '.join(str(r.randint(0,5)) for _ in range(r.choice([1,2])))
        if t=='Q': return 'Q(%d)'%r.randint(0,5)
        if t=='tup_i': return '(1, 2)'
        if t=='M': return 'M(%d)'%r.randint(0,5)
        if t=='D': return 'D(%d, %d)'%(r.randint(0,5),r.randint(0,5))
        if t=='file': return 'io.BytesIO(%s)'%s.const('bytes')
        if t=='lP': return '[%s]'%', '.join('(P(%d), %d)'%(r.randint(0,4),r.randint(0,4)) for _ in range(r.choice([0,3,9,40])))
        if t=='lf': return '[%s]'%', '.join(r.choice(['0.5','1','0.25','3','1.0','0.75','2','1e300']) for _ in range(r.choice([0,3,9,70])))
        if t=='dd': return 'defaultdict(list)'
        if t=='none': return r.choice(['None',s.const('int')])
        raise Exception(t)
    def e_int(s,d):
        r=s.r; E=s.e
        c=[lambda:'(%s %s %s)'%(E('int',d),r.choice('+-*'),E('int',d)),
           lambda:'(%s %s %s)'%(E('int',d),r.choice(['//','%']),E('int',d) if r.random()<0.2 else '(%s | 1)'%E('int',d)),
           lambda:'(%s %s %d)'%(E('int',d),r.choice(['<<','>>']),r.randint(0,9)),
           lambda:'(%s %s (%s %% 7 - 1))'%(E('int',d),r.choice(['<<','>>']),E('int',d)) if r.random()<0.3 else '1',
           lambda:'(%s %s %s)'%(E('int',d),r.choice('&|'),E('int',d)),
           lambda:'(-%s)'%E('int',d), lambda:'(+%s)'%E('int',d),
           lambda:'len(%s)'%E(r.choice(['str','bytes','lst','tup','dct','ltup','M']),d),
           lambda:'abs(%s)'%E('int',d),
           lambda:'%s(%s, %s)'%(r.choice(['max','min']),E('int',d),E('int',d)),
           lambda:'%s[%s]'%(E(r.choice(['tup','lst']),d),r.choice([str(r.randint(-3,3)),E('int',d)])) if r.random()<0.2 else '(%s, %s, %s)[%s %% 6 - 3]'%(E('int',d),E('int',d),E('int',d),E('int',d)),
           lambda:'%s[%s]'%(E('dct',d),E('int',d)) if r.random()<0.2 else '{0: %s, 1: %s}[%s %% 2]'%(E('int',d),E('int',d),E('int',d)),
           lambda:'len(%s)'%E('lP',d),lambda:'len(%s[%s])'%(s.pick('dd') or 'defaultdict(list)',E('int',d)),
           lambda:'%s.get(%s, %s)'%(E('dct',d),E('int',d),E('int',d)),
           lambda:'int(%s)'%E('float',d),
           lambda:'(%s).bit_length()'%E('int',d),
           lambda:'int.from_bytes(%s, %r)'%(E('bytes',d),'big'),
           lambda:'sum(%s for q in %s)'%(r.choice(['q','q * q','q + 1']),E('lst',d)),
           lambda:'(%s if %s else %s)'%(E('int',d),E('bool',d),E('int',d)),
           lambda:'(%s %s %s)'%(E('int',d),r.choice(['and','or']),E('int',d)),
           lambda:'int(str(%s))'%E('int',d),
           lambda:'add(%s, %s)'%(E('int',d),E('int',d)),
           lambda:'add(%s)'%E('int',d),
           lambda:'add(b=%s, a=%s)'%(E('int',d),E('int',d)),
           lambda:'add(*%s)'%E('tup',d),
           lambda:'fact(%d)'%r.randint(-1,6),
           lambda:'%s.x'%E(r.choice(['P','M','D']),d),
           lambda:'%s.twice'%E('P',d),
           lambda:'%s.plus(%s)'%(E(r.choice(['P','M','Q']) if r.random()<0.8 else 'M',d),E('int',d)),
           lambda:'P.stat(%s)'%E('int',d),
           lambda:'%s.stat(%s)'%(E('P',d),E('int',d)),
           lambda:'abs(%s)'%E('P',d),
           lambda:'counter(%s)'%E('int',d),
           ]
        return r.choice(c)()
    def e_Q(s,d): return 'Q(%s)'%s.e('int',d)
    def e_bool(s,d):
        r=s.r; E=s.e; cmp=lambda: r.choice(['==','!=','<','<=','>','>='])
        eq=lambda: r.choice(['==','!='])
        c=[lambda:'(%s %s %s)'%(E('int',d),cmp(),E('int',d)),
           lambda:'(%s %s %s %s %s)'%(E('int',d),cmp(),E('int',d),cmp(),E('int',d)),
           lambda:'(%s %s %s)'%(E('float',d),cmp(),E('float',d)),
           lambda:'(%s %s %s)'%(E('float',d),cmp(),E('int',d)),
           lambda:'(%s %s %s)'%(E('int',d),cmp(),E('float',d)),
           lambda:'(%s %s %s)'%(E('str',d),eq(),E('str',d)),
           lambda:'(%s %s %s)'%(E('bytes',d),eq(),E('bytes',d)),
           lambda:'(%s %s %s)'%(E('tup',d),cmp(),E('tup',d)),
           lambda:'(%s %s %s)'%(E('P',d),cmp(),E('P',d)),
           lambda:'((%s, %s) %s (%s, %s))'%(E('P',d),E('P',d),cmp(),E('P',d),E('int',d) if r.random()<0.1 else E('P',d)),
           lambda:'((%s, %s) %s (%s, %s))'%(E('float',d),E('str',d),cmp(),E(r.choice(['int','float']),d),E('str',d)),
           lambda:'(%s %s %s)'%(E(r.choice(['int','str','bytes','none','tup']),d),cmp(),E(r.choice(['int','str','bytes','none','float','tup']),d)),
           lambda:'(%s %s %s)'%(E('int',d),r.choice(['in','not in']),E(r.choice(['tup','lst','dct']),d)),
           lambda:'(not %s)'%E(r.choice(['bool','int','str','bytes','lst','dct','tup','none']),d),
           lambda:'(%s %s %s)'%(E('bool',d),r.choice(['and','or']),E('bool',d)),
           lambda:'isinstance(%s, %s)'%(E(r.choice(['bool','int','str','bytes','lst','dct','tup','none','P','M','D','float','file']),d),r.choice(['int','str','Iterable','P','M','D','Q','(int, str)','(P, Iterable)'])),
           lambda:'isinstance(%s, %s)'%(E('Q',d),r.choice(['P','M','D','Q','(int, str)'])),
           lambda:'(%s %s None)'%(E(r.choice(['none','int','P']),d),r.choice(['is','is not'])),
           ]
        return r.choice(c)()
    def e_lP(s,d): return '[%s]'%', '.join('(%s, %s)'%(s.e('P',d),s.e('int',d)) for _ in range(s.r.randint(0,9)))
    def e_lf(s,d): return '[%s]'%', '.join(s.e(s.r.choice(['int','float']),d) for _ in range(s.r.randint(0,9)))
    def e_dd(s,d): return 'defaultdict(list)'
    def e_none(s,d): return s.r.choice(['None',s.e('int',d)])
    def e_str(s,d):
        r=s.r; E=s.e
        c=[lambda:'(%s + %s)'%(E('str',d),E('str',d)),lambda:'str(%s)'%E(r.choice(['int','int','str','P']),d),
           lambda:"f'<{%s}|{%s:d}{%s:s}>'"%(E('int',0),s.r.randint(0,99),'"q"'),
           lambda:"f'{%s}{%s}'"%(s.pick('str') or '1',s.pick('int') or '2'),
           lambda:"f'{%s:.3f} {%s}'"%(s.pick('float') or '1.5',s.pick('float') or '2.5'),
           lambda:"%s.join([%s])"%(s.const('str'),', '.join(E('str',d) for _ in range(r.randint(0,3)))),
           lambda:'%r.join(str(q) for q in %s)'%(r.choice(['',', ']),E('lst',d)),
           lambda:'%s.name()'%E('P',d),
           lambda:'(%s or %s)'%(E('str',d),E('str',d))]
        return r.choice(c)()
    def e_bytes(s,d):
        r=s.r; E=s.e
        c=[lambda:'(%s + %s)'%(E('bytes',d),E('bytes',d)),
           lambda:'%s[%s:%s]'%(E('bytes',d),E('int',d-1),E('int',d-1)),
           lambda:'%s[%s:]'%(E('bytes',d),E('int',d-1)),lambda:'%s[:%s]'%(E('bytes',d),E('int',d-1)),
           lambda:'(%s).to_bytes(%s, %r)'%(E('int',d),r.choice(['1','2','4','0','8',E('int',0)]) if r.random()<0.9 else '(-1)',r.choice(['big','little'])),
           lambda:"b''.join([%s])"%', '.join(E('bytes',d) for _ in range(r.randint(0,3))),
           lambda:"b''.join((q %% 256).to_bytes(1, 'big') for q in %s)"%E('lst',d),
           lambda:'%s.read(%d)'%(E('file',d),r.randint(0,4)),
           lambda:'%s.getbuffer().tobytes()'%E('file',d)]
        return r.choice(c)()
    def e_float(s,d):
        r=s.r; E=s.e
        c=[lambda:'(%s * %s)'%(E('float',d),E('float',d)),lambda:'(%s / %s)'%(E('float',d),E('float',d)),
           lambda:'(%s / %s)'%(E('int',d),E('int',d)),lambda:'(%s * %s)'%(E('int',d),E('float',d)),
           lambda:'(%s / %s)'%(E('float',d),E('int',d)),
           lambda:'%s(%s, %s)'%(r.choice(['max','min']),E('float',d),E('float',d))]
        return r.choice(c)()
    def e_tup(s,d):
        r=s.r; n=r.randint(0,3)
        if r.random()<0.2: return '(%s,)'%s.e(s.r.choice(['str','bytes','none','tup']),d)
        return '(%s)'%''.join(s.e('int',d)+', ' for _ in range(n))
    def e_lst(s,d):
        r=s.r; E=s.e
        c=[lambda:'[%s]'%', '.join(E('int',d) for _ in range(r.randint(0,4))),
           lambda:'[%s for w in %s]'%(s.under('w',lambda:E('int',d)),s.iterable(d)),
           lambda:'[%s for w, u in %s]'%(s.under('w',lambda:s.under('u',lambda:E('int',d))),s.pairsit(d)),
           lambda:'([%s] * %s)'%(E('int',d),r.choice(['3','0','(-1)',str(r.randint(1,4))])),
           lambda:'[w for w in squares(%d)]'%r.randint(0,4) if False else '[%s]'%E('int',d)]
        return r.choice(c)()
    def under(s,x,f):
        old=s.vars.get(x); s.vars[x]='int'; y=f()
        if old is None: del s.vars[x]
        else: s.vars[x]=old
        return y
    def iterable(s,d):
        r=s.r
        return r.choice([lambda:'range(%d)'%r.randint(-1,6),lambda:'range(%d, %d)'%(r.randint(-3,3),r.randint(-2,6)),lambda:s.e('lst',d),lambda:s.e('tup_i',d),lambda:'%s.values()'%s.e('dct',d),lambda:'iter(%s)'%s.e('lst',d),lambda:s.e('M',d)])()
    def e_tup_i(s,d): return '(%s)'%''.join(s.e('int',d)+', ' for _ in range(s.r.randint(0,3)))
    def pairsit(s,d):
        r=s.r
        return r.choice([lambda:s.e('ltup',d),lambda:'%s.items()'%s.e('dct',d),lambda:'zip(%s, %s)'%(s.iterable(d),s.iterable(d))])()
    def e_dct(s,d):
        r=s.r; E=s.e
        c=[lambda:'{%s}'%', '.join('%s: %s'%(E('int',d),E('int',d)) for _ in range(r.randint(0,3))),
           lambda:'{%s: %s for w in %s}'%(s.under('w',lambda:E('int',d)),s.under('w',lambda:E('int',d)),s.iterable(d))]
        return r.choice(c)()
    def e_ltup(s,d):
        return '[%s]'%', '.join('(%s, %s)'%(s.e('int',d),s.e('int',d)) for _ in range(s.r.randint(0,4)))
    def e_P(s,d):
        r=s.r; E=s.e
        return r.choice([lambda:'P(%s)'%E('int',d),lambda:'P(%s, y=%s)'%(E('int',d),E('int',d)),lambda:'(%s + %s)'%(E('P',d),E('P',d)),lambda:'P.make(%s)'%E('int',d),lambda:'(%s * %s)'%(E('P',d),E('int',d)),lambda:'Q(%s)'%E('int',d)])()
    def e_M(s,d): return s.r.choice(['M(%s)'%s.e('int',d)])
    def e_D(s,d): return s.r.choice([lambda:'D(%s, %s)'%(s.e('int',d),s.e('int',d)),lambda:'D(k=%s, x=%s)'%(s.e('int',d),s.e('int',d))])()
    def e_file(s,d): return s.r.choice([lambda:'io.BytesIO(%s)'%s.e('bytes',d),lambda:'io.BytesIO()'])()
    TY=['int','int','bool','str','bytes','float','tup','lst','dct','ltup','P','M','D','file','none','lP','lf','dd']
    def block(s,n,ind,d):
        out=[]
        for _ in range(n): out+=s.stmt(ind,d)
        return out or [ind+'pass']
    def scoped(s,n,ind,d):
        old=dict(s.vars); b=s.block(n,ind,d); s.vars=old; return b
    def stmt(s,ind,d):
        r=s.r; E=s.e; k=r.random(); I=ind+'    '
        if k<0.25:
            t=r.choice(s.TY); x=s.fresh(t); l=[ind+'%s = %s'%(x,E(t,3))]; s.vars[x]=t; return l
        if k<0.35:
            t=r.choice(['int','int','str','bytes','lst','P']); x=s.pick(t)
            if not x or x.startswith(('w','u','c')): return [ind+'pass']
            if t=='int' and r.random()<0.6: return [ind+'%s %s= %s'%(x,r.choice(['+','-','*','//','%','|','&']),E('int',2))]
            if t in('str','bytes') and r.random()<0.5: return [ind+'%s += %s'%(x,E(t,2))]
            return [ind+'%s = %s'%(x,E(t,3))]
        if k<0.40:
            x,y=s.pick('int'),s.pick('int')
            if x and y and not (x+y).startswith('c') and 'c' not in y: return [ind+'%s, %s = %s, %s'%(x,y,E('int',2),E('int',2))]
            return [ind+'pass']
        if k<0.43:
            x=s.pick('int')
            if x and 'c' not in x and r.random()<0.3: return [ind+'%s, (%s, %s) = %s, %s'%(x,x,x,E('int',2),E('tup',1))]
            return [ind+'pass']
        if k<0.52: 
            l=[ind+'if %s:'%E(r.choice(['bool','bool','int','str','lst','dct','tup']),3)]+s.scoped(r.randint(1,3),I,d-1)
            if r.random()<0.6: l+=[ind+'else:']+s.scoped(r.randint(1,2),I,d-1)
            return l
        if k<0.58 and d>0:
            s.n+=1; c='c%d'%s.n; s.loop+=1
            l=[ind+'%s = 0'%c,ind+'while %s < %d%s:'%(c,r.randint(0,4),r.choice(['',' and '+E('bool',2)])),I+'%s += 1'%c]; s.vars[c]='int'
            l+=s.scoped(r.randint(1,3),I,d-1)
            if r.random()<0.4: l+=[I+'if %s:'%E('bool',2),I+'    '+r.choice(['break','continue'])]+s.scoped(1,I,d-1)
            s.loop-=1; return l
        if k<0.70 and d>0:
            s.loop+=1; old=dict(s.vars); m=r.random()
            if m<0.5: x=s.fresh('int'); h='for %s in %s:'%(x,s.iterable(2)); s.vars[x]='int'
            elif m<0.6: x=s.fresh('str'); h='for %s in %s:'%(x,E('str',2)); s.vars[x]='str'
            elif m<0.8: x=s.fresh('int'); y=s.fresh('int'); h='for %s, %s in %s:'%(x,y,s.pairsit(2)); s.vars[x]=s.vars[y]='int'
            else: x=s.fresh('int'); h='for %s in %s(%s):'%(x,r.choice(['squares','gen2']),E('int',1)+' % 5'); s.vars[x]='int'
            l=[ind+h]+s.block(r.randint(1,3),I,d-1)
            if r.random()<0.4: l+=[I+'if %s:'%E('bool',2),I+'    '+r.choice(['break','continue'])]+s.block(1,I,d-1)
            s.vars=old; s.loop-=1; return l
        if k<0.78:
            x=s.pick('lst')
            if not x: return [ind+'pass']
            return [ind+r.choice(['%s.append(%s)'%(x,E('int',2)),'%s[%s] = %s'%(x,E('int',1),E('int',2)) if r.random()<0.3 else 'pass','%s.sort()'%x,'heapq.heappush(%s, %s)'%(x,E('int',2))])]
        if k<0.83:
            x=s.pick('dct')
            if not x: return [ind+'pass']
            return [ind+r.choice(['%s[%s] = %s'%(x,E('int',1),E('int',2)),'%s[%s] = %s'%(x,E('int',1),E('int',2)),'del %s[%s]'%(x,E('int',1)) if r.random()<0.3 else 'pass'])]
        if k<0.87:
            x=s.pick('ltup')
            if not x: return [ind+'pass']
            return [ind+r.choice(['%s.append((%s, %s))'%(x,E('int',2),E('int',2)),'%s.sort()'%x,'%s.sort(key=itemgetter(%d))'%(x,r.choice([0,1,-1])),'heapq.heappush(%s, (%s, %s))'%(x,E('int',1),E('int',1))])]
        if k<0.89 and r.random()<0.6:
            x=s.pick('lP'); y=s.pick('lf'); z=s.pick('dd'); c=[]
            if x: c+=['%s.append((%s, %s))'%(x,E('P',1),E('int',1)),'%s.sort()'%x,'%s.sort(key=itemgetter(%d))'%(x,r.choice([0,1])),'heapq.heappush(%s, (%s, %s))'%(x,E('P',1),E('int',1))]
            if y: c+=['%s.append(%s)'%(y,E('float',1)),'%s.sort()'%y,'heapq.heappush(%s, %s)'%(y,E('float',1))]
            if z: c+=['%s[%s].append(%s)'%(z,E('int',1),E('int',1))]*3
            return [ind+(r.choice(c) if c else 'pass')]
        if k<0.92:
            x=s.pick('M')
            if not x: return [ind+'pass']
            return [ind+r.choice(['%s.x = %s'%(x,E('int',2)),'%s.x += %s'%(x,E('int',2)),'%s.push(%s)'%(x,E('int',2)),'%s = %s'%(x,s.pick('M'))])]
        if k<0.95:
            x=s.pick('file')
            if not x: return [ind+'pass']
            return [ind+'%s.write(%s)'%(x,E('bytes',2))]
        if k<0.97: return [ind+'assert %s'%E('bool',2)] if r.random()<0.5 else [ind+'if %s:'%E('bool',1),I+'raise %s(%r)'%(r.choice(['ValueError','TypeError','AssertionError']),'m')]
        if k<0.98: return [ind+'if %s:'%E('bool',2),I+'return %s'%E(r.choice(['int','str','lst']),2)]
        s.n+=1; f='f%d'%s.n; y=s.pick('int')
        if not y or 'c' in y or y in('w','u') or s.loop: return [ind+'pass']
        z=s.fresh('int')
        l=[ind+'def %s(a):'%f,I+'nonlocal %s'%y,I+'%s = %s + a'%(y,y),I+'return %s * 2'%y,ind+'%s = %s(%s) + %s(%s) - %s'%(z,f,E('int',1),f,E('int',1),y)]
        s.vars[z]='int'; return l
PRE='''
def add(a, b=7):
    return a * 3 - b
def fact(n):
    if n < 0:
        raise ValueError('neg')
    if n < 2:
        return 1
    return n * fact(n - 1)
def squares(n):
    for i in range(n):
        yield i * i
def gen2(n):
    t = 0
    for i in range(n):
        for j in [10, 20]:
            t += 1
            if t == 3:
                continue
            yield i + j + t
    yield t
def counter(n):
    total = n
    def inc(k, m=2):
        nonlocal total
        total += k * m
        return total
    def dec(k):
        inc(k)
        return inc(1) - total
    inc(1)
    inc(2, m=3)
    dec(5)
    return total
class P:
    def __init__(self, x, y=3):
        if x < -1000:
            raise ValueError('small')
        self._x = x
        self._y = y
    @property
    def x(self):
        return self._x
    @property
    def twice(self):
        return self._x * 2 + self.x
    @staticmethod
    def stat(k):
        return k + 1
    @classmethod
    def make(cls, k):
        return cls(cls.stat(k), k)
    def plus(self, k):
        return self._x + k - self._y
    def name(self):
        return self.__class__.__name__
    def __add__(self, other):
        return P(self._x + other._x, self._y)
    def __mul__(self, k):
        return P(self._x * k, y=self._y)
    def __abs__(self):
        return abs(self._x)
    def __eq__(self, other):
        return self._x == other._x
    def __lt__(self, other):
        return self._x < other._x
    def __le__(self, other):
        return self._x <= other._x
    def __gt__(self, other):
        return self._x > other._x
    def __ge__(self, other):
        return self._x >= other._x
    def __str__(self):
        return f'P{self._x}'
class Q(P):
    def __init__(self, x):
        self._x = x
        self._y = 1
    def plus(self, k):
        return self._x - k
class M:
    def __init__(self, x):
        self.x = x
        self.l = [x, x + 1]
    def plus(self, k):
        self.x += k
        return self.x
    def push(self, k):
        self.l.append(k)
    def __len__(self):
        return len(self.l)
    def __iter__(self):
        return iter(self.l)
@dataclass(frozen=True)
class D:
    x: int
    k: int
'''
def program(seed):
    g=G(seed); body=g.block(g.r.randint(4,14),'    ',2)
    rt=[x for x,t in g.vars.items()]
    body.append('    return (%s)'%''.join(x+', ' for x in rt))
    return PRE+'def main():\n'+'\n'.join(body)+'\n'
def big(v):
    if isinstance(v,int) and not isinstance(v,bool): return abs(v)>2**300
    if isinstance(v,(tuple,list)): return any(big(x) for x in v) or len(v)>200
    if isinstance(v,dict): return any(big(x) for x in list(v)+list(v.values()))
    if isinstance(v,(str,bytes)): return len(v)>400
    if isinstance(v,io.BytesIO): return False
    if hasattr(v,'__dict__'): return any(big(x) for x in v.__dict__.values())
    return False
def run(src):
    ns=dict(io=io,heapq=heapq,itemgetter=itemgetter,defaultdict=defaultdict,Iterable=Iterable,dataclass=dataclass,math=math)
    exec(compile(src,'x','exec'),ns)
    try: return ('Ok',ns['main'](),ns)
    except (ValueError,TypeError,ZeroDivisionError,OverflowError,KeyError,IndexError,AssertionError) as e: return ('Err',type(e).__name__,ns)
