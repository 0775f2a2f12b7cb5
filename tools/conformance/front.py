"""A small front end for the C, C++ and Objective-C of OCLint's own unit tests: it builds the
syntax trees of ModelAST as Clang would, with source ranges."""
import re

class Unsupported(Exception): pass

# ---------------------------------------------------------------- tokens
class Tok:
    __slots__=('k','t','line','col')
    def __init__(s,k,t,line,col): s.k=k; s.t=t; s.line=line; s.col=col
    def __repr__(s): return f'{s.t}@{s.line}:{s.col}'
PUNCT=['<<=','>>=','...','->*','::','->','++','--','<<','>>','<=','>=','==','!=','&&','||','+=','-=','*=','/=','%=','&=','|=','^=']
def lex(code):
    toks=[];comments=[];i=0;line=1;col=1;macros={}
    n=len(code)
    def adv(k):
        nonlocal i,line,col
        for _ in range(k):
            if code[i]=='\n': line+=1; col=1
            else: col+=1
            i+=1
    bol=True
    while i<n:
        c=code[i]
        if c=='\n': adv(1); bol=True; continue
        if c.isspace(): adv(1); continue
        if code.startswith('//',i):
            j=code.find('\n',i); j=n if j<0 else j
            comments.append((code[i:j],line)); adv(j-i); continue
        if code.startswith('/*',i):
            j=code.index('*/',i)+2
            comments.append((code[i:j],line)); adv(j-i); continue
        if c=='#' and bol:
            j=code.find('\n',i); j=n if j<0 else j
            m=re.match(r'#\s*define\s+(\w+)(\()?(.*)',code[i:j],re.S)
            if m and not m.group(2):
                sub,_,_=lex(m.group(3)); macros[m.group(1)]=sub[:-1]
                toks.append(Tok('macro',m.group(1),line,col)); toks[-1].line=sub[:-1]
            elif m: raise Unsupported('function-like macro')
            else: raise Unsupported('preprocessor '+code[i:j])
            adv(j-i); continue
        bol=False
        m=re.match(r'[A-Za-z_]\w*',code[i:])
        if m: toks.append(Tok('id',m.group(0),line,col)); adv(m.end()); continue
        m=re.match(r'0[xX][0-9a-fA-F]+[uUlL]*|(\d+\.\d*|\.\d+|\d+)([eE][+-]?\d+)?[uUlLfF]*',code[i:])
        if m: toks.append(Tok('num',m.group(0),line,col)); adv(m.end()); continue
        if c=='"':
            j=i+1
            while code[j]!='"': j+=2 if code[j]=='\\' else 1
            toks.append(Tok('str',code[i:j+1],line,col)); adv(j+1-i); continue
        if c=="'":
            j=i+1
            while code[j]!="'": j+=2 if code[j]=='\\' else 1
            toks.append(Tok('chr',code[i:j+1],line,col)); adv(j+1-i); continue
        if c=='@': toks.append(Tok('p','@',line,col)); adv(1); continue
        for p in PUNCT:
            if code.startswith(p,i): break
        else:
            p=c
            if p not in '{}()[];,:?.=+-*/%&|^!~<>': raise Unsupported('char '+p)
        toks.append(Tok('p',p,line,col)); adv(len(p))
    toks.append(Tok('eof','',line,col))
    return toks,comments,macros
def preprocess(toks):
    out=[];mac={}
    def expand(t,line,col,active):
        if t.k=='id' and t.t in mac and t.t not in active:
            for u in mac[t.t]: expand(u,line,col,active|{t.t})
        else: out.append(Tok(t.k,t.t,line,col))
    for t in toks:
        if t.k=='macro': mac[t.t]=t.line
        else: expand(t,t.line,t.col,frozenset())
    return out

# ---------------------------------------------------------------- types
class T:
    def __init__(s,k,name=None,sub=None,const=False,extra=None): s.k=k; s.name=name; s.sub=sub; s.const=const; s.extra=extra
    def canon(s):
        t=s
        while t.k=='typedef': t=t.sub
        return t
    def __str__(s):
        q='const ' if s.const else ''
        if s.k in('builtin','typedef','iface','tparam'): return q+s.name
        if s.k=='record': return q+(s.extra or '')+s.name
        if s.k=='enum': return q+(s.extra or '')+s.name
        if s.k=='ptr':
            b=str(s.sub); return b+('*' if b.endswith('*') else ' *')+('const' if s.const else '')
        if s.k=='ref': return str(s.sub)+' &'
        if s.k=='array': return f'{s.sub}[{s.name}]'
        if s.k=='fun': return f'{s.sub} ({", ".join(map(str,s.extra))})'
        return '?'+s.k
INT=T('builtin','int'); VOID=T('builtin','void'); CHAR=T('builtin','char'); BOOLT=T('builtin','bool')
FLOAT=T('builtin','float'); DOUBLE=T('builtin','double'); NULLPTR=T('builtin','std::nullptr_t')
ID=T('typedef','id',T('ptr',None,T('record','objc_object',extra='struct ')))
SEL=T('typedef','SEL',T('ptr',None,T('builtin','objc_selector')))
CLASS=T('typedef','Class',T('ptr',None,T('record','objc_class',extra='struct ')))
DEP=T('builtin','<dependent type>')
def isptr(t): return t.canon().k in('ptr',)
def isarith(t):
    c=t.canon(); return (c.k=='builtin' and c.name not in('void','std::nullptr_t','<dependent type>')) or c.k=='enum'
def isint(t):
    c=t.canon(); return (c.k=='builtin' and c.name not in('void','float','double','long double','std::nullptr_t','<dependent type>')) or c.k=='enum'
RANK={'bool':0,'char':1,'signed char':1,'unsigned char':1,'short':2,'unsigned short':2,'int':3,'unsigned int':4,'long':5,'unsigned long':6,'long long':7,'unsigned long long':8,'float':9,'double':10,'long double':11}
def same(a,b):
    a=a.canon(); b=b.canon()
    if a.k!=b.k: return False
    if a.k=='ptr': return same(a.sub,b.sub) and a.sub.const==b.sub.const
    return a.name==b.name

# ---------------------------------------------------------------- nodes
SPEC={'NullStmt':'','CompoundStmt':'l','IfStmt':'lnno','WhileStmt':'lnn','DoStmt':'nn','ForStmt':'oloon','CXXForRangeStmt':'onnn',
'ObjCForCollectionStmt':'nnn','SwitchStmt':'lnnr','CaseStmt':'nn','DefaultStmt':'n','LabelStmt':'rn','GotoStmt':'r','IndirectGotoStmt':'n',
'BreakStmt':'','ContinueStmt':'','ReturnStmt':'o','CXXTryStmt':'nl','CXXCatchStmt':'on','ObjCAtTryStmt':'nlo','ObjCAtCatchStmt':'on',
'ObjCAtFinallyStmt':'n','ObjCAtSynchronizedStmt':'nn','ObjCAutoreleasePoolStmt':'n','ObjCAtThrowStmt':'o','DeclStmt':'l','OtherStmt':'l',
'BinaryOperator':'rnn','UnaryOperator':'rn','ConditionalOperator':'nnn','ParenExpr':'n','ImplicitCastExpr':'rn','CStyleCastExpr':'rn',
'OtherCastExpr':'rn','DeclRefExpr':'rrr','IntegerLiteral':'r','FloatingLiteral':'r','CharacterLiteral':'r','StringLiteral':'r',
'CXXBoolLiteralExpr':'r','ObjCBoolLiteralExpr':'r','CXXThrowExpr':'o','CXXDeleteExpr':'n','MemberExpr':'rn','CallExpr':'rnl',
'ObjCMessageExpr':'rol','ObjCIvarRefExpr':'rrn','ObjCPropertyRefExpr':'rrro','ExprWithCleanups':'n','OtherExpr':'l','VarDecl':'ro',
'FunctionDecl':'rlo','ObjCMethodDecl':'rlo','CXXRecordDecl':'rl','ObjCContainerDecl':'rl','OtherDecl':'l'}
class N:
    def __init__(s,shape,args,beg,end,ty=None,lv=False):
        s.shape=shape; s.args=list(args); s.beg=beg; s.end=end; s.ty=ty; s.lv=lv; s.annots=[]; s.val=None; s.text=None
    @property
    def rng(s): return (s.beg.line,s.beg.col,s.end.line,s.end.col)
    def kids(s):
        for sp,a in zip(SPEC[s.shape],s.args):
            if sp=='n' or (sp=='o' and a is not None): yield a
            elif sp=='l': yield from a
def cstr(s):
    return '$"'+s.replace('"','""')+'"'
def cbool(b): return 'true' if b else 'false'

class Var:
    def __init__(s,name,ty,isParm=False): s.name=name; s.ty=ty; s.isParm=isParm; s.used=False; s.referenced=False; s.local=False; s.staticMember=False; s.private=False; s.unused=False; s.defarg=False; s.inTemplate=False; s.contexts=[]; s.id=None; s.node=None; s.static=False
class Fun:
    def __init__(s,name,ty): s.name=name; s.ty=ty; s.body=None; s.decls=[]; s.virtual=False; s.static=False; s.private=False; s.method=None; s.annots=[]; s.template=False; s.id=None
class Cls:
    def __init__(s,name): s.name=name; s.defined=False; s.bases=[]; s.virt=False; s.dtor=None; s.fields={}; s.methods={}; s.id=None; s.nfields=0; s.nmethods=0; s.static={}; s.kw='class'; s.node=None
class Iface:
    def __init__(s,name): s.name=name; s.sup=None; s.methods=[]; s.ivars={}; s.props={}; s.cats=[]; s.protocols=[]; s.defined=False
class Meth:
    def __init__(s,sel,inst,ret,params,annots,owner,okind): s.sel=sel; s.inst=inst; s.ret=ret; s.params=params; s.annots=annots; s.owner=owner; s.okind=okind; s.accessor=None; s.overrides=[]

BINP={'||':1,'&&':2,'|':3,'^':4,'&':5,'==':6,'!=':6,'<':7,'>':7,'<=':7,'>=':7,'<<':8,'>>':8,'+':9,'-':9,'*':10,'/':10,'%':10}
BOP={'||':'BO_LOr','&&':'BO_LAnd','|':'BO_Or','^':'BO_Xor','&':'BO_And','==':'BO_EQ','!=':'BO_NE','%':'BO_Rem'}
ASSIGN={'=','+=','-=','*=','/=','%=','&=','|=','^=','<<=','>>='}
TYPEWORDS={'void','int','char','short','long','float','double','signed','unsigned','bool','_Bool','auto'}
STORAGE={'static','extern','inline','register','virtual','explicit','typedef','const','volatile','__global__','__device__','__host__','friend','__strong','__weak','__block','__unsafe_unretained'}

class Parser:
    def __init__(s,code,lang):
        s.lang=lang; s.cxx=lang in('CXX','CXX11','CUDA'); s.objc=lang=='ObjC'
        toks,s.comments,_=lex(code); s.toks=preprocess(toks); s.p=0
        s.scopes=[{}]; s.nextid=0; s.fun=None; s.ctx=[]; s.cls=None; s.meth=None
        s.ifaces={}; s.protos={}; s.tops=[]; s.intemplate=False; s.localscope=False
    # -- tokens
    @property
    def t(s): return s.toks[s.p]
    def peek(s,k=1): return s.toks[min(s.p+k,len(s.toks)-1)]
    def at(s,*x): return s.t.t in x and s.t.k in('p','id')
    def next(s): t=s.t; s.p+=1; return t
    def prev(s): return s.toks[s.p-1]
    def eat(s,x):
        if s.t.t!=x: raise Unsupported(f'expected {x} got {s.t} near {[k.t for k in s.toks[max(0,s.p-4):s.p+5]]}')
        return s.next()
    def opt(s,x):
        if s.at(x): return s.next()
    def isat(s,kw): return s.t.t=='@' and s.peek().t==kw
    # -- scopes
    def lookup(s,n):
        for sc in reversed(s.scopes):
            if n in sc: return sc[n]
        return None
    def declare(s,n,v): s.scopes[-1][n]=v
    def fresh(s): s.nextid+=1; return s.nextid
    # -- attributes
    def attributes(s):
        an=[];unused=False
        while s.at('__attribute__'):
            s.next(); s.eat('('); s.eat('(')
            while not s.at(')'):
                n=s.next().t
                if s.opt('('):
                    d=1;a=[]
                    while d:
                        t=s.next()
                        if t.t=='(': d+=1
                        if t.t==')': d-=1
                        a.append(t)
                    if n=='annotate':
                        an.append(''.join(x.t[1:-1].replace('\\"','"') for x in a if x.k=='str'))
                if n in('unused','__unused__'): unused=True
                s.opt(',')
            s.eat(')'); s.eat(')')
        return an,unused
    # -- types
    def istype(s,k=0):
        t=s.toks[s.p+k]
        if t.k!='id': return False
        if t.t in TYPEWORDS or t.t in('struct','class','union','enum','const','volatile','typename','instancetype') : return True
        if s.objc and t.t in('id','SEL','Class'): return True
        v=s.lookup(t.t)
        if isinstance(v,tuple) and v[0] in('typedef','tparam'): return True
        if s.cxx and isinstance(v,Cls):
            return s.toks[s.p+k+1].t!='::' or True
        if s.objc and t.t in s.ifaces: return True
        return False
    def specifiers(s):
        """decl-specifier-seq: (type, dict of flags)"""
        fl=set(); words=[]; ty=None; an=[]; unused=False; const=False
        extra=None
        while True:
            t=s.t
            if t.t=='__attribute__':
                a,u=s.attributes(); an+=a; unused|=u; continue
            if t.k!='id': break
            if t.t in STORAGE:
                s.next()
                if t.t in('const',): const=True
                else: fl.add(t.t)
                continue
            if t.t in('auto',) and ty is None: s.next(); ty=T('auto','auto'); continue
            if t.t in TYPEWORDS: words.append(t.t); s.next(); continue
            if ty is None and not words:
                if t.t in('struct','class','union'):
                    ty,extra=s.record(); continue
                if t.t=='enum': ty,extra=s.enum(); continue
                if t.t=='typename': s.next(); continue
                if s.objc and t.t in('id','instancetype'):
                    s.next(); ty=ID
                    if s.at('<'):
                        while not s.opt('>'): s.next()
                    continue
                if s.objc and t.t=='SEL': s.next(); ty=SEL; continue
                if s.objc and t.t=='Class': s.next(); ty=CLASS; continue
                v=s.lookup(t.t)
                if isinstance(v,tuple) and v[0]=='typedef': s.next(); ty=v[1]; continue
                if isinstance(v,tuple) and v[0]=='tparam': s.next(); ty=DEP; continue
                if s.cxx and isinstance(v,Cls):
                    # constructor / destructor / qualified name?
                    if s.peek().t=='(' and s.cls is v: break
                    if s.peek().t=='::': break
                    s.next(); ty=T('record',v.name,extra=''); ty.cls=v
                    continue
                if s.objc and t.t in s.ifaces:
                    s.next(); ty=T('iface',t.t)
                    if s.at('<'):
                        while not s.opt('>'): s.next()
                    continue
            break
        if words:
            w=[x for x in words if x!='signed' or 'char' in words]
            name=' '.join(w)
            name={'':'int','unsigned':'unsigned int','long int':'long','short int':'short','_Bool':'bool','long unsigned':'unsigned long','unsigned long int':'unsigned long'}.get(name,name)
            ty=T('builtin',name)
        if ty is not None and const:
            ty=T(ty.k,ty.name,ty.sub,True,ty.extra)
        return ty,fl,an,unused,extra
    def pointers(s,ty):
        while True:
            if s.opt('*'): ty=T('ptr',None,ty)
            elif s.opt('&'): ty=T('ref',None,ty)
            elif s.at('const','volatile','__strong','__weak','__unsafe_unretained','__block','_Nonnull','_Nullable','restrict'): 
                q=s.next()
                if q.t=='const': ty=T(ty.k,ty.name,ty.sub,True,ty.extra)
            else: return ty
    def typename(s):
        ty,fl,_,_,_=s.specifiers()
        if ty is None: raise Unsupported('type name '+repr(s.t))
        ty=s.pointers(ty)
        if s.at('(') and s.peek().t=='^': raise Unsupported('block type')
        while s.at("[") and s.peek().t=="]": s.next(); s.next(); ty=T("ptr",None,ty)
        return ty
    # -- records
    def record(s):
        kw=s.next(); an,_=s.attributes(); name=None; fresh=False
        if s.t.k=='id': name=s.next().t
        if s.opt('<'): raise Unsupported('template specialisation')
        v=s.lookup(name) if name and s.cxx else s.lookup(kw.t+' '+name) if name else None
        if not isinstance(v,Cls):
            v=Cls(name or ''); v.id=s.fresh(); v.kw=kw.t
            if name:
                s.declare(name if s.cxx else kw.t+' '+name,v)
        ty=T('record',name or '(anonymous)',extra='' if s.cxx else kw.t+' '); ty.cls=v
        if s.at('{',':') :
            node=s.recordbody(kw,v,an); return ty,node
        if s.at(';'):
            node=N('CXXRecordDecl' if s.cxx else 'OtherDecl',[v.__dict__ and ('rec',v,False),[]] if s.cxx else [[]],kw,s.prev()); node.annots=an
            return ty,node
        return ty,None
    def recordbody(s,kw,v,an):
        if s.opt(':'):
            while True:
                acc='private' if kw.t=='class' else 'public'
                while s.at('public','protected','private','virtual'):
                    t=s.next()
                    if t.t!='virtual': acc=t.t
                b=s.lookup(s.next().t)
                v.bases.append((acc,b if isinstance(b,Cls) else None))
                if not s.opt(','): break
        s.eat('{'); members=[]; acc='private' if kw.t=='class' else 'public'
        oldc=s.cls; s.cls=v; s.ctx.append(('CxRecord',)); s.scopes.append({}); v.defined=True
        pending=[]
        while not s.at('}'):
            if s.at('public','private','protected') and s.peek().t==':':
                a=s.next(); s.next(); acc=a.t; continue
            if s.opt(';'): continue
            members+=s.member(v,acc,pending)
        end=s.eat('}')
        for f in pending: f()
        s.scopes.pop(); s.ctx.pop(); s.cls=oldc
        a2,_=s.attributes()
        if not s.cxx:
            node=N('OtherDecl',[members],kw,end)
        else: node=N('CXXRecordDecl',[('rec',v,True),members],kw,end)
        node.annots=an+a2; v.node=node
        return node
    def member(s,v,acc,pending):
        beg=s.t
        if s.cxx and (s.at('~') or (s.at('virtual','explicit','inline') and s.peek().t=='~') or (s.t.t==v.name and s.peek().t=='(')):
            virt=False
            while s.at('virtual','explicit','inline'):
                if s.next().t=='virtual': virt=True
            name=''
            if s.opt('~'): name='~'
            name+=s.next().t
            if name[0]=='~':
                v.dtor=(virt or any(b and b.dtor and b.dtor[0] for _,b in v.bases), acc=='protected')
            if virt: v.virt=True
            return s.function(beg,name,VOID,{'virtual'} if virt else set(),[],v,acc,pending)
        ty,fl,an,un,extra=s.specifiers()
        res=[extra] if extra else []
        if ty is None: raise Unsupported('member '+repr(s.t))
        if s.opt(';'): return res
        first=True
        while True:
            t2=s.pointers(ty); name=s.next()
            if name.k!='id': raise Unsupported('declarator '+repr(name))
            if s.at('('):
                if 'virtual' in fl: v.virt=True
                return res+s.function(beg,name.t,t2,fl,an,v,acc,pending)
            while s.at('['):
                s.next()
                sz=s.next().t if not s.at(']') else ''
                s.eat(']'); t2=T('array',sz,t2)
            if 'static' in fl:
                x=Var(name.t,t2); x.staticMember=True; x.private=acc=='private'; x.id=s.fresh(); x.contexts=list(reversed(s.ctx))
                v.static[name.t]=x; s.declare(name.t,x)
                init=None
                n=N('VarDecl',[('var',x),None],beg,name); x.node=n; n.annots=an
                res.append(n)
            else:
                v.fields[name.t]=t2; v.nfields+=1
                s.declare(name.t,('field',name.t,t2,v))
                res.append(N('OtherDecl',[[]],beg,name))
            if not s.opt(','): break
        s.eat(';')
        return res
    # -- enums
    def enum(s):
        kw=s.next(); name=s.next().t if s.t.k=='id' else ''
        key=name if s.cxx else 'enum '+name
        ty=T('enum',name,extra='' if s.cxx else 'enum ')
        v=s.lookup(key) if name else None
        if v and not s.at('{'): return v[1],None
        if s.at('{'):
            s.next(); nxt=0; ty.values=[]; kids=[]
            while not s.at('}'):
                nm=s.next(); k=N('OtherDecl',[[]],nm,nm); kids.append(k)
                if s.opt('='):
                    e=s.conditional(); nxt=s.eval(e); k.args=[[e]]; k.end=e.end
                s.declare(nm.t,('enumconst',nxt,ty,s.fresh())); ty.values.append(nxt); nxt+=1
                s.opt(',')
            end=s.eat('}')
            node=N('OtherDecl',[kids],kw,end)
            if name: s.declare(key,('typedef',ty))
            return ty,node
        return ty,None
    # -- constants
    def eval(s,e):
        """value of a constant expression or None"""
        k=e.shape; a=e.args
        if k=='IntegerLiteral': return int(a[0].strip('()').split('%')[0]) if isinstance(a[0],str) else a[0]
        if k in('ParenExpr',): return s.eval(a[0])
        if k in('ImplicitCastExpr','CStyleCastExpr'): 
            v=s.eval(a[1])
            return v
        if k=='FloatingLiteral': return e.val
        if k=='CharacterLiteral': return e.val
        if k in('CXXBoolLiteralExpr','ObjCBoolLiteralExpr'): return 1 if a[0]=='true' else 0
        if k=='DeclRefExpr': return e.val
        if k=='UnaryOperator':
            v=s.eval(a[1])
            if v is None or e.op in('++','--','*','&'): return None
            return {'!':lambda:int(not v),'-':lambda:-v,'+':lambda:v,'~':lambda:~v}[e.op]()
        if k=='BinaryOperator':
            l=s.eval(a[1]); r=s.eval(a[2])
            if e.op=='&&':
                if l is not None and not l: return 0
                if l is None or r is None: return None
                return int(bool(l and r))
            if e.op=='||':
                if l: return 1
                if l is None or r is None: return None
                return int(bool(l or r))
            if l is None or r is None or e.op in ASSIGN or e.op==',': return None
            if e.op in '/%' and r==0: return None
            return {'|':lambda:l|r,'^':lambda:l^r,'&':lambda:l&r,'==':lambda:int(l==r),'!=':lambda:int(l!=r),'<':lambda:int(l<r),'>':lambda:int(l>r),
              '<=':lambda:int(l<=r),'>=':lambda:int(l>=r),'<<':lambda:l<<r,'>>':lambda:l>>r,'+':lambda:l+r,'-':lambda:l-r,'*':lambda:l*r,'/':lambda:int(l/r),'%':lambda:l%r}[e.op]()
        if k=='ConditionalOperator':
            c=s.eval(a[0])
            if c is None: return None
            return s.eval(a[1] if c else a[2])
        return None
    # -- conversions
    def cast(s,e,kind,ty): 
        n=N('ImplicitCastExpr',[kind,e],e.beg,e.end,ty); n.text=e.text; return n
    def rval(s,e):
        c=e.ty.canon()
        if c.k=='array': return s.cast(e,'CK_Other',T('ptr',None,c.sub))
        if c.k=='fun': return s.cast(e,'CK_Other',T('ptr',None,e.ty))
        if e.lv and not (s.cxx and c.k=='record'):
            t=e.ty
            if t.const: t=T(t.k,t.name,t.sub,False,t.extra)
            return s.cast(e,'CK_LValueToRValue',t)
        return e
    def isnull(s,e):
        x=e
        while x.shape=='ParenExpr': x=x.args[0]
        if x.shape=='IntegerLiteral' and s.eval(x)==0: return True
        if x.ty is NULLPTR: return True
        if x.shape=='CStyleCastExpr' and not s.cxx and str(x.ty.canon())=='void *' and s.isnull(x.args[1]): return True
        return False
    def conv(s,e,ty):
        """implicit conversion of e (any value category) to ty"""
        if ty.canon().k=='ref':
            if e.lv: return e
            return s.conv(e,ty.canon().sub)
        if ty is DEP or e.ty is DEP or ty.k=='auto': return e
        isn=s.isnull(e)
        e=s.rval(e)
        a=e.ty.canon(); b=ty.canon()
        if same(a,b):
            return e
        if b.k=='ptr' and isn: return s.cast(e,'CK_NullToPointer',ty)
        if b.k=='ptr' and a.k=='ptr': return s.cast(e,'CK_BitCast',ty) if not same(a.sub,b.sub) else (e if str(a)==str(b) else s.cast(e,'CK_Other',ty))
        if b.k=='builtin' and b.name=='bool' and a.k=='ptr': return s.cast(e,'CK_PointerToBoolean',ty)
        if b.k=='record' or a.k=='record': return e
        return s.cast(e,'CK_Other',ty)
    def cond(s,e):
        if e.ty is DEP: return e
        if s.cxx: return s.conv(e,BOOLT)
        return s.rval(e)
    def promote(s,e):
        e=s.rval(e); c=e.ty.canon()
        if c.k=='enum' or (c.k=='builtin' and RANK.get(c.name,9)<3): return s.cast(e,'CK_Other',INT)
        return e
    def arith(s,l,r):
        l=s.promote(l); r=s.promote(r)
        if not(isarith(l.ty) and isarith(r.ty)): return l,r,l.ty
        a=RANK[l.ty.canon().name]; b=RANK[r.ty.canon().name]
        if a<b: l=s.cast(l,'CK_Other',r.ty)
        elif b<a: r=s.cast(r,'CK_Other',l.ty)
        return l,r,l.ty
    # -- expressions
    def expr(s):
        e=s.assign()
        while s.at(','):
            s.next(); r=s.assign()
            n=N('BinaryOperator',['BO_Other',e,r],e.beg,r.end,r.ty); n.op=','; e=n
        return e
    def assign(s):
        if s.cxx and s.at('throw'):
            k=s.next()
            if s.at(';',')'): return N('CXXThrowExpr',[None],k,k,VOID)
            e=s.rval(s.assign()); return N('CXXThrowExpr',[e],k,e.end,VOID)
        l=s.conditional()
        if s.t.k=='p' and s.t.t in ASSIGN:
            o=s.next().t; r=s.assign()
            if l.shape=='pseudo': return s.setprop(l,r)
            if o=='=': r=s.conv(r,l.ty)
            else: r=s.promote(r)
            n=N('BinaryOperator',['BO_Assign' if o=='=' else 'BO_CompoundAssign',l,r],l.beg,r.end,l.ty,s.cxx); n.op=o
            return n
        return s.unpseudo(l)
    def unpseudo(s,l):
        if l.shape=='pseudo': return s.getprop(l)
        return l
    def conditional(s):
        c=s.binary(1)
        if s.at('?'):
            s.next()
            if s.at(':'): raise Unsupported('?:')
            c=s.unpseudo(c)
            a=s.expr(); s.eat(':'); b=s.assignlike()
            c=s.cond(c)
            ta,tb=a.ty,b.ty
            if s.cxx and same(ta,tb) and a.lv and b.lv: return N('ConditionalOperator',[c,a,b],c.beg,b.end,ta,True)
            if isarith(ta) and isarith(tb) :
                if s.cxx and same(ta,tb): a=s.rval(a); b=s.rval(b); ty=a.ty
                else: a,b,ty=s.arith(a,b)
            else:
                na,nb=s.isnull(a),s.isnull(b)
                a=s.rval(a); b=s.rval(b)
                if isptr(a.ty) and nb and not isptr(b.ty): b=s.cast(b,'CK_NullToPointer',a.ty)
                elif isptr(b.ty) and na and not isptr(a.ty): a=s.cast(a,'CK_NullToPointer',b.ty)
                ty=a.ty
            return N('ConditionalOperator',[c,a,b],c.beg,b.end,ty)
        return c
    def assignlike(s):
        return s.assign() if s.cxx else s.unpseudo(s.conditional())
    def binary(s,minp):
        l=s.unary()
        while s.t.k=='p' and s.t.t in BINP and BINP[s.t.t]>=minp:
            o=s.next().t; l=s.unpseudo(l); r=s.unpseudo(s.binary(BINP[o]+1)); l=s.mkbin(o,l,r)
        return l
    def mkbin(s,o,l,r):
        beg,end=l.beg,r.end
        if DEP in(l.ty,r.ty):
            n=N('BinaryOperator',[BOP.get(o,'BO_Other'),l,r],beg,end,DEP); n.op=o; return n
        if o in('&&','||'):
            l=s.cond(l); r=s.cond(r); ty=BOOLT if s.cxx else INT
        elif o in('==','!=','<','>','<=','>='):
            ty=BOOLT if s.cxx else INT
            pl,pr=isptr(l.ty) or l.ty.canon().k in('array','fun'),isptr(r.ty) or r.ty.canon().k in('array','fun')
            if pl or pr:
                nl,nr=s.isnull(l),s.isnull(r)
                if pl and nr and not pr: l=s.rval(l); r=s.cast(s.rval(r),'CK_NullToPointer',l.ty)
                elif pr and nl and not pl: r=s.rval(r); l=s.cast(s.rval(l),'CK_NullToPointer',r.ty)
                else:
                    l0,r0=s.rval(l),s.rval(r)
                    if not same(l0.ty,r0.ty):
                        # C: null pointer constant of type void *, or conversion to void * / BitCast
                        if nr and not s.cxx: r0=s.cast(r0,'CK_NullToPointer',l0.ty)
                        elif nl and not s.cxx: l0=s.cast(l0,'CK_NullToPointer',r0.ty)
                        elif str(l0.ty.canon())=='void *' and s.cxx: r0=s.cast(r0,'CK_BitCast',l0.ty)
                        elif str(r0.ty.canon())=='void *' and s.cxx: l0=s.cast(l0,'CK_BitCast',r0.ty)
                        else: r0=s.cast(r0,'CK_BitCast',l0.ty)
                    l,r=l0,r0
            else: l,r,_=s.arith(l,r)
        elif o in('<<','>>'): l=s.promote(l); r=s.promote(r); ty=l.ty
        else:
            if isptr(l.ty) or l.ty.canon().k=='array': l=s.rval(l); r=s.promote(r); ty=l.ty
            else: l,r,ty=s.arith(l,r)
        n=N('BinaryOperator',[BOP.get(o,'BO_Other'),l,r],beg,end,ty); n.op=o
        return n
    def unary(s):
        t=s.t
        if t.k=='p' and t.t in('!','~','+','-','*','&','++','--'):
            s.next(); e=s.unpseudo(s.unary())
            op={'!':'UO_LNot','~':'UO_Not','+':'UO_Plus','-':'UO_Minus'}.get(t.t,'UO_Other'); lv=False
            if e.ty is DEP: ty=DEP
            elif t.t=='!': e=s.cond(e); ty=BOOLT if s.cxx else INT
            elif t.t in('~','+','-'): e=s.promote(e); ty=e.ty
            elif t.t=='*':
                e=s.rval(e); ty=e.ty.canon().sub; lv=True
            elif t.t=='&': ty=T('ptr',None,e.ty)
            else: ty=e.ty; lv=s.cxx
            n=N('UnaryOperator',[op,e],t,e.end,ty,lv); n.op=t.t; return n
        if t.t=='&&': s.next(); l=s.next(); return N('OtherExpr',[[]],t,l,T('ptr',None,VOID))
        if t.t=='sizeof':
            s.next(); s.eat('(')
            if s.istype(): s.typename(); kids=[]
            else: kids=[s.expr()]
            end=s.eat(')'); return N('OtherExpr',[kids],t,end,T('builtin','unsigned long'))
        if s.cxx and t.t=='delete':
            s.next()
            if s.at('['): s.next(); s.eat(']')
            e=s.rval(s.unary()); return N('CXXDeleteExpr',[e],t,e.end,VOID)
        if s.cxx and t.t=='new':
            s.next(); ty=s.typename(); kids=[]; end=s.prev()
            if s.opt('('):
                while not s.at(')'): kids.append(s.assign()); s.opt(',')
                end=s.eat(')')
            elif s.opt('['): kids.append(s.expr()); end=s.eat(']')
            return N('OtherExpr',[kids],t,end,T('ptr',None,ty))
        if t.t=='(' and s.istype(1):
            s.next(); ty=s.typename(); s.eat(')')
            if s.at('{'): raise Unsupported('compound literal')
            e=s.unpseudo(s.unary()); isn=s.isnull(e); e2=s.rval(e)
            b=ty.canon(); a=e2.ty.canon()
            if b.k=='ptr' and isn and not isptr(e2.ty): kind='CK_NullToPointer'
            elif b.k=='ptr' and a.k=='ptr': kind='CK_BitCast' if not same(a,b) else 'CK_Other'
            elif b.k=='builtin' and b.name=='bool' and a.k=='ptr': kind='CK_PointerToBoolean'
            else: kind='CK_Other'
            if kind=='CK_Other' and e2 is e and isarith(ty) and isarith(e.ty) and not same(a,b): pass
            n=N('CStyleCastExpr',[kind,e2],t,e.end,ty); return n
        return s.postfix(s.primary())
    def postfix(s,e):
        while True:
            if s.at('('):
                s.next(); args=[]
                while not s.at(')'):
                    args.append(s.assign())
                    if not s.opt(','): break
                end=s.eat(')')
                e=s.call(e,args,end)
            elif s.at('['):
                e=s.unpseudo(e)
                s.next(); i=s.expr(); end=s.eat(']')
                if s.objc and e.ty.canon().k=='ptr' and e.ty.canon().sub.k in('iface',) or e.ty is ID:
                    r=N('OtherExpr',[[s.rval(e),s.rval(i)]],e.beg,end,ID,True); e=r; continue
                b=s.rval(e); ty=b.ty.canon().sub
                e=N('OtherExpr',[[b,s.rval(i)]],e.beg,end,ty,True)
            elif s.at('.','->'):
                o=s.next().t; nm=s.next(); e=s.unpseudo(e)
                c=e.ty.canon()
                if s.objc and o=='.' and c.k=='ptr' and c.sub.k=='iface':
                    x=N('pseudo',[],e.beg,nm,None); x.base=e; x.prop=nm.t; x.iface=c.sub.name
                    p=s.findprop(c.sub.name,nm.t); x.ty=p['ty'] if p else ID
                    e=x; continue
                if s.objc and o=='->' and c.k=='ptr' and c.sub.k=='iface':
                    b=s.rval(e); iv=s.findivar(c.sub.name,nm.t)
                    e=N('ObjCIvarRefExpr',[cstr(nm.t),f'(Some {cstr(iv[1])})',b],e.beg,nm,iv[0],True); continue
                base=e
                if o=='->': base=s.rval(e); c=base.ty.canon().sub.canon()
                ty=INT; fn=None
                cl=getattr(c,'cls',None)
                lv=True
                if cl:
                    f,m=s.findmember(cl,nm.t)
                    if f is not None: ty=f
                    elif m is not None: ty=m.ty; fn=m; lv=False
                    else: raise Unsupported('member '+nm.t)
                elif c.k!='cuda': raise Unsupported('member of '+str(c))
                txt=(e.text or '')+o+nm.t
                e=N('MemberExpr',[cbool(o=='->'),base],e.beg,nm,ty,lv); e.fn=fn; e.text=txt
            elif s.at('++','--'):
                t=s.next(); n=N('UnaryOperator',['UO_Other',e],e.beg,t,e.ty); n.op=t.t; e=n
            else: return e
    def findmember(s,cl,n):
        if n in cl.fields: return cl.fields[n],None
        if n in cl.static: return cl.static[n].ty,None
        if n in cl.methods: return None,cl.methods[n]
        for _,b in cl.bases:
            if b:
                r=s.findmember(b,n)
                if r!=(None,None): return r
        return None,None
    def call(s,e,args,end):
        fn=getattr(e,'fn',None); fty=e.ty
        if e.shape=='MemberExpr' and fn is not None:
            callee='(Some (%s, Decl [] None))'%cstr(fn.name); c=e
        else:
            if fty.canon().k!='fun' : raise Unsupported('call of '+str(fty))
            callee='(Some (%s, %s))'%(cstr(fn.name),'FUNDECL') if fn else 'None'
            if fn: callee=('callee',fn)
            c=s.rval(e)
        pts=fty.canon().extra
        out=[]
        for i,a in enumerate(args): out.append(s.conv(a,pts[i]) if i<len(pts) else s.rval(a))
        return N('CallExpr',[callee,c,out],e.beg,end,fty.canon().sub,fty.canon().sub.canon().k=='ref')
    def use(s,v):
        v.referenced=True; v.used=True
    def primary(s):
        t=s.t
        if t.k=='num':
            s.next(); x=t.t
            if re.match(r'^(0[xX][0-9a-fA-F]+|\d+)[uUlL]*$',x):
                suf=re.search(r'[uUlL]*$',x).group(0).lower(); v=int(x[:len(x)-len(suf)],0) if not re.match(r'0\d',x) else int(x[:len(x)-len(suf)],8)
                ty={'':'int','u':'unsigned int','l':'long','ul':'unsigned long','ll':'long long','ull':'unsigned long long','lu':'unsigned long','llu':'unsigned long long'}[suf]
                return N('IntegerLiteral',[v],t,t,T('builtin',ty))
            ty=FLOAT if x[-1] in 'fF' else DOUBLE; v=float(x.rstrip('fFlL'))
            import struct
            if ty is FLOAT: v=struct.unpack('f',struct.pack('f',v))[0]
            n=N('FloatingLiteral',['(%d)%%Z'%struct.unpack('q',struct.pack('d',v))[0]],t,t,ty); n.val=v; return n
        if t.k=='chr':
            s.next(); v=t.t[1:-1]
            c=ord(v) if len(v)==1 else {'\\n':10,'\\0':0,'\\t':9}[v]
            n=N('CharacterLiteral',['%d%%Z'%c],t,t,CHAR if s.cxx else INT); n.val=c; return n
        if t.k=='str':
            txt=''; end=t
            while s.t.k=='str': end=s.next(); txt+=end.t[1:-1]
            ct=T('builtin','char',const=s.cxx)
            return N('StringLiteral',[cstr(txt)],t,end,T('array',str(len(txt)+1),ct),True)
        if t.t=='(':
            s.next(); e=s.unpseudo(s.expr()); end=s.eat(')')
            n=N('ParenExpr',[e],t,end,e.ty,e.lv); n.text=e.text; return n
        if t.t=='@': return s.objcat()
        if t.t=='[' and s.objc: return s.message()
        if t.t=='^' and s.objc: return s.block()
        if t.t=='[' and s.cxx: raise Unsupported('lambda')
        if t.k=='id':
            if s.cxx and t.t in('true','false'): s.next(); return N('CXXBoolLiteralExpr',[t.t],t,t,BOOLT)
            if s.cxx and t.t=='nullptr': s.next(); return N('OtherExpr',[[]],t,t,NULLPTR)
            if s.cxx and t.t=='this': s.next(); ty=T('record',s.cls.name,extra=''); ty.cls=s.cls; return N('OtherExpr',[[]],t,t,T('ptr',None,ty))
            if s.objc and t.t in('__objc_yes','__objc_no'): s.next(); return N('ObjCBoolLiteralExpr',[cbool(t.t.endswith('yes'))],t,t,T('builtin','signed char'))
            if s.cxx and t.t in('static_cast','reinterpret_cast','const_cast'):
                s.next(); s.eat('<'); ty=s.typename(); s.eat('>'); s.eat('('); e=s.rval(s.expr()); end=s.eat(')')
                return N('OtherCastExpr',['CK_Other',e],t,end,ty)
            s.next()
            v=s.lookup(t.t)
            if s.cxx and s.at('::') and isinstance(v,Cls):
                s.next(); t2=s.next(); x=v.static.get(t2.t)
                if x: s.use(x); return N('DeclRefExpr',[str(x.id),cstr(x.name),'false'],t,t2,x.ty,True)
                raise Unsupported('qualified '+t2.t)
            if s.cxx and isinstance(v,Cls) and s.at('('):
                s.next(); kids=[]
                while not s.at(')'): kids.append(s.assign()); s.opt(',')
                end=s.eat(')'); ty=T('record',v.name,extra=''); ty.cls=v
                return N('OtherExpr',[kids],t,end,ty)
            if isinstance(v,Var):
                s.use(v)
                ty=v.ty.canon().sub if v.ty.canon().k=='ref' else v.ty
                n=N('DeclRefExpr',[str(v.id),cstr(v.name),'false'],t,t,ty,True); n.text=v.name; return n
            if isinstance(v,Fun):
                n=N('DeclRefExpr',[str(v.id),cstr(v.name),'false'],t,t,v.ty,not s.cxx and False); n.fn=v
                if v.method is not None and not v.static:
                    th=N('OtherExpr',[[]],t,t,INT); n=N('MemberExpr',['true',th],t,t,v.ty); n.fn=v
                return n
            if isinstance(v,tuple) and v[0]=='enumconst':
                n=N('DeclRefExpr',[str(v[3]),cstr(t.t),'true'],t,t,v[2] if s.cxx else INT); n.val=v[1]; return n
            if isinstance(v,tuple) and v[0]=='field':
                th=N('OtherExpr',[[]],t,t,INT); n=N('MemberExpr',['true',th],t,t,v[2],True); n.text='this->'+t.t; return n
            if s.lang=='CUDA' and t.t=='threadIdx': return N('DeclRefExpr',['999',cstr(t.t),'false'],t,t,T('cuda','uint3'),True)
            if s.objc and s.meth is not None:
                if t.t=='self':
                    ty=ID if not s.meth.inst or s.meth.owner is None else T('ptr',None,T('iface',s.meth.owner))
                    return N('DeclRefExpr',['998',cstr('self'),'false'],t,t,ty,True)
                iv=s.findivar(s.meth.owner,t.t)
                if iv:
                    b=s.cast(N('DeclRefExpr',['998',cstr('self'),'false'],t,t,T('ptr',None,T('iface',s.meth.owner)),True),'CK_LValueToRValue',T('ptr',None,T('iface',s.meth.owner)))
                    return N('ObjCIvarRefExpr',[cstr(t.t),f'(Some {cstr(iv[1])})',b],t,t,iv[0],True)
            raise Unsupported('unknown name '+t.t)
        raise Unsupported('expression '+repr(t))
    # -- Objective-C expressions
    def findivar(s,cls,n):
        while cls in s.ifaces:
            i=s.ifaces[cls]
            if n in i.ivars: return i.ivars[n],cls
            cls=i.sup
        return None
    def findprop(s,cls,n):
        while cls in s.ifaces:
            i=s.ifaces[cls]
            if n in i.props: return i.props[n]
            for c in i.cats:
                if n in c['props']: return c['props'][n]
            cls=i.sup
        return None
    def findmeth(s,cls,sel,inst):
        while cls in s.ifaces:
            i=s.ifaces[cls]
            for m in i.methods:
                if m.sel==sel and m.inst==inst: return m
            for c in i.cats:
                for m in c['methods']:
                    if m.sel==sel and m.inst==inst: return m
            for p in i.protocols:
                m=s.findproto(p,sel,inst)
                if m: return m
            cls=i.sup
        return None
    def findproto(s,p,sel,inst):
        for m in s.protos.get(p,{'methods':[]})['methods']:
            if m.sel==sel and m.inst==inst: return m
        return None
    def anymeth(s,sel):
        for i in s.ifaces.values():
            for m in i.methods+[x for c in i.cats for x in c['methods']]:
                if m.sel==sel: return m
        for p in s.protos.values():
            for m in p['methods']:
                if m.sel==sel: return m
    def objcat(s):
        t=s.eat('@')
        if s.t.k=='str':
            txt='';end=None
            while s.t.k=='str' or (s.t.t=='@' and s.peek().k=='str'):
                if s.t.t=='@': s.next()
                end=s.next(); txt+=end.t[1:-1]
            inner=N('StringLiteral',[cstr(txt)],t,end,T('array',str(len(txt)+1),CHAR),True)
            return N('OtherExpr',[[inner]],t,end,T('ptr',None,T('iface','NSString')))
        if s.t.k=='num' or s.t.k=='chr' or s.at('__objc_yes','__objc_no'):
            e=s.primary(); return N('OtherExpr',[[e]],t,e.end,T('ptr',None,T('iface','NSNumber')))
        if s.at('-','+'):
            e=s.unary(); return N('OtherExpr',[[e]],t,e.end,T('ptr',None,T('iface','NSNumber')))
        if s.at('('):
            e=s.primary(); return N('OtherExpr',[[e]],t,e.end,T('ptr',None,T('iface','NSNumber')))
        if s.at('['):
            s.next(); kids=[]
            while not s.at(']'): kids.append(s.rval(s.assign())); s.opt(',')
            end=s.eat(']'); return N('OtherExpr',[kids],t,end,T('ptr',None,T('iface','NSArray')))
        if s.at('{'):
            s.next(); kids=[]
            while not s.at('}'):
                kids.append(s.rval(s.assign())); s.eat(':'); kids.append(s.rval(s.assign())); s.opt(',')
            end=s.eat('}'); return N('OtherExpr',[kids],t,end,T('ptr',None,T('iface','NSDictionary')))
        if s.at('selector'):
            s.next(); s.eat('(')
            while not s.at(')'): s.next()
            end=s.eat(')'); return N('OtherExpr',[[]],t,end,SEL)
        if s.at('YES','NO'): raise Unsupported('@YES')
        raise Unsupported('@'+s.t.t)
    def message(s):
        beg=s.eat('['); rec=None; kind=None; iface=None
        if s.at('super'):
            s.next(); kind='RSuperInstance' if s.meth.inst else 'RSuperClass'; iface=s.ifaces[s.meth.owner].sup if s.meth.owner in s.ifaces else None; inst=s.meth.inst
        elif s.t.k=='id' and s.t.t in s.ifaces and s.lookup(s.t.t) is None and s.peek().t not in('.',):
            iface=s.next().t; kind=f'(RClass {cstr(iface)})'; inst=False
        else:
            rec=s.rval(s.unpseudo(s.expr())); kind='RInstance'; inst=True
            c=rec.ty.canon()
            if c.k=='ptr' and c.sub.k=='iface': iface=c.sub.name
            if rec.shape=='ImplicitCastExpr' and rec.args[1].shape=='DeclRefExpr' and rec.args[1].args[1]=='$"self"' and not s.meth.inst: inst=False
        sel='';args=[]
        if s.t.k=='id' and s.peek().t!=':' : sel=s.next().t
        else:
            while not s.at(']'):
                w=s.next().t if s.t.k=='id' else ''
                s.eat(':'); sel+=w+':'; args.append(s.assign())
                while s.opt(','): args.append(s.assign())
        end=s.eat(']')
        m=s.findmeth(iface,sel,inst) if iface else s.anymeth(sel)
        if m is None and iface: m=s.findmeth(iface,sel,not inst) if False else None
        ty=m.ret if m else ID
        if m and m.ret is ID and False: ty=ID
        out=[]
        for i,a in enumerate(args): out.append(s.conv(a,m.params[i]) if m and i<len(m.params) else s.rval(a))
        return N('ObjCMessageExpr',[('msg',sel,kind,False,iface,m),rec,out],beg,end,ty)
    def getprop(s,x):
        p=s.findprop(x.iface,x.prop); sel=p['getter'] if p else x.prop
        m=s.findmeth(x.iface,sel,True)
        b=s.rval(x.base); ty=(p['ty'] if p else m.ret if m else ID)
        # RecursiveASTVisitor visits the syntactic form of a PseudoObjectExpr, where the base is
        # opaque, and its semantic forms
        pr=N('ObjCPropertyRefExpr',['false',f'(Some {cstr(x.iface)})',f'(Some {cstr(x.iface)})',s.opaque(b)],x.beg,x.end,ty)
        msg=N('ObjCMessageExpr',[('msg',sel,'RInstance',True,x.iface,m),s.opaque(b),[]],x.end,x.end,ty)
        n=N('OtherExpr',[[pr,b,msg]],x.beg,x.end,ty); return n
    def opaque(s,b): return N('OtherExpr',[[]],b.beg,b.end,b.ty)
    def setprop(s,x,r):
        p=s.findprop(x.iface,x.prop); sel='set'+x.prop[0].upper()+x.prop[1:]+':'
        b=s.rval(x.base); ty=p['ty'] if p else ID
        pr=N('ObjCPropertyRefExpr',['true',f'(Some {cstr(x.iface)})',f'(Some {cstr(x.iface)})',s.opaque(b)],x.beg,x.end,ty)
        r2=s.conv(r,ty)
        a=N('BinaryOperator',['BO_Assign',pr,s.opaque(r2)],x.beg,r.end,ty); a.op='='
        msg=N('ObjCMessageExpr',[('msg',sel,'RInstance',True,x.iface,s.findmeth(x.iface,sel,True)),s.opaque(b),[s.opaque(r2)]],x.end,x.end,VOID)
        return N('OtherExpr',[[a,b,r2,msg]],x.beg,r.end,ty)
    def block(s):
        t=s.eat('^'); params=[]
        s.scopes.append({}); s.ctx.append(('CxClosure',))
        if s.istype(): s.typename()
        if s.at('('): params=s.params()[0]
        oldf=s.fun
        body=s.compound(newscope=False)
        s.scopes.pop(); s.ctx.pop()
        d=N('OtherDecl',[params+[body]],t,body.end)
        return N('OtherExpr',[[d]],t,body.end,T('ptr',None,T('fun','',VOID,extra=[])))
    # -- statements
    def compound(s,newscope=True):
        b=s.eat('{')
        if newscope: s.scopes.append({})
        l=[]
        while not s.at('}'): l.append(s.stmt())
        e=s.eat('}')
        if newscope: s.scopes.pop()
        return N('CompoundStmt',[l],b,e)
    def isdecl(s):
        if s.t.k!='id': return False
        if s.t.t in STORAGE: return True
        if s.istype():
            if s.cxx and s.peek().t in('::',): return False
            v=s.lookup(s.t.t)
            if isinstance(v,Cls) and s.peek().t=='(': return False
            return True
        return False
    def exprstmt(s):
        e=s.expr(); s.eat(';'); return s.full(e)
    def full(s,e):
        """ExprWithCleanups around temporaries with destructors"""
        def hasTemp(n):
            if n.shape=='OtherExpr' and n.ty is not None and getattr(n.ty.canon(),'cls',None) is not None and n.ty.canon().k=='record':
                return n.ty.canon().cls.dtor is not None or True
            return any(hasTemp(k) for k in n.kids())
        if s.cxx and e.shape=='CXXThrowExpr' and hasTemp(e): return e
        return e
    def stmt(s):
        t=s.t
        if t.t=='{': return s.compound()
        if t.t==';' : s.next(); return N('NullStmt',[],t,t)
        if t.k=='id':
            m=getattr(s,'st_'+t.t,None) if t.t in('if','while','do','for','switch','case','default','goto','break','continue','return','try') else None
            if m and not (t.t=='try' and not s.cxx): return m()
            if s.peek().t==':' and s.peek(2).t!=':' and not s.istype():
                s.next(); s.next(); sub=s.stmt(); return N('LabelStmt',[cstr(t.t),sub],t,sub.end)
        if t.t=='@' and s.peek().t in('try','throw','synchronized','autoreleasepool'):
            return getattr(s,'at_'+s.peek().t)()
        if s.isdecl():
            ds=s.declaration(local=True); end=s.prev()
            return N('DeclStmt',[ds],t,end)
        return s.exprstmt()
    def paren(s):
        s.eat('('); pre=[]
        if s.isdecl():
            b=s.t; ds=s.declaration(local=True,nosemi=True)
            v=ds[0].args[0][1]
            n=N('DeclRefExpr',[str(v.id),cstr(v.name),'false'],ds[0].end,ds[0].end,v.ty,True); s.use(v)
            dst=N('DeclStmt',[ds],b,s.prev()); s.eat(')'); return [dst],n
        e=s.expr(); s.eat(')'); return [],e
    def st_if(s):
        t=s.next(); s.scopes.append({}); pre,c=s.paren(); c=s.cond(c); th=s.stmt(); el=None
        if s.opt('else'): el=s.stmt()
        s.scopes.pop()
        return N('IfStmt',[pre,c,th,el],t,(el or th).end)
    def st_while(s):
        t=s.next(); s.scopes.append({}); pre,c=s.paren(); c=s.cond(c); b=s.stmt(); s.scopes.pop(); return N('WhileStmt',[pre,c,b],t,b.end)
    def st_do(s):
        t=s.next(); b=s.stmt(); s.eat('while'); s.eat('('); c=s.cond(s.expr()); e=s.eat(')'); s.eat(';'); return N('DoStmt',[b,c],t,e)
    def st_for(s):
        t=s.next(); s.eat('('); s.scopes.append({}); init=None
        b=s.t
        if s.isdecl():
            # look for 'in' or ':' before ';'
            k=s.p;d=0;kind=None
            while True:
                x=s.toks[k]
                if x.t in '([' : d+=1
                if x.t in ')]':
                    if d==0: break
                    d-=1
                if d==0 and x.t==';': break
                if d==0 and x.t=='in' and s.objc: kind='in'; break
                if d==0 and x.t==':' and s.cxx: kind=':'; break
                k+=1
            if kind:
                ty,fl,an,un,_=s.specifiers(); ty=s.pointers(ty); nm=s.next()
                v=Var(nm.t,ty); v.id=s.fresh(); v.local=True; v.contexts=list(reversed(s.ctx)); v.inTemplate=s.intemplate
                s.eat(kind); r=s.expr(); s.eat(')'); s.declare(nm.t,v)
                if kind==':':
                    v.ty=ty if ty.k!='auto' else (r.ty.canon().sub or INT)
                    v.referenced=False
                vd=N('VarDecl',[('var',v),None if kind=='in' else N('OtherExpr',[[]],s.toks[k],s.toks[k],INT)],b,nm if kind=='in' else s.toks[k]); v.node=vd
                dst=N('DeclStmt',[[vd]],b,nm)
                body=s.stmt(); s.scopes.pop()
                if kind=='in': return N('ObjCForCollectionStmt',[dst,s.rval(r),body],t,body.end)
                return N('CXXForRangeStmt',[None,dst,r,body],t,body.end)
            ds=s.declaration(local=True); init=N('DeclStmt',[ds],b,s.prev())
        elif not s.at(';'):
            e=s.expr()
            if s.objc and s.at('in'):
                s.next(); r=s.expr(); s.eat(')'); body=s.stmt(); s.scopes.pop()
                return N('ObjCForCollectionStmt',[e,s.rval(r),body],t,body.end)
            init=e; s.eat(';')
        else: s.eat(';')
        c=None if s.at(';') else s.cond(s.expr()); s.eat(';')
        inc=None if s.at(')') else s.expr(); s.eat(')')
        body=s.stmt(); s.scopes.pop()
        return N('ForStmt',[init,[],c,inc,body],t,body.end)
    def st_switch(s):
        t=s.next(); s.scopes.append({}); pre,c=s.paren()
        ety=c.ty.canon(); c=s.promote(c)
        old=getattr(s,'cases',None); s.cases=[]; b=s.stmt(); cs=s.cases; s.cases=old; s.scopes.pop()
        covered=ety.k=='enum' and hasattr(ety,'values') and all(v in cs for v in ety.values)
        return N('SwitchStmt',[pre,c,b,cbool(covered)],t,b.end)
    def st_case(s):
        t=s.next(); v=s.conditional(); val=s.eval(v); s.eat(':')
        s.cases.append(val); ce=N('OtherExpr',[[s.rval(v)]],v.beg,v.end,v.ty)
        sub=s.stmt(); return N('CaseStmt',[ce,sub],t,sub.end)
    def st_default(s):
        t=s.next(); s.eat(':'); sub=s.stmt(); return N('DefaultStmt',[sub],t,sub.end)
    def st_goto(s):
        t=s.next()
        if s.at('*'): s.next(); e=s.rval(s.expr()); s.eat(';'); return N('IndirectGotoStmt',[e],t,e.end)
        l=s.next(); s.eat(';'); return N('GotoStmt',[cstr(l.t)],t,l)
    def st_break(s): t=s.next(); s.eat(';'); return N('BreakStmt',[],t,t)
    def st_continue(s): t=s.next(); s.eat(';'); return N('ContinueStmt',[],t,t)
    def st_return(s):
        t=s.next()
        if s.opt(';'): return N('ReturnStmt',[None],t,t)
        e=s.expr(); s.eat(';')
        rt=s.fun.ty.sub if s.fun else (s.meth.ret if s.meth else None)
        if rt is not None and rt.canon().name!='void': e=s.conv(e,rt)
        return N('ReturnStmt',[e],t,e.end)
    def st_try(s):
        t=s.next(); b=s.compound(); hs=[]
        while s.at('catch'): hs.append(s.catch())
        return N('CXXTryStmt',[b,hs],t,hs[-1].end if hs else b.end)
    def catch(s):
        c=s.next(); s.eat('('); d=None; s.scopes.append({})
        if s.opt('...'): pass
        else:
            b=s.t; ty,fl,an,un,_=s.specifiers(); ty=s.pointers(ty); nm=None
            if s.t.k=='id': nm=s.next()
            v=Var(nm.t if nm else '',ty); v.id=s.fresh(); v.local=True; v.contexts=list(reversed(s.ctx)); v.inTemplate=s.intemplate
            if nm: s.declare(nm.t,v)
            d=N('VarDecl',[('var',v),None],b,nm or s.prev()); v.node=d
        s.eat(')'); body=s.compound(); s.scopes.pop()
        return N('CXXCatchStmt',[d,body],c,body.end)
    def at_try(s):
        t=s.next(); s.next(); b=s.compound(); cs=[]; f=None; end=b.end
        while s.isat('catch'):
            a=s.next(); s.next(); s.eat('('); d=None; s.scopes.append({})
            if s.opt('...'): pass
            else:
                bb=s.t; ty,fl,an,un,_=s.specifiers(); ty=s.pointers(ty); nm=None
                if s.t.k=='id': nm=s.next()
                v=Var(nm.t if nm else '',ty); v.id=s.fresh(); v.local=True; v.contexts=list(reversed(s.ctx))
                if nm: s.declare(nm.t,v)
                d=N('VarDecl',[('var',v),None],bb,nm or s.prev()); v.node=d
            s.eat(')'); body=s.compound(); s.scopes.pop()
            # RecursiveASTVisitor does not visit the parameter of an @catch
            cs.append(N('ObjCAtCatchStmt',[None,body],a,body.end)); end=body.end
        if s.isat('finally'):
            a=s.next(); s.next(); body=s.compound(); f=N('ObjCAtFinallyStmt',[body],a,body.end); end=body.end
        return N('ObjCAtTryStmt',[b,cs,f],t,end)
    def at_throw(s):
        t=s.next(); k=s.next()
        if s.opt(';'): return N('ObjCAtThrowStmt',[None],t,t)
        e=s.rval(s.expr()); s.eat(';'); return N('ObjCAtThrowStmt',[e],t,e.end)
    def at_synchronized(s):
        t=s.next(); s.next(); s.eat('('); e=s.rval(s.expr()); s.eat(')'); b=s.compound(); return N('ObjCAtSynchronizedStmt',[e,b],t,b.end)
    def at_autoreleasepool(s):
        t=s.next(); s.next(); b=s.compound(); return N('ObjCAutoreleasePoolStmt',[b],t,b.end)
    # -- declarations
    def params(s):
        """( params ): nodes, types"""
        s.eat('('); nodes=[]; tys=[]
        if s.at('void') and s.peek().t==')': s.next()
        while not s.at(')'):
            if s.opt('...'): break
            b=s.t; ty,fl,an,un,_=s.specifiers()
            if ty is None: raise Unsupported('parameter '+repr(s.t))
            ty=s.pointers(ty)
            if s.at('('): raise Unsupported('function pointer parameter')
            a,u=s.attributes(); an+=a; un|=u
            nm=None
            if s.t.k=='id': nm=s.next()
            while s.at('['):
                s.next()
                if not s.at(']'): s.next()
                s.eat(']'); ty=T('ptr',None,ty)
            last=s.prev()
            a,u=s.attributes(); an+=a; un|=u
            v=Var(nm.t if nm else '',ty,True); v.id=s.fresh(); v.unused=un; v.inTemplate=s.intemplate
            if nm: s.declare(nm.t,v)
            init=None; end=nm or last
            if s.opt('='): init=s.conv(s.assign(),ty); v.defarg=True; end=init.end
            n=N('VarDecl',[('var',v),init],b,end); n.annots=an; v.node=n
            nodes.append(n); tys.append(ty)
            if not s.opt(','): break
        s.eat(')')
        return nodes,tys
    def function(s,beg,name,rty,fl,an,cls,acc,pending=None,qual=False):
        s.scopes.append({}); nodes,tys=s.params(); endp=s.prev()
        last=endp
        while s.at('const','override','noexcept'): last=s.next()
        a,_=s.attributes(); an=an+a
        f=None
        if cls is not None: f=cls.methods.get(name)
        else:
            f=s.lookup(name)
            if not isinstance(f,Fun): f=None
        fty=T('fun','',rty,extra=tys)
        if f is None or (cls is None and not qual and False):
            f=Fun(name,fty); f.id=s.fresh()
            if cls is not None:
                cls.methods[name]=f; cls.nmethods+=1; f.method=cls; f.private=acc=='private'
                if 'virtual' in fl: f.virtual=True
                elif s.overrides(cls,name): f.virtual=True
                if f.virtual: cls.virt=True
                f.static='static' in fl
                s.scopes[-2][name]=f
            else: s.scopes[0][name]=f
        f.ty=fty; f.template=s.intemplate
        decl=('fun',f,{'def':False,'inrec':cls is not None and not qual,'lines':0})
        n=N('FunctionDecl',[decl,nodes,None],beg,last if last is not endp else endp); n.annots=an; f.decls.append(n)
        n.kernel='__global__' in fl
        cx=('CxFunction',f,n)
        for p in nodes:
            p.args[0][1].contexts=[cx]+list(reversed(s.ctx))
        if s.at('{') or s.at('try'):
            scope=s.scopes.pop()
            start=s.p
            def body(self=s,scope=scope,n=n,f=f,cx=cx):
                s.scopes.append(scope); oldf=s.fun; s.fun=f; s.ctx.append(cx)
                oldcls=s.cls
                if cls is not None: s.cls=cls
                if s.at('try'): b=s.st_try()
                else: b=s.compound(newscope=False)
                s.scopes.pop(); s.fun=oldf; s.ctx.pop(); s.cls=oldcls
                n.args[2]=b; n.args[0][2]['def']=True; n.args[0][2]['lines']=b.rng[2]-b.rng[0]+1; n.end=b.end; f.body=b
            if pending is not None and cls is not None and not qual:
                # bodies of member functions are parsed at the end of the class
                d=0
                while True:
                    t=s.next()
                    if t.t=='{': d+=1
                    if t.t=='}':
                        d-=1
                        if d==0: break
                endpos=s.p
                def later():
                    keep=s.p; s.p=start; body(); s.p=keep
                pending.append(later)
            else: body()
        else:
            s.scopes.pop()
            if s.opt('='): z=s.next(); n.end=z
            s.eat(';')
        return [n]
    def overrides(s,cls,name):
        for _,b in cls.bases:
            if b and ((name in b.methods and b.methods[name].virtual) or s.overrides(b,name)): return True
        return False
    def declaration(s,local=False,nosemi=False):
        beg=s.t
        ty,fl,an,un,extra=s.specifiers(); res=[extra] if extra else []
        if ty is None:
            # out-of-class member definition of a constructor etc.
            if s.cxx and s.peek().t=='::':
                return s.qualified(beg,VOID,fl,an)
            raise Unsupported('declaration '+repr(s.t))
        if s.opt(';'): return res
        if 'typedef' in fl:
            ty=s.pointers(ty)
            if s.at('('): raise Unsupported('typedef of function')
            nm=s.next()
            if ty.k=='enum' and not ty.name: ty.name=nm.t; ty.extra=''
            if ty.k=='record' and ty.name=='(anonymous)': ty.name=nm.t; ty.extra=''
            if nm.t not in('BOOL',) or True: s.declare(nm.t,('typedef',T('typedef',nm.t,ty)))
            s.eat(';')
            return res+[N('OtherDecl',[[]],beg,nm)]
        while True:
            t2=s.pointers(ty)
            a,u=s.attributes(); an=an+a; un|=u
            if s.cxx and s.peek().t=='::' and isinstance(s.lookup(s.t.t),Cls):
                return res+s.qualified(beg,t2,fl,an)
            if s.at('(') and s.peek().t in('*','^'): raise Unsupported('function pointer')
            nm=s.next()
            if nm.k!='id': raise Unsupported('declarator '+repr(nm))
            if s.at('(') and not (local and s.cxx and not s.istype(1) and s.peek().t!=')'):
                return res+s.function(beg,nm.t,t2,fl,an,None,None)
            while s.at('['):
                s.next()
                sz='' if s.at(']') else str(s.eval(s.conditional()))
                s.eat(']'); t2=T('array',sz,t2)
            a,u=s.attributes(); an2=an+a
            v=Var(nm.t,t2); v.id=s.fresh(); v.local=local; v.inTemplate=s.intemplate; v.contexts=list(reversed(s.ctx)); v.unused=un or u
            end=s.prev() if s.prev().t==']' else nm
            n=N('VarDecl',[('var',v),None],beg,end); n.annots=an2; v.node=n
            s.declare(nm.t,v)
            if s.opt('='):
                if s.at('{'): raise Unsupported('initializer list')
                i=s.conv(s.assign(),t2)
                if t2.k=='auto': v.ty=i.ty
                n.args[1]=i; n.end=i.end
            elif s.at('(') :
                s.next(); kids=[]
                while not s.at(')'): kids.append(s.assign()); s.opt(',')
                e=s.eat(')'); n.end=e
                if len(kids)==1 and t2.canon().k!='record': n.args[1]=s.conv(kids[0],t2)
                else: n.args[1]=N('OtherExpr',[kids],nm,e,t2)
            elif s.cxx and t2.canon().k=='record':
                n.args[1]=N('OtherExpr',[[]],nm,nm,t2)
            res.append(n)
            if not s.opt(','): break
        if not nosemi: s.eat(';')
        return res
    def qualified(s,beg,ty,fl,an):
        c=s.lookup(s.next().t); s.eat('::')
        name=''
        if s.opt('~'): name='~'
        nm=s.next(); name+=nm.t
        if s.at('(') and name in c.methods:
            s.scopes.append({k:v for k,v in list(c.static.items())+[(k,('field',k,t,c)) for k,t in c.fields.items()]+list(c.methods.items())})
            r=s.function(beg,name,ty,fl,an,c,None,None,qual=True); s.scopes.pop(); return r
        if name in c.static:
            x=c.static[name]; v=Var(name,x.ty); v.id=x.id; v.staticMember=True; v.private=x.private; v.contexts=list(reversed(s.ctx))
            n=N('VarDecl',[('var',v),None],beg,nm); v.node=n
            if s.opt('='): i=s.conv(s.assign(),x.ty); n.args[1]=i; n.end=i.end
            elif s.opt('('): i=s.conv(s.assign(),x.ty); n.args[1]=i; n.end=s.eat(')')
            s.eat(';'); return [n]
        raise Unsupported('qualified '+name)
    # -- Objective-C declarations
    def objcmethod(s,owner,okind,impl=False):
        beg=s.next(); inst=beg.t=='-'; ret=ID
        ibaction=False
        if s.opt('('):
            if s.opt('IBAction'): ibaction=True; ret=VOID
            else: ret=s.typename()
            s.eat(')')
        s.scopes.append({}); sel='';nodes=[];tys=[]
        nm=s.next(); sel=nm.t
        if s.at(':'):
            sel=''
            word=nm.t
            while True:
                s.eat(':'); sel+=word+':'
                b=s.t; ty=ID
                if s.opt('('): b=s.t; ty=s.typename(); s.eat(')')
                an,un=s.attributes()
                pn=s.next(); v=Var(pn.t,ty,True); v.id=s.fresh(); v.unused=un; s.declare(pn.t,v)
                n=N('VarDecl',[('var',v),None],b,pn); n.annots=an; v.node=n
                nodes.append(n); tys.append(ty)
                if s.at(','):
                    s.next(); s.eat('...'); break
                if s.t.k=='id' and s.peek().t==':': word=s.next().t
                elif s.at(':'): word=''
                else: break
        last=s.prev()
        an,_=s.attributes()
        m=Meth(sel,inst,ret,tys,an,owner,okind)
        m.ibaction=ibaction or bool(impl and getattr(s.findmeth(owner,sel,inst),'ibaction',False))
        n=N('ObjCMethodDecl',[('meth',m,{'lines':0}),nodes,None],beg,last); n.annots=an; m.node=n
        cx=('CxObjCMethod',m)
        for p in nodes: p.args[0][1].contexts=[cx]+list(reversed(s.ctx))
        if impl:
            s.opt(';')
            oldm,oldf=s.meth,s.fun; s.meth=m; s.fun=None; s.ctx.append(cx)
            b=s.compound(newscope=False); s.meth,s.fun=oldm,oldf; s.ctx.pop()
            n.args[2]=b; n.args[0][2]['lines']=b.rng[2]-b.rng[0]+1; n.end=b.end
        else:
            e=s.eat(';'); n.end=e
        s.scopes.pop()
        return m,n
    def property(s,owner,okind):
        beg=s.next(); s.next(); getter=setter=None; ro=False
        if s.opt('('):
            while not s.at(')'):
                w=s.next().t
                if w=='readonly': ro=True
                if w=='getter': s.eat('='); getter=s.next().t
                if w=='setter': s.eat('='); setter=s.next().t; s.eat(':'); setter+=':'
                s.opt(',')
            s.eat(')')
        ty,fl,an,un,_=s.specifiers(); ty=s.pointers(ty); nm=s.next()
        a,_=s.attributes(); an+=a
        s.eat(';')
        p={'name':nm.t,'ty':ty,'getter':getter or nm.t,'setter':None if ro else setter or 'set'+nm.t[0].upper()+nm.t[1:]+':','annots':an}
        ms=[]
        g=Meth(p['getter'],True,ty,[],[],owner,okind); g.accessor=an; ms.append(g)
        if p['setter']: g=Meth(p['setter'],True,VOID,[ty],[],owner,okind); g.accessor=an; ms.append(g)
        n=N('OtherDecl',[[]],beg,nm); n.annots=an
        return p,ms,n
    def protocols(s):
        r=[]
        if s.opt('<'):
            while not s.at('>'):
                r.append(s.next().t); s.opt(',')
            s.eat('>')
        return r
    def ivars(s,iface):
        k=0;nodes=[]
        if s.opt('{'):
            while not s.at('}'):
                if s.isat('private') or s.isat('public') or s.isat('protected'): s.next(); s.next(); continue
                beg=s.t; ty,fl,an,un,_=s.specifiers()
                while True:
                    t2=s.pointers(ty); nm=s.next(); iface.ivars[nm.t]=t2; k+=1; nodes.append(N('OtherDecl',[[]],beg,nm))
                    if not s.opt(','): break
                s.eat(';')
            s.eat('}'); s.opt(';')
        return k,nodes
    def objctop(s):
        kw=s.peek().t; beg=s.t
        if kw=='class':
            s.next(); s.next(); res=[]
            while True:
                nm=s.next(); s.ifaces.setdefault(nm.t,Iface(nm.t)); res.append(N('OtherDecl',[[]],beg,nm))
                if not s.opt(','): break
            s.eat(';'); return res
        if kw=='protocol':
            s.next(); s.next(); nm=s.next()
            p=s.protos.setdefault(nm.t,{'methods':[],'props':{}})
            if s.at(';',','):
                while s.opt(','): s.protos.setdefault(s.next().t,{'methods':[],'props':{}})
                s.eat(';'); return [N('OtherDecl',[[]],beg,s.prev())]
            p['protocols']=s.protocols(); members=[]
            while not s.isat('end'):
                if s.isat('optional') or s.isat('required'): s.next(); s.next(); continue
                if s.isat('property'):
                    q,ms,n=s.property(nm.t,'protocol'); p['props'][q['name']]=q; p['methods']+=ms; members.append(n); continue
                m,n=s.objcmethod(nm.t,'protocol'); p['methods'].append(m); members.append(n)
            s.next(); end=s.next()
            return [N('ObjCContainerDecl',[('cont','OKProtocol',nm.t,0,[(m.sel,m.inst) for m in p['methods']],None),members],beg,end)]
        if kw=='interface':
            s.next(); s.next(); nm=s.next(); i=s.ifaces.setdefault(nm.t,Iface(nm.t))
            if s.at('('):
                s.next(); 
                cname='' if s.at(')') else s.next().t
                s.eat(')'); c={'name':cname,'methods':[],'props':{},'protocols':s.protocols()}; i.cats.append(c); members=[]
                nv,nodes=s.ivars(i); members+=nodes
                while not s.isat('end'):
                    if s.isat('property'):
                        q,ms,n=s.property(nm.t,'category'); c['props'][q['name']]=q; c['methods']+=ms; members.append(n); continue
                    m,n=s.objcmethod(nm.t,'category'); c['methods'].append(m); members.append(n)
                s.next(); end=s.next()
                return [N('ObjCContainerDecl',[('cont','OKCategory',cname,nv,[(m.sel,m.inst) for m in c['methods']],None),members],beg,end)]
            i.defined=True
            if s.opt(':'): i.sup=s.next().t
            i.protocols=s.protocols()
            nv,members=s.ivars(i)
            s.ctx.append(('CxOther',))
            while not s.isat('end'):
                if s.isat('property'):
                    q,ms,n=s.property(nm.t,'interface'); i.props[q['name']]=q; i.methods+=ms; members.append(n); continue
                m,n=s.objcmethod(nm.t,'interface'); i.methods.append(m); members.append(n)
            s.ctx.pop()
            s.next(); end=s.next()
            return [N('ObjCContainerDecl',[('cont','OKInterface',nm.t,nv,[(m.sel,m.inst) for m in i.methods],i),members],beg,end)]
        if kw=='implementation':
            s.next(); s.next(); nm=s.next(); i=s.ifaces.setdefault(nm.t,Iface(nm.t)); cat=None
            if s.opt('('): cat=s.next().t; s.eat(')')
            if s.opt(':'): s.next()
            nv,members=s.ivars(i); own=[]
            while not s.isat('end'):
                if s.isat('synthesize') or s.isat('dynamic'):
                    b=s.next(); kk=s.next().t
                    while True:
                        pn=s.next().t; iv=pn
                        if s.opt('='): iv=s.next().t
                        p=s.findprop(nm.t,pn)
                        if kk=='synthesize':
                            i.ivars[iv]=p['ty'] if p else ID
                            # Clang adds the accessors to the implementation
                            if p: own+=[Meth(x,True,ID,[],[],nm.t,'impl') for x in (p['getter'],p['setter']) if x]
                        if not s.opt(','): break
                    e=s.prev(); s.eat(';'); members.append(N('OtherDecl',[[]],b,e)); continue
                if s.at('-','+'):
                    # properties without @synthesize have the instance variable _name
                    for pn,p in i.props.items(): i.ivars.setdefault('_'+pn,p['ty'])
                    m,n=s.objcmethod(nm.t,'impl',True); own.append(m); members.append(n)
                else: members+=s.declaration()
            end=s.next(); s.next()
            return [N('ObjCContainerDecl',[('cont','OKCategoryImpl' if cat else 'OKImplementation',cat or nm.t,nv,[(m.sel,m.inst) for m in own],i),members],beg,end)]
        raise Unsupported('@'+kw)
    def unit(s):
        while s.t.k!='eof':
            if s.opt(';'): continue
            if s.t.t=='@': s.tops+=s.objctop(); continue
            if s.objc and s.at('__attribute__'):
                keep=s.p; an,_=s.attributes()
                if s.t.t=='@': ds=s.objctop(); ds[0].annots=an; s.tops+=ds; continue
                s.p=keep
            if s.cxx and s.at('namespace'):
                b=s.next(); s.next(); s.eat('{'); kids=[]
                while not s.at('}'): kids+=s.declaration()
                e=s.eat('}'); s.tops.append(N('OtherDecl',[kids],b,e)); continue
            if s.cxx and s.at('template'):
                b=s.next(); s.eat('<'); s.scopes.append({})
                while not s.at('>'):
                    s.next(); nm=s.next(); s.declare(nm.t,('tparam',)); s.opt(',')
                s.eat('>'); s.intemplate=True; ds=s.declaration(); s.intemplate=False; s.scopes.pop()
                s.tops.append(N('OtherDecl',[ds],b,ds[-1].end)); continue
            s.tops+=s.declaration()
        return s.tops
