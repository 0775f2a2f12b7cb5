#!/usr/bin/env python3
"""Writes OCLint's own unit tests of the shipped rules as Examples about the model:
   emit.py OUTPUT_PREFIX  (ConformanceRules -> ConformanceRules1.v ...)"""
import sys,os,re,collections
sys.path.insert(0,os.path.dirname(os.path.abspath(__file__)))
from extract import tests,metrics
from front import Parser,N,SPEC,Unsupported,cstr,cbool,Var,Meth,Fun
ROOT=os.path.dirname(os.path.dirname(os.path.dirname(os.path.abspath(__file__))))
table=open(ROOT+'/rocq/theories/ModelRuleTable.v').read()
SHIPPED=set(re.findall(r'Definition sh_(\w+) : shipped',table))
START='/*VIOLATION_START*/'; END='/*VIOLATION_END*/'
def pos(code,off):
    pre=code[:off]; return pre.count('\n')+1, off-(pre.rfind('\n')+1)+1
def markers(code):
    starts=[];ranges=[];f=0
    while True:
        a=code.find(START,f); b=code.find(END,f)
        if a<0 and b<0: return code,[pos(code,x)+pos(code,y) for x,y in sorted(ranges)]
        if a>=0 and (b<0 or a<b): code=code[:a]+code[a+len(START):]; starts.append(a); f=a
        else: code=code[:b]+code[b+len(END):]; ranges.append((starts.pop(),b)); f=b
def cstrs(code): return lst([cstr(l) for l in code.split('\n')])
def lst(l): return '['+'; '.join(l)+']'
def opt(x): return 'None' if x is None else f'(Some {x})'
def z(n): return f'({n})%Z'
class Emit:
    def __init__(s,parser):
        s.p=parser; s.ids={}; s.nodes=[]; s.parent=[]; s.vars={}
        for t in parser.tops: s.number(t,None)
        for n in s.nodes:
            a=n.args[0] if n.args else None
            if isinstance(a,tuple) and a[0]=='var' and a[1].id not in s.vars: s.vars[a[1].id]=s.ids[id(n)]
            if isinstance(a,tuple) and a[0]=='fun' and a[1].id not in s.vars: s.vars[a[1].id]=s.ids[id(n)]
        s.extra=0
    def number(s,n,par):
        if id(n) in s.ids: raise Unsupported('shared node '+n.shape)
        i=len(s.nodes); s.ids[id(n)]=i; s.nodes.append(n); s.parent.append(par)
        for k in n.kids(): s.number(k,i)
    def nid(s,n): return s.ids[id(n)]
    def lines(s,n): return n.rng[2]-n.rng[0]+1
    def annots(s,l): return lst([cstr(a) for a in l])
    def fundecl(s,f):
        an=[]
        for d in f.decls:
            for a in d.annots:
                if a not in an: an.append(a)
        return f'(Decl {s.annots(an)} None)'
    def methdecl(s,m):
        acc=m.accessor is not None
        if m.okind=='category': ctx='InCategory'
        elif m.okind=='protocol':
            x=s.p.findproto(m.owner,m.sel,m.inst); ctx=f'(InProtocol {opt(s.annots(x.annots)) if x else "None"})'
        else:
            i=s.p.ifaces.get(m.owner); cats='NoCategory'
            for c in reversed(i.cats if i else []):
                x=[y for y in c['methods'] if y.sel==m.sel and y.inst==m.inst]
                cats=f'(Category {opt(s.methdecl(x[0])) if x else "None"} {cats})'
            ctx=f'(InOther (Some {cats}))'
        an=list(m.annots)
        if m.okind=='impl':
            # mergeInterfaceMethodToImpl, and attributes inherited from the declaration
            d=s.p.findmeth(m.owner,m.sel,m.inst)
            if d and d.owner==m.owner:
                for a in d.annots:
                    if a not in an: an.append(a)
        return f'(Decl {s.annots(an)} (Some (Method {cbool(acc)} {opt(s.annots(m.accessor)) if acc else "None"} {ctx})))'
    def decl(s,n):
        a=n.args[0] if n.args else None
        if isinstance(a,tuple) and a[0]=='meth': return s.methdecl(a[1])
        if isinstance(a,tuple) and a[0]=='fun':
            # attributes are inherited by later declarations
            an=[]
            for d in a[1].decls:
                for x in d.annots:
                    if x not in an: an.append(x)
                if d is n: break
            return f'(Decl {s.annots(an)} None)'
        return f'(Decl {s.annots(n.annots)} None)'
    def overridden(s,m):
        if m.okind=='protocol': return []
        i=s.p.ifaces.get(m.owner); out=[]
        if not i: return []
        def inclass(c):
            while c in s.p.ifaces:
                j=s.p.ifaces[c]
                for x in j.methods:
                    if x.sel==m.sel and x.inst==m.inst: out.append(x); return
                for ct in j.cats:
                    for x in ct['methods']:
                        if x.sel==m.sel and x.inst==m.inst: out.append(x); return
                for p in j.protocols: inproto(p)
                c=j.sup
        def inproto(p):
            q=s.p.protos.get(p)
            if not q: return
            for x in q['methods']:
                if x.sel==m.sel and x.inst==m.inst: out.append(x); return
            for r in q.get('protocols',[]): inproto(r)
        for p in i.protocols: inproto(p)
        for ct in i.cats:
            for p in ct['protocols']: inproto(p)
        inclass(i.sup)
        return [x for x in out if x is not m]
    def context(s,c):
        if c[0]=='CxFunction':
            f,n=c[1],c[2]; return f'CxFunction {cbool(n.args[2] is not None)} {cbool(f.body is not None)} {cbool(f.virtual)}'
        if c[0]=='CxObjCMethod':
            m=c[1]; i=s.p.ifaces.get(m.owner)
            sup=bool(i and i.sup and s.p.findmeth(i.sup,m.sel,m.inst))
            prot=bool(i and any(s.p.findproto(q,m.sel,m.inst) for q in i.protocols+[r for ct in i.cats for r in ct['protocols']]))
            return f'CxObjCMethod {cbool(m.okind!="impl")} {cbool(sup)} {cbool(prot)} {cbool(getattr(m,"ibaction",False))}'
        return c[0]
    def var(s,v):
        can=str(v.ty.canon())
        return (f'{{| v_isParm := {cbool(v.isParm)}; v_name := {cstr(v.name)}; v_used := {cbool(v.used)}; v_referenced := {cbool(v.referenced)}; '
          f'v_local := {cbool(v.local)}; v_staticMember := {cbool(v.staticMember)}; v_private := {cbool(v.private)}; v_unusedAttr := {cbool(v.unused)}; '
          f'v_defaultArg := {cbool(v.defarg)}; v_canonicalType := {cstr(can)}; v_inTemplate := {cbool(v.inTemplate)}; v_contexts := {lst([s.context(c) for c in v.contexts])} |}}')
    def rec(s,c):
        i=s.nid(c.node) if c.node is not None else len(s.nodes)+1000
        poly=c.virt or any(b and b.virt for _,b in c.bases)
        d='None' if c.dtor is None else f'(Some ({cbool(c.dtor[0])}, {cbool(c.dtor[1])}))'
        bs=lst([f'({cbool(a=="public")}, {opt(s.rec(b)) if b else "None"})' for a,b in c.bases])
        return f'(CxxRecord {i} {cstr(c.name)} {cbool(c.defined)} {cbool(poly)} {d} {bs})'
    def raw(s,n,a):
        if isinstance(a,str): return a
        if isinstance(a,int): return z(a)
        k=a[0]
        if k=='var': return s.var(a[1])
        if k=='fun':
            f,o=a[1],a[2]
            m='None' if f.method is None else f'(Some {{| cm_virtual := {cbool(f.virtual)}; cm_static := {cbool(f.static)}; cm_private := {cbool(f.private)}; cm_inRecord := {cbool(o["inrec"])} |}})'
            ln=s.lines(f.body) if f.body is not None else 0
            return f'{{| f_name := {cstr(f.name)}; f_method := {m}; f_isDefinition := {cbool(o["def"])}; f_bodyLines := {z(ln)} |}}'
        if k=='meth':
            m=a[1]; ov=s.overridden(m); cl='None' if m.okind=='protocol' else opt(cstr(m.owner))
            return f'{{| om_selector := {cstr(m.sel)}; om_class := {cl}; om_overriding := {cbool(bool(ov))}; om_overridden := {lst([s.methdecl(x) for x in ov])}; om_bodyLines := {z(a[2]["lines"])} |}}'
        if k=='rec':
            c=a[1]
            nm=len([1 for d in n.args[1] if d.shape=='FunctionDecl'])
            nf=c.nfields if a[2] else 0
            return f'{{| r_class := {s.rec(c)}; r_fields := {nf}; r_methods := {nm}; r_lines := {z(s.lines(n))} |}}'
        if k=='cont':
            _,kind,name,nv,ms,i=a; chain=[]
            c=i.name if i else None
            while c: chain.append(c); c=s.p.ifaces[c].sup if c in s.p.ifaces else None
            sup='None'
            if i and i.sup in s.p.ifaces:
                j=s.p.ifaces[i.sup]
                sup=f'(Some ({cstr(i.sup)}, {lst([f"({cstr(x.sel)}, {cbool(x.inst)}, {s.methdecl(x)})" for x in j.methods])}))'
            return (f'{{| oc_kind := {kind}; oc_name := {cstr(name)}; oc_lines := {z(s.lines(n))}; oc_ivars := {nv}; oc_methods := {lst([f"({cstr(x)}, {cbool(y)})" for x,y in ms])}; '
                    f'oc_classes := {lst([cstr(x) for x in chain])}; oc_superMethods := {sup} |}}')
        if k=='msg':
            _,sel,kind,imp,iface,m=a
            mc='None' if m is None or m.okind=='protocol' else opt(cstr(m.owner))
            return (f'{{| ms_selector := {cstr(sel)}; ms_receiver := {kind}; ms_implicit := {cbool(imp)}; ms_interface := {opt(cstr(iface)) if iface else "None"}; '
                    f'ms_method := {opt(s.methdecl(m)) if m else "None"}; ms_methodClass := {mc} |}}')
        if k=='callee': return f'(Some ({cstr(a[1].name)}, {s.fundecl(a[1])}))'
        raise Unsupported('raw '+k)
    def node(s,n):
        parts=[]
        for j,(sp,a) in enumerate(zip(SPEC[n.shape],n.args)):
            if sp=='n': parts.append(s.node(a))
            elif sp=='o': parts.append('None' if a is None else f'(Some {s.node(a)})')
            elif sp=='l': parts.append(lst([s.node(k) for k in a]))
            elif n.shape=='DeclRefExpr' and j==0:
                v=int(a); parts.append(str(s.vars.get(v,len(s.nodes)+v)))
            else: parts.append(s.raw(n,a))
        ty='[]'
        if s.p.objc and n.ty is not None: ty=cstr(str(n.ty))
        return f'(Node {s.nid(n)} {ty} ({" ".join([n.shape]+parts)}))' if parts else f'(Node {s.nid(n)} {ty} {n.shape})'
    def key(s,n):
        def k(a):
            if a is None: return ''
            if isinstance(a,N): return s.key(a)
            if isinstance(a,list): return ','.join(map(k,a))
            return str(a)
        return n.shape+'('+';'.join(k(a) for a in n.args)+')'+(getattr(n,'op','') or '')+(n.text or '')
ISDECL={'VarDecl','FunctionDecl','ObjCMethodDecl','CXXRecordDecl','ObjCContainerDecl','OtherDecl'}
LANG={'':'LC','CXX':'LCXX','CXX11':'LCXX','ObjC':'LObjC','CUDA':'LCUDA'}
FILE={'':'input.c','CXX':'input.cpp','CXX11':'input.cpp','ObjC':'input.m','CUDA':'input.cu'}
def example(t,name):
    m=re.match(r'new (\w+?)Rule(?:\(\))?$',t['rule'])
    if m and m.group(1) in SHIPPED and m.group(1)!='FeatureEnvy': rule='(shippedRule sh_%s)'%m.group(1)
    else:
        m=re.match(r'new (\w+?)(?:\((.*)\))?$',t['rule'],re.S); k=m.group(1)
        fl=re.sub(r'\s*\|\s*',' + ',m.group(2) or '')
        rule={'SuppressHelperTestASTRule':'suppressHelperTestASTRule','SuppressHelperTestSourceCodeReaderRule':'suppressHelperTestSourceCodeReaderRule',
              'ImplicitNoCUDARule':'implicitNoCUDARule','ExplicitCUDARule':f'(explicitCUDARule ({fl})%N)','DefaultASTRule':'defaultASTRule',
              'LanguageSelectionASTRule':f'(languageSelectionASTRule ({fl})%N)','DefaultASTRule2':'defaultASTRule2',
              'FindAllCompoundStmtRule':'findAllCompoundStmtRule','AttributeHelperTestCallRule':'attributeHelperTestCallRule',
              'AttributeHelperTestCallCommentRule':'attributeHelperTestCallCommentRule','FeatureEnvyRule':'featureEnvyRule'}.get(k)
        if not rule: raise Unsupported('no model of rule: '+t['rule'])
    code=t['code']; exp=None
    if 'index' in t:
        i,a,b,c,d=t['index']
        if i<0: goal='all_none'; 
        goal='= Some []' if i<0 else None
        exp=(i,(a,b,c,d),t['msg'])
    else:
        code,rs=markers(code); ms=t['msgs']
        exp=[(r,ms[k] if k<len(ms) else '') for k,r in enumerate(rs)]
    p=Parser(code,t['lang']); p.unit(); e=Emit(p)
    tops=[]
    for k,n in enumerate(p.tops):
        kind=f'TFunction {cbool(getattr(n,"kernel",False))}' if n.shape=='FunctionDecl' else 'TOther'
        tops.append(f'(toplevel {e.nid(n)} ({kind}), {e.node(n)})')
    locs=lst([f'({a},{b},{c},{d})' for a,b,c,d in (n.rng for n in e.nodes)])
    evals=[]
    for n in e.nodes:
        c=n.args[1] if n.shape=='IfStmt' else n.args[0] if n.shape=='ConditionalOperator' else None
        if c is not None:
            v=p.eval(c)
            if v is not None: evals.append(f'({e.nid(c)}, {cbool(bool(v))})')
    keys={}; same=[]
    if m.group(1)=='UnnecessaryNullCheckForCXXDealloc':
        for n in e.nodes:
            if n.ty is not None: same.append(f'({e.nid(n)}, {keys.setdefault(e.key(n),len(keys))})')
    decls=[];par='[]'
    if any(n.annots for n in e.nodes):
        for n in e.nodes:
            if n.shape in ISDECL and e.decl(n)!='(Decl [] None)': decls.append(f'({e.nid(n)}, {e.decl(n)})')
        par=lst([f'({opt(q)}, {cbool(n.shape in ISDECL)})' for n,q in zip(e.nodes,e.parent)])
    comments=lst([f'({cstr(x)}, {l}%Z)' for x,l in p.comments if 'OCLINT' in x])
    conf=lst([f'({cstr(a)}, {cstr(b)})' for a,b in t['conf']])
    src=f'(source {cstrs(code)})' if m.group(1) in('LongLine','SuppressHelperTestSourceCodeReaderRule') else '[]'
    x=f'''  {{| ts_lang := {LANG[t['lang']]}; ts_path := {cstr(FILE[t['lang']])}; ts_code := {src};
     ts_comments := {comments}; ts_conf := {conf};
     ts_tops := {lst(tops)};
     ts_locs := {locs}%Z;
     ts_evals := {lst(evals)}; ts_same := {lst(same)}; ts_decls := {lst(decls)}; ts_parents := {par} |}}'''
    def tup(r,msg): return f'({r[0]}, {r[1]}, {r[2]}, {r[3]}, {cstr(msg)})%Z'
    if isinstance(exp,tuple):
        i,r,msg=exp
        if i<0: g=f'violations_of {rule} {name} = Some []'
        else: g=f'nth_violation {rule} {name} {i} = Some {tup(r,msg)}'
    else:
        g=f'sorted_violations_of {rule} {name} = Some {lst([tup(r,msg) for r,msg in exp])}'
    return f'Definition {name} : testcase :=\n{x}.\n', f'Example {name}_holds : {g}.\nProof. vm_compute. reflexivity. Qed.\n'
def main():
    out=collections.OrderedDict(); skipped=collections.Counter(); seen=collections.Counter(); why=[]
    for t in tests():
        f=os.path.basename(os.path.dirname(t['file']))
        if 'error' in t: skipped['not extracted']+=1; why.append((t['suite'],t['name'],t['error'])); continue
        base=re.sub(r'(Rule)?Test$','',t['suite'])+'_'+t['name']; seen[base]+=1
        name=base+(f'_{seen[base]}' if seen[base]>1 else '')
        try: d,x=example(t,name)
        except Unsupported as ex: skipped[str(ex)[:40]]+=1; why.append((t['suite'],t['name'],str(ex))); continue
        out.setdefault(f,[]).append((t,d,x))
    return out,skipped,why
HEAD='(** * OCLint\'s own unit tests %s, as examples about the model\n\n    Written by tools/conformance/emit.py; do not edit. *)\nFrom Verif Require Import Base ModelConfig ModelSource ModelAST ModelRuleTable ConformanceBase.\n\n'
def metric_examples():
    ex=[];seen=collections.Counter()
    for t in metrics():
        p=Parser(t['code'],t['lang']); p.unit(); e=Emit(p)
        fs=[n for n in p.tops if n.shape=='FunctionDecl' and (t['suite'][:4] not in('Ncss','Stmt') or n.args[0][1].name=='m')]
        if len(fs)!=1: raise Unsupported('several functions')
        base=t['suite'][:-4]+'_'+t['name']; seen[base]+=1; name=base+(f'_{seen[base]}' if seen[base]>1 else '')
        k,v=t['suite'],t['value']
        if k.startswith('Cyclo'): g=f'getCyclomaticComplexity {e.node(fs[0])} = {v}%Z'
        else:
            b=e.node(fs[0].args[2])
            g=f'nPath {b} = Val {v}%Z' if k.startswith('NPath') else f'ncss {b} = {v}%Z' if k.startswith('Ncss') else f'depth {b} = {v}'
        ex.append((t,f'Example {name} : {g}.\nProof. vm_compute. reflexivity. Qed.\n'))
    return ex
def where(t): return t['file'].replace('/repo/','')
if __name__=='__main__':
    out,skipped,why=main(); d=ROOT+'/rocq/theories/'; total=0
    for f,l in out.items():
        src=HEAD%f'of oclint-rules/test/{f}'
        last=None
        for t,x,y in l:
            if where(t)!=last: last=where(t); src+=f'(** ** {last} *)\n\n'
            src+=x+y+'\n'
        open(d+f'ConformanceRules{f.capitalize()}.v','w').write(src); total+=len(l)
    ms=metric_examples(); src=HEAD%'of oclint-metrics/test'; last=None
    for t,x in ms:
        if where(t)!=last: last=where(t); src+=f'(** ** {last} *)\n\n'
        src+=x+'\n'
    open(d+'ConformanceMetrics.v','w').write(src)
    print(total,'rule tests,',len(ms),'metric tests; left out:')
    for w in why: print('  ',*w)
