"""Reads the calls of testRuleOn*Code out of OCLint's own unit tests."""
import re,glob
# extract (file, test name, function, rule expr, code, expectations)
def strip_comments(s):
    out=[];i=0
    while i<len(s):
        if s[i]=='"':
            j=i+1
            while s[j]!='"':
                j+= 2 if s[j]=='\\' else 1
            out.append(s[i:j+1]); i=j+1
        elif s.startswith('//',i):
            while i<len(s) and s[i]!='\n': i+=1
        elif s.startswith('/*',i):
            i=s.index('*/',i)+2
        elif s[i]=="'" :
            j=i+1
            while s[j]!="'": j+=2 if s[j]=='\\' else 1
            out.append(s[i:j+1]); i=j+1
        else: out.append(s[i]); i+=1
    return ''.join(out)
def args(s,i):
    # s[i]=='(' ; return list of arg texts, end
    d=0;cur='';res=[];j=i
    while True:
        c=s[j]
        if c=='"':
            k=j+1
            while s[k]!='"': k+=2 if s[k]=='\\' else 1
            cur+=s[j:k+1]; j=k+1; continue
        if c in '([{':
            d+=1
            if d>1: cur+=c
        elif c in ')]}':
            d-=1
            if d==0:
                res.append(cur.strip()); return res,j
            cur+=c
        elif c==',' and d==1:
            res.append(cur.strip()); cur=''
        else: cur+=c
        j+=1
MAC={k:'/*VIOLATION_START*/' for k in ('VIOLATION_START','TAG_START','LOC_START','V_START')}
MAC.update({k:'/*VIOLATION_END*/' for k in ('VIOLATION_END','TAG_END','LOC_END','V_END')})
def unesc(t):
    t=t.replace('\\\n','')
    return re.sub(r'\\(.)',lambda m:{'n':'\n','t':'\t','0':'\0'}.get(m.group(1),m.group(1)),t)
def evals(e,env):
    """evaluate a C++ string expression"""
    out='';i=0
    while i<len(e):
        c=e[i]
        if c.isspace() or c in '+': i+=1; continue
        if c=='"':
            j=i+1
            while e[j]!='"': j+=2 if e[j]=='\\' else 1
            out+=unesc(e[i+1:j]); i=j+1; continue
        m=re.match(r'(std::)?string\s*\(',e[i:])
        if m:
            a,j=args(e,i+m.end()-1); out+=evals(a[0],env); i=j+1; continue
        m=re.match(r'PreferEarlyExitRule::getMessage\(\)',e[i:])
        if m: out+='Use early exit/continue to simplify code and reduce indentation'; i+=m.end(); continue
        m=re.match(r'[A-Za-z_]\w*',e[i:])
        if m:
            n=m.group(0); i+=m.end()
            if n in MAC: out+=MAC[n]
            elif n in env: out+=env[n]
            else: raise KeyError(n)
            continue
        raise ValueError(e[i:i+30])
    return out
def tests():
    for t in plain_tests():
        if t['suite']!='PreferEarlyExitRuleTest' and (t['suite'],t['name'])!=('DeadCodeRuleTest','NotSupported') or 'error' not in t and t['lang']=='CXX': yield t
    yield from parameterised()
def parameterised():
    """The tests whose inputs are put together by loops, written out."""
    f='/repo/oclint-rules/test/convention/PreferEarlyExitRuleTest.cpp'; message='Use early exit/continue to simplify code and reduce indentation'
    def t(suite,name,code,index=None):
        d=dict(file=f,suite=suite,name=name,lang='',rule='new PreferEarlyExitRule()',conf=[('MAXIMUM_IF_LENGTH','3')],code=code)
        if index: d['index']=index; d['msg']=message
        else: d['msgs']=[]
        return d
    for start,end in (("\nfor (int i = 0; i != 5; ++i) {\n","}\n"),("int i = 0;\ndo {\n","} while (++i != 5);\n"),("int i = 0;\nwhile (i++ != 5) {\n","}\n")):
        def code(n): return "int test(int a) {\n"+start+"if (a) {\n"+"a *= 2;\n"*n+"}\n"+end+"return a;\n}\n"
        yield t('LoopsTest','LoopWithShortIf',code(1)); yield t('LoopsTest','LoopWithLongIf',code(2),[0,4,1,7,1])
    for flow in ("break;","continue;","goto LABEL;","goto *label_ptr;"):
        def code(n): return "int test(int a) {\nvoid const* label_ptr = &&LABEL;\nLABEL:\nfor (;;) {\n  int i = 2;\n  if (a) {\n"+"i *= 2;\n"*n+"  }\n"+flow+"\n}\n}\n"
        yield t('FlowControlStatementsTest','FunctionWithShortIf',code(1)); yield t('FlowControlStatementsTest','FunctionWithLongIf',code(2),[0,6,3,9,3])
    yield t('PreferEarlyExitRuleTest','LongIfAndReturnInsideBlock',"int test(int a) {\n  int i = 2;\n  if (a) {\n"+"i *= 2;\n"*2+"  }\n  return i;\n}\n",[0,3,3,6,3])
    for c in ("void f() { for( ; ; ) {} int b; }","void f(int i) { while (i) { return; } int b; }","void f(int i) { do { return; } while (i); int b; }",
              "void f(int i) { switch (i) {case 0: return; default: return;} int b; }","void abort() /* with attribute 'noReturn' */; void f() { abort(); int b; }"):
        d=t('DeadCodeRuleTest','NotSupported',c); d.update(file='/repo/oclint-rules/test/basic/DeadCodeRuleTest.cpp',rule='new DeadCodeRule()',conf=[]); yield d
def metrics():
    """The calls of testMatcherOn*Code in oclint-metrics/test."""
    for f in sorted(glob.glob('/repo/oclint-metrics/test/*MetricTest.cpp')):
        s=strip_comments(open(f).read())
        for m in re.finditer(r'TEST\(\s*(\w+)\s*,\s*(\w+)\s*\)\s*\{\s*\w+Callback \w+\((\d+)\);.*?testMatcherOn(\w*)Code\s*\(',s,re.S):
            a,_=args(s,m.end()-1)
            yield dict(file=f,suite=m.group(1),name=m.group(2),value=int(m.group(3)),lang=m.group(4),code=evals(a[1],{}))
def plain_tests():
    for f in sorted(glob.glob('/repo/oclint-rules/test/*/*Test.cpp')):
        s=open(f).read()
        s=re.sub(r'R"END\((.*?)\)END"',lambda m:'"'+m.group(1).replace('\\','\\\\').replace('"','\\"').replace('\n','\\n')+'"',s,flags=re.S)
        s=strip_comments(s)
        # the model is of the build for other systems
        s=re.sub(r'#if defined\(__APPLE__\)(.*?)#endif',lambda m:m.group(1).split('#else')[1] if '#else' in m.group(1) else '',s,flags=re.S)
        genv={}
        # split into TEST bodies
        pos=[(m.start(),m.group(1),m.group(2)) for m in re.finditer(r'\bTEST(?:_F)?\s*\(\s*(\w+)\s*,\s*(\w+)\s*\)',s)]
        head=s[:pos[0][0]] if pos else s
        def strings(t,env):
            for m in re.finditer(r'(?:static\s+)?(?:const\s+)?(?:std::)?(?:string|char)\s*\*?\s*(\w+)\s*=\s*((?:[^";]|"(?:\\.|[^"\\])*")*);',t,re.S):
                try: env[m.group(1)]=evals(m.group(2),env)
                except Exception as ex: pass
            for m in re.finditer(r'#define\s+(\w+)\s+((?:"(?:\\.|[^"\\])*"|\s|\\\n)+)\n',t):
                try: env[m.group(1)]=evals(m.group(2).replace('\\\n',' '),env)
                except Exception as ex: pass
        strings(head,genv)
        conf=re.findall(r'addConfiguration\("(\w+)",\s*"([^"]*)"\)',head)
        for k,(p,suite,name) in enumerate(pos):
            body=s[p:pos[k+1][0] if k+1<len(pos) else len(s)]
            env=dict(genv); strings(body,env)
            c=conf+re.findall(r'addConfiguration\("(\w+)",\s*"([^"]*)"\)',body) if 'TEST_F' in body[:8] or True else []
            for m in re.finditer(r'\btestRuleOn(\w*)Code\s*\(',body):
                a,_=args(body,m.end()-1)
                t=dict(file=f,suite=suite,name=name,lang=m.group(1),rule=a[0],conf=c)
                if t['rule']=='&rule': t['rule']='new '+re.search(r'(\w+) rule;',body).group(1)+'()'
                try:
                    t['code']=evals(a[1],env)
                    rest=a[2:]
                    if rest and re.match(r'-?\d+$',rest[0]):
                        t['index']=[int(x) for x in rest[:5]]
                        t['msg']=evals(rest[5],env) if len(rest)>5 else ''
                    else:
                        ms=[]
                        if rest:
                            r=rest[0].strip()
                            body_=r[r.index('{')+1:r.rindex('}')] if '{' in r else r
                            aa,_=args('('+body_+')',0)
                            ms=[evals(x,env) for x in aa if x]
                        t['msgs']=ms
                except Exception as ex:
                    t['error']=repr(ex)
                yield t
