"""Writes ConformanceResults.v: the tests of RawResults, UniqueResults and the six reporters,
read statement by statement from oclint-core/test and oclint-reporters/test."""
import re,sys
ROOT=__file__.rsplit('/',3)[0]
def lit(s):
    """A C++ string literal (adjacent pieces joined) as a Coq expression of type str."""
    t=''.join(re.findall(r'"((?:[^"\\]|\\.)*)"',s)).replace('\\"','\x01')
    return '($"'+t.replace('\x01','""')+'")'
def split(s):
    out=[];d=0;q=False;cur='';i=0
    while i<len(s):
        c=s[i]
        if q:
            if c=='\\': cur+=c+s[i+1]; i+=2; continue
            if c=='"': q=False
        elif c=='"': q=True
        elif c in '([{': d+=1
        elif c in ')]}': d-=1
        elif c==',' and d==0: out.append(cur.strip()); cur=''; i+=1; continue
        cur+=c; i+=1
    if cur.strip(): out.append(cur.strip())
    return out
def statements(body):
    out=[];q=False;cur='';i=0
    while i<len(body):
        c=body[i]
        if q and c=='\\': cur+=c+body[i+1]; i+=2; continue
        if c=='"': q=not q
        if c==';' and not q: out.append(' '.join(cur.split('\n')).strip()); cur=''
        else: cur+=c
        i+=1
    return [s for s in out if s]
def tests(f):
    s=open(f).read()
    for m in re.finditer(r'TEST(?:_F)?\((\w+), (\w+)\)\s*\{\n(.*?)\n\}\n',s,re.S): yield m.group(2),statements(m.group(3))
class Pointers:
    """Fresh rule objects: an even address is a rule of priority 1, an odd one of priority 2."""
    def __init__(p): p.n=[0,0]; p.named={}
    def get(p,e):
        if e in('0','nullptr'): return 'None'
        if e in('ruleOne','ruleTwo'): return 'Some '+str(0 if e=='ruleOne' else 1)+'%nat'
        k=1 if 'Two' in e else 0
        if e.startswith('new'): p.n[k]+=1; return f'Some {2*p.n[k]+k}%nat'
        return 'Some '+str(p.named.setdefault(e,100+2*len(p.named)))+'%nat'
def violation(a,p):
    a=split(a); msg=lit(a[6]) if len(a)>6 else '[]'
    return f'viol ({p.get(a[0])}) {lit(a[1])} {a[2]} {a[3]} {a[4]} {a[5]} {msg}'
Q={'Violations':'QViolations','Errors':'QErrors','Warnings':'QWarnings','CheckerBugs':'QBugs'}
def results(f,view,tag):
    out=[]
    for name,body in tests(f):
        p=Pointers(); vs={}; sets={}; steps=[]; cmp={}
        for s in body:
            if re.fullmatch(r'ResultsTest_ResultsStub collector|\w+Results results\(collector\)',s): pass
            elif m:=re.fullmatch(r'ViolationSet \*(\w+) = new ViolationSet\(\)',s): sets[m.group(1)]=[]
            elif m:=re.fullmatch(r'Violation (\w+)\((.*)\)',s): vs[m.group(1)]=violation(m.group(2),p)
            elif m:=re.fullmatch(r'(\w+)->addViolation\((\w+)\)',s): sets[m.group(1)].append(vs[m.group(2)])
            elif m:=re.fullmatch(r'collector\.add\((.*)\)',s): steps.append('Do (RecSet ['+'; '.join(sets.get(m.group(1),[]))+'])')
            elif m:=re.fullmatch(r'collector\.add(Error|Warning|CheckerBug)\((\w+)\)',s): steps.append(f'Do (Rec{m.group(1).replace("Checker","")} ({vs[m.group(2)]}))')
            elif m:=re.fullmatch(r'EXPECT_THAT\(results\.numberOf(Violations|Errors|Warnings|CheckerBugs)\(\), Eq\((\d+)\)\)',s): steps.append(f'Number {Q[m.group(1)]} {m.group(2)}')
            elif m:=re.fullmatch(r'EXPECT_THAT\(results\.numberOfViolationsWithPriority\((\d+)\), Eq\((\d+)\)\)',s): steps.append(f'Priority {m.group(1)} {m.group(2)}')
            elif m:=re.fullmatch(r'EXPECT_THAT\(results\.numberOfFiles\(\), Eq\((\d+)\)\)',s): steps.append(f'Files {m.group(1)}')
            elif m:=re.fullmatch(r'EXPECT_THAT\(results\.numberOfFilesWithViolations\(\), Eq\((\d+)\)\)',s): steps.append(f'FilesWith {m.group(1)}')
            elif m:=re.fullmatch(r'EXPECT_(TRUE|FALSE)\(results\.has(\w+)\(\)\)',s): steps.append(f'Has {Q[m.group(2)]} {m.group(1).lower()}')
            elif m:=re.fullmatch(r'Violation (\w+) = results\.all(\w+)\(\)\.at\((\d+)\)',s): cmp[m.group(1)]=(Q[m.group(2)],m.group(3),{})
            elif m:=re.fullmatch(r'EXPECT_THAT\((\w+)\.(\w+), (?:StrEq|Eq)\((.*)\)\)|EXPECT_THAT\((\w+)\.(rule), IsNull\(\)\)',s):
                if m.group(5): n,k,v=m.group(4),'rule','None'
                else: n,k,v=m.group(1),m.group(2),m.group(3); v=lit(v) if v[0]=='"' else v
                q,i,d=cmp[n]; d[k]=v
                if len(d)==7: steps.append(f'At {q} {i}%nat (viol ({d["rule"]}) {d["path"]} {d["startLine"]} {d["startColumn"]} {d["endLine"]} {d["endColumn"]} {d["message"]})')
            else: raise SystemExit(f'{f} {name}: {s}')
        out.append(f'Example {tag}_{name} :\n  agrees {view}\n    [{(";"+chr(10)+"     ").join(steps)}] = true.\nProof. vm_compute. reflexivity. Qed.\n')
    return out
CALL={ # the reporter's function, as a term of the model, from its arguments
 'Text.writeHeader':lambda a:None,'Text.writeFooter':lambda a:None,
 'Text.writeSummary':lambda a:'text_writeSummary mock c_empty','Text.writeViolations':lambda a:f'forEach (fun v => text_writeViolation mock v >>> endl) {a[1]}',
 'Text.writeViolation':lambda a:f'text_writeViolation mock ({a[1]})','Text.writeCompilerErrorOrWarning':lambda a:f'writeCompilerErrorOrWarning ({a[1]})',
 'Text.writeCompilerDiagnostics':lambda a:('errors',a[1],f'writeCompilerDiagnostics QErrors {a[2]}'),
 'XML.writeHeader':lambda a:None,'XML.writeFooter':lambda a:None,'XML.writeViolation':lambda a:f'xml_writeViolation mock ({a[1]})',
 'XML.writeViolationAttribute':lambda a:f'writeViolationAttribute {a[1]} {num(a[2])}' if a[2]!='1.23' else None,
 'XML.writeSummary':lambda a:'xml_writeSummary mock c_empty',
 'XML.writeSummaryProperty':lambda a:f'writeSummaryProperty {a[1]} (out {num(a[2])})' if a[2]!='1.23' else None,
 'Xcode.writeViolation':lambda a:f'xcode_writeViolation mock ({a[1]})',
 'HTML.writeHead':lambda a:None,'HTML.writeFooter':lambda a:None,'HTML.writeSummaryTable':lambda a:'writeSummaryTable mock c_empty',
 'HTML.writeViolation':lambda a:f'html_writeViolation mock ({a[1]})','HTML.writeCompilerErrorOrWarning':lambda a:f'html_diagnostic {a[2]} ({a[1]})',
 'HTML.writeCompilerDiagnostics':lambda a:f'forEach (html_diagnostic {a[2]}) {a[1]}','HTML.writeCheckerBugs':lambda a:f'forEach html_checkerBug {a[1]}',
 'JSON.writeHeader':lambda a:None,'JSON.writeKey':lambda a:f'writeKey {a[1]}','JSON.writeComma':lambda a:f'writeComma {a[1]}',
 'JSON.writeKeyValue':lambda a:(f'writeKeyInt {a[1]} {a[2]}' if a[2][0]!='(' else f'writeKeyString {a[1]} {a[2]}')+' '+(a[3] if len(a)>3 else 'false'),
 'JSON.writeSummary':lambda a:'json_writeSummary mock c_empty','JSON.writeViolation':lambda a:f'json_writeViolation mock ({a[1]})',
}
def num(a): return a if a[0]=='(' else f'(show_Z {a})'
def reporters(kind,left):
    f=f'/repo/oclint-reporters/test/{kind}ReporterTest.cpp'; out=[]
    rep={'Text':'TextReporter mock','Xcode':'XcodeReporter mock','JSON':'JSONReporter mock 0','XML':'XMLReporter mock None','HTML':"HTMLReporter [] [] mock",'PMD':'PMDReporter mock'}[kind]
    for name,body in tests(f):
        p=Pointers(); vs={}; lists={}; term=None; coll='c_empty'; cks=[]; sets={}; skip=False
        for s in body:
            if m:=re.fullmatch(r'EXPECT_THAT\(reporter\.name\(\), StrEq\((.*)\)\)',s): out.append(f'Example {kind}Reporter_{name} : rp_name ({rep}) = {lit(m.group(1))}.\nProof. reflexivity. Qed.\n'); skip=True; break
            elif re.fullmatch(r'Results \*\s?(restults|const results) = .*|std::ostringstream oss|MockResultCollector resultCollector|delete \w+|ViolationSet violationSet|RuleBase \*rule = new MockRuleBase\(\)',s): pass
            elif s.startswith('RuleBase *rule = new MockRuleBase("rule name", "rule category", 3)'): p.named['rule']=201
            elif m:=re.fullmatch(r'(?:const )?Violation (\w+)\((.*)\)',s): vs[m.group(1)]=violation(m.group(2),p)
            elif m:=re.fullmatch(r'std::vector<Violation> (\w+)',s): lists[m.group(1)]=[]
            elif m:=re.fullmatch(r'(\w+)\.push_back\((\w+)\)',s): lists[m.group(1)].append(vs[m.group(2)])
            elif m:=re.fullmatch(r'violationSet\.addViolation\((\w+)\)',s): sets.setdefault('s',[]).append(vs[m.group(1)])
            elif s=='resultCollector.add(&violationSet)': coll=f'c_add ({coll}) [{"; ".join(sets["s"])}]'
            elif m:=re.fullmatch(r'resultCollector\.(add\w+)\((\w+)\)',s): coll=f'c_{m.group(1)} ({coll}) ({vs[m.group(2)]})'
            elif s=='reporter.report(results, oss)': term=f'rp_report ({rep}) ({coll})'
            elif m:=re.fullmatch(r'reporter\.(\w+)\((.*)\)',s):
                a=[vs.get(x) or (x in lists and '['+'; '.join(lists[x])+']') or (lit(x) if x[0]=='"' else x) for x in split(m.group(2))]
                term=CALL[kind+'.'+m.group(1)](a)
                if term is None: left.append((kind+'ReporterTest',name)); skip=True; break
                if isinstance(term,tuple):
                    coll='fold_left c_addError '+term[1]+' c_empty'; term=term[2]
            elif m:=re.fullmatch(r'EXPECT_THAT\(oss\.str\(\), (Not\()?(StrEq|StartsWith|HasSubstr|EndsWith)\((.*?)\)\)?\)',s):
                a=m.group(3)
                if 'Constants::version()' in a: l,r=a.split(' + Constants::version() + '); a=f'({lit(l)} ++ version ++ {lit(r)})'
                else: a=lit(a)
                cks.append(('Lacks' if m.group(1) else m.group(2))+' '+a)
            else: raise SystemExit(f'{f} {name}: {s}')
        if not skip: out.append(f'Example {kind}Reporter_{name} :\n  writes ({coll}) ({term})\n    [{(";"+chr(10)+"     ").join(cks)}] = true.\nProof. vm_compute. reflexivity. Qed.\n')
    return out
HEAD='''(** * OCLint's own unit tests of the result views and of the reporters, as examples about the model

    Written by tools/conformance/core.py; do not edit. *)
From Verif Require Import Base ModelResults ModelConfig ModelFilter ModelOptions ModelMain ModelReporters ConformanceCore.
Local Open Scope Z_scope.

'''
if __name__=='__main__':
    left=[]
    parts=[('oclint-core/test/RawResultsTest.cpp',results('/repo/oclint-core/test/RawResultsTest.cpp','RawR','RawResults')),
           ('oclint-core/test/UniqueResultsTest.cpp',results('/repo/oclint-core/test/UniqueResultsTest.cpp','(UniqueR u_fresh)','UniqueResults'))]
    for k in('HTML','JSON','PMD','Text','XML','Xcode'): parts.append((f'oclint-reporters/test/{k}ReporterTest.cpp',reporters(k,left)))
    s=HEAD
    for f,l in parts: s+=f'(** ** {f} *)\n\n'+'\n'.join(l)+'\n'
    open(ROOT+'/rocq/theories/ConformanceResults.v','w').write(s)
    print(sum(len(l) for _,l in parts),'tests; left out:',left)
