#!/usr/bin/env python3
"""Print rocq/theories/ModelRuleTable.v from the rule sources in /repo (read as text)."""
import glob, os, re
ROOT = '/repo/oclint-rules/rules'

def q(s): return '$"%s"' % s.replace('"', '""')
def opt(s): return 'None' if s is None else '(Some %s)' % q(s)

print('''(** * The rules shipped with OCLint: what each declares about itself

    Generated by tools/ruletable.py from oclint-rules/rules/*/*.cpp; every row cites the file
    and the line of [name()].  Functions not overridden are [None] and get the defaults of
    RuleBase.cpp and AbstractASTRuleBase.cpp below. *)
From Verif Require Import Base ModelResults ModelConfig ModelDocgen.

Record shipped := {
  sh_directory : str;                    (* directory under oclint-rules/rules *)
  sh_file : str;                         (* source file *)
  sh_name : str; sh_category : str; sh_priority : Z;
  sh_identifierOverride : option str; sh_attributeOverride : option str;
  sh_fileNameOverride : option str;
  sh_enableSuppress : bool;
  sh_built : bool;                       (* listed in the directory's CMakeLists.txt *)
  sh_languages : option N; sh_cuda : option N;
  sh_thresholds : list (str * str);      (* thresholds(): documented keys, in key order *)
  sh_reads : list (str * str)            (* configuration keys read, with the default *)
}.
Definition or_default {A} (o : option A) (d : A) : A := match o with Some x => x | None => d end.
(** RuleBase.cpp:11-41; AbstractASTRuleBase.cpp:50-53, 87-90 *)
Definition sh_identifier (s : shipped) : str := or_default (sh_identifierOverride s) (identifier (sh_name s)).
Definition sh_attributeName (s : shipped) : str := or_default (sh_attributeOverride s) (attributeName (sh_name s)).
Definition sh_fileName (s : shipped) : str := or_default (sh_fileNameOverride s) (sh_identifier s ++ $"Rule.cpp").
Definition sh_supportedLanguages (s : shipped) : N := or_default (sh_languages s) 7%N.
Definition sh_supportedCUDA (s : shipped) : N := or_default (sh_cuda s) 1%N.
''')
LANG = {'LANG_C': 1, 'LANG_CXX': 2, 'LANG_OBJC': 4, 'CUDA_HOST': 1, 'CUDA_GLOBAL': 2}
names, builts = [], []
rows = []
for f in sorted(glob.glob(ROOT + '/*/*.cpp')):
    whole = open(f).read()
    registered = re.findall(r'^static (?:oclint::)?RuleSet \w+\(new (\w+)', whole, re.M)
    assert len(registered) == len(re.findall(r'RuleSet \w+\(', whole)) >= 1, f
    for cls in registered:
        start = re.search(r'^class %s\b' % cls, whole, re.M).start()
        end = re.compile(r'^(class \w+Rule\b|static (oclint::)?RuleSet )', re.M).search(whole, start + 1).start()
        # the whole file for a single rule: helper classes may read the configuration
        rows.append((f, cls, whole if len(registered) == 1 else whole[start:end], whole))
for f, cls, s, whole in rows:
    d, b = f.split('/')[-2:]
    cmake = open(ROOT + '/' + d + '/CMakeLists.txt').read()
    built = re.search(r'^\s*%s\s*$' % b[:-len('Rule.cpp')], cmake, re.M) is not None
    def g(pat):
        m = re.search(pat, s, re.S)
        return m.group(1) if m else None
    def text(fn): return g(r'string %s\(\) const override\s*\{\s*return "([^"]*)"' % fn)
    def mask(fn):
        e = g(r'%s\(\) const override\s*\{\s*return ([^;]*);' % fn)
        if e is None: return 'None'
        return '(Some %d%%N)' % sum(LANG[x.strip().replace('oclint::', '')] for x in e.split('|'))
    line = whole[:whole.index(s) + re.search(r'string name\(\)', s).start()].count('\n') + 1
    th = [(k, ''.join(re.findall(r'"([^"]*)"', v)))
          for k, v in re.findall(r'thresholdMapping\["([^"]*)"\]\s*=\s*((?:"[^"]*"\s*)+)', s)]
    rd = [(k, v.strip().strip('"')) for _, k, v in
          re.findall(r'RuleConfiguration::(\w+)\(\s*"([^"]*)",\s*("[^"]*"|[^)]*)\)', s)]
    assert len(re.findall('RuleConfiguration::', s)) == len(rd), f
    assert len(re.findall('thresholdMapping\\[', s)) == len(th), f
    pairs = lambda l: '[' + '; '.join('(%s, %s)' % (q(k), q(v)) for k, v in l) + ']'
    n = 'sh_' + cls[:-len('Rule')]
    names.append(n)
    if built: builts.append(n)
    sup = g(r'bool enableSuppress\(\) const override\s*\{\s*return (\w+)') or 'false'
    print('(** %s/%s:%d *)' % (d, b, line))
    print('Definition %s : shipped :=' % n)
    print('  {| sh_directory := %s; sh_file := %s;' % (q(d), q(b)))
    print('     sh_name := %s; sh_category := %s; sh_priority := %s%%Z;' % (
        q(text('name')), q(text('category')), g(r'int priority\(\) const override\s*\{\s*return (\d+)')))
    print('     sh_identifierOverride := %s; sh_attributeOverride := %s; sh_fileNameOverride := %s;' % (
        opt(text('identifier')), opt(text('attributeName')), opt(text('fileName'))))
    print('     sh_enableSuppress := %s; sh_built := %s; sh_languages := %s; sh_cuda := %s;' % (
        sup, str(built).lower(), mask('supportedLanguages'), mask('supportedCUDAFunctionAttrs')))
    print('     sh_thresholds := %s;' % pairs(sorted(th)))
    print('     sh_reads := %s |}.' % pairs(rd))
print('''
(** oclint-rules/rules: one static RuleSet object per rule. *)
Definition rule_table : list shipped :=
  [%s].
(** The rules that are built, oclint-rules/rules/*/CMakeLists.txt *)
Definition shipped_rules : list shipped :=
  [%s].
(** Rule objects [0], [1], ... are the shipped rules. *)
Definition shipped_env : ruleenv := fun k =>
  let s := nth k shipped_rules sh_LongLine in
  {| ri_name := sh_name s; ri_identifier := sh_identifier s; ri_category := sh_category s;
     ri_priority := sh_priority s |}.''' % (';\n   '.join(names), ';\n   '.join(builts)))
