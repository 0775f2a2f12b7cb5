"""Writes rocq/theories/ModelCMakeTexts.v: the texts of the files that say what is built in
each module, and of the templates for new rules and reporters."""
import glob,os
R='/repo/'
def lit(s):
    assert all(ord(c)<128 for c in s)
    return '$"'+s.replace('"','""')+'"'
out=['''(** * The build files of the modules, and the templates

    Written by tools/cmaketexts.py from /repo; each text is that of the file named, as it is. *)
From Verif Require Import Base.
''']
def group(name,base,files):
    out.append(f'(** {base} *)\nDefinition {name} : list (str * str) :=\n  ['+';\n   '.join(f'({lit(f)}, {lit(open(R+base+"/"+f).read())})' for f in files)+'].\n')
for mod in ('core','metrics','rules','reporters','driver'):
    base='oclint-'+mod
    fs=sorted(os.path.relpath(f,R+base) for f in glob.glob(R+base+'/**/CMakeLists.txt',recursive=True))
    group(mod+'_lists',base,fs)
    fs=sorted(os.path.relpath(f,R+base) for f in glob.glob(R+base+'/template/*'))
    if fs: group(mod+'_templates',base,fs)
    # the names of the sources
    fs=sorted(os.path.relpath(f,R+base) for f in glob.glob(R+base+'/**/*.cpp',recursive=True))
    out.append(f'(** the sources in {base} *)\nDefinition {mod}_sources : list str :=\n  ['+';\n   '.join(lit(f) for f in fs)+'].\n')
out.append(f'(** oclint-core/cmake/OCLintConfig.cmake *)\nDefinition OCLintConfig : str :=\n  {lit(open(R+"oclint-core/cmake/OCLintConfig.cmake").read())}.\n')
print('\n'.join(out))
