import argparse,random,io,contextlib,sys
def real(argv):
    p=argparse.ArgumentParser(prog='x'); p.add_argument("source",type=str,action="store"); p.add_argument("destination",type=str,action="store"); p.add_argument("-d","--dump",action="store_true",dest="dump")
    try:
        with contextlib.redirect_stdout(io.StringIO()),contextlib.redirect_stderr(io.StringIO()):
            a=p.parse_args(argv)
        f=lambda v: 'None' if v==[] else 'Some %s'%lit(v)
        return 'Given (%s) (%s) %s'%(f(a.source),f(a.destination),'true' if a.dump else 'false')
    except SystemExit as e: return 'HelpShown' if not e.code else 'UsageError'
def lit(s): return '['+';'.join('%d%%N'%ord(c) for c in s)+']'
R=random.Random(5)
pool=['a','b','--','-','-d','-h','--dump','--help','--d','--h','--du','-dd','-dh','-hd','-dx','-hx','-d=','-d=x','-dh=','-hd=1','--=x','--=','--dump=','--dump=x','--h=x','-5','-.5','-5.','-1.5','-5\n','-x','- x','-d x','--x y','--xyz','-d-','-h-','','x y','-=','-dd-','a=b','---','--dump x','-\n','-1.\n','-1.2\n','-.','--help x','-dhd','-ddd=','-d--']
cases=[]
for _ in range(1500):
    n=R.choice([1,2,2,3,3,3,4,4,5]); w=R.random()
    cases.append([R.choice(['a','b','--','-d','a','b']) if R.random()<w else R.choice(pool) for _ in range(n)])
out='From Verif Require Import Args Fixture.\nLocal Existing Instance U0.\nDefinition eqv (a b : value) := match a,b with Some x, Some y => seqb x y | None, None => true | _,_ => false end.\nDefinition eqp a b := match a,b with Given s d u, Given s2 d2 u2 => eqv s s2 && eqv d d2 && Bool.eqb u u2 | HelpShown,HelpShown => true | UsageError,UsageError=>true | _,_ => false end.\nDefinition cs := [\n'
out+=';\n'.join('([%s], %s)'%(';'.join(lit(s) for s in c),real(c)) for c in cases)+'].\nEval vm_compute in map fst (filter (fun c => negb (eqp (parse_args (fst c)) (snd c))) cs).\n'
from collections import Counter
print(Counter(real(c).split()[0] for c in cases))
open('/tmp/argcheck.v','w').write(out)
