"""Compare Cli.v's model of the command line with the argparse of the installed Python.
Usage: argparse_check.py [seed]; needs the compiled theories in rocq/theories."""
import os, tempfile
import argparse,itertools,random,io,contextlib,subprocess,sys
def real(argv):
    parser = argparse.ArgumentParser()
    parser.add_argument('filename')
    parser.add_argument('--passphrase')
    try:
        with contextlib.redirect_stderr(io.StringIO()), contextlib.redirect_stdout(io.StringIO()):
            a=parser.parse_args(list(argv))
        return (a.filename,a.passphrase)
    except SystemExit as e: return e.code
toks=['f','--','--passphrase','--passphrase=x','--p','--p=','-5','-.5','-5\n','-','','-h','-hx','-hh','-hh=','-h=','-h-','--help','--help=','--he','--=','-x','-x y','--pass word','-5.','--passphrasex','--passphrase x','-h x','--p=a=b','a b','--h','--hx','-hhh=','--=x y','-1.2.3','-=','---','-5 ']
random.seed(int(sys.argv[1]) if len(sys.argv)>1 else 1)
cases=[(a,) for a in toks]+list(itertools.product(toks,repeat=2))
for n,k in((3,1500),(4,1000),(5,600)):
    for _ in range(k): cases.append(tuple(random.choice(toks[:16] if random.random()<.6 else toks) for _ in range(n)))
def cs(s): return '['+';'.join(str(ord(c)) for c in s)+']'
def ov(r):
    if isinstance(r,int): return 'Exit %d'%r
    return 'Arguments %s %s'%(cs(r[0]), 'None' if r[1] is None else '(Some %s)'%cs(r[1]))
out='From Verif Require Import PyBase Cli.\nOpen Scope N_scope.\nDefinition dig (c:N) := (48 <=? c) && (c <=? 57).\n'
out+='Fixpoint se (a b : list N) := match a,b with [],[] => true | x::a,y::b => N.eqb x y && se a b | _,_ => false end.\n'
out+='Definition eqr a b := match a,b with Exit n, Exit m => Nat.eqb n m | Arguments f p, Arguments g q => se f g && match p,q with None,None => true | Some x, Some y => se x y | _,_ => false end | _,_ => false end.\n'
out+='Definition cases : list (list (list N) * parsed_args) := [\n'+';\n'.join('([%s], %s)'%(';'.join(cs(a) for a in c),ov(real(c)).replace('Exit 2','Exit 2%nat').replace('Exit 0','Exit 0%nat')) for c in cases)+'].\n'
out+='Eval vm_compute in (length cases, filter (fun c => negb (eqr (parse_args dig (fst c)) (snd c))) cases).\n'
d=tempfile.mkdtemp()
open(d+'/cases.v','w').write(out)
theories=os.path.join(os.path.dirname(os.path.abspath(__file__)),'../rocq/theories')
print(subprocess.run(['coqc','-Q',theories,'Verif',d+'/cases.v'],stdout=subprocess.PIPE,text=True).stdout)
