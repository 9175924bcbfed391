"""Compares the model of the command line (theories/Args.v) with argparse: prints a Coq file
whose last lines evaluate to the number of differences and the first of them.
Usage: args_compare.py SEED NUMBER > T.v; coqc -Q rocq/theories Verif T.v"""
import argparse,random,sys,io,contextlib
def mk():
    p=argparse.ArgumentParser(prog="t"); sp=p.add_subparsers(); sp.required=True
    def fmt(x):
        x.add_argument("--input-format","-if"); x.add_argument("--output-format","-of")
    a=sp.add_parser("convert"); a.add_argument("--out","-o",required=True); fmt(a); a.add_argument("input"); a.set_defaults(func="convert")
    a=sp.add_parser("merge"); a.add_argument("--out","-o",required=True); fmt(a); a.add_argument("--libucis","-l"); a.add_argument("db",nargs="+"); a.set_defaults(func="merge")
    a=sp.add_parser("list-db-formats"); a.set_defaults(func="ldb")
    a=sp.add_parser("list-rpt-formats"); a.set_defaults(func="lrp")
    a=sp.add_parser("report"); a.add_argument("--out","-o"); fmt(a); a.add_argument("db"); a.set_defaults(func="report")
    return p
words=["a","b.xml","-o","--out","-of","-if","--input-format","--output-format","--libucis","-l","-h","--help","--","-","-5","-.5","-5x","--out=x","-o=x","-ox","-off","-of=y","-ify","-i","-i=x","--in","--inp=z","--outp","--ou","--o=1","--lib","-lq","-ho","-hl","-hx","-hhx","-h=","-h=x","--help=x","--he","-h-","-hh=x","-hlx","--x","-x","-x y","-o x","--out x","x=y","merge","convert","--=","--=x","-=","-l=","-oo","-1\n","","--i=","-ol","---"]
cmds=["convert","merge","report","list-db-formats","list-rpt-formats","bogus","--","-h","-x"]
def q(s): return '"'+s.replace('"','""')+'"' if '\n' not in s else '("'+s.replace('\n','"++String "010" "')+'")%string'
def opt(v): return "None" if v is None else "(Some %s)"%q(v)
p=mk()
random.seed(int(sys.argv[1])); N=int(sys.argv[2]); out=[]
stat={}
good=[["-o","x"],["--out=x"],["-oy"],["-if","xml"],["-of","yaml"],["--inp","q"],["-l","z"],["in1"],["--","w"],["-5"]]
for _ in range(N):
    r=random.random()
    if r<0.6:
        n=random.randint(0,5); args=[random.choice(words) for _ in range(n)]
        if random.random()<0.9: args=[random.choice(cmds[:5])]+args
        else: args=[random.choice(cmds) for _ in range(random.randint(0,2))]+args
    else:
        gs=[random.choice(good) for _ in range(random.randint(1,5))]
        args=[random.choice(cmds[:3])]+[w for g in gs for w in g]
        if random.random()<0.3: args.insert(random.randint(1,len(args)),random.choice(words))
    try:
        with contextlib.redirect_stdout(io.StringIO()),contextlib.redirect_stderr(io.StringIO()):
            ns=p.parse_args(list(args))
        f=ns.func
        if f=="convert": e="LRun (AConvert %s %s %s %s)"%(opt(ns.input_format),opt(ns.output_format),q(ns.input),q(ns.out))
        elif f=="merge": e="LRun (AMerge %s %s %s [%s] %s)"%(opt(ns.input_format),opt(ns.output_format),opt(ns.libucis),"; ".join(map(q,ns.db)),q(ns.out))
        elif f=="ldb": e="LRun AListDb"
        elif f=="lrp": e="LRun AListRpt"
        else: e="LRun (AReport %s %s %s %s)"%(opt(ns.input_format),opt(ns.output_format),q(ns.db),opt(ns.out))
    except SystemExit as x: e="LExit %d"%x.code
    stat[e[:8]]=stat.get(e[:8],0)+1
    out.append("([%s], Some (%s))"%("; ".join(map(q,args)),e))
sys.stderr.write(str(stat)+"\n")
print('From Verif Require Import Base Args.\nLocal Open Scope string_scope. Local Open Scope list_scope.\nDefinition cases : list (list string * option line) := [\n'+";\n".join(out)+'].')
print('Definition eqo (a b : option string) := match a,b with Some x, Some y => String.eqb x y | None, None => true | _,_ => false end.\nDefinition eql a b := if list_eq_dec string_dec a b then true else false.\nDefinition eqa a b := match a,b with AConvert f g i o, AConvert f2 g2 i2 o2 => eqo f f2 && eqo g g2 && String.eqb i i2 && String.eqb o o2 | AMerge f g l i o, AMerge f2 g2 l2 i2 o2 => eqo f f2 && eqo g g2 && eqo l l2 && eql i i2 && String.eqb o o2 | AListDb, AListDb | AListRpt, AListRpt => true | AReport f g i o, AReport f2 g2 i2 o2 => eqo f f2 && eqo g g2 && String.eqb i i2 && eqo o o2 | _,_ => false end.\nDefinition eqn a b := match a,b with Some (LExit x), Some (LExit y) => Z.eqb x y | Some (LRun a), Some (LRun b) => eqa a b | _,_ => false end.')
print('Definition bad := filter (fun c => negb (eqn (parse_args (fst c)) (snd c))) cases.\nEval vm_compute in List.length bad. Eval vm_compute in firstn 5 (map (fun c => (c, parse_args (fst c))) bad).')
