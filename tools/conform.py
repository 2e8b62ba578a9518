"""Runs the tests of /repo/analysis/testdata on the model (see Conform.v)."""
import sys,os,re,glob,subprocess,bisect
sys.path.insert(0,os.path.dirname(os.path.abspath(__file__)))
from goparse import *
from gocheck import *
SRC='/repo/analysis/testdata/src/'
def q(s): return '(str "'+s.replace('"','""')+'")'
def cq(s):
    """A Coq term for a Go string (bytes)."""
    b=s.encode() if isinstance(s,str) else s
    if all(x<128 for x in b): return q(s)
    return '['+'; '.join(map(str,b))+']'
def opt(x): return 'None' if x is None else f'(Some {x})'
def lst(l): return '['+'; '.join(l)+']'
def ty(t):
    k=t[0]
    if k=='named': return f'(TNamed {t[1]})'
    if k=='ptr': return f'(TPointer {ty(t[1])})'
    if k=='basic': return f'(TBasic {q(UNT.get(t[1],t[1]))})'
    if k=='nil': return 'TUntypedNil'
    if k=='tuple': return f'(TTuple {lst(list(map(ty,t[1])))})'
    if k=='slice': return f'(TSlice {ty(t[1])})'
    if k=='array': return f'(TArray {t[1]} {ty(t[2])})'
    if k=='map': return f'(TMap {ty(t[1])} {ty(t[2])})'
    if k=='chan': return f'(TChan {t[1]} {ty(t[2])})'
    if k=='struct': return '(TStruct '+lst([f'({q(n)}, {ty(x)})' for n,x,_ in t[1]])+')'
    if k=='sig': return f'(TSignature {lst(list(map(ty,t[1])))} {lst(list(map(ty,t[2])))} {str(t[3]).lower()})'
    if k=='iface': return f'(TInterface {t[1]})'
    raise KeyError(t)
class Std:
    def __init__(s,w,name,funcs):
        s.name=name; s.scope={}
        for n,t in funcs.items():
            o=w.obj(n); w.objtype[o]=t; s.scope[n]=Ent('func',o,t)
def world():
    w=World(); any_=w.iface({})
    w.pkgs['fmt']=Std(w,'fmt',{'Errorf':('sig',(STRING,('slice',any_)),(w.ERROR,),True),'Sprintf':('sig',(STRING,('slice',any_)),(STRING,),True),'Println':('sig',(('slice',any_),),(INT,w.ERROR),True)})
    w.pkgs['errors']=Std(w,'errors',{'New':('sig',(STRING,),(w.ERROR,),False)})
    w.pkgs['strings']=Std(w,'strings',{'HasPrefix':('sig',(STRING,STRING),(BOOL,),False)})
    w.pkgs['math/rand']=Std(w,'rand',{'Float32':('sig',(),(('basic','float32'),),False),'Float64':('sig',(),(('basic','float64'),),False)})
    return w
class Emit:
    def __init__(e,w,path,name,sources):
        e.w=w; e.name=name; e.path=path; e.files=[]; base=1; nid=0; e.pos={}; e.order=[]
        for fn,src in sources:
            p,f=parse(src); ns=[]
            def visit(n):
                nonlocal nid
                nid+=1; n.id=nid; ns.append(n); e.pos[nid]=(fn,p.line(n.pos)); n.base=base; return True
            inspect(f,visit); e.files.append((fn,p,f,ns,base)); base+=len(src.encode())+1
        e.c=Checker(w,path,[f for _,_,f,_,_ in e.files]); w.pkgs[path]=e.c
        e.fids={}; e.oids={}; e.decls=[]; e.objs={}
        for _,_,f,ns,_ in e.files:
            for n in ns:
                if n.kind in('FuncDecl','FuncLit'): e.fids[n.id]=len(e.fids)+1
                if n.kind=='FuncDecl': e.decls.append(n)
    def oid(e,o):
        if o is None: return None
        if id(o) not in e.oids: e.oids[id(o)]=len(e.oids)+1; e.objs[e.oids[id(o)]]=o
        return e.oids[id(o)]
    def ident(e,i): return f'(Ident {i.id} {q(i.name)} {opt(e.oid(i.obj))})'
    def field(e,f): return f'(Field {f.id} {lst([e.ident(i) for i in f.names])} {f.type.id})'
    def fieldlist(e,fl): return lst([e.field(f) for f in fl.list])
    def functype(e,t):
        return f'(FuncType {t.id} {e.fieldlist(t.params)} {opt(e.fieldlist(t.results)) if t.results else "None"} {t.results.base+t.results.pos if t.results else 0})'
    def node(e,n):
        k=n.kind; N=lambda kind,kids: f'(Node {n.id} {kind} {lst([e.node(x) for x in kids if x is not None])})'
        if k=='Ident': return f'(Node {n.id} (KIdent {q(n.name)} {opt(e.oid(n.obj))}) [])'
        if k=='ParenExpr': return N('KParen',[n.x])
        if k=='SelectorExpr': return N('KSelector',[n.x,n.sel])
        if k=='CallExpr': return N('KCall',[n.fun]+n.args)
        if k=='UnaryExpr': return N(f'(KUnary {"true" if n.op=="&" else "false"})',[n.x])
        if k=='CompositeLit': return N('KComposite',n.elts)
        if k=='BasicLit': return N('KBasicLit',[])
        if k=='KeyValueExpr': return N('KKeyValue',[n.key,n.value])
        if k=='TypeAssertExpr': return N(f'(KTypeAssert {opt(n.type.id if n.type else None)})',[n.x])
        if k=='IndexExpr': return N('KIndex',[n.x,n.index])
        if k=='FuncLit': return N(f'(KFuncLit {e.fids[n.id]})',[n.body])
        if k=='AssignStmt': return N(f'(KAssign {len(n.lhs)}%nat)',n.lhs+n.rhs)
        if k=='ReturnStmt': return N('KReturn',n.results)
        if k=='ValueSpec': return N(f'(KValueSpec {lst([e.ident(i) for i in n.names])} {opt(n.type.id if n.type else None)})',n.values)
        if k=='RangeStmt': return N(f'(KRange {"true" if n.key else "false"} {"true" if n.value else "false"})',[n.key,n.value,n.x,n.body])
        if k=='SendStmt': return N('KSend',[n.chan,n.value])
        if k=='TypeSwitchStmt': return N(f'(KTypeSwitch {"true" if n.init else "false"})',[n.init,n.assign,n.body])
        if k=='CaseClause': return N(f'(KCaseClause {len(n.list)}%nat)',n.list+n.body)
        if k in('ArrayType','StructType','FuncType','InterfaceType','MapType','ChanType','TypeSpec','ImportSpec'): kids=[]
        else: kids=children(n)
        return N(f'(KOther {q("*ast."+k)})',kids)
    def doc(e,g): return 'None' if g is None else f'(Some (comment_text {lst([cq(c[0]) for c in g])}))'
    def func(e,n):
        d='None'
        if n.kind=='FuncDecl':
            d=f'(Some (DeclInfo {e.ident(n.name)} {opt(e.fieldlist(n.recv)) if n.recv else "None"} {e.doc(n.doc)}))'
        b=n.body
        return f'Func {n.id} {d} {e.functype(n.type)} {opt(e.node(b)) if b else "None"} {b.base+b.pos if b else 0} {b.base+b.end if b else 0}'
    def typespec(e,sp):
        if sp.kind!='TypeSpec': return 'None'
        t=sp.type
        if t.kind=='StructType': x='(XStruct '+lst([lst([e.ident(i) for i in f.names]) for f in t.fields.list])+')'
        elif t.kind=='InterfaceType':
            els=[]
            for f in t.methods.list:
                if f.names: els.append(f'IMethod {f.id} {e.ident(f.names[0])} {e.doc(f.doc)} {e.functype(f.type)}')
                elif f.type.kind=='Ident': els.append(f'IEmbed {f.type.id} {q(f.type.name)}')
                elif f.type.kind=='SelectorExpr': els.append(f'IEmbedSel {f.type.id}')
                else: els.append('IOtherElem')
            x=f'(XInterface {t.id} {lst(els)})'
        else: x='XOther'
        return f'(Some (TypeSpec {e.ident(sp.name)} {x}))'
    def coq(e):
        w,c,p=e.w,e.c,e.name; out=[]
        D=lambda n,t,b: out.append(f'Definition {p}_{n} : {t} := {b}.')
        gends=[]
        def gd(n):
            if n.kind=='GenDecl': gends.append(n); return False
            return True
        tops=[]
        for _,_,f,_,_ in e.files:
            inspect(f,gd)
            for d in f.decls: tops.append(d)
        funcs=[n for _,_,f,ns,_ in e.files for n in ns if n.kind in('FuncDecl','FuncLit')]
        for n in funcs: D(f'f{e.fids[n.id]}','func',e.func(n))
        D('gendecls','list gendecl',lst([f'GenDecl {g.id} {lst([e.typespec(s) for s in g.specs])}' for g in gends]))
        D('top','list topdecl',lst([f'TopFunc {e.fids[d.id]}' if d.kind=='FuncDecl' else f'TopNode {e.node(d)}' for d in tops]))
        # objects: emitting a declaration can mention further ones
        done={}
        while len(done)<len(e.objs):
            for i,o in list(e.objs.items()):
                if i in done: continue
                d=o.decl
                if d.kind=='FuncDecl': x=f'(DFunc {e.fids[d.id]})'
                elif d.kind=='TypeSpec': x='DType'
                elif d.kind=='ValueSpec': x=f'(DValueSpec {lst([e.ident(j) for j in d.names])} {lst([e.node(v) for v in d.values])})'
                else: x='DOther'
                done[i]=f'({i}, Object {"true" if o.kind=="var" else "false"} {o.ident.base+o.ident.pos} {x})'
        D('objs','list (N * object)',lst(list(done.values())))
        tab=lambda n,t,d,f: D(n,f'list (N * {t})',lst([f'({k}, {f(v)})' for k,v in sorted(d.items()) if v is not None]))
        tab('types','gotype',c.types,ty)
        tab('values','constval',{k:v for k,v in c.values.items()},lambda v: f'CString {cq(v)}' if isinstance(v,str) and True else 'COther')
        tab('uses','tobj',c.uses,str); tab('defs','tobj',c.defs,str); tab('sels','(tobj * gotype)',c.sels,lambda v:f'({v[0]}, {ty(v[1])})')
        tab('pkgnames','gostring',c.pkgnames,q); tab('objnames','gostring',w.objname,q)
        tab('objtypes','gotype',{o:t for o,t in w.objtype.items()},ty)
        tab('under','gotype',{o:n.get_under() for o,n in w.named.items()},ty)
        tab('named_methods','(list gostring)',{o:n.order for o,n in w.named.items() if n.order},lambda l: lst([q(x) for x in l]))
        S=set()
        def sub(t):
            if t is None or t in S: return
            S.add(t)
            for x in t[1:]:
                if isinstance(x,tuple) and x and isinstance(x[0],str) and x[0] in('named','ptr','basic','nil','tuple','slice','array','map','chan','struct','sig','iface'): sub(x)
                elif isinstance(x,tuple):
                    for y in x:
                        if isinstance(y,tuple):
                            if y and isinstance(y[0],str) and len(y)==3 and isinstance(y[2],bool) and t[0]=='struct': sub(y[1])
                            else: sub(y)
        for t in c.types.values(): sub(t)
        for o in w.named: sub(('named',o))
        for n in w.named.values(): sub(n.get_under())
        S2=sorted(S|{('ptr',t) for t in S if t[0] in('named','struct')},key=str)
        S2=[t for t in S2 if t[0] in('named','ptr','iface','struct')]
        D('methods','list (gotype * gostring * tobj)',lst([f'({ty(t)}, {q(m)}, {v[1]})' for t in S2 for m,v in sorted(w.method_set(t).items())]))
        im=lambda it: lst([ty(t) for t in S2 if w.implements(t,it)])
        D('ierr','list gotype',im(w.t_error)); D('iree','list gotype',im(w.t_ree)); D('icause','list gotype',im(w.t_cause))
        its=[t for t in S2 if t[0]=='iface' and w.ifmethods[t[1]]]
        D('impl','list (gotype * gotype)',lst([f'({ty(t)}, {ty(i)})' for t in S2 for i in its if w.implements(t,i)]))
        P=lambda par,f: f'(Place {par} {f})'
        fl=[]
        for k,(fn,ps,f,ns,base) in enumerate(e.files):
            D(f'nodes{k}','list snode',lst([f'SNode {n.id} (Place {n.pos} {ps.line(n.pos)}) (Place {n.end} {ps.line(n.end)}) {"true" if n.kind in GROUPS else "false"}' for n in ns]))
            D(f'cgroups{k}','list cgroup',lst([f'CGroup (Place {g[0][1]} {ps.line(g[0][1])}) (Place {g[-1][2]} {ps.line(g[-1][2])}) {lst([cq(x[0]) for x in g])}' for g in ps.groups]))
            fl.append(f'SourceFile {p}_nodes{k} {p}_cgroups{k}')
        D('files','list source_file',lst(fl))
        D('info','typeinfo',f'map_info (list_to_map {p}_types) (list_to_map {p}_values) (list_to_map {p}_uses) (list_to_map {p}_defs) (list_to_map {p}_sels) (list_to_set {lst(list(map(str,sorted(w.typenames))))}) (list_to_map {p}_pkgnames) (list_to_map {p}_objnames) (list_to_map {p}_objtypes) (list_to_map {p}_under) {p}_methods {p}_ierr {p}_iree {p}_icause {p}_impl (list_to_map {p}_named_methods)')
        out.append(f'Definition {p} : package := Package (list_to_map {lst([f"({e.fids[n.id]}, {p}_f{e.fids[n.id]})" for n in funcs])}) {lst([str(e.fids[d.id]) for d in e.decls])} {p}_gendecls {p}_top (list_to_map {p}_objs) (fun id => default [] (createCommentMap {p}_files id)) {p}_info.')
        emb={}
        for g in gends:
            for sp in g.specs:
                if sp.kind=='TypeSpec' and sp.type.kind=='InterfaceType': emb[sp.name.name]=[f.type.name for f in sp.type.methods.list if not f.names and f.type.kind=='Ident']
        def rank(x,d=0): return 0 if x not in emb or d>50 else 1+max([rank(y,d+1) for y in emb[x]],default=0)
        D('rank','gostring -> nat',f"fun n => default 0%nat ((list_to_map {lst([f'({q(x)}, {rank(x)}%nat)' for x in emb])} : gmap gostring nat) !! n)")
        return '\n'.join(out)
HEADER='''From Coq Require Import Ascii String.
From stdpp Require Import base list gmap.
From Verif Require Import GoString Scc Engine Constant CommentText CommentMap Phase FactText Conform GoAst.
Local Open Scope N_scope.
'''
def load(w,path,name):
    fs=sorted(glob.glob(SRC+path+'/*.go')); return Emit(w,path,name,[(os.path.basename(f),open(f).read()) for f in fs])
def imports(path):
    out=[]
    for f in sorted(glob.glob(SRC+path+'/*.go')):
        _,t=parse(open(f).read())
        for d in t.decls:
            if d.kind=='GenDecl' and d.tok=='import':
                for s in d.specs:
                    p=s.path.value.strip('"')
                    if os.path.isdir(SRC+p) and p not in out: out+= [x for x in imports(p)+[p] if x not in out]
    return out
def ident_name(path): return 't_'+re.sub(r'\W','_',path)
def wants(e):
    """(file, line) -> list of (fact name or None, regexp), as analysistest reads them."""
    out={}
    for fn,p,f,ns,base in e.files:
        for text,pos,end in p.comments:
            t=text[2:] if text.startswith('//') else text[2:-2]
            t=t.strip()
            m=re.match(r'want\b',t)
            if text.startswith('//') and not m:
                k=t.find('// want ')
                if k<0: continue
                t=t[k+3:]; m=re.match(r'want\b',t)
            if not m: continue
            rest=t[4:]; l=out.setdefault((fn,p.line(pos)),[])
            for m in re.finditer(r'\s*(?:([A-Za-z_]\w*):)?(`[^`]*`|"(?:[^"\\]|\\.)*")',rest):
                s=m.group(2); r=s[1:-1] if s[0]=='`' else unquote(s)
                l.append((m.group(1),r))
    return out
def text(l):
    return bytes(l).decode()

def spec_lists(e):
    """The expectations of TestNotImplemented (analyse_test.go): (file, line) -> messages."""
    t=open('/repo/analysis/analyse_test.go').read(); out={}
    for f,l,m in re.findall(r'`'+re.escape(e.path)+r'/([\w.]+):(\d+):\d+: unexpected diagnostic: ([^`]*)`',t):
        out.setdefault((f,int(l)),[]).append((None,re.escape(m)))
    return out
TESTED=set(re.findall(r'^\t\t"[^\n]*|pattern: "[^"]*"',open('/repo/analysis/analyse_test.go').read(),re.M))
TESTED={x for l in TESTED for x in re.findall(r'"([^"]*)"',l)}
ORDERS=('ascending','descending')
def facts_before(es,k,o):
    fa='(Facts ∅ ∅ ∅ ∅)'
    for e in es[:k]: fa=f'(facts_after_test (run_test {e.name} {o} {fa}))'
    return fa
def ask(fn,body):
    open(fn,'w').write(body)
    r=subprocess.run(['timeout','900','coqc','-Q','/verif/rocq/theories','Verif',fn],capture_output=True,text=True)
    if r.returncode: print(fn,'COQ ERROR',(r.stdout+r.stderr)[-1500:]); sys.exit(1)
    for o in re.split(r'\n?     = ',r.stdout)[1:]:
        o=o.split('\n     : ')[0].replace('\n',' ').replace(';',',').replace('true','True').replace('false','False')
        yield eval(re.sub(r'\s+',' ',o))
CHECKS=[('package_usable','package_usable {n}'),('recursion_check','recursion_check {n}'),('apart_b','apart_b {n}'),('types_ok','types_ok {n}'),('package_formed','package_formed {n}'),('definitions_check','definitions_check {n}'),('interfaces_check','interfaces_check {n} {n}_rank'),('uses_check','uses_check {n} (collectFunctions {n})'),('sound_ok','sound_ok {n} {fa1}'),('layoutb','forallb layoutb {n}_files')]
def run(path,emit=False):
    w=world(); es=[load(w,x,ident_name(x)) for x in imports(path)+[path]]
    head=HEADER.replace('Conform GoAst','Conform Claims Analyse Verify Checkers RecursionChecker LiteralChecker CodeCheckers FormChecker InterfaceChecker SoundChecker ChainChecker ExampleLayout GoAst')
    data='\n'.join(e.coq() for e in es); thms=[]; ev=''
    # objects the package defines, with the place of their definition
    objs={e.name:sorted(set(e.c.defs.values())) for e in es}
    for k,e in enumerate(es):
        for o in ORDERS:
            fa=facts_before(es,k,o)
            ev+=f"\nEval vm_compute in let r := run_test {e.name} {o} {fa} in (match r with Ok _ => 1 | Panicked => 2 | OutOfFuel => 3 end, default [] (report r), fact_texts (facts_after_test r) {lst(list(map(str,objs[e.name])))})."
        fa1=facts_before(es,k+1,'ascending')
        ev+=f"\nEval vm_compute in [{'; '.join(c.format(n=e.name,fa1=fa1) for _,c in CHECKS)}]."
    ans=list(ask(f'/tmp/w/conf_{es[-1].name}.v',head+data+ev+'\n'))
    for k,e in enumerate(es):
        oks=[]
        where={o:e.pos[i] for i,o in e.c.defs.items()}
        for on,(code,diags,facts) in zip(ORDERS,ans[3*k:3*k+2]):
            if e.path not in TESTED: continue
            problems=[]
            if code!=1: problems.append(f'outcome {code}')
            exp={x:list(v) for x,v in wants(e).items()}
            for x,v in spec_lists(e).items(): exp.setdefault(x,[]); exp[x]=exp[x]+v
            def take(key,name,msg):
                l=exp.get(key,[])
                for x in l:
                    if x[0]==name and re.search(x[1],msg): l.remove(x); return True
                return False
            for at,m in diags:
                if not take(e.pos[at],None,text(m)): problems.append(f'unexpected {e.pos[at]} {text(m)}')
            for ob,m in facts:
                if not take(where[ob],w.objname[ob],text(m)): problems.append(f'unexpected fact {where[ob]} {w.objname[ob]} {text(m)}')
            for x,l in exp.items():
                for y in l: problems.append(f'missing {x} {y}')
            print(e.path,on,f'{len(diags)} diagnostics, {len(facts)} facts','OK' if not problems else 'FAIL')
            for x in problems[:40]: print('   ',x)
            oks.append(not problems)
            cm=lambda s: s.replace('(*','( *').replace('*)','* )')
            r=f'(run_test {e.name} {on} {facts_before(es,k,on)})'
            thms.append(f"(** {e.path}: {len(diags)} diagnostics and {len(facts)} facts, as its \"want\" comments demand. *)\nTheorem {e.name}_{on} :\n  report {r} = Some [\n"+';\n'.join(f'    ({at}, {cq(text(m))}) (* {e.pos[at][0]}:{e.pos[at][1]} *)' for at,m in diags)+f"] /\\\n  fact_texts (facts_after_test {r}) {lst(list(map(str,objs[e.name])))} = [\n"+';\n'.join(f'    ({ob}, {cq(text(m))}) (* {where[ob][0]}:{where[ob][1]} {w.objname[ob]} *)' for ob,m in facts)+"].\nProof. vm_compute. split; reflexivity. Qed.")
        flags=dict(zip([c for c,_ in CHECKS],ans[3*k+2])); n=e.name
        fa=facts_before(es,k,'ascending'); fa1=facts_before(es,k+1,'ascending')
        concl={'package_usable':(f'(forall fa, usable_functions {n} fa)','intros fa; apply package_usable_spec'),
               'recursion_check':(f'(forall fa, no_literal_recursion {n} (collectFunctions {n}) fa)','intros fa; apply recursion_check_spec'),
               'apart_b':(f'(forall fa, literals_apart {n} (collectFunctions {n}) fa)','intros fa; apply apart_spec'),
               'types_ok':(f'types_usable {n}','apply types_ok_spec'),
               'package_formed':(f'(forall w n, occurs {n} w n -> ~ ill_formed {n} w n)','apply package_formed_spec'),
               'definitions_check':(f'distinct_definitions {n}','apply definitions_check_spec'),
               'interfaces_check':(f'interfaces_ok {n}',f'apply (interfaces_check_spec {n} {n}_rank)'),
               'uses_check':(f'uses_resolved {n} (collectFunctions {n})','apply uses_check_spec'),
               'sound_ok':(f'(forall g fn, pk_funcs {n} !! g = Some fn -> disciplined {n} {fa1} fn /\\ resolved {n} (collectFunctions {n}) {fa1} fn)','intros g fn; apply sound_ok_spec'),
               'layoutb':(f'Forall layout {n}_files','apply layouts_spec')}
        good=[c for c,_ in CHECKS if flags[c]]; print(e.path,'presuppositions that do not hold:',[c for c,_ in CHECKS if not flags[c]])
        thms.append(f"(** The presuppositions of the general theorems that this package satisfies"+(f" (not: {', '.join(c for c,_ in CHECKS if not flags[c])})" if len(good)<len(CHECKS) else '')+f". *)\nTheorem {n}_presuppositions :\n  "+' /\\\n  '.join(concl[c][0] for c in good)+".\nProof.\n  "+('split_and!.' if len(good)>1 else '')+'\n'+'\n'.join(f'  - {concl[c][1]}; vm_compute; reflexivity.' for c in good)+"\nQed.")
    if emit:
        mod='Test_'+re.sub(r'\W','_',path)
        open(f'/verif/rocq/theories/{mod}.v','w').write(f'(** * The test package {path} of /repo/analysis/testdata/src, run on the model.  Generated by tools/conform.py; see Conform.v. *)\n'+head.replace('Verify Checkers','Verify SpecTaint SpecProgram SpecLiterals SpecCodeMethod SpecInterfaces SpecSites SpecCrash SpecSound SpecWhole SpecLayout Checkers')+data+'\n\n'+'\n\n'.join(thms)+'\n')
if __name__=='__main__':
    emit='--emit' in sys.argv
    tests=[a for a in sys.argv[1:] if a!='--emit'] or ['001','annotation','docformat','dotimport','error_constructor','errortypes','examples','field_assignment','func_literal','interfaces','methods','multifile','multipackage','recursion','typecast','dereference_assignment','type_assertion']
    for t in tests: run(t,emit)
