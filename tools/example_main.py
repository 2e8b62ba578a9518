"""Writes rocq/theories/Example.v: a package that exercises all parts of the analyzer."""
import sys; sys.path.insert(0,'/verif/tools')
from gopkg import *
p=Pkg('ex')
STRING='TBasic (str "string")'; INT='TBasic (str "int")'; ERR='TNamed 1'   # 1: the predeclared type error
ERROR='TNamed 2'; PERROR='TPointer (TNamed 2)'; GETTER='TNamed 3'; IMPL='TNamed 4'; BOTH='TNamed 5'
p.objnames+=[(2,'Error'),(3,'Getter'),(4,'impl'),(5,'Both')]; p.tnames+=[1,2,3,4,5]
p.objtypes+=[(2,ERROR),(3,GETTER),(4,IMPL),(5,BOTH)]
p.underlying+=[(1,'TInterface 1'),(2,'TStruct [(str "TheCode", TBasic (str "string"))]'),(3,'TInterface 3'),(4,'TStruct []'),(5,'TInterface 3')]
p.impl_error+=[ERR,PERROR]; p.impl_ree+=[PERROR]
p.named_methods+=[(2,['Code','Error'])]
# objects of functions and methods
CODE,ERRM,NEW,IGET,GET,TWO,A,B,C=21,22,23,24,25,26,27,28,29
p.objnames+=[(CODE,'Code'),(ERRM,'Error'),(NEW,'NewErr'),(IGET,'Get'),(GET,'Get'),(TWO,'two'),(A,'A'),(B,'B'),(C,'C')]
p.methods+=[(PERROR,'Code',CODE),(PERROR,'Error',ERRM),(IMPL,'Get',GET),(GETTER,'Get',IGET),(BOTH,'Get',IGET)]
def doc(*lines): return ' ++ [10] ++ '.join(f'str "{l}"' if l else '[]' for l in lines)
# type Error struct { TheCode string }
p.gendecls.append(f'GenDecl {p.id()} [Some (TypeSpec ({p.idrec("Error",None,None,2)}) (XStruct [[{p.idrec("TheCode")}]]))]')
p.gendecls.append(f'GenDecl {p.id()} [Some (TypeSpec ({p.idrec("impl",None,None,4)}) (XStruct []))]')
ft,_=p.ftype([],[p.field([],ERR)])
p.gendecls.append(f'GenDecl {p.id()} [Some (TypeSpec ({p.idrec("Getter",None,None,3)}) (XInterface {p.tyexpr(GETTER)} [IMethod {p.id()} ({p.idrec("Get",None,None,IGET)}) (Some ({doc("Errors:","","- one -- always")})) ({ft})]))]')
p.gendecls.append(f'GenDecl {p.id()} [Some (TypeSpec ({p.idrec("Both",None,None,5)}) (XInterface {p.tyexpr(BOTH)} [IEmbed {p.tyexpr(GETTER)} (str "Getter")]))]')
def function(f,name,defs,recv,params,result_types,docs,mkbody):
    ft,start=p.ftype(params,[p.field([],t) for t in result_types])
    d=p.decl(name,recv,doc(*docs) if docs else None,defs)
    b=p.id(); body=mkbody(); e=p.id()
    p.func(f,d,ft,body,b,e); p.decls.append(f); p.top.append(f'TopFunc {f}')
# func (e *Error) Code() string { return e.TheCode }
for (f,nm,ob) in ((1,'Code',CODE),(2,'Error',ERRM)):
    o=p.obj(); recv=p.field([p.idrec('e',o,PERROR)],PERROR)
    function(f,nm,ob,recv,[],[STRING],None,lambda: p.block(p.ret(p.sel(p.ident('e',o,PERROR),'TheCode',STRING))))
# func NewErr(code string) error { return &Error{code} }
o=p.obj(); par1=p.field([p.idrec('code',o,STRING)],STRING)
function(3,'NewErr',NEW,None,[par1],[ERR],("NewErr creates.","","Errors:","","- param: code -- the code"),
  lambda: p.block(p.ret(p.addr(p.comp((p.ident('code',o,STRING),),ERROR),PERROR))))
def new(c): return p.call(p.ident('NewErr',NEWO,'TSignature [TBasic (str "string")] [TNamed 1] false',NEW),(p.strlit(c),),ERR)
NEWO=p.obj(None,False,'DFunc 3'); TWOO=p.obj(None,False,'DFunc 5'); AO=p.obj(None,False,'DFunc 6'); BO=p.obj(None,False,'DFunc 7')
# func (impl) Get() error { _, err := two(); if err == nil { return &Error{"one"} }; return err }
def getbody():
    v=p.obj()
    return p.block(
      p.assign((p.ident('_'),p.ident('err',v,ERR)),(p.call(p.ident('two',TWOO,'TSignature [] [TBasic (str "int"); TNamed 1] false',TWO),(),'TTuple [TBasic (str "int"); TNamed 1]'),)),
      p.other('*ast.IfStmt',p.other('*ast.BinaryExpr',p.ident('err',v,ERR),p.nil()),p.block(p.ret(p.addr(p.comp((p.strlit('one'),),ERROR),PERROR)))),
      p.ret(p.ident('err',v,ERR)))
function(4,'Get',GET,p.field([],IMPL),[],[ERR],("Errors:","","- one -- sometimes","- two -- otherwise"),getbody)
# func two() (int, error) { e := &Error{TheCode: "start"}; e.TheCode = "two"; return 0, e   (Error Codes -= start) }
def twobody():
    v=p.obj()
    return p.block(
      p.assign((p.ident('e',v,PERROR),),(p.addr(p.comp((p.kv(p.ident('TheCode'),p.strlit('start')),),ERROR),PERROR),)),
      p.assign((p.sel(p.ident('e',v,PERROR),'TheCode',STRING),),(p.strlit('two'),)),
      p.ret(p.mk('KBasicLit',(),INT),p.ident('e',v,PERROR),comment=['str "Error Codes -= start"']))
function(5,'two',TWO,None,[],[INT,ERR],None,twobody)
# func A(n int) error { if n == 0 { return NewErr("ping") }; return B(n) }
o=p.obj(); par2=p.field([p.idrec('n',o,INT)],INT)
function(6,'A',A,None,[par2],[ERR],("Errors:","","- ping -- if n is 0","- old -- never"),
  lambda: p.block(p.other('*ast.IfStmt',p.block(p.ret(new('ping')))),
     p.ret(p.call(p.ident('B',BO,'TSignature [TBasic (str "int")] [TNamed 1] false',B),(p.ident('n',o,INT),),ERR))))
# func B(n int) error { return func(k int) error { return A(k) }(n) }
o2=p.obj(); par3=p.field([p.idrec('n',o2,INT)],INT)
def bbody():
    k=p.obj(); lp=p.field([p.idrec('k',k,INT)],INT); lft,_=p.ftype([lp],[p.field([],ERR)]); s=p.id()
    lb=p.block(p.ret(p.call(p.ident('A',AO,'TSignature [TBasic (str "int")] [TNamed 1] false',A),(p.ident('k',k,INT),),ERR))); e=p.id()
    p.func(8,'None',lft,lb,s,e)
    lit=p.mk('KFuncLit 8',(lb,),'TSignature [TBasic (str "int")] [TNamed 1] false')
    return p.block(p.ret(p.call(lit,(p.ident('n',o2,INT),),ERR)))
function(7,'B',B,None,[par3],[ERR],None,bbody)
# func C() error { var g Getter = impl{}; var b Both = g; _ = b; return nil }
def cbody():
    g=p.obj(); b=p.obj()
    v1=p.comp((),IMPL); v2=p.ident('g',g,GETTER)
    n1=p.idrec('g',g,GETTER); n2=p.idrec('b',b,BOTH)
    p.objs[g]=(True,p.objs[g][1],f'DValueSpec [{n1}] [{v1[1]}]')
    s1=p.mk(f'KValueSpec [{n1}] (Some {p.tyexpr(GETTER)})',(v1,))
    s2=p.assign((p.ident('b',b,BOTH),),(v2,))
    return p.block(p.other('*ast.DeclStmt',p.other('*ast.GenDecl',s1)),s2,p.ret(p.nil()))
function(9,'C',C,None,[],[ERR],("Errors: none",),cbody)
print(p.coq())
