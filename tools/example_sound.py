"""Writes the package of rocq/theories/ExampleSound.v: an accepted package whose executions return the declared codes."""
import sys; sys.path.insert(0,'/verif/tools')
from gopkg import *
p=Pkg('es')
STRING='TBasic (str "string")'; INT='TBasic (str "int")'; ERR='TNamed 1'
ERROR='TNamed 2'; PERROR='TPointer (TNamed 2)'
p.objnames+=[(2,'Error')]; p.tnames+=[1,2]
p.objtypes+=[(2,ERROR)]
p.underlying+=[(1,'TInterface 1'),(2,'TStruct [(str "TheCode", TBasic (str "string"))]')]
p.impl_error+=[ERR,PERROR]; p.impl_ree+=[PERROR]
p.named_methods+=[(2,['Code','Error'])]
CODE,ERRM,NEW,F,G=21,22,23,24,25
p.objnames+=[(CODE,'Code'),(ERRM,'Error'),(NEW,'NewErr'),(F,'F'),(G,'G')]
p.methods+=[(PERROR,'Code',CODE),(PERROR,'Error',ERRM)]
def doc(*lines): return ' ++ [10] ++ '.join(f'str "{l}"' if l else '[]' for l in lines)
p.gendecls.append(f'GenDecl {p.id()} [Some (TypeSpec ({p.idrec("Error",None,None,2)}) (XStruct [[{p.idrec("TheCode")}]]))]')
def function(f,name,defs,recv,params,result_types,docs,mkbody):
    ft,start=p.ftype(params,[p.field([],t) for t in result_types])
    d=p.decl(name,recv,doc(*docs) if docs else None,defs)
    b=p.id(); body=mkbody(); e=p.id()
    p.func(f,d,ft,body,b,e); p.decls.append(f); p.top.append(f'TopFunc {f}')
for (f,nm,ob) in ((1,'Code',CODE),(2,'Error',ERRM)):
    o=p.obj(); recv=p.field([p.idrec('e',o,PERROR)],PERROR)
    function(f,nm,ob,recv,[],[STRING],None,lambda: p.block(p.ret(p.sel(p.ident('e',o,PERROR),'TheCode',STRING))))
o=p.obj(); par1=p.field([p.idrec('code',o,STRING)],STRING)
function(3,'NewErr',NEW,None,[par1],[ERR],("Errors:","","- param: code -- the code"),
  lambda: p.block(p.ret(p.addr(p.comp((p.ident('code',o,STRING),),ERROR),PERROR))))
NEWO=p.obj(None,False,'DFunc 3'); FO=p.obj(None,False,'DFunc 4'); GO=p.obj(None,False,'DFunc 5')
SIG='TSignature [TBasic (str "int")] [TNamed 1] false'
def new(c): return p.call(p.ident('NewErr',NEWO,'TSignature [TBasic (str "string")] [TNamed 1] false',NEW),(p.strlit(c),),ERR)
THREE=("Errors:","","- one -- first","- two -- then","- three -- finally")
n1=p.obj(); par2=p.field([p.idrec('n',n1,INT)],INT)
def fbody():
    e=p.obj(); err=p.obj()
    return p.block(
      p.assign((p.ident('e',e,PERROR),),(p.addr(p.comp((p.strlit('one'),),ERROR),PERROR),)),
      p.assign((p.ident('err',err,ERR),),(p.call(p.ident('G',GO,SIG,G),(p.ident('n',n1,INT),),ERR),)),
      p.other('*ast.IfStmt',p.other('*ast.BinaryExpr',p.ident('err',err,ERR),p.nil()),p.block(p.ret(p.ident('err',err,ERR)))),
      p.other('*ast.IfStmt',p.block(p.assign((p.sel(p.ident('e',e,PERROR),'TheCode',STRING),),(p.strlit('two'),)))),
      p.ret(p.ident('e',e,PERROR)))
function(4,'F',F,None,[par2],[ERR],THREE,fbody)
n2=p.obj(); par3=p.field([p.idrec('n',n2,INT)],INT)
function(5,'G',G,None,[par3],[ERR],THREE,
  lambda: p.block(p.other('*ast.IfStmt',p.block(p.ret(new('three')))),
     p.ret(p.call(p.ident('F',FO,SIG,F),(p.ident('n',n2,INT),),ERR))))
print(p.coq())
