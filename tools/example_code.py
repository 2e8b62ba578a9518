"""Writes the package of rocq/theories/ExampleCode.v: error types with various Code methods."""
import sys; sys.path.insert(0,'/verif/tools')
from gopkg import *
p=Pkg('ec')
STRING='TBasic (str "string")'; ERR='TNamed 1'
E,PE,BAD,PBAD='TNamed 2','TPointer (TNamed 2)','TNamed 3','TPointer (TNamed 3)'
p.objnames+=[(2,'E'),(3,'Bad')]; p.tnames+=[1,2,3]; p.objtypes+=[(2,E),(3,BAD)]
p.underlying+=[(1,'TInterface 1'),(2,'TStruct [(str "msg", TBasic (str "string")); (str "code", TBasic (str "string"))]'),(3,'TStruct [(str "code", TBasic (str "string"))]')]
p.impl_error+=[ERR,PE,PBAD]; p.impl_ree+=[PE,PBAD]
p.named_methods+=[(2,['Code','Error','Set']),(3,['Code','Error'])]
p.gendecls.append(f'GenDecl {p.id()} [Some (TypeSpec ({p.idrec("E",None,None,2)}) (XStruct [[{p.idrec("msg")}; {p.idrec("code")}]])); Some (TypeSpec ({p.idrec("Bad",None,None,3)}) (XStruct [[{p.idrec("code")}]]))]')
def method(f,name,t,mkbody,results=(STRING,)):
    o=p.obj(); recv=p.field([p.idrec('e',o,t)],t)
    ft,_=p.ftype([],[p.field([],r) for r in results] if results else None)
    d=p.decl(name,recv,None,20+f); p.objnames.append((20+f,name)); p.methods.append((t,name,20+f))
    b=p.id(); body=mkbody(o); e=p.id(); p.func(f,d,ft,body,b,e); p.decls.append(f); p.top.append(f'TopFunc {f}')
def sel(o,t,n): return p.sel(p.ident('e',o,t),n,STRING)
def code1(o):
    c=p.obj(); d=p.obj()
    return p.block(p.assign((p.ident('c',c,STRING),),(p.strlit('default-code'),)),
      p.assign((p.ident('d',d,STRING),),(p.ident('c',c,STRING),)),
      p.other('*ast.IfStmt',p.block(p.assign((p.ident('d',d,STRING),),(p.strlit('other-code'),)))),
      p.other('*ast.IfStmt',p.block(p.ret(sel(o,PE,'code')))),
      p.ret(p.ident('d',d,STRING)))
method(1,'Code',PE,code1)
method(2,'Error',PE,lambda o:p.block(p.ret(sel(o,PE,'msg'))))
method(3,'Set',PE,lambda o:p.block(p.assign((sel(o,PE,'msg'),sel(o,PE,'code')),(p.strlit('x'),p.strlit('set-code'))),
   p.assign((sel(o,PE,'code'),),(p.strlit('invalid-'),))),None)
def code2(o):
    s=p.obj()
    return p.block(p.other('*ast.IfStmt',p.block(p.ret(p.call(p.ident('f',None,None),(),STRING)))),p.ret(p.strlit('not valid')))
method(4,'Code',PBAD,code2)
method(5,'Error',PBAD,lambda o:p.block(p.ret(sel(o,PBAD,'code'))))
print(p.coq())
