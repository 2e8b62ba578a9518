"""Writes the packages of rocq/theories/Witness.v: programs on which the analyzer crashes or gives a wrong answer."""
import sys; sys.path.insert(0,'/verif/tools')
from gopkg import *
STRING='TBasic (str "string")'; INT='TBasic (str "int")'; BOOL='TBasic (str "bool")'; ERR='TNamed 1'
ERROR='TNamed 2'; PERROR='TPointer (TNamed 2)'; GETTER='TNamed 3'; IMPL='TNamed 4'
def doc(*lines): return ' ++ [10] ++ '.join(f'str "{l}"' if l else '[]' for l in lines)
def pkg(name):
    """imports: type Error struct{TheCode string} with methods Code, Error on *Error (2); type Getter interface{ Get() error } (3)"""
    p=Pkg(name); p.objnames+=[(2,'Error'),(3,'Getter'),(4,'impl')]; p.tnames+=[1,2,3,4]
    p.underlying+=[(1,'TInterface 1'),(2,'TStruct [(str "TheCode", TBasic (str "string"))]'),(3,'TInterface 3'),(4,'TStruct []')]
    p.impl_error+=[ERR,PERROR]; p.impl_ree+=[PERROR]
    return p
def function(p,f,name,defs,params,results,docs,mkbody,recv=None):
    ft,start=p.ftype(params,None if results is None else [p.field([],t) for t in results])
    d=p.decl(name,recv,doc(*docs) if docs else None,defs)
    b=p.id(); body=mkbody() if mkbody else None; e=p.id()
    p.func(f,d,ft,body,b,e); p.decls.append(f); p.top.append(f'TopFunc {f}')
    p.objnames.append((defs,name))
def lit(p,f,params,results,mkbody):
    ft,_=p.ftype(params,[p.field([],t) for t in results]); s=p.id(); b=mkbody(); e=p.id(); p.func(f,'None',ft,b,s,e)
    return p.mk(f'KFuncLit {f}',(b,),'TSignature [] [TNamed 1] false')
def err(p,c): return p.addr(p.comp((p.strlit(c),),ERROR),PERROR)
DOCA=("Errors:","","- a -- x"); NONE=("Errors: none",)
out=[]
def emit(p,comment): out.append(f'(** {comment} *)\n'+p.coq())

# lambda called twice
p=pkg('w_lambda')
def b():
    f=p.obj()
    l=lit(p,2,[],[ERR],lambda:p.block(p.ret(err(p,'a'))))
    call=lambda: p.call(p.ident('f',f,'TSignature [] [TNamed 1] false',41),(),ERR)
    return p.block(p.assign((p.ident('f',f,'TSignature [] [TNamed 1] false'),),(l,)),p.other('*ast.IfStmt',p.block(p.ret(call()))),p.ret(call()))
function(p,1,'F',21,[],[ERR],DOCA,b); emit(p,'[func F() error { f := func() error { return &Error{"a"} }; if ... { return f() }; return f() }]')

# map lookup
p=pkg('w_map')
def b():
    v=p.obj(); m=p.obj()
    return p.block(p.assign((p.ident('err',v,ERR),p.ident('ok')),(p.mk('KIndex',(p.ident('m',m,'TMap (TBasic (str "int")) (TNamed 1)'),p.mk('KBasicLit',(),INT)),ERR),)),p.ret(p.ident('err',v,ERR)))
function(p,1,'F',21,[],[ERR],DOCA,b); emit(p,'[func F() error { err, ok := m[0]; return err }]')

# no body
p=pkg('w_body'); function(p,1,'F',21,[],[ERR],DOCA,None); emit(p,'[func F() error], implemented in assembly')
# empty result list
p=pkg('w_results'); function(p,1,'f',21,[],[],None,lambda:p.block()); emit(p,'[func f() () {}]')

# return g() with several results, one of which is an error interface
p=pkg('w_multi')
def b():
    g=p.obj(None,False,'DFunc 2')
    return p.block(p.ret(p.call(p.ident('g',g,'TSignature [] [TNamed 3; TNamed 3] false',22),(),'TTuple [TNamed 3; TNamed 3]')))
function(p,1,'F',21,[],[GETTER,GETTER],None,b)
function(p,2,'g',22,[],[GETTER,GETTER],None,lambda:p.block(p.ret(p.nil(),p.nil())))
emit(p,'[func F() (Getter, Getter) { return g() }]')

# constructor called with a multi value call
p=pkg('w_ctor')
o1=p.obj(); o2=p.obj(); par1=p.field([p.idrec('n',o1,INT),p.idrec('code',o2,STRING)],INT)
p.types.append((int(p.idrec('code',o2,STRING).split()[1]),STRING))
function(p,1,'NewErr',21,[par1],[ERR],("Errors:","","- param: code -- x"),lambda:p.block(p.ret(p.addr(p.comp((p.ident('code',o2,STRING),),ERROR),PERROR))))
N=p.obj(None,False,'DFunc 1'); G=p.obj(None,False,'DFunc 3')
function(p,2,'F',22,[],[ERR],DOCA,lambda:p.block(p.ret(p.call(p.ident('NewErr',N,'TSignature [TBasic (str "int"); TBasic (str "string")] [TNamed 1] false',21),
   (p.call(p.ident('two',G,'TSignature [] [TBasic (str "int"); TBasic (str "string")] false',23),(),'TTuple [TBasic (str "int"); TBasic (str "string")]'),),ERR))))
function(p,3,'two',23,[],[INT,STRING],None,lambda:p.block(p.ret(p.mk('KBasicLit',(),INT),p.strlit('a'))))
emit(p,'[func NewErr(n int, code string) error; func F() error { return NewErr(two()) }]')

# spreading a slice
p=pkg('w_spread')
xs=p.obj()
function(p,1,'f',21,[p.field([p.idrec('xs',xs,'TSlice (TNamed 3)')],'TSlice (TNamed 3)')],None,None,lambda:p.block())
ys=p.obj(); Fo=p.obj(None,False,'DFunc 1')
function(p,2,'F',22,[p.field([p.idrec('ys',ys,'TSlice (TNamed 3)')],'TSlice (TNamed 3)')],None,None,
  lambda:p.block(p.other('*ast.ExprStmt',p.call(p.ident('f',Fo,'TSignature [TSlice (TNamed 3)] [] true',21),(p.ident('ys',ys,'TSlice (TNamed 3)'),)))))
emit(p,'[func f(xs ...Getter) {}; func F(ys []Getter) { f(ys...) }]')

# annotation on the first of two returns of the same variable
p=pkg('w_annotation')
def b():
    v=p.obj()
    return p.block(p.assign((p.ident('err',v,PERROR),),(err(p,'a'),)),
      p.other('*ast.IfStmt',p.block(p.ret(p.ident('err',v,PERROR),comment=['str "Error Codes -= a"']))),p.ret(p.ident('err',v,PERROR)))
function(p,1,'F',21,[],[ERR],NONE,b)
emit(p,'[func F() error { err := &Error{"a"}; if ... { /* Error Codes -= a */ return err }; return err }], declared to return no codes')

# closure parameter whose address is returned
p=pkg('w_closure')
def b():
    v=p.obj(); q=p.obj()
    l=lit(p,2,[p.field([p.idrec('q',q,ERROR)],ERROR)],[],lambda:p.block(p.assign((p.ident('err',v,ERR),),(p.addr(p.ident('q',q,ERROR),PERROR),))))
    return p.block(p.other('*ast.DeclStmt'),p.other('*ast.ExprStmt',p.call(l,(p.comp((p.strlit('a'),),ERROR),))),p.ret(p.ident('err',v,ERR)))
function(p,1,'F',21,[],[ERR],NONE,b)
emit(p,'[func F() error { var err error; func(q Error) { err = &q }(Error{"a"}); return err }], declared to return no codes')

# range over errors
p=pkg('w_range')
def b():
    es=p.obj(); v=p.obj()
    return p.block(p.assign((p.ident('errs',es,'TSlice (TPointer (TNamed 2))'),),(p.comp((err(p,'a'),),'TSlice (TPointer (TNamed 2))'),)),
      p.mk('KRange true true',(p.ident('_'),p.ident('err',v,PERROR),p.ident('errs',es,'TSlice (TPointer (TNamed 2))'),p.block(p.ret(p.ident('err',v,PERROR))))),
      p.ret(p.nil()))
function(p,1,'F',21,[],[ERR],NONE,b)
emit(p,'[func F() error { errs := []*Error{&Error{"a"}}; for _, err := range errs { return err }; return nil }], declared to return no codes')

# long code
long='a'*71
p=pkg('w_long'); function(p,1,'F',21,[],[ERR],("Errors:","",f"- {long} -- x"),lambda:p.block(p.ret(err(p,long))))
emit(p,'[func F() error { return &Error{"aaa...a"} }] with a code of 71 characters, which is also declared')

# named function type with two results
p=pkg('w_functype')
p.objnames.append((5,'Fn')); p.underlying.append((5,'TSignature [] [TBasic (str "int"); TNamed 1] false'))
def b():
    f=p.obj(); v=p.obj(); g=p.obj(None,False,'DFunc 2')
    return p.block(p.assign((p.ident('f',f,'TNamed 5'),),(p.ident('two',g,'TSignature [] [TBasic (str "int"); TNamed 1] false',22),)),
      p.assign((p.ident('_'),p.ident('err',v,ERR)),(p.call(p.ident('f',f,'TNamed 5',42),(),'TTuple [TBasic (str "int"); TNamed 1]'),)),p.ret(p.ident('err',v,ERR)))
function(p,1,'F',21,[],[ERR],DOCA,b)
function(p,2,'two',22,[],[INT,ERR],None,lambda:p.block(p.ret(p.mk('KBasicLit',(),INT),err(p,'a'))))
emit(p,'[type Fn func() (int, error); func F() error { var f Fn; f = two; _, err := f(); return err }]')

# conversion of an argument of a named function type: not checked
p=pkg('w_convert')
p.objnames.append((5,'Fn')); p.underlying.append((5,'TSignature [TNamed 3] [] false'))
p.methods+=[(IMPL,'Get',31),(GETTER,'Get',32)]
def b(): 
    f=p.obj()
    return p.block(p.other('*ast.ExprStmt',p.call(p.ident('f',f,'TNamed 5',43),(p.comp((),IMPL),))))
fo=p.obj()
function(p,1,'F',21,[p.field([p.idrec('f',fo,'TNamed 5')],'TNamed 5')],None,None,b)
function(p,2,'Get',31,[],[ERR],DOCA,lambda:p.block(p.ret(err(p,'a'))),recv=p.field([],IMPL))
emit(p,'[type Fn func(Getter); func F(f Fn) { f(impl{}) }], where Getter.Get declares no codes and impl.Get declares a')
print('\n\n'.join(out))
