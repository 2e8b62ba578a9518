"""Writes rocq/theories/WholeWitness.v: the packages of the programs of ExampleWhole.v."""
import sys,io,contextlib; sys.path.insert(0,'/verif/tools')
with contextlib.redirect_stdout(io.StringIO()):
    from example_witness import *
from example_witness import pkg,function,err,doc,STRING,INT,ERR,ERROR,PERROR,IMPL,GETTER,DOCA,NONE
import example_witness as w
w.out.clear()
DOCC=("Errors:","","- param: code -- x")
def iface(p,name,obj,ty,elems): p.gendecls.append(f'GenDecl {p.id()} [Some (TypeSpec ({p.idrec(name,None,None,obj)}) (XInterface {p.tyexpr(ty)} [{"; ".join(elems)}]))]')
def method(p,name,obj,params,results,docs):
    ft,_=p.ftype(params,[p.field([],t) for t in results])
    return f'IMethod {p.id()} ({p.idrec(name,None,None,obj)}) (Some ({doc(*docs)})) ({ft})'
def setup(name,meth,with_impl=True):
    p=pkg(name); p.objnames[-1]=(4,'Impl'); p.objnames+=[(31,meth),(41,'Use'),(24,meth)]; p.methods+=[('TNamed 3',meth,31)]
    if with_impl: p.methods+=[(IMPL,meth,24)]
    return p
USE='TSignature [TNamed 3] [TNamed 1] false'
def lib(name,meth,params,arg,docs):
    p=setup(name,meth,False)
    ps=[p.field([p.idrec('code',p.obj(),STRING)],STRING)] if arg else []
    iface(p,'Getter',3,'TNamed 3',[method(p,meth,31,ps,[ERR],docs)]); p.objtypes.append((3,'TNamed 3'))
    g=p.obj()
    sig='TSignature [%s] [TNamed 1] false'%('TBasic (str "string")' if arg else '')
    function(p,1,'Use',41,[p.field([p.idrec('g',g,GETTER)],GETTER)],[ERR],docs,
      lambda:p.block(p.ret(p.call(p.sel(p.ident('g',g,GETTER),meth,sig,(31,GETTER)),(p.strlit(arg),) if arg else (),ERR))))
    return p
def impl(p,f,meth,docs,ctor,code):
    p.gendecls.append(f'GenDecl {p.id()} [Some (TypeSpec ({p.idrec("Impl",None,None,4)}) (XStruct []))]'); p.objtypes.append((4,IMPL))
    if ctor:
        o=p.obj(); ps=[p.field([p.idrec('code',o,STRING)],STRING)]
        body=lambda:p.block(p.ret(p.addr(p.comp((p.ident('code',o,STRING),),ERROR),PERROR)))
    else: ps=[]; body=lambda:p.block(p.ret(err(p,code)))
    function(p,f,meth,24,ps,[ERR],docs,body,recv=p.field([],IMPL))
def user(p,f,docs):
    def b():
        q=p.ident('lib'); p.pkgnames.append((q[0],'lib'))
        return p.block(p.ret(p.call(p.sel(q,'Use',USE,None,41),(p.comp((),IMPL),),ERR)))
    function(p,f,'F',42,[],[ERR],docs,b)
p=lib('wp_lib','Get',[],None,DOCA); w.emit(p,'''
<<
    package lib
    type Getter interface { // Errors: a
      Get() error }
    // Errors: a
    func Use(g Getter) error { return g.Get() }
>>''')
p=setup('wp_app','Get'); impl(p,1,'Get',DOCA,False,'a'); user(p,2,DOCA); w.emit(p,'''
<<
    package app
    type Impl struct{}
    // Errors: a
    func (Impl) Get() error { return &Error{"a"} }
    // Errors: a
    func F() error { return lib.Use(Impl{}) }
>>''')
p=lib('wc_lib','Make',[],'b',NONE); w.emit(p,'''
<<
    package lib
    type Getter interface { // Errors: none
      Make(code string) error }
    // Errors: none
    func Use(g Getter) error { return g.Make("b") }
>>''')
p=setup('wc_app','Make'); impl(p,1,'Make',DOCC,True,None); user(p,2,NONE); w.emit(p,'''
<<
    package app
    type Impl struct{}
    // Errors: param: code
    func (Impl) Make(code string) error { return &Error{code} }
    // Errors: none
    func F() error { return lib.Use(Impl{}) }
>>''')
p=setup('wu_other','Get'); impl(p,1,'Get',None,False,'b'); w.emit(p,'''
<<
    package other
    type Impl struct{}
    func (Impl) Get() error { return &Error{"b"} }
>>''')
p=setup('wu_app','Get'); user(p,1,DOCA); w.emit(p,'''
<<
    package app
    // Errors: a
    func F() error { return lib.Use(other.Impl{}) }
>>''')
p=setup('wo_app','Get'); MK=p.obj(None,False,'DFunc 3')
p.gendecls.append(f'GenDecl {p.id()} [Some (TypeSpec ({p.idrec("Impl",None,None,4)}) (XStruct []))]'); p.objtypes.append((4,IMPL))
function(p,1,'Get',24,[],[ERR],None,lambda:p.block(p.ret(p.call(p.ident('mk',MK,'TSignature [] [TNamed 1] false',43),(),ERR))),recv=p.field([],IMPL))
user(p,2,DOCA); function(p,3,'mk',43,[],[ERR],DOCA,lambda:p.block(p.ret(err(p,'a')))); w.emit(p,'''
<<
    package app
    type Impl struct{}
    func (Impl) Get() error { return mk() }
    // Errors: a
    func F() error { return lib.Use(Impl{}) }
    // Errors: a
    func mk() error { return &Error{"a"} }
>>''')
print('''(** * The packages of ExampleWhole.v.  Written by tools/example_whole.py.

    The type Error is that of Witness.v. *)
From Coq Require Import Ascii String.
From stdpp Require Import base list gmap.
From Verif Require Import GoString ErrorCode Scc Engine CodeSet Annotation Constant GoAst Taint Extract Analyse ExampleBase.
Local Open Scope N_scope.
''')
print('\n\n'.join(w.out))
