"""Writes the packages of rocq/theories/ExecWitness.v: programs that are accepted although they return undeclared codes."""
import sys; sys.path.insert(0,'/verif/tools')
from gopkg import *
STRING='TBasic (str "string")'; INT='TBasic (str "int")'; BOOL='TBasic (str "bool")'; ERR='TNamed 1'
ERROR='TNamed 2'; PERROR='TPointer (TNamed 2)'; FIXED='TNamed 5'; BOTH='TNamed 6'; OTHER='TNamed 7'
def doc(*lines): return ' ++ [10] ++ '.join(f'str "{l}"' if l else '[]' for l in lines)
class W(Pkg):
    def __init__(self,name):
        Pkg.__init__(self,name); p=self
        p.objnames+=[(2,'Error'),(5,'Fixed'),(6,'Both'),(7,'Other')]; p.tnames+=[1,2,5,6,7]
        p.underlying+=[(1,'TInterface 1'),(2,'TStruct [(str "TheCode", TBasic (str "string"))]'),(5,'TStruct []'),
          (6,'TStruct [(str "TheCode", TBasic (str "string"))]'),(7,'TStruct []')]
        p.impl_error+=[ERR,PERROR,FIXED,'TPointer (TNamed 5)',BOTH]; p.impl_ree+=[PERROR,FIXED,'TPointer (TNamed 5)',BOTH]
        p.named=[]
    def nm(self,label,node): self.named.append((label,node[1])); return node
    def declare(self,name,o,ty,idty=None):
        """var name ty"""
        i=self.idrec(name,o,ty)
        self.objs[o]=(True,self.objs[o][1],f'DValueSpec [{i}] []')
        return self.other('*ast.DeclStmt',self.nm('var_'+name,self.mk(f'KValueSpec [{i}] (Some {self.tyexpr(ty)})')))
    def v(self,name,o,ty,label=None):
        n=self.ident(name,o,ty)
        return self.nm(label,n) if label else n
    def new(self,c,label=None):
        n=self.addr(self.comp((self.strlit(c),),ERROR),PERROR)
        return self.nm(label,n) if label else n
    def set(self,label,l,r): return self.nm(label,self.assign((l,),(r,)))
    def ret1(self,e,label='return'): return self.nm(label,self.ret(e))
    def start(self,name,ty,c,o):
        return self.set('start',self.v(name,o,ty),self.new(c))
def function(p,f,name,defs,params,results,docs,mkbody,recv=None,fields=None):
    ft,start=p.ftype(params,fields if fields is not None else None if results is None else [p.field([],t) for t in results])
    d=p.decl(name,recv,doc(*docs) if docs else None,defs)
    b=p.id(); body=mkbody() if mkbody else None; e=p.id()
    p.func(f,d,ft,body,b,e); p.decls.append(f); p.top.append(f'TopFunc {f}')
    p.objnames.append((defs,name))
def lit(p,f,mkbody):
    ft,_=p.ftype([],None); s=p.id(); b=mkbody(); e=p.id(); p.func(f,'None',ft,b,s,e)
    return p.mk(f'KFuncLit {f}',(b,),'TSignature [] [] false')
DOCA=("Errors:","","- a -- x"); DOCK=("Errors:","","- k -- x"); NONE=("Errors: none",)
out=[]
def emit(p,comment):
    out.append(f'(** {comment} *)\n'+p.coq()+'\n'+'\n'.join(f'Definition {p.name}_{l} : node := {t}.' for l,t in p.named))
def witness(name,docs,comment,mkbody,results=(ERR,)):
    p=W('x_'+name); function(p,1,'F',21,[],list(results),docs,lambda: mkbody(p)); emit(p,'['+comment+']')
def st(p,*kids): return p.other('*ast.ExprStmt',*kids)

def b(p):
    e=p.obj(); return p.block(p.declare('e',e,FIXED),p.ret1(p.v('e',e,FIXED)))
witness('zero',NONE,'func F() error { var e Fixed; return e }',b)
def b(p):
    x=p.obj(); e=p.obj()
    return p.block(p.declare('x',x,ERR),
      p.nm('assert',p.assign((p.v('e',e,FIXED),p.ident('_')),(p.mk(f'KTypeAssert (Some {p.tyexpr(FIXED)})',(p.v('x',x,ERR),),FIXED),))),
      p.ret1(p.v('e',e,FIXED)))
witness('assert',NONE,'func F() error { var x error; e, _ := x.(Fixed); return e }',b)
def b(p):
    t=p.obj(); return p.block(p.declare('t',t,OTHER),p.ret1(p.call(p.ident('Both',None,BOTH,6),(p.v('t',t,OTHER),),BOTH)))
witness('conv',DOCK,'func F() error { var t Other; return Both(t) }',b)
def b(p):
    return p.block(p.nm('defer',p.other('*ast.DeferStmt',p.call(lit(p,2,lambda:p.block(st(p,p.call(p.ident('recover',None,'TSignature [] [TOther 1] false')))))))),
      st(p,p.call(p.ident('panic',None,'TSignature [TOther 1] [] false'),(p.strlit('x'),))))
witness('recover',NONE,'func F() Fixed { defer func() { recover() }(); panic("x") }',b,(FIXED,))
p=W('x_defer'); err=p.obj(); fld=p.field([p.idrec('err',err,ERR)],ERR)
function(p,1,'F',21,[],None,NONE,lambda:p.block(p.nm('defer',p.other('*ast.DeferStmt',p.call(lit(p,2,lambda:p.block(
   p.nm('start',p.assign((p.v('err',err,ERR),),(p.new('b'),)))))))),p.ret1(p.nil())),fields=[fld])
emit(p,'[func F() (err error) { defer func() { err = &Error{"b"} }(); return nil }]')
def b(p):
    n=p.obj(); return p.block(p.start('nil',PERROR,'b',n),p.ret1(p.v('nil',n,PERROR)))
witness('nil',NONE,'func F() error { nil := &Error{"b"}; return nil }',b)
def b(p):
    n=p.obj(); return p.block(p.declare('s',n,OTHER),p.ret1(p.sel(p.v('s',n,OTHER),'nil',ERR)))
witness('nil_field',NONE,'func F() error { var s Other; return s.nil }',b)
def field(p,e,label=None):
    n=p.sel(p.v('e',e,PERROR),'TheCode',STRING); return p.nm(label,n) if label else n
def b(p):
    e=p.obj()
    return p.block(p.start('e',PERROR,'a',e),p.set('set',p.mk('KOther (str "*ast.StarExpr")',(p.v('e',e,PERROR),),ERROR),p.comp((p.strlit('b'),),ERROR)),p.ret1(p.v('e',e,PERROR)))
witness('place',DOCA,'func F() error { e := &Error{"a"}; *e = Error{"b"}; return e }',b)
def b(p):
    e=p.obj(); q=p.obj()
    return p.block(p.start('e',PERROR,'a',e),p.set('alias',p.v('p',q,PERROR),p.v('e',e,PERROR)),p.set('set',p.sel(p.v('p',q,PERROR),'TheCode',STRING),p.strlit('b')),p.ret1(p.v('e',e,PERROR)))
witness('alias',DOCA,'func F() error { e := &Error{"a"}; p := e; p.TheCode = "b"; return e }',b)
def b(p):
    e=p.obj()
    return p.block(p.start('e',PERROR,'a',e),p.assign((p.ident('_'),),(p.call(p.sel(p.ident('lib'),'Run','TSignature [TSignature [] [] false] [TBasic (str "int")] false',None,31),
        (lit(p,2,lambda:p.block(p.set('set',field(p,e),p.strlit('b')))),),INT),)),p.ret1(p.v('e',e,PERROR)))
witness('closure',DOCA,'func F() error { e := &Error{"a"}; _ = lib.Run(func() { e.TheCode = "b" }); return e }',b)
def b(p):
    e=p.obj()
    return p.block(p.start('e',PERROR,'a',e),p.set('set',p.mk('KParen',(field(p,e),),STRING),p.strlit('b')),p.ret1(p.v('e',e,PERROR)))
witness('paren',DOCA,'func F() error { e := &Error{"a"}; (e.TheCode) = "b"; return e }',b)
def b(p):
    e=p.obj(); s=p.set('set',field(p,e),p.strlit('b')); p.compound.append(s[0])
    # the statement comes after the declaration of e
    return p.block(p.start('e',PERROR,'a',e),s,p.ret1(p.v('e',e,PERROR)))
witness('compound',("Errors:","","- a -- x","- b -- y"),'func F() error { e := &Error{"a"}; e.TheCode += "b"; return e }',b)
def b(p):
    e=p.obj()
    return p.block(p.start('e',PERROR,'a',e),p.nm('range',p.mk('KRange true true',(p.ident('_'),field(p,e),p.ident('codes',None,'TSlice (TBasic (str "string"))'),p.block()))),p.ret1(p.v('e',e,PERROR)))
witness('range_field',DOCA,'func F() error { e := &Error{"a"}; for _, e.TheCode = range codes {}; return e }',b)
def b(p):
    e=p.obj(); q=p.obj()
    return p.block(p.start('e',PERROR,'a',e),p.set('wrap',p.v('w',q,OTHER),p.comp((p.v('e',e,PERROR),),OTHER)),
      p.set('set',p.sel(p.v('w',q,OTHER),'TheCode',STRING),p.strlit('b')),p.ret1(p.v('e',e,PERROR)))
witness('promoted',DOCA,'type Other struct { *Error }; func F() error { e := &Error{"a"}; w := Other{e}; w.TheCode = "b"; return e }',b)
def b(p):
    e=p.obj(); q=p.obj()
    return p.block(p.start('e',PERROR,'a',e),p.set('pointer',p.v('p',q,'TPointer (TBasic (str "string"))'),p.nm('address',p.addr(field(p,e),'TPointer (TBasic (str "string"))'))),
      p.set('set',p.mk('KOther (str "*ast.StarExpr")',(p.v('p',q,'TPointer (TBasic (str "string"))'),),STRING),p.strlit('b')),p.ret1(p.v('e',e,PERROR)))
witness('pointer',DOCA,'func F() error { e := &Error{"a"}; p := &e.TheCode; *p = "b"; return e }',b)
p=W('x_setter'); SO=p.obj(None,False,'DFunc 2')
def b():
    e=p.obj()
    return p.block(p.start('e',PERROR,'a',e),st(p,p.nm('call',p.call(p.ident('set',SO,'TSignature [TPointer (TNamed 2)] [] false',22),(p.v('e',e,PERROR),)))),p.ret1(p.v('e',e,PERROR)))
function(p,1,'F',21,[],[ERR],DOCA,b)
e2=p.obj(); par2=p.field([p.idrec('e',e2,PERROR)],PERROR)
function(p,2,'set',22,[par2],None,None,lambda:p.block(p.set('set',field(p,e2),p.strlit('b'))))
emit(p,'[func F() error { e := &Error{"a"}; set(e); return e }; func set(e *Error) { e.TheCode = "b" }]')
def b(p):
    e=p.obj(); q=p.obj(); r=p.id()
    return p.block(p.start('e',PERROR,'a',e),
      p.nm('range',p.mk('KRange true true',(p.ident('_'),p.v('p',q,PERROR),p.comp((p.v('e',e,PERROR),),'TSlice (TPointer (TNamed 2))'),
         p.block(p.set('set',p.sel(p.v('p',q,PERROR),'TheCode',STRING),p.strlit('b')))))),p.ret1(p.v('e',e,PERROR)))
witness('range_alias',DOCA,'func F() error { e := &Error{"a"}; for _, p := range []*Error{e} { p.TheCode = "b" }; return e }',b)
def b(p):
    e=p.obj()
    return p.block(p.nm('range',p.mk('KRange true true',(p.ident('_'),p.v('err',e,ERR),p.ident('errs',None,'TSlice (TNamed 1)'),
         p.block(p.ret1(p.v('err',e,ERR)))))),p.ret(p.nil()))
witness('range',NONE,'func F() error { for _, err := range errs { return err }; return nil }',b)
def b(p):
    e=p.obj()
    return p.block(p.declare('t',e,PERROR),
      p.other('*ast.IfStmt',p.call(p.sel(p.ident('errors'),'As','TSignature [TNamed 1; TOther 1] [TBasic (str "bool")] false',None,31),
          (p.ident('cause',None,ERR),p.nm('address',p.addr(p.v('t',e,PERROR),'TPointer (TPointer (TNamed 2))'))),BOOL),p.block(p.ret1(p.v('t',e,PERROR)))),
      p.ret(p.nil()))
witness('exposed',NONE,'func F() error { var t *Error; if errors.As(cause, &t) { return t }; return nil }',b)
def b(p):
    e=p.obj(); q=p.obj(); r=p.obj()
    return p.block(p.start('e',PERROR,'a',e),p.declare('p',q,PERROR),
      p.assign((p.v('q',r,'TPointer (TPointer (TNamed 2))'),),(p.nm('address',p.addr(p.v('p',q,PERROR),'TPointer (TPointer (TNamed 2))')),)),
      p.assign((p.mk('KOther (str "*ast.StarExpr")',(p.v('q',r,'TPointer (TPointer (TNamed 2))'),),PERROR),),(p.v('e',e,PERROR),)),
      p.set('set',p.sel(p.v('p',q,PERROR),'TheCode',STRING),p.strlit('b')),p.ret1(p.v('e',e,PERROR)))
witness('exposed_alias',DOCA,'func F() error { e := &Error{"a"}; var p *Error; q := &p; *q = e; p.TheCode = "b"; return e }',b)
print("""(** * Programs that the analyzer accepts although they return errors with undeclared codes.

    All of them import a package with the error types
<<
    type Error struct { TheCode string }     // the code of an Error is its field TheCode
    type Fixed struct { ... }                // the code of a Fixed is "k"
    type Both struct { TheCode string }      // the code of a Both is "k" or its field TheCode
>>
    and a type Other.  The packages, and the terms of the nodes in them, are written by tools/example_exec.py. *)
From Coq Require Import Ascii String.
From stdpp Require Import base list gmap.
From Verif Require Import GoString ErrorCode Scc Engine CodeSet Annotation Constant GoAst Taint Extract Analyse ExampleBase.
Local Open Scope N_scope.

Definition exec_facts : facts :=
  Facts ∅ ∅ (<[2 := ErrorType ∅ (Some (str "TheCode", 0%nat))]> (<[5 := ErrorType {[ str "k" ]} None]> {[ 6 := ErrorType {[ str "k" ]} (Some (str "TheCode", 0%nat)) ]})) ∅.
(** The assignments [l] are compound. *)
Definition with_compound (l : list nid) (i : typeinfo) : typeinfo :=
  TypeInfo (ti_type i) (ti_value i) (ti_uses i) (ti_defs i) (ti_selection i) (ti_is_typename i) (ti_pkgname i) (ti_objname i) (ti_objtype i) (ti_underlying i)
    (ti_methods i) (ti_implements_error i) (ti_implements_ree i) (ti_implements_cause i) (ti_implements i) (ti_named_methods i) (ti_is_print i) (ti_is_upper i)
    (fun n => bool_decide (n ∈ l)).
""")
print('\n\n'.join(out))
