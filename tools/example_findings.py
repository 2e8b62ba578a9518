"""Writes rocq/theories/Findings.v: further programs on which the analyzer gives a wrong answer."""
import sys,io,contextlib; sys.path.insert(0,'/verif/tools')
with contextlib.redirect_stdout(io.StringIO()):
    from example_witness import *
import example_witness as w
w.out.clear()
def iface(p,name,obj,ty,elems): p.gendecls.append(f'GenDecl {p.id()} [Some (TypeSpec ({p.idrec(name,None,None,obj)}) (XInterface {p.tyexpr(ty)} [{"; ".join(elems)}]))]')
def tspec(p,name,obj,ty,x):
    g=p.id(); p.gendecls.append(f'GenDecl {g} [Some (TypeSpec ({p.idrec(name,None,None,obj)}) {x})]'); p.objtypes.append((obj,ty)); return g

# 8: two fields of an error without code field
p=pkg('f_field')
p.objnames.append((5,'Const')); p.tnames.append(5); p.underlying.append((5,'TStruct [(str "A", TBasic (str "int")); (str "B", TBasic (str "int"))]'))
p.impl_error.append('TPointer (TNamed 5)'); p.impl_ree.append('TPointer (TNamed 5)')
def b():
    e=p.obj(); E=lambda: p.ident('e',e,'TPointer (TNamed 5)')
    return p.block(p.assign((E(),),(p.addr(p.comp((),'TNamed 5'),'TPointer (TNamed 5)'),)),
      p.assign((p.sel(E(),'A',INT),p.sel(E(),'B',INT)),(p.mk('KBasicLit',(),INT),p.mk('KBasicLit',(),INT))),p.ret(E()))
function(p,1,'F',21,[],[ERR],DOCA,b)
emit(p,'[func F() error { e := &Const{}; e.A, e.B = 1, 2; return e }], where the Code method of *Const returns "a"')

# 13: function variable that is nil
p=pkg('f_nil')
def b():
    f=p.obj(); S='TSignature [] [TNamed 1] false'
    return p.block(p.other('*ast.DeclStmt'),p.assign((p.ident('f',f,S),),(p.ident('nil',None,'TUntypedNil',44),)),
      p.assign((p.ident('f',f,S),),(lit(p,2,[],[ERR],lambda:p.block(p.ret(err(p,'a')))),)),
      p.ret(p.call(p.ident('f',f,S,41),(),ERR)))
function(p,1,'F',21,[],[ERR],DOCA,b)
emit(p,'[func F() error { var f func() error; f = nil; f = func() error { return &Error{"a"} }; return f() }], declared to return a')

# 20: two functions with a blank name
p=pkg('f_blank')
function(p,1,'_',21,[],[ERR],NONE,lambda:p.block(p.ret(err(p,'a'))))
function(p,2,'_',22,[],[ERR],NONE,lambda:p.block(p.ret(p.nil())))
emit(p,'[func _() error { return &Error{"a"} }; func _() error { return nil }], both declared to return no codes')

# 21: an alias of an imported error type
p=pkg('f_alias'); GA=tspec(p,'A',9,ERROR,'XOther'); emit(p,'[type A = other.Error]')

# 15, 27: a local error type
def local(name,alias,setter):
    p=Pkg(name)
    E,PE='TNamed 2','TPointer (TNamed 2)'
    p.objnames+=[(2,'E')]; p.tnames+=[1,2]
    p.underlying+=[(1,'TInterface 1'),(2,'TStruct [(str "code", TBasic (str "string"))]')]
    p.impl_error+=[ERR,PE]; p.impl_ree+=[PE]; p.named_methods+=[(2,['Code','Error']+(['With'] if setter else []))]
    p.gendecls.append(f'GenDecl {p.id()} [Some (TypeSpec ({p.idrec("E",None,None,2)}) (XStruct [[{p.idrec("code")}]]))]'); p.objtypes.append((2,E))
    if alias: tspec(p,'A',9,E,'XOther')
    def method(f,nm,mkbody,params,results,docs):
        o=p.obj(); recv=p.field([p.idrec('e',o,PE)],PE)
        ft,_=p.ftype(params,[p.field([],r) for r in results])
        d=p.decl(nm,recv,doc(*docs) if docs else None,20+f); p.objnames.append((20+f,nm)); p.methods.append((PE,nm,20+f))
        b=p.id(); body=mkbody(o); e=p.id(); p.func(f,d,ft,body,b,e); p.decls.append(f); p.top.append(f'TopFunc {f}')
    def code(o):
        sel=lambda: p.sel(p.ident('e',o,PE),'code',STRING)
        if alias: return p.block(p.other('*ast.IfStmt',p.block(p.ret(sel()))),p.ret(p.strlit('a')))
        return p.block(p.ret(sel()))
    method(1,'Code',code,[],[STRING],None)
    method(2,'Error',lambda o:p.block(p.ret(p.sel(p.ident('e',o,PE),'code',STRING))),[],[STRING],None)
    if setter:
        c=p.obj(); par=p.field([p.idrec('code',c,STRING)],STRING)
        def body(o):
            n=p.obj()
            return p.block(p.assign((p.sel(p.ident('e',o,PE),'code',STRING),),(p.ident('code',c,STRING),)),
              p.ret(p.addr(p.comp((p.ident('code',c,STRING),),E),PE)))
        method(3,'With',body,[par],[ERR],("Errors:","","- param: code -- x"))
    if alias: function(p,4,'F',24,[],[ERR],("Errors:","","- a -- x"),lambda:p.block(p.ret(p.addr(p.comp((p.strlit('b'),),E),PE))))
    return p
p=local('f_setter',False,True)
emit(p,'''
<<
    type E struct { code string }
    func (e *E) Code() string { return e.code }
    func (e *E) Error() string { return e.code }
    // Errors:
    //
    //  - param: code -- x
    func (e *E) With(code string) error { e.code = code; return &E{code} }
>>''')
p=local('f_local_alias',True,False)
emit(p,'''F is declared to return a;
<<
    type E struct { code string }
    type A = E
    func (e *E) Code() string { if ... { return e.code }; return "a" }
    func (e *E) Error() string { return e.code }
    func F() error { return &E{"b"} }
>>''')

# 23, 24: embedding a dot-imported interface, or an alias of an imported one
def embed(name,alias,elem):
    p=pkg(name)
    p.objtypes+=[(5,'TNamed 5')]; p.tnames.append(5); p.objnames+=[(5,'J'),(32,'Get')]; p.underlying.append((5,'TInterface 5'))
    p.methods+=[('TNamed 3','Get',32),('TNamed 5','Get',32),(IMPL,'Get',24)]
    if alias: tspec(p,'G',3,'TNamed 3','XOther')
    iface(p,'J',5,'TNamed 5',[elem(p)])
    p.gendecls.append(f'GenDecl {p.id()} [Some (TypeSpec ({p.idrec("impl",None,None,4)}) (XStruct []))]'); p.objtypes.append((4,IMPL))
    def b():
        g=p.obj(); v=p.comp((),IMPL); n=p.idrec('g',g,'TNamed 5')
        p.objs[g]=(True,p.objs[g][1],f'DValueSpec [{n}] [{v[1]}]')
        return p.block(p.other('*ast.DeclStmt',p.other('*ast.GenDecl',p.mk(f'KValueSpec [{n}] (Some {p.tyexpr("TNamed 5")})',(v,)))))
    function(p,1,'C',23,[],None,None,b)
    function(p,2,'Get',24,[],[ERR],DOCA,lambda:p.block(p.ret(err(p,'a'))),recv=p.field([],IMPL))
    return p
T='func (impl) Get() error, declared to return a; Getter.Get is declared to return no codes; func C() { var g J = impl{} }'
p=embed('f_qualified',False,lambda p:f'IEmbedSel {p.tyexpr("TNamed 3")}'); emit(p,f'[type J interface {{ other.Getter }}; {T}]')
p=embed('f_dot',False,lambda p:f'IEmbed {p.tyexpr("TNamed 3")} (str "Getter")'); emit(p,f'[import . "other"; type J interface {{ Getter }}; {T}]')
p=embed('f_embed_alias',True,lambda p:f'IEmbed {p.tyexpr("TNamed 3")} (str "G")'); emit(p,f'[type G = other.Getter; type J interface {{ G }}; {T}]')
print('''(** * Further refutations (findings 8, 13, 15, 20, 21, 23, 24, 27 of DESIGN.md).  Written by tools/example_findings.py. *)
From Coq Require Import Ascii String.
From stdpp Require Import base list gmap.
From Verif Require Import GoString ErrorCode Scc Engine CodeSet Annotation Constant GoAst Taint Extract Analyse Phase ErrorTypes Claims Interfaces
  Conversions Verify SpecMay SpecProgram SpecRun SpecInterfaces SpecSites RunProofs Checkers ExampleBase Witness PropRefuted.
Local Open Scope N_scope.
''')
print('\n\n'.join(w.out))
print('''
Definition with_const : facts := Facts (fa_codes imported) (fa_ctor imported) (<[ 5 := ErrorType {[ str "a" ]} None ]> (fa_type imported)) (fa_iface imported).
''')
print(r'''
(** *** C23, finding 8: assigning two fields of an error whose type has no code field dereferences nil (analyse.go 911; the declared type of the first field is kept for the second). *)
Theorem C23_refuted_field : package_ok f_field = true /\
  exists ord, orders_ok (collectFunctions f_field) ord /\ runVerify f_field false ord with_const = Panicked.
Proof.
  split; [by vm_compute|]. exists (some_run_orders (collectFunctions f_field)). split; [apply some_run_orders_ok|]. by vm_compute.
Qed.

(** *** C39, finding 13: the function variable is reported as the function [nil] of a dot-imported package, although the only function
    that is called returns exactly the declared code. *)
Theorem C39_refuted_nil : answers f_nil [Diag 10 (str "function ""nil"" in dot-imported package does not declare error codes")].
Proof. apply answer; by vm_compute. Qed.

(** *** C17, finding 20: the first function named [_] returns the undeclared code a and is accepted: the second one hides it. *)
Theorem C17_refuted_blank : accepted f_blank /\ package_ok f_blank = true.
Proof. split; [apply accept, answer|]; by vm_compute. Qed.

(** *** C25, finding 21: an alias of an imported error type, which has a method Code, is reported for having none. *)
Theorem C25_refuted_alias : answers f_alias [Diag 1 (str "found no method ""Code() string""")] /\ package_ok f_alias = true.
Proof. split; [apply answer|]; by vm_compute. Qed.

(** *** C24, finding 15: the declared code parameter of a method of an error type is reported as undeclared when the method assigns it
    to the code field. *)
Theorem C24_refuted_method : package_ok f_setter = true /\
  answers f_setter [Diag 56 (str "require an error code parameter declaration to use ""code"" as an error code")].
Proof. split; [|apply answer]; by vm_compute. Qed.

(** *** C25, finding 27: declaring an alias of an error type makes the analyzer reject the code field of that type. *)
Theorem C25_refuted_local_alias : package_ok f_local_alias = true /\
  answers f_local_alias [Diag 26 (str "returned field ""code"" is not a valid error code field (promoted fields are not supported currently, but might be added in the future)")].
Proof. split; [|apply answer]; by vm_compute. Qed.

(** *** C27, findings 23 and 24: the interface J embeds Getter, whose method Get declares no codes, and a value whose method Get declares the
    code a is converted to J.  That is reported if the embedded interface is named [other.Getter], but not if the package is dot-imported
    nor if J embeds an alias of it. *)
Theorem C27_qualified : package_ok f_qualified = true /\
  answers f_qualified [Diag 12 (str "cannot use expression as ""J"" value: method ""Get"" declares the following error codes which were not part of the interface: [a]")].
Proof. split; [|apply answer]; by vm_compute. Qed.
Theorem C27_refuted_dot : accepted f_dot /\ package_ok f_dot = true.
Proof. split; [apply accept, answer|]; by vm_compute. Qed.
Theorem C27_refuted_alias : accepted f_embed_alias /\ package_ok f_embed_alias = true.
Proof. split; [apply accept, answer|]; by vm_compute. Qed.''')
