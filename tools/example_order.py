"""Writes rocq/theories/ExampleOrder.v: a package whose diagnostics come in an order that depends on the iteration orders, and one whose
result does."""
import sys,io,contextlib; sys.path.insert(0,'/verif/tools')
with contextlib.redirect_stdout(io.StringIO()):
    from example_witness import *
from example_witness import pkg,function,err,doc,STRING,INT,ERR,ERROR,PERROR,IMPL,DOCA
import example_witness as w
w.out.clear()
def iface(p,name,obj,ty,elems): p.gendecls.append(f'GenDecl {p.id()} [Some (TypeSpec ({p.idrec(name,None,None,obj)}) (XInterface {p.tyexpr(ty)} [{"; ".join(elems)}]))]')
def method(p,name,obj,results,docs):
    ft,_=p.ftype([],[p.field([],t) for t in results]) if results is not None else p.ftype([],None)
    d=f'(Some ({doc(*docs)}))' if docs else 'None'
    return f'IMethod {p.id()} ({p.idrec(name,None,None,obj)}) {d} ({ft})'
# two functions, two interfaces
p=pkg('eo')
p.objtypes+=[(3,'TNamed 3'),(5,'TNamed 5')]; p.tnames.append(5); p.objnames+=[(5,'Both'),(31,'Get')]; p.underlying.append((5,'TInterface 3'))
p.methods+=[('TNamed 3','Get',31),('TNamed 5','Get',31),(IMPL,'Get',24)]
iface(p,'Getter',3,'TNamed 3',[method(p,'Get',31,[ERR],("Errors:","","- b -- x"))])
iface(p,'Both',5,'TNamed 5',[f'IEmbed {p.tyexpr("TNamed 3")} (str "Getter")'])
p.gendecls.append(f'GenDecl {p.id()} [Some (TypeSpec ({p.idrec("impl",None,None,4)}) (XStruct []))]'); p.objtypes.append((4,IMPL))
function(p,1,'F',21,[],[ERR],DOCA,lambda:p.block(p.ret(err(p,'b'))))
function(p,2,'G',22,[],[ERR],DOCA,lambda:p.block(p.ret(err(p,'c'))))
def b():
    g=p.obj(); v=p.comp((),IMPL); n=p.idrec('g',g,'TNamed 5')
    p.objs[g]=(True,p.objs[g][1],f'DValueSpec [{n}] [{v[1]}]')
    return p.block(p.other('*ast.DeclStmt',p.other('*ast.GenDecl',p.mk(f'KValueSpec [{n}] (Some {p.tyexpr("TNamed 5")})',(v,)))))
function(p,3,'C',23,[],None,None,b)
function(p,4,'Get',24,[],[ERR],DOCA,lambda:p.block(p.ret(err(p,'a'))),recv=p.field([],IMPL))
w.emit(p,'''Error as in Witness.v;
<<
    type Getter interface { // Errors: b
      Get() error }
    type Both interface { Getter }
    // Errors: a
    func F() error { return &Error{"b"} }
    // Errors: a
    func G() error { return &Error{"c"} }
    func C() { var g Both = impl{} }
    // Errors: a
    func (impl) Get() error { return &Error{"a"} }
>>''')
# a local interface with the name of another one
p=pkg('wo')
p.objtypes+=[(3,'TNamed 3'),(5,'TNamed 5'),(6,'TNamed 6')]; p.tnames+=[5,6]; p.objnames+=[(5,'B'),(6,'B'),(31,'Get'),(32,'Put'),(33,'X')]; p.underlying+=[(5,'TInterface 5'),(6,'TInterface 6')]
p.methods+=[('TNamed 3','Get',31),('TNamed 3','X',33),('TNamed 5','X',33),('TNamed 6','Get',31),('TNamed 6','Put',32),('TNamed 6','X',33),(IMPL,'Get',24),(IMPL,'X',25)]
iface(p,'A',3,'TNamed 3',[f'IEmbed {p.tyexpr("TNamed 5")} (str "B")',method(p,'Get',31,[ERR],DOCA)])
iface(p,'B',5,'TNamed 5',[method(p,'X',33,None,None)])
p.gendecls.append(f'GenDecl {p.id()} [Some (TypeSpec ({p.idrec("impl",None,None,4)}) (XStruct []))]'); p.objtypes.append((4,IMPL))
iface(p,'B',6,'TNamed 6',[f'IEmbed {p.tyexpr("TNamed 3")} (str "A")',method(p,'Put',32,[ERR],DOCA)])
def b():
    g=p.obj(); v=p.comp((),IMPL); n=p.idrec('g',g,'TNamed 3')
    p.objs[g]=(True,p.objs[g][1],f'DValueSpec [{n}] [{v[1]}]')
    return p.block(p.other('*ast.DeclStmt',p.other('*ast.GenDecl',p.mk(f'KValueSpec [{n}] (Some {p.tyexpr("TNamed 3")})',(v,)))))
function(p,1,'C',21,[],None,None,b)
function(p,2,'Get',24,[],[ERR],DOCA,lambda:p.block(p.ret(err(p,'a'))),recv=p.field([],IMPL))
function(p,3,'X',25,[],None,None,lambda:p.block(),recv=p.field([],IMPL))
w.emit(p,'''
<<
    type A interface { B; Get() error }   // Errors: a
    type B interface { X() }
    func f() { type B interface { A; Put() error } }   // Errors: a
    func C() { var g A = impl{} }
    // Errors: a
    func (impl) Get() error { return &Error{"a"} }
    func (impl) X() {}
>>''')
print('''(** * The hypotheses of C18 are satisfiable, and needed.  Written by tools/example_order.py. *)
From Coq Require Import Ascii String.
From stdpp Require Import base list gmap.
From Verif Require Import GoString ErrorCode Scc Engine CodeSet Annotation Constant GoAst Taint Extract Analyse Phase ErrorTypes Claims Interfaces
  Conversions Verify SpecMay SpecProgram SpecRun SpecInterfaces SpecSites RunProofs Checkers FormChecker InterfaceChecker ExampleBase Witness Example PropOrder.
Local Open Scope N_scope.
''')
print('\n\n'.join(w.out))
print('''
Definition answer (pk : package) (ord : orders) : outcome (list diag) :=
  match runVerify pk false ord imported with Ok (_, ds) => Ok ds | Panicked => Panicked | OutOfFuel => OutOfFuel end.
Definition order_hypotheses (pk : package) : Prop :=
  interfaces_ok pk /\\ distinct_definitions pk /\\ (forall w n, occurs pk w n -> ~ ill_formed pk w n) /\\
  forall fa, usable_functions pk fa /\\ no_literal_calls pk fa.
Lemma order_hypotheses_spec pk rank : interfaces_check pk rank && definitions_check pk && package_formed pk && package_ok pk = true -> order_hypotheses pk.
Proof.
  rewrite !andb_true_iff. intros [[[H1 H2] H3] H4]. split_and!.
  - by eapply interfaces_check_spec.
  - by apply definitions_check_spec.
  - by apply package_formed_spec.
  - intros fa. by apply package_ok_spec.
Qed.
Theorem C18_example : order_hypotheses ex /\\ order_hypotheses eo.
Proof.
  split.
  - apply (order_hypotheses_spec ex (fun n => if decide (n = str "Both") then 1%nat else 0%nat)). vm_compute. reflexivity.
  - apply (order_hypotheses_spec eo (fun n => if decide (n = str "Both") then 1%nat else 0%nat)). vm_compute. reflexivity.
Qed.
(** The order of the diagnostics does depend on the orders. *)
Definition eo_diags (d1 d2 : diag) : list diag := [d1; d2;
  Diag 47 (str "cannot use expression as ""Both"" value: method ""Get"" declares the following error codes which were not part of the interface: [a]")].
Definition eo_d1 : diag := Diag 28 (str "function ""F"" has a mismatch of declared and actual error codes: missing codes: [b] unused codes: [a]").
Definition eo_d2 : diag := Diag 41 (str "function ""G"" has a mismatch of declared and actual error codes: missing codes: [c] unused codes: [a]").
Example eo_result : answer eo (some_run_orders (collectFunctions eo)) = Ok (eo_diags eo_d1 eo_d2).
Proof. vm_compute. reflexivity. Qed.
Example eo_result_reversed : answer eo (other_run_orders (collectFunctions eo)) = Ok (eo_diags eo_d2 eo_d1).
Proof. vm_compute. reflexivity. Qed.
(** A local interface type that has the name of another one: the analyzer crashes for some iteration orders only. *)
Theorem C18_refuted_names : exists ord ord' fa ds, orders_ok (collectFunctions wo) ord /\\ orders_ok (collectFunctions wo) ord' /\\
  distinct_definitions wo /\\ (forall w n, occurs wo w n -> ~ ill_formed wo w n) /\\ (forall fa, usable_functions wo fa /\\ no_literal_calls wo fa) /\\
  runVerify wo false ord imported = Panicked /\\ runVerify wo false ord' imported = Ok (fa, ds).
Proof.
  exists (some_run_orders (collectFunctions wo)), (other_run_orders (collectFunctions wo)).
  assert (answer wo (some_run_orders (collectFunctions wo)) = Panicked /\\ answer wo (other_run_orders (collectFunctions wo)) = Ok []) as [H1 H2] by (vm_compute; tauto).
  assert (definitions_check wo && package_formed wo && package_ok wo = true) as H by (vm_compute; reflexivity). rewrite !andb_true_iff in H. destruct H as [[H3 H4] H5].
  unfold answer in *. destruct (runVerify wo false (some_run_orders (collectFunctions wo)) imported) as [[? ?]| |]; [discriminate| |discriminate].
  destruct (runVerify wo false (other_run_orders (collectFunctions wo)) imported) as [[fa ds]| |]; [|discriminate|discriminate].
  exists fa, ds. split; [apply some_run_orders_ok|]. split; [apply other_run_orders_ok|]. split; [exact (definitions_check_spec wo H3)|].
  split; [exact (package_formed_spec wo H4)|]. split; [|split; reflexivity]. intros fa'. exact (package_ok_spec wo fa' H5).
Qed.''')
