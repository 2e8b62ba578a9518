"""Writes the packages of rocq/theories/ExampleLiteral.v: function literals called through variables."""
import io,contextlib
with contextlib.redirect_stdout(io.StringIO()):
    exec(open('/verif/tools/example_witness.py').read())
out.clear()
SIG='TSignature [] [TNamed 1] false'
# literal called once
p=pkg('l_once')
def b():
    f=p.obj()
    l=lit(p,2,[],[ERR],lambda:p.block(p.ret(err(p,'a'))))
    return p.block(p.assign((p.ident('f',f,SIG),),(l,)),p.ret(p.call(p.ident('f',f,SIG,41),(),ERR)))
function(p,1,'F',21,[],[ERR],DOCA,b); emit(p,'[func F() error { f := func() error { return &Error{"a"} }; return f() }], declared to return a')
# recursion through a literal
p=pkg('l_recursive')
def bH():
    o=p.obj(None,False,'DFunc 2')
    return p.block(p.other('*ast.IfStmt',p.block(p.ret(err(p,'a')))),p.ret(p.call(p.ident('F',o,SIG,22),(),ERR)))
def bF():
    f=p.obj(); o=p.obj(None,False,'DFunc 1')
    l=lit(p,3,[],[ERR],lambda:p.block(p.ret(p.call(p.ident('H',o,SIG,21),(),ERR))))
    return p.block(p.assign((p.ident('f',f,SIG),),(l,)),p.ret(p.call(p.ident('f',f,SIG,41),(),ERR)))
function(p,1,'H',21,[],[ERR],DOCA,bH)
function(p,2,'F',22,[],[ERR],NONE,bF)
emit(p,'[func H() error { if ... { return &Error{"a"} }; return F() }], declared to return a, and\n    [func F() error { f := func() error { return H() }; return f() }], declared to return no codes')
# literal called in two return statements
p=pkg('l_twice')
def b():
    f=p.obj()
    l=lit(p,2,[],[ERR],lambda:p.block(p.ret(err(p,'a'))))
    return p.block(p.assign((p.ident('f',f,SIG),),(l,)),p.other('*ast.IfStmt',p.block(p.ret(p.call(p.ident('f',f,SIG,41),(),ERR)))),
                   p.ret(p.call(p.ident('f',f,SIG,41),(),ERR)))
function(p,1,'F',21,[],[ERR],DOCA,b); emit(p,'[func F() error { f := func() error { return &Error{"a"} }; if ... { return f() }; return f() }], declared to return a')
print('\n\n'.join(out))
