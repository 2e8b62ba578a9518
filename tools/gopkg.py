"""A small DSL that writes a Go package as a Coq term of type GoAst.package (used for Example*.v)."""
class Pkg:
    def __init__(self, name):
        self.name=name; self.n=0; self.o=0
        self.types=[];self.values=[];self.uses=[];self.defs=[];self.sels=[];self.tnames=[];self.pkgnames=[];self.objnames=[]
        self.objtypes=[];self.underlying=[];self.methods=[];self.impl_error=[];self.impl_ree=[];self.impl_cause=[];self.impl=[];self.named_methods=[]
        self.objs={};self.funcs={};self.decls=[];self.gendecls=[];self.top=[];self.comments=[];self.compound=[]
    def id(self): self.n+=1; return self.n
    def obj(self,pos=None,var=True,decl='DOther'):
        self.o+=1
        if pos is None: pos=self.id()
        self.objs[self.o]=(var,pos,decl); return self.o
    # nodes: (id, coq text)
    def mk(self,kind,kids=(),ty=None,val=None):
        i=self.id()
        if ty: self.types.append((i,ty))
        if val is not None: self.values.append((i,val))
        return (i,f'Node {i} {par(kind)} [{"; ".join(k[1] for k in kids)}]')
    def ident(self,name,o=None,ty=None,use=None,val=None):
        x=self.mk(f'KIdent (str "{name}") {opt(o)}',(),ty,val)
        if use: self.uses.append((x[0],use))
        return x
    def nil(self): return self.ident('nil',None,'TUntypedNil')
    def strlit(self,s): return self.mk('KBasicLit',(),'TBasic (str "string")',f'CString (str "{s}")')
    def call(self,f,args=(),ty=None): return self.mk('KCall',(f,)+tuple(args),ty)
    def sel(self,x,name,ty=None,selection=None,use=None,selobj=None):
        s=self.ident(name,selobj,ty,use)
        n=self.mk('KSelector',(x,s),ty)
        if selection: self.sels.append((n[0],selection))
        return n
    def addr(self,x,ty): return self.mk('KUnary true',(x,),ty)
    def comp(self,elts,ty): return self.mk('KComposite',elts,ty)
    def kv(self,k,v): return self.mk('KKeyValue',(k,v))
    def assign(self,lhs,rhs): return self.mk(f'KAssign {len(lhs)}%nat',tuple(lhs)+tuple(rhs))
    def ret(self,*res,comment=None):
        n=self.mk('KReturn',res)
        if comment: self.comments.append((n[0],comment))
        return n
    def block(self,*st): return self.mk('KOther (str "*ast.BlockStmt")',st)
    def other(self,name,*kids): return self.mk(f'KOther (str "{name}")',kids)
    def idrec(self,name,o=None,ty=None,defs=None):
        i=self.id()
        if ty: self.types.append((i,ty))
        if defs: self.defs.append((i,defs))
        return f'Ident {i} (str "{name}") {opt(o)}'
    def tyexpr(self,ty):
        i=self.id(); self.types.append((i,ty)); return i
    def field(self,names,ty): return f'Field {self.id()} [{"; ".join(names)}] {self.tyexpr(ty)}'
    def ftype(self,params,results):
        a=self.id(); b=self.id()
        r='None' if results is None else f'(Some [{"; ".join(results)}])'
        return f'FuncType {a} [{"; ".join(params)}] {r} {b}', b
    def func(self,f,decl,ft,body,start,end):
        b='None' if body is None else f'(Some ({body[1]}))'
        self.funcs[f]=f'Func {self.id()} {decl} ({ft}) {b} {start} {end}'
    def decl(self,name,recv=None,doc=None,defs=None):
        i=self.idrec(name,None,None,defs)
        r='None' if recv is None else f'(Some [{recv}])'
        d='None' if doc is None else f'(Some ({doc}))'
        return f'(Some (DeclInfo ({i}) {r} {d}))'
    def coq(self):
        p=self.name; out=[]
        def table(nm,ty,l,f=lambda v:par(v)):
            out.append(f'Definition {p}_{nm} : list (N * {ty}) := [{"; ".join(f"({k}, {f(v)})" for k,v in l)}].')
        table('types','gotype',self.types); table('values','constval',self.values)
        table('uses','tobj',self.uses); table('defs','tobj',self.defs); table('sels','(tobj * gotype)',self.sels,lambda v:f'({v[0]}, {v[1]})')
        table('objnames','gostring',self.objnames,lambda v:f'str "{v}"'); table('objtypes','gotype',self.objtypes); table('underlying','gotype',self.underlying)
        out.append(f'Definition {p}_methods : list (gotype * gostring * tobj) := [{"; ".join(f"({a}, str {chr(34)}{b}{chr(34)}, {c})" for a,b,c in self.methods)}].')
        def tl(nm,l): out.append(f'Definition {p}_{nm} : list gotype := [{"; ".join(l)}].')
        tl('impl_error',self.impl_error); tl('impl_ree',self.impl_ree); tl('impl_cause',self.impl_cause)
        out.append(f'Definition {p}_impl : list (gotype * gotype) := [{"; ".join(f"({a}, {b})" for a,b in self.impl)}].')
        nm="; ".join('(%s, [%s])'%(k,"; ".join(f'str "{x}"' for x in v)) for k,v in self.named_methods)
        out.append(f'Definition {p}_named_methods : list (N * list gostring) := [{nm}].')
        wc=(f'with_compound [{"; ".join(map(str,self.compound))}] (',')') if self.compound else ('','')
        out.append(f'Definition {p}_info : typeinfo := {wc[0]}table_info {p}_types {p}_values {p}_uses {p}_defs {p}_sels [{"; ".join(map(str,self.tnames))}] [{"; ".join(f"({k}, str {chr(34)}{v}{chr(34)})" for k,v in self.pkgnames)}] {p}_objnames {p}_objtypes {p}_underlying {p}_methods {p}_impl_error {p}_impl_ree {p}_impl_cause {p}_impl {p}_named_methods{wc[1]}.')
        for f,v in self.funcs.items(): out.append(f'Definition {p}_f{f} : func := {v}.')
        out.append(f'Definition {p}_funcs : gmap fid func := list_to_map [{"; ".join(f"({f}, {p}_f{f})" for f in self.funcs)}].')
        out.append(f'Definition {p}_objs : gmap oid object := list_to_map [{"; ".join(f"({k}, Object {str(v[0]).lower()} {v[1]} {par(v[2])})" for k,v in self.objs.items())}].')
        cm="; ".join('(%s, [%s])'%(k,"; ".join(v)) for k,v in self.comments)
        out.append(f'Definition {p}_comments : list (N * list gostring) := [{cm}].')
        out.append(f'Definition {p} : package := Package {p}_funcs [{"; ".join(map(str,self.decls))}] [{"; ".join(self.gendecls)}] [{"; ".join(self.top)}] {p}_objs (fun n => default [] (lookup_in {p}_comments n)) {p}_info.')
        return '\n'.join(out)
def par(s): return f'({s})' if ' ' in str(s) else str(s)
def opt(o): return 'None' if o is None else f'(Some {o})'
