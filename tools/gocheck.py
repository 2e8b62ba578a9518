"""A type checker for the subset of Go used in the test data: TypesInfo as go/types computes it."""
import itertools
from goparse import *
# types: tuples; ('named', id), ('ptr', t), ('basic', name), ('nil',), ('tuple', ts), ('slice', t), ('array', n, t), ('map', k, v), ('chan', d, t),
# ('struct', ((name, type, embedded), ...)), ('sig', params, results, variadic), ('iface', n)
STRING,BOOL,INT,NIL=('basic','string'),('basic','bool'),('basic','int'),('nil',)
UNT={'untyped string':'string','untyped bool':'bool','untyped int':'int','untyped float':'float64','untyped rune':'int32'}
class World:
    """Objects and types of all packages."""
    def __init__(w):
        w.n=0; w.named={}; w.objname={}; w.objtype={}; w.typenames=set(); w.ifaces={}; w.ifmethods={}; w.fieldobjs={}; w.pkgs={}
        w.iface_of=[]
        err=w.obj('error'); w.typenames.add(err); e=('named',err); w.objtype[err]=e
        m=w.obj('Error'); w.objtype[m]=('sig',(),(STRING,),False)
        w.ERROR=e; w.error_obj=err
        w.named[err]=Named(err,'error',None); it=w.iface({'Error':(w.objtype[m],m)}); w.named[err].under=it; w.named[err].imethods={'Error':(w.objtype[m],m)}
        w.t_error=it
        d=w.obj('?')
        w.t_ree=w.iface({'Error':(('sig',(),(STRING,),False),d),'Code':(('sig',(),(STRING,),False),d)})
        w.t_cause=w.iface({'Error':(('sig',(),(STRING,),False),d),'Code':(('sig',(),(STRING,),False),d),'Cause':(('sig',(),(e,),False),d)})
        w.universe={}
        for b in 'bool string int int8 int16 int32 int64 uint uint8 uint16 uint32 uint64 uintptr float32 float64 complex64 complex128'.split(): w.universe[b]=('type',('basic',b),w.tn(b,('basic',b)))
        w.universe['byte']=('type',('basic','uint8'),w.universe['uint8'][2]); w.universe['rune']=('type',('basic','int32'),w.universe['int32'][2])
        w.universe['error']=('type',e,err)
        for v in('true','false'): w.universe[v]=('const',('basic','untyped bool'),v=='true',w.obj(v))
        w.universe['iota']=('const',('basic','untyped int'),0,w.obj('iota')); w.universe['nil']=('nil',w.obj('nil'))
        for b in 'append cap close complex copy delete imag len make new panic print println real recover'.split(): w.universe[b]=('builtin',b,w.obj(b))
    def obj(w,name): w.n+=1; w.objname[w.n]=name; return w.n
    def tn(w,name,t): o=w.obj(name); w.typenames.add(o); w.objtype[o]=t; return o
    def iface(w,methods):
        """methods: name -> (signature, object).  Interfaces with the same methods are identical."""
        key=frozenset((n,s) for n,(s,_) in methods.items())
        if key not in w.ifaces: w.ifaces[key]=len(w.ifaces)+1; w.ifmethods[w.ifaces[key]]=dict(methods)
        return ('iface',w.ifaces[key])
    def under(w,t):
        while t[0]=='named': t=w.named[t[1]].get_under()
        return t
    def fieldobj(w,st,name):
        if (st,name) not in w.fieldobjs:
            o=w.obj(name); w.fieldobjs[st,name]=o; w.objtype[o]=[t for n,t,_ in st[1] if n==name][0]
        return w.fieldobjs[st,name]
    def own_methods(w,t):
        """Methods declared for a named type: name -> (signature, object, pointer receiver)."""
        return w.named[t[1]].methods if t[0]=='named' else {}
    def iface_methods(w,t):
        if t[0]=='named':
            w.under(t); return w.named[t[1]].imethods
        return w.ifmethods[t[1]]
    def lookup(w,t,name):
        """Field or method: (kind, type, object, embedded pointer on the path, pointer receiver)."""
        isptr=t[0]=='ptr'
        if isptr and w.under(t[1])[0]!='iface': t=t[1]
        level=[(t,False)]; seen=set()
        while level:
            found=[]; nxt=[]
            for t,ind in level:
                if t in seen: continue
                seen.add(t)
                if t[0]=='named' and name in w.own_methods(t):
                    s,o,p=w.own_methods(t)[name]; found.append(('method',s,o,ind,p)); continue
                u=w.under(t)
                if u[0]=='iface':
                    ms=w.iface_methods(t if t[0]=='named' else u)
                    if name in ms: found.append(('method',ms[name][0],ms[name][1],ind,False))
                elif u[0]=='struct':
                    for n,ft,emb in u[1]:
                        if n==name: found.append(('field',ft,w.fieldobj(u,n),ind,False))
                        elif emb:
                            if ft[0]=='ptr': nxt.append((ft[1],True))
                            else: nxt.append((ft,ind))
            if len(found)==1: return found[0]
            if found: return None
            level=nxt
        return None
    def method_names(w,t):
        names=set(); seen=set(); todo=[t[1] if t[0]=='ptr' else t]
        while todo:
            t=todo.pop()
            if t in seen: continue
            seen.add(t); names|=set(w.own_methods(t)); u=w.under(t)
            if u[0]=='iface': names|=set(w.iface_methods(t if t[0]=='named' else u))
            if u[0]=='struct': todo+=[(ft[1] if ft[0]=='ptr' else ft) for n,ft,e in u[1] if e]
        return names
    def method_set(w,t):
        """name -> (signature, object)"""
        out={}
        if t[0]=='ptr' and (w.under(t[1])[0] in('iface','ptr')): return out
        if t[0] not in('named','ptr','iface','struct'): return out
        for n in w.method_names(t):
            r=w.lookup(t,n)
            if r and r[0]=='method' and (not r[4] or t[0]=='ptr' or r[3]): out[n]=(r[1],r[2])
        return out
    def implements(w,t,it):
        if t[0]=='nil' or t[0]=='tuple': return False
        ms=w.method_set(t); return all(n in ms and ms[n][0]==s for n,(s,_) in w.ifmethods[it[1]].items())
class Named:
    def __init__(s,obj,name,resolve): s.obj,s.name,s.resolve=obj,name,resolve; s.under=None; s.methods={}; s.imethods=None; s.order=[]
    def get_under(s):
        if s.under is None:
            if s.resolve is None: raise TypeError('cycle '+s.name)
            r=s.resolve; s.resolve=None; r()
        return s.under
class Scope:
    def __init__(s,up): s.up,s.d=up,{}
    def find(s,n):
        while s:
            if n in s.d: return s.d[n]
            s=s.up
class Ent:
    """A declared entity: kind var/const/type/func/pkg."""
    def __init__(s,kind,obj,type=None,value=None,resolve=None): s.kind,s.obj,s._t,s.value,s.resolve=kind,obj,type,value,resolve
    @property
    def type(s):
        if s._t is None and s.resolve: r=s.resolve; s.resolve=None; r()
        return s._t
class Checker:
    def __init__(c,w,path,files):
        """files: list of syntax trees; every node gets an id in the order of ast.Inspect."""
        c.w=w; c.path=path; c.files=files; c.types={}; c.values={}; c.uses={}; c.defs={}; c.sels={}; c.pkgnames={}
        c.untyped=[]
        c.name=files[0].name.name
        c.pkg=Scope(None)
        c.filescope={}
        later=[]
        methods=[]
        for f in files:
            fs=Scope(c.pkg); c.filescope[id(f)]=fs; dots={}
            for d in f.decls:
                if d.kind=='GenDecl' and d.tok=='import':
                    for sp in d.specs:
                        p=sp.path.value.strip('"'); q=w.pkgs[p]
                        if sp.name and sp.name.name=='.': fs.d.update({n:e for n,e in q.scope.items() if n[0].isupper()})
                        else:
                            nm=sp.name.name if sp.name else q.name
                            o=w.obj(nm); e=Ent('pkg',o); e.pkg=q; fs.d[nm]=e
            # identifiers of a file are looked up in the package scope first: it is nested in the file scope in go/types terms the other way
        for f in files:
            fs=c.filescope[id(f)]
            for d in f.decls:
                if d.kind=='GenDecl':
                    if d.tok=='type':
                        for sp in d.specs: c.declare_type(sp,c.pkg,fs)
                    elif d.tok in('var','const'): later.append((d,fs)); c.declare_values(d,c.pkg,fs,True)
                elif d.kind=='FuncDecl':
                    o=w.obj(d.name.name); c.defs[d.name.id]=o
                    if d.recv is None:
                        def res(d=d,o=o,fs=fs):
                            e=c.ents[o]; e._t=c.signature(d.type,fs,Scope(fs)); w.objtype[o]=e._t
                        e=Ent('func',o,resolve=res)
                        c.ents=getattr(c,'ents',{}); c.ents[o]=e
                        if d.name.name not in('init','_'): c.pkg.d[d.name.name]=e
                    else: methods.append((d,o,fs))
        c.bodies=[]
        c.ents=getattr(c,'ents',{})
        for d,o,fs in methods:
            r=d.recv.list[0].type
            while r.kind=='ParenExpr': r=r.x
            ptr=r.kind=='StarExpr'; base=(r.x if ptr else r)
            while base.kind=='ParenExpr': base=base.x
            t=c.typ(base,fs)
            nm=w.named[t[1]]; nm.order.append(d.name.name)
            nm.methods[d.name.name]=(None,o,ptr)
        for d,o,fs in methods:
            sc=Scope(fs); c.fields(d.recv,fs,sc); sg=c.signature(d.type,fs,sc); w.objtype[o]=sg
            r=d.recv.list[0].type
            t=c.typ(r,fs); ptr=t[0]=='ptr'; t=t[1] if ptr else t
            w.named[t[1]].methods[d.name.name]=(sg,o,ptr); c.bodies.append((d,sc,sg))
        for f in files:
            for d in f.decls:
                if d.kind=='FuncDecl' and d.recv is None:
                    o=c.defs[d.name.id]; fs=c.filescope[id(f)]; sc=Scope(fs)
                    sg=c.signature(d.type,fs,sc); w.objtype[o]=sg; c.ents[o]._t=sg
                    c.bodies.append((d,sc,sg))
                elif d.kind=='GenDecl' and d.tok=='type':
                    for sp in d.specs:
                        t=w.objtype[c.defs[sp.name.id]]
                        if t[0]=='named': w.under(t)
        for e in list(c.pkg.d.values()): e.type
        for d,fs in later:
            for sp in d.specs:
                for e in getattr(sp,'ents',[]): e.type
        for d,sc,sg in c.bodies:
            if d.body: c.body(d.body,sc,sg)
        c.scope={n:e for n,e in c.pkg.d.items()}
    # ---- declarations
    def declare_type(c,sp,scope,env):
        w=c.w; o=w.obj(sp.name.name); w.typenames.add(o); c.defs[sp.name.id]=o
        if sp.alias:
            def res():
                e._t=c.typ(sp.type,env); w.objtype[o]=e._t; c.types[sp.name.id]=e._t
            e=Ent('type',o,resolve=res)
            if e._t is None and scope is not c.pkg: res()
            if scope is c.pkg: w.objtype.setdefault(o,None); c.aliases=getattr(c,'aliases',[]); c.aliases.append(e)
        else:
            t=('named',o); nm=Named(o,sp.name.name,None); w.named[o]=nm; w.objtype[o]=t; c.types[sp.name.id]=t; e=Ent('type',o,t)
            def res():
                if sp.type.kind=='InterfaceType':
                    u=c.typ(sp.type,env); nm.under=u; nm.imethods=sp.type.imethods
                else:
                    u=c.typ(sp.type,env); nm.under=w.under(u)
                    if u[0]=='named' and nm.under[0]=='iface': nm.imethods=w.iface_methods(u)
                    elif nm.under[0]=='iface': nm.imethods=w.ifmethods[nm.under[1]]
            nm.resolve=res
        if sp.name.name!='_': scope.d[sp.name.name]=e
        if scope is not c.pkg and not sp.alias: nm.get_under()
    def declare_values(c,d,scope,env,lazy):
        prev=None
        for sp in d.specs:
            if d.tok=='const' and not sp.values and prev: vals,ty=prev
            else: vals,ty=sp.values,sp.type
            if d.tok=='const': prev=(vals,ty)
            ents=[]
            def res(sp=sp,vals=vals,ty=ty,ents=ents):
                if ents and ents[0]._t is not None: return
                T=c.typ(ty,env) if ty else None
                if vals and len(vals)!=len(ents):
                    c.expr(vals[0],env); tv=c.types[vals[0].id]
                    if tv[0]!='tuple': tv=c.commaok(vals[0],tv)
                    ts=tv[1]
                    for e,t in zip(ents,ts): e._t=T or t
                else:
                    for k,e in enumerate(ents):
                        if vals:
                            c.iota=sp.iota
                            t,v=c.expr(vals[k],env,T)
                            if d.tok=='const': e._t=T or t; e.value=v
                            else: e._t=T or c.default(t); c.fix(vals[k],e._t)
                        else: e._t=T
                for e,i in zip(ents,sp.names): c.types[i.id]=e._t; c.w.objtype[e.obj]=e._t
            for i in sp.names:
                o=c.w.obj(i.name); c.defs[i.id]=o; e=Ent(d.tok,o,resolve=res); ents.append(e)
            sp.ents=ents
            if not lazy: res()
            for i,e in zip(sp.names,ents):
                if i.name!='_': scope.d[i.name]=e
    # ---- types
    def typ(c,n,env):
        t=c.typ1(n,env); c.types[n.id]=t; return t
    def typ1(c,n,env):
        w=c.w; k=n.kind
        if k=='Ident':
            e=env.find(n.name)
            if e is None:
                u=w.universe[n.name]
                assert u[0]=='type',n.name
                c.uses[n.id]=u[2]; return u[1]
            assert e.kind=='type',(n.name,e.kind); c.uses[n.id]=e.obj; return e.type
        if k=='SelectorExpr':
            e=env.find(n.x.name); q=e.pkg.scope[n.sel.name]; c.uses[n.x.id]=e.obj; c.pkgnames[n.x.id]=e.pkg.name
            c.uses[n.sel.id]=q.obj; c.types[n.sel.id]=q.type; return q.type
        if k=='ParenExpr': return c.typ(n.x,env)
        if k=='StarExpr': return ('ptr',c.typ(n.x,env))
        if k=='ArrayType':
            if n.len is None: return ('slice',c.typ(n.elt,env))
            if n.len.kind=='Ellipsis': return ('array',None,c.typ(n.elt,env))
            t,v=c.expr(n.len,env); return ('array',v,c.typ(n.elt,env))
        if k=='Ellipsis': return ('slice',c.typ(n.elt,env))
        if k=='MapType': return ('map',c.typ(n.key,env),c.typ(n.value,env))
        if k=='ChanType': return ('chan',n.dir,c.typ(n.value,env))
        if k=='FuncType': return c.signature(n,env,Scope(env))
        if k=='StructType':
            fs=[]
            for f in n.fields.list:
                t=c.typ(f.type,env)
                if f.names:
                    for i in f.names: fs.append((i.name,t,False)); c.types[i.id]=t
                else:
                    x=f.type
                    while x.kind in('StarExpr','ParenExpr'): x=x.x
                    fs.append(((x.sel if x.kind=='SelectorExpr' else x).name,t,True))
            return ('struct',tuple(fs))
        if k=='InterfaceType':
            ms={}
            n.imethods=ms
            for f in n.methods.list:
                if f.names:
                    i=f.names[0]; o=w.obj(i.name); c.defs[i.id]=o; s=c.typ(f.type,env); w.objtype[o]=s; c.types[i.id]=s; ms[i.name]=(s,o)
            for f in n.methods.list:
                if not f.names:
                    t=c.typ(f.type,env); w.under(t)
                    for m,v in w.iface_methods(t).items(): ms.setdefault(m,v)
            return w.iface(ms)
        raise TypeError(f'type {k}')
    def fields(c,fl,env,scope):
        ts=[]
        for f in fl.list:
            t=c.typ(f.type,env)
            for i in f.names:
                o=c.w.obj(i.name) if i.id not in c.defs else c.defs[i.id]; c.defs[i.id]=o; c.types[i.id]=t; c.w.objtype[o]=t
                if i.name!='_': scope.d[i.name]=Ent('var',o,t)
            ts+=[t]*max(1,len(f.names))
        return ts
    def signature(c,ft,env,scope):
        ps=c.fields(ft.params,env,scope); rs=c.fields(ft.results,env,scope) if ft.results else []
        va=bool(ft.params.list) and ft.params.list[-1].type.kind=='Ellipsis'
        s=('sig',tuple(ps),tuple(rs),va); c.types[ft.id]=s; return s
    # ---- expressions: (type, constant value)
    def default(c,t):
        return ('basic',UNT[t[1]]) if t[0]=='basic' and t[1] in UNT else t
    def commaok(c,n,t):
        tt=('tuple',(t,BOOL))
        while True:
            c.types[n.id]=tt
            if n.kind!='ParenExpr': return tt
            n=n.x
    def fix(c,n,target):
        """The final type of an untyped expression."""
        t=c.types.get(n.id)
        if t and t[0]=='basic' and t[1] in UNT:
            u=c.w.under(target) if target else None
            nt=target if u and u[0]=='basic' and u[1] not in UNT else c.default(t)
            c.types[n.id]=nt
            if n.kind in('ParenExpr','UnaryExpr'): c.fix(n.x,target)
            if n.kind=='BinaryExpr' and n.op not in('==','!=','<','<=','>','>='): c.fix(n.x,target); c.fix(n.y,target)
    def expr(c,n,env,hint=None):
        t,v=c.expr1(n,env,hint)
        if t is not None: c.types[n.id]=t
        if v is not None: c.values[n.id]=v
        return t,v
    def rvalue(c,n,env,target=None):
        t,v=c.expr(n,env,target); 
        if t is not None: c.fix(n,target)
        return c.types.get(n.id)
    def istype(c,n,env):
        k=n.kind
        if k=='Ident':
            e=env.find(n.name)
            return e.kind=='type' if e else n.name in c.w.universe and c.w.universe[n.name][0]=='type'
        if k=='SelectorExpr':
            if n.x.kind=='Ident':
                e=env.find(n.x.name)
                if e and e.kind=='pkg': return e.pkg.scope[n.sel.name].kind=='type'
            return False
        if k in('ParenExpr','StarExpr'): return c.istype(n.x,env)
        return k in('ArrayType','StructType','FuncType','InterfaceType','MapType','ChanType')
    def expr1(c,n,env,hint):
        w=c.w; k=n.kind
        if k=='Ident':
            e=env.find(n.name)
            if e is None:
                u=w.universe[n.name]; c.uses[n.id]=u[-1]
                if u[0]=='const': return u[1],(getattr(c,'iota',0) if n.name=='iota' else u[2])
                if u[0]=='nil': return NIL,None
                if u[0]=='type': return u[1],None
                return None,None
            c.uses[n.id]=e.obj
            if e.kind=='pkg': c.pkgnames[n.id]=e.pkg.name; return None,None
            return e.type,e.value
        if k=='BasicLit':
            if n.tk=='string':
                s=n.value; v=s[1:-1] if s[0]=='`' else unquote(s); return ('basic','untyped string'),v
            if n.tk=='int': return ('basic','untyped int'),int(n.value.replace('_',''),0)
            if n.tk=='float': return ('basic','untyped float'),float(n.value)
            return ('basic','untyped rune'),n.value
        if k=='ParenExpr': return c.expr(n.x,env,hint)
        if k=='FuncLit':
            sc=Scope(env); s=c.signature(n.type,env,sc); c.body(n.body,sc,s); return s,None
        if k=='CompositeLit': return c.complit(n,env,hint),None
        if k=='SelectorExpr':
            if n.x.kind=='Ident':
                e=env.find(n.x.name)
                if e and e.kind=='pkg':
                    c.uses[n.x.id]=e.obj; c.pkgnames[n.x.id]=e.pkg.name; q=e.pkg.scope[n.sel.name]; c.uses[n.sel.id]=q.obj
                    c.types[n.sel.id]=q.type; return q.type,q.value
            if c.istype(n.x,env):
                t=c.typ(n.x,env); r=w.lookup(t,n.sel.name); s=('sig',(t,)+r[1][1],r[1][2],r[1][3])
                c.sels[n.id]=(r[2],t); c.uses[n.sel.id]=r[2]; c.types[n.sel.id]=r[1]; return s,None
            t,_=c.expr(n.x,env); r=w.lookup(t,n.sel.name)
            if r is None: raise TypeError(f'no field or method {n.sel.name} of {t}')
            c.sels[n.id]=(r[2],t); c.uses[n.sel.id]=r[2]; c.types[n.sel.id]=r[1]; return r[1],None
        if k=='IndexExpr':
            t=c.rvalue(n.x,env); u=w.under(t)
            if u[0]=='ptr': u=w.under(u[1])
            if u[0]=='map': c.rvalue(n.index,env,u[1]); return u[2],None
            c.rvalue(n.index,env,INT)
            return (u[1] if u[0]=='slice' else u[2] if u[0]=='array' else ('basic','uint8')),None
        if k=='SliceExpr':
            t=c.rvalue(n.x,env)
            for x in(n.low,n.high,n.max):
                if x: c.rvalue(x,env,INT)
            u=w.under(t)
            if u[0]=='ptr': u=w.under(u[1])
            return (('slice',u[2]) if u[0]=='array' else t),None
        if k=='TypeAssertExpr':
            c.rvalue(n.x,env); return c.typ(n.type,env),None
        if k=='StarExpr':
            if c.istype(n.x,env): return c.typ(n,env),None
            t=c.rvalue(n.x,env); return w.under(t)[1],None
        if k=='UnaryExpr':
            if n.op=='&':
                h=hint[1] if hint and hint[0]=='ptr' else None
                t,_=c.expr(n.x,env); return ('ptr',t),None
            t,v=c.expr(n.x,env)
            if n.op=='<-': return w.under(t)[2],None
            if v is not None: v=-v if n.op=='-' else (not v) if n.op=='!' else v
            return t,v
        if k=='BinaryExpr':
            a,x=c.expr(n.x,env); b,y=c.expr(n.y,env)
            un=lambda t: t[0]=='basic' and t[1] in UNT
            if n.op in('==','!=','<','<=','>','>='):
                if not(un(a) and un(b)): c.fix(n.x,b); c.fix(n.y,a)
                else: c.fix(n.x,None); c.fix(n.y,None)
                v=None
                if x is not None and y is not None: v={'==':x==y,'!=':x!=y,'<':x<y if type(x)==type(y) else None}.get(n.op)
                return ('basic','untyped bool'),v
            if n.op in('<<','>>'): return a,None
            t=b if un(a) else a
            if not un(t): c.fix(n.x,t); c.fix(n.y,t)
            v=None
            if x is not None and y is not None and not isinstance(x,bool):
                try: v={'+':lambda:x+y,'-':lambda:x-y,'*':lambda:x*y,'/':lambda:x//y}.get(n.op,lambda:None)()
                except TypeError: v=None
            return t,v
        if k=='KeyValueExpr': raise TypeError('key value')
        if k=='CallExpr': return c.call(n,env)
        return c.typ(n,env),None
    def complit(c,n,env,hint):
        w=c.w
        if n.type is not None:
            t=c.typ(n.type,env)
            if t[0]=='array' and t[1] is None:
                m=0;i=0
                for e in n.elts:
                    if e.kind=='KeyValueExpr': i=c.expr(e.key,env)[1]
                    i+=1; m=max(m,i)
                t=('array',m,t[2]); c.types[n.type.id]=t
            base=t
        else:
            base=hint; t=hint
            if w.under(base)[0]=='ptr': base=w.under(base)[1]; t=base
        u=w.under(base)
        if u[0]=='struct':
            for k,e in enumerate(n.elts):
                if e.kind=='KeyValueExpr':
                    f=[x for x in u[1] if x[0]==e.key.name][0]; c.uses[e.key.id]=w.fieldobj(u,f[0]); c.types[e.key.id]=f[1]; c.rvalue(e.value,env,f[1])
                else: c.rvalue(e,env,u[1][k][1])
        elif u[0] in('slice','array'):
            el=u[1] if u[0]=='slice' else u[2]
            for e in n.elts:
                if e.kind=='KeyValueExpr': c.rvalue(e.key,env,INT); c.rvalue(e.value,env,el)
                else: c.rvalue(e,env,el)
        elif u[0]=='map':
            for e in n.elts: c.rvalue(e.key,env,u[1]); c.rvalue(e.value,env,u[2])
        else: raise TypeError(f'composite {u}')
        if n.type is None: return hint
        return t
    def call(c,n,env):
        w=c.w
        f=n.fun
        while f.kind=='ParenExpr': f=f.x
        if c.istype(f,env):
            t=c.typ(n.fun,env); a=n.args[0]; ta,v=c.expr(a,env,t)
            u=w.under(t); c.fix(a,t)
            if v is not None and u[0]=='basic' and isinstance(v,str)==(u[1]=='string'): return t,v
            return t,None
        if f.kind=='Ident':
            e=env.find(f.name)
            if e is None and w.universe.get(f.name,('',))[0]=='builtin': return c.builtin(n,f,env)
        t,_=c.expr(n.fun,env); s=w.under(t)
        assert s[0]=='sig',(s,n.fun)
        ps=list(s[1])
        if len(n.args)==1 and len(ps)!=1 and n.args[0].kind=='CallExpr': c.expr(n.args[0],env)
        else:
            for k,a in enumerate(n.args):
                if s[3] and k>=len(ps)-1: pt=ps[-1] if n.ellipsis else ps[-1][1]
                else: pt=ps[k]
                c.rvalue(a,env,pt)
        if len(s[2])==1: return s[2][0],None
        return ('tuple',s[2]),None
    def builtin(c,n,f,env):
        w=c.w; c.uses[f.id]=w.universe[f.name][2]; ts=[]
        for k,a in enumerate(n.args):
            if c.istype(a,env): ts.append(c.typ(a,env))
            else: ts.append(c.rvalue(a,env))
        nm=f.name
        if nm=='append': r=ts[0]; s=('sig',(r,('slice',w.under(r)[1])),(r,),True)
        elif nm in('len','cap','copy'): r=INT; s=('sig',tuple(ts),(INT,),False)
        elif nm=='new': r=('ptr',ts[0]); s=('sig',(ts[0],),(r,),False)
        elif nm=='make': r=ts[0]; s=('sig',tuple(ts),(r,),False)
        elif nm=='panic': r=None; s=('sig',(w.iface({}),),(),False)
        elif nm=='recover': r=w.iface({}); s=('sig',(),(r,),False)
        else: r=None; s=('sig',tuple(ts),(),False)
        c.types[n.fun.id]=s; c.types[f.id]=s
        return r,None
    # ---- statements
    def body(c,b,scope,sig):
        old=getattr(c,'sig',None); c.sig=sig; c.stmts(b.list,scope); c.sig=old
    def stmts(c,l,env):
        for s in l: c.stmt(s,env)
    def lhs(c,x,env):
        if x.kind=='Ident' and x.name=='_': return None
        return c.expr(x,env)[0]
    def define(c,i,t,env,new):
        """Left side of a := : i is new in this scope, or assigned."""
        if i.name!='_' and i.name in env.d and i.name not in new:
            e=env.d[i.name]; c.uses[i.id]=e.obj; c.types[i.id]=e.type
            return
        o=c.w.obj(i.name); c.defs[i.id]=o; c.types[i.id]=t; c.w.objtype[o]=t
        if i.name!='_': new[i.name]=Ent('var',o,t)
    def assign(c,s,env):
        w=c.w
        if s.tok not in('=',':='):
            t=c.lhs(s.lhs[0],env); c.rvalue(s.rhs[0],env,t); return
        if s.tok=='=':
            ts=[c.lhs(x,env) for x in s.lhs]
            if len(s.lhs)==len(s.rhs):
                for t,r in zip(ts,s.rhs): c.rvalue(r,env,t)
            else:
                t,_=c.expr(s.rhs[0],env)
                if t[0]!='tuple': c.commaok(s.rhs[0],t)
            return
        if len(s.lhs)==len(s.rhs):
            hints=[env.d[x.name].type if x.name in env.d and x.name!='_' else None for x in s.lhs]
            ts=[]
            for r,h in zip(s.rhs,hints): ts.append(c.rvalue(r,env,h))
        else:
            t,_=c.expr(s.rhs[0],env)
            if t[0]!='tuple': t=c.commaok(s.rhs[0],t)
            ts=t[1]
        new={}
        for x,t in zip(s.lhs,ts): c.define(x,t,env,new)
        env.d.update(new)
    def stmt(c,s,env):
        w=c.w; k=s.kind
        if k=='DeclStmt':
            d=s.decl
            if d.tok=='type':
                for sp in d.specs: c.declare_type(sp,env,env)
            else: c.declare_values(d,env,env,False)
        elif k=='ExprStmt': c.rvalue(s.x,env)
        elif k=='SendStmt':
            t=c.rvalue(s.chan,env); c.rvalue(s.value,env,w.under(t)[2])
        elif k=='IncDecStmt': c.rvalue(s.x,env)
        elif k=='AssignStmt': c.assign(s,env)
        elif k in('GoStmt','DeferStmt'): c.rvalue(s.call,env)
        elif k=='ReturnStmt':
            if len(s.results)==len(c.sig[2]):
                for r,t in zip(s.results,c.sig[2]): c.rvalue(r,env,t)
            elif s.results: c.expr(s.results[0],env)
        elif k=='BlockStmt': c.stmts(s.list,Scope(env))
        elif k=='IfStmt':
            e=Scope(env)
            if s.init: c.stmt(s.init,e)
            c.rvalue(s.cond,e,BOOL); c.stmt(s.body,e)
            if s.els: c.stmt(s.els,e)
        elif k=='ForStmt':
            e=Scope(env)
            if s.init: c.stmt(s.init,e)
            if s.cond: c.rvalue(s.cond,e,BOOL)
            if s.post: c.stmt(s.post,e)
            c.stmt(s.body,e)
        elif k=='RangeStmt':
            e=Scope(env); t=c.rvalue(s.x,env); u=w.under(t)
            if u[0]=='ptr': u=w.under(u[1])
            kt,vt={'slice':lambda:(INT,u[1]),'array':lambda:(INT,u[2]),'map':lambda:(u[1],u[2]),'chan':lambda:(u[2],None),'basic':lambda:(INT,('basic','int32'))}[u[0]]()
            if s.tok==':=':
                new={}
                for x,t in((s.key,kt),(s.value,vt)):
                    if x: c.define(x,t,e,new)
                e.d.update(new)
            else:
                for x in(s.key,s.value):
                    if x: c.lhs(x,env)
            c.stmt(s.body,e)
        elif k=='SwitchStmt':
            e=Scope(env)
            if s.init: c.stmt(s.init,e)
            t=c.rvalue(s.tag,e) if s.tag else BOOL
            for cl in s.body.list:
                for x in cl.list: c.rvalue(x,e,t)
                c.stmts(cl.body,Scope(e))
        elif k=='TypeSwitchStmt':
            e=Scope(env)
            if s.init: c.stmt(s.init,e)
            a=s.assign; x=a.x if a.kind=='ExprStmt' else a.rhs[0]
            t=c.rvalue(x.x,e)
            if a.kind=='AssignStmt': c.defs.pop(a.lhs[0].id,None)
            for cl in s.body.list:
                ts=[]
                for y in cl.list:
                    if y.kind=='Ident' and y.name=='nil' and env.find('nil') is None: c.types[y.id]=NIL; c.uses[y.id]=w.universe['nil'][1]; ts.append(NIL)
                    else: ts.append(c.typ(y,e))
                ce=Scope(e)
                if a.kind=='AssignStmt':
                    tt=ts[0] if len(ts)==1 and ts[0]!=NIL else t
                    o=w.obj(a.lhs[0].name); w.objtype[o]=tt; ce.d[a.lhs[0].name]=Ent('var',o,tt)
                c.stmts(cl.body,ce)
        elif k=='SelectStmt':
            for cl in s.body.list:
                e=Scope(env)
                if cl.comm: c.stmt(cl.comm,e)
                c.stmts(cl.body,e)
        elif k=='LabeledStmt': c.stmt(s.stmt,env)
        elif k in('BranchStmt','EmptyStmt'): pass
        else: raise TypeError(k)
def unquote(s):
    body=s[1:-1]; out=''; i=0
    M={'n':'\n','t':'\t','r':'\r','\\':'\\','"':'"',"'":"'",'a':'\a','b':'\b','f':'\f','v':'\v'}
    while i<len(body):
        if body[i]=='\\':
            e=body[i+1]
            if e in M: out+=M[e]; i+=2
            elif e=='x': out+=chr(int(body[i+2:i+4],16)); i+=4
            elif e=='u': out+=chr(int(body[i+2:i+6],16)); i+=6
            else: out+=chr(int(body[i+1:i+4],8)); i+=4
        else: out+=body[i]; i+=1
    return out
