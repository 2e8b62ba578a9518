"""A parser for Go 1.17 (no generics): syntax trees with positions as go/parser and go/ast make them, comments, and the
deprecated identifier resolution ( *ast.Object)."""
import re
KEYWORDS=set('break case chan const continue default defer else fallthrough for func go goto if import interface map package range return select struct switch type var'.split())
OPS=['<<=','>>=','&^=','...','&&','||','<-','++','--','==','!=','<=','>=',':=','+=','-=','*=','/=','%=','&=','|=','^=','<<','>>','&^',
     '+','-','*','/','%','&','|','^','<','>','=','!','(',')','[',']','{','}',',',';','.',':']
class Tok:
    __slots__=('k','v','pos','end')
    def __init__(s,k,v,pos,end): s.k,s.v,s.pos,s.end=k,v,pos,end
    def __repr__(s): return f'{s.k}:{s.v}@{s.pos}'
NUM=re.compile(r'0[xX][0-9a-fA-F_]+|0[bB][01_]+|0[oO][0-7_]+|[0-9][0-9_]*(\.[0-9_]*)?([eE][+-]?[0-9]+)?i?|\.[0-9]+([eE][+-]?[0-9]+)?i?')
IDENT=re.compile(r'[^\W\d]\w*')
def lex(src):
    """src: text; returns tokens and comments (text, pos, end).  Positions are offsets in bytes."""
    toks=[];comments=[];i=0;n=len(src)
    # byte offsets
    off=[0]
    for ch in src: off.append(off[-1]+len(ch.encode()))
    def semi():
        if not toks: return False
        t=toks[-1]
        return t.k in('ident','int','float','char','string') or (t.k=='kw' and t.v in('break','continue','fallthrough','return')) or (t.k=='op' and t.v in('++','--',')',']','}'))
    while i<n:
        c=src[i]
        if c=='\n':
            if semi(): toks.append(Tok('op',';',off[i],off[i]))
            if toks and toks[-1].v==';' and toks[-1].pos==off[i]: toks[-1].k='auto'
            i+=1; continue
        if c in ' \t\r': i+=1; continue
        if src.startswith('//',i):
            j=src.find('\n',i); j=n if j<0 else j
            txt=src[i:j].rstrip('\r'); comments.append((txt,off[i],off[i+len(txt)])); i=j; continue
        if src.startswith('/*',i):
            j=src.index('*/',i)+2; comments.append((src[i:j].replace('\r',''),off[i],off[j]))
            if '\n' in src[i:j] and semi(): toks.append(Tok('auto',';',off[i],off[i]))
            i=j; continue
        m=IDENT.match(src,i)
        if m:
            v=m.group(); toks.append(Tok('kw' if v in KEYWORDS else 'ident',v,off[i],off[m.end()])); i=m.end(); continue
        m=NUM.match(src,i)
        if m:
            v=m.group(); toks.append(Tok('float' if re.search(r'[.eE]',v) and not v.startswith(('0x','0X')) else 'int',v,off[i],off[m.end()])); i=m.end(); continue
        if c=='`':
            j=src.index('`',i+1)+1; toks.append(Tok('string',src[i:j],off[i],off[j])); i=j; continue
        if c=='"' or c=="'":
            j=i+1
            while src[j]!=c: j+=2 if src[j]=='\\' else 1
            j+=1; toks.append(Tok('string' if c=='"' else 'char',src[i:j],off[i],off[j])); i=j; continue
        for o in OPS:
            if src.startswith(o,i): toks.append(Tok('op',o,off[i],off[i+len(o)])); i+=len(o); break
        else: raise SyntaxError(f'{src[i:i+20]!r}')
    if semi(): toks.append(Tok('auto',';',off[n],off[n]))
    toks.append(Tok('eof','',off[n],off[n]))
    return toks,comments
class Node:
    def __init__(s,kind,pos,end,**a):
        s.kind,s.pos,s.end=kind,pos,end; s.__dict__.update(a)
    def __repr__(s): return f'<{s.kind} {s.pos}>'
WALK={'File':['name','decls'],'Ident':[],'BasicLit':[],'CompositeLit':['type','elts'],'ParenExpr':['x'],'SelectorExpr':['x','sel'],'IndexExpr':['x','index'],
 'SliceExpr':['x','low','high','max'],'TypeAssertExpr':['x','type'],'CallExpr':['fun','args'],'StarExpr':['x'],'UnaryExpr':['x'],'BinaryExpr':['x','y'],
 'KeyValueExpr':['key','value'],'FuncLit':['type','body'],'ArrayType':['len','elt'],'Ellipsis':['elt'],'StructType':['fields'],'FuncType':['params','results'],
 'InterfaceType':['methods'],'MapType':['key','value'],'ChanType':['value'],'FieldList':['list'],'Field':['names','type','tag'],'DeclStmt':['decl'],'EmptyStmt':[],
 'LabeledStmt':['label','stmt'],'ExprStmt':['x'],'SendStmt':['chan','value'],'IncDecStmt':['x'],'AssignStmt':['lhs','rhs'],'GoStmt':['call'],'DeferStmt':['call'],
 'ReturnStmt':['results'],'BranchStmt':['label'],'BlockStmt':['list'],'IfStmt':['init','cond','body','els'],'CaseClause':['list','body'],'SwitchStmt':['init','tag','body'],
 'TypeSwitchStmt':['init','assign','body'],'CommClause':['comm','body'],'SelectStmt':['body'],'ForStmt':['init','cond','post','body'],'RangeStmt':['key','value','x','body'],
 'ImportSpec':['name','path'],'ValueSpec':['names','type','values'],'TypeSpec':['name','type'],'GenDecl':['specs'],'FuncDecl':['recv','name','type','body']}
GROUPS=set('File Field GenDecl FuncDecl ImportSpec ValueSpec TypeSpec DeclStmt EmptyStmt LabeledStmt ExprStmt SendStmt IncDecStmt AssignStmt GoStmt DeferStmt ReturnStmt BranchStmt BlockStmt IfStmt CaseClause SwitchStmt TypeSwitchStmt CommClause SelectStmt ForStmt RangeStmt'.split())
def children(n):
    out=[]
    for a in WALK[n.kind]:
        v=getattr(n,a)
        if v is None: continue
        if isinstance(v,list): out+=v
        else: out.append(v)
    return out
def inspect(n,f):
    if f(n):
        for c in children(n): inspect(c,f)
BINPREC={'||':1,'&&':2,'==':3,'!=':3,'<':3,'<=':3,'>':3,'>=':3,'+':4,'-':4,'|':4,'^':4,'*':5,'/':5,'%':5,'<<':5,'>>':5,'&':5,'&^':5}
ASSIGN=set(['=',':=','+=','-=','*=','/=','%=','&=','|=','^=','<<=','>>=','&^='])
class Parser:
    def __init__(s,src):
        s.src=src; s.toks,s.comments=lex(src); s.i=0; s.exprlev=0
        b=src.encode(); s.linestarts=[0]+[i+1 for i,c in enumerate(b) if c==10]
        s.groups=[]; import bisect
        s.line=lambda p: bisect.bisect_right(s.linestarts,p)
        # comment groups: comments on adjacent lines without a token in between
        tokpos=[t.pos for t in s.toks if not(t.k=='auto')]
        cur=None
        for c in s.comments:
            if cur and s.line(c[1])<=s.line(cur[-1][2])+1 and not any(cur[-1][2]<=p<c[1] for p in tokpos[bisect.bisect_left(tokpos,cur[-1][2]):bisect.bisect_left(tokpos,cur[-1][2])+1]):
                # a comment on the same line as the preceding token forms a group of its own (go/parser, next)
                if s._trailing(cur,tokpos) and s.line(c[1])!=s.line(cur[-1][2]): s.groups.append(cur); cur=[c]
                else: cur.append(c)
            else:
                if cur: s.groups.append(cur)
                cur=[c]
        if cur: s.groups.append(cur)
    def _trailing(s,g,tokpos):
        """The group starts on the line of the preceding token (then only comments of that line belong to it)."""
        import bisect
        k=bisect.bisect_left(tokpos,g[0][1])
        if k==0: return False
        prev=[t for t in s.toks if t.k!='auto' and t.pos==tokpos[k-1]][0]
        return s.line(prev.pos)==s.line(g[0][1])
    def lead(s,pos):
        """The comment group that ends on the line before pos (or on the same line), if it is a lead comment."""
        l=s.line(pos); best=None
        prevend=0
        for t in s.toks:
            if t.k=='auto': continue
            if t.pos>=pos: break
            prevend=t.end
        for g in s.groups:
            if g[-1][2]<=pos and g[0][1]>=prevend: best=g
        if best and s.line(best[-1][2])+1==l and not s._trailing(best,[t.pos for t in s.toks if t.k!='auto']): return best
        return None
    # token helpers
    @property
    def t(s): return s.toks[s.i]
    def peek(s,k=1): return s.toks[s.i+k]
    def isop(s,*v): return s.t.k in('op','auto') and s.t.v in v
    def iskw(s,*v): return s.t.k=='kw' and s.t.v in v
    def next(s): t=s.t; s.i+=1; return t
    def expect(s,v):
        t=s.t
        if t.v!=v or t.k in('ident','string'): raise SyntaxError(f'line {s.line(t.pos)}: expected {v}, got {t}')
        s.i+=1; return t
    def semi(s):
        if s.isop(')','}'): return
        s.expect(';')
    def file(s):
        p=s.expect('package'); name=s.ident(); s.semi(); decls=[]
        while s.t.k!='eof':
            decls.append(s.decl())
            if s.t.k!='eof': s.semi()
        return Node('File',p.pos,decls[-1].end if decls else name.end,name=name,decls=decls)
    def ident(s):
        t=s.next()
        if t.k!='ident': raise SyntaxError(f'line {s.line(t.pos)}: ident expected, got {t}')
        return Node('Ident',t.pos,t.end,name=t.v,obj=None)
    def decl(s):
        if s.iskw('func'): return s.funcdecl()
        if s.iskw('import','const','var','type'): return s.gendecl()
        raise SyntaxError(f'line {s.line(s.t.pos)}: declaration expected, got {s.t}')
    def gendecl(s):
        kw=s.next(); specs=[]
        f={'import':s.importspec,'const':s.valuespec,'var':s.valuespec,'type':s.typespec}[kw.v]
        if s.isop('('):
            s.next(); k=0
            while not s.isop(')'):
                specs.append(f(kw.v,k)); k+=1; s.semi()
            r=s.expect(')'); end=r.end
        else: specs.append(f(kw.v,0)); end=specs[-1].end
        return Node('GenDecl',kw.pos,end,tok=kw.v,specs=specs)
    def importspec(s,tok,k):
        name=None; start=s.t.pos
        if s.t.k=='ident': name=s.ident()
        elif s.isop('.'): d=s.next(); name=Node('Ident',d.pos,d.end,name='.',obj=None)
        t=s.next(); path=Node('BasicLit',t.pos,t.end,tk='string',value=t.v)
        return Node('ImportSpec',start,path.end,name=name,path=path)
    def valuespec(s,tok,k):
        names=[s.ident()]
        while s.isop(','): s.next(); names.append(s.ident())
        typ=None; values=[]
        if not s.isop('=',';',')'): typ=s.type()
        if s.isop('='): s.next(); values=s.exprlist()
        end=values[-1].end if values else typ.end if typ else names[-1].end
        return Node('ValueSpec',names[0].pos,end,names=names,type=typ,values=values,iota=k)
    def typespec(s,tok,k):
        name=s.ident(); alias=False
        if s.isop('='): s.next(); alias=True
        t=s.type(); return Node('TypeSpec',name.pos,t.end,name=name,type=t,alias=alias)
    def funcdecl(s):
        doc=s.lead(s.t.pos); f=s.expect('func'); recv=None
        if s.isop('('): recv=s.params()
        name=s.ident(); ft=s.signature(f.pos); body=None
        if s.isop('{'): lev=s.exprlev; s.exprlev=0; body=s.block(); s.exprlev=lev
        return Node('FuncDecl',f.pos,body.end if body else ft.end,doc=doc,recv=recv,name=name,type=ft,body=body)
    def signature(s,pos):
        params=s.params(); results=None
        if s.isop('('): results=s.params()
        else:
            t=s.trytype()
            if t: results=Node('FieldList',t.pos,t.end,list=[Node('Field',t.pos,t.end,names=[],type=t,tag=None,doc=None)])
        return Node('FuncType',params.pos if pos is None else pos,(results or params).end,params=params,results=results)
    def params(s):
        o=s.expect('('); ents=[]
        while not s.isop(')'):
            # an entry: type, or ident type, or ...type
            if s.isop('...'): e=s.next(); t=s.type(); ents.append((None,Node('Ellipsis',e.pos,t.end,elt=t)))
            else:
                t=s.type()
                if t.kind=='Ident' and not s.isop(',',')'):
                    if s.isop('...'): e=s.next(); u=s.type(); ents.append((t,Node('Ellipsis',e.pos,u.end,elt=u)))
                    else: ents.append((t,s.type()))
                else: ents.append((None,t))
            if not s.isop(')'): s.expect(',')
        c=s.expect(')'); fields=[]
        if any(n for n,_ in ents):
            names=[]
            for n,t in ents:
                if n is None: names.append(t)
                else:
                    names.append(n); fields.append(Node('Field',names[0].pos,t.end,names=names,type=t,tag=None,doc=None)); names=[]
        else: fields=[Node('Field',t.pos,t.end,names=[],type=t,tag=None,doc=None) for _,t in ents]
        return Node('FieldList',o.pos,c.end,list=fields)
    # types
    def type(s):
        t=s.trytype()
        if t is None: raise SyntaxError(f'line {s.line(s.t.pos)}: type expected, got {s.t}')
        return t
    def trytype(s):
        t=s.t
        if t.k=='ident':
            x=s.ident()
            if s.isop('.'): s.next(); sel=s.ident(); return Node('SelectorExpr',x.pos,sel.end,x=x,sel=sel)
            return x
        if s.isop('['):
            s.next()
            if s.isop(']'): s.next(); e=s.type(); return Node('ArrayType',t.pos,e.end,len=None,elt=e)
            if s.isop('...'): d=s.next(); ln=Node('Ellipsis',d.pos,d.end,elt=None)
            else: s.exprlev+=1; ln=s.expr(); s.exprlev-=1
            s.expect(']'); e=s.type(); return Node('ArrayType',t.pos,e.end,len=ln,elt=e)
        if s.isop('*'): s.next(); e=s.type(); return Node('StarExpr',t.pos,e.end,x=e)
        if s.isop('('): s.next(); e=s.type(); c=s.expect(')'); return Node('ParenExpr',t.pos,c.end,x=e)
        if s.iskw('struct'): return s.structtype()
        if s.iskw('interface'): return s.interfacetype()
        if s.iskw('func'): s.next(); return s.signature(t.pos)
        if s.iskw('map'):
            s.next(); s.expect('['); k=s.type(); s.expect(']'); v=s.type(); return Node('MapType',t.pos,v.end,key=k,value=v)
        if s.iskw('chan'):
            s.next(); d=3
            if s.isop('<-'): s.next(); d=1
            v=s.type(); return Node('ChanType',t.pos,v.end,dir=d,value=v)
        if s.isop('<-'):
            s.next(); s.expect('chan'); v=s.type(); return Node('ChanType',t.pos,v.end,dir=2,value=v)
        return None
    def structtype(s):
        k=s.expect('struct'); o=s.expect('{'); fields=[]
        while not s.isop('}'):
            doc=s.lead(s.t.pos)
            if s.isop('*') or (s.t.k=='ident' and (s.peek().v in(';','}','.') or s.peek().k=='string')):
                names=[]; t=s.type(); start=t.pos
            else:
                names=[s.ident()]
                while s.isop(','): s.next(); names.append(s.ident())
                t=s.type(); start=names[0].pos
            tag=None
            if s.t.k=='string': x=s.next(); tag=Node('BasicLit',x.pos,x.end,tk='string',value=x.v)
            fields.append(Node('Field',start,(tag or t).end,names=names,type=t,tag=tag,doc=doc)); s.semi()
        c=s.expect('}'); fl=Node('FieldList',o.pos,c.end,list=fields)
        return Node('StructType',k.pos,c.end,fields=fl)
    def interfacetype(s):
        k=s.expect('interface'); o=s.expect('{'); fields=[]
        while not s.isop('}'):
            doc=s.lead(s.t.pos)
            if s.t.k=='ident' and s.peek().v=='(' and s.peek().k=='op':
                n=s.ident(); ft=s.signature(None); fields.append(Node('Field',n.pos,ft.end,names=[n],type=ft,tag=None,doc=doc))
            else:
                t=s.type(); fields.append(Node('Field',t.pos,t.end,names=[],type=t,tag=None,doc=doc))
            s.semi()
        c=s.expect('}'); return Node('InterfaceType',k.pos,c.end,methods=Node('FieldList',o.pos,c.end,list=fields))
    # expressions
    def exprlist(s):
        l=[s.expr()]
        while s.isop(','): s.next(); l.append(s.expr())
        return l
    def expr(s,prec=1):
        x=s.unary()
        while s.t.k=='op' and BINPREC.get(s.t.v,0)>=prec:
            o=s.next(); y=s.expr(BINPREC[o.v]+1); x=Node('BinaryExpr',x.pos,y.end,x=x,op=o.v,y=y)
        return x
    def unary(s):
        t=s.t
        if s.isop('+','-','!','^','&'): s.next(); x=s.unary(); return Node('UnaryExpr',t.pos,x.end,op=t.v,x=x)
        if s.isop('<-'):
            if s.peek().v=='chan': return s.type()
            s.next(); x=s.unary(); return Node('UnaryExpr',t.pos,x.end,op='<-',x=x)
        if s.isop('*'): s.next(); x=s.unary(); return Node('StarExpr',t.pos,x.end,x=x)
        return s.primary()
    def operand(s):
        t=s.t
        if t.k=='ident': return s.ident()
        if t.k in('int','float','char','string'): s.next(); return Node('BasicLit',t.pos,t.end,tk=t.k,value=t.v)
        if s.isop('('):
            s.next(); s.exprlev+=1; x=s.exprortype(); s.exprlev-=1; c=s.expect(')'); return Node('ParenExpr',t.pos,c.end,x=x)
        if s.iskw('func'):
            s.next(); ft=s.signature(t.pos)
            if s.isop('{'):
                lev=s.exprlev; s.exprlev=0; b=s.block(); s.exprlev=lev
                return Node('FuncLit',t.pos,b.end,type=ft,body=b)
            return ft
        ty=s.trytype()
        if ty is None: raise SyntaxError(f'line {s.line(t.pos)}: operand expected, got {t}')
        return ty
    def exprortype(s): return s.expr()
    def primary(s):
        x=s.operand()
        while True:
            if s.isop('.'):
                s.next()
                if s.isop('('):
                    s.next()
                    if s.iskw('type'): s.next(); ty=None
                    else: ty=s.type()
                    c=s.expect(')'); x=Node('TypeAssertExpr',x.pos,c.end,x=x,type=ty)
                else: sel=s.ident(); x=Node('SelectorExpr',x.pos,sel.end,x=x,sel=sel)
            elif s.isop('['):
                s.next(); s.exprlev+=1; idx=[None,None,None]; k=0
                if not s.isop(':'): idx[0]=s.expr()
                while s.isop(':') and k<2:
                    s.next(); k+=1
                    if not s.isop(':',']'): idx[k]=s.expr()
                s.exprlev-=1; c=s.expect(']')
                x=Node('IndexExpr',x.pos,c.end,x=x,index=idx[0]) if k==0 else Node('SliceExpr',x.pos,c.end,x=x,low=idx[0],high=idx[1],max=idx[2])
            elif s.isop('('):
                s.next(); s.exprlev+=1; args=[]; ell=False
                while not s.isop(')'):
                    args.append(s.exprortype())
                    if s.isop('...'): s.next(); ell=True
                    if not s.isop(')'): s.expect(',')
                s.exprlev-=1; c=s.expect(')'); x=Node('CallExpr',x.pos,c.end,fun=x,args=args,ellipsis=ell)
            elif s.isop('{') and (x.kind in('ArrayType','MapType','StructType') or (s.exprlev>=0 and (x.kind=='Ident' or (x.kind=='SelectorExpr' and x.x.kind=='Ident')))):
                x=s.complit(x)
            else: return x
    def complit(s,ty):
        o=s.expect('{'); s.exprlev+=1; elts=[]
        while not s.isop('}'):
            e=s.element()
            if s.isop(':'): s.next(); v=s.element(); e=Node('KeyValueExpr',e.pos,v.end,key=e,value=v)
            elts.append(e)
            if not s.isop('}'): s.expect(',')
        s.exprlev-=1; c=s.expect('}'); return Node('CompositeLit',(ty or o).pos,c.end,type=ty,elts=elts)
    def element(s): return s.complit(None) if s.isop('{') else s.expr()
    # statements
    def block(s):
        o=s.expect('{'); l=s.stmtlist(); c=s.expect('}'); return Node('BlockStmt',o.pos,c.end,list=l)
    def stmtlist(s):
        l=[]
        while not s.isop('}') and not s.iskw('case','default'):
            st=s.stmt()
            if st: l.append(st)
            if s.isop('}') : break
            if s.isop(';'):
                s.next()
            elif not s.iskw('case','default'): raise SyntaxError(f'line {s.line(s.t.pos)}: ; expected, got {s.t}')
        return l
    def simple(s,rangeok=False):
        if rangeok and s.iskw('range'):
            r=s.next(); x=s.expr(); return Node('RangeStmt',r.pos,x.end,key=None,value=None,tok=None,x=x,body=None)
        lhs=s.exprlist(); t=s.t
        if t.k=='op' and t.v in ASSIGN:
            s.next()
            if rangeok and s.iskw('range') and t.v in('=',':='):
                s.next(); x=s.expr(); return Node('RangeStmt',lhs[0].pos,x.end,key=lhs[0],value=lhs[1] if len(lhs)>1 else None,tok=t.v,x=x,body=None)
            rhs=s.exprlist(); return Node('AssignStmt',lhs[0].pos,rhs[-1].end,lhs=lhs,tok=t.v,rhs=rhs)
        x=lhs[0]
        if s.isop('<-'): s.next(); v=s.expr(); return Node('SendStmt',x.pos,v.end,chan=x,value=v)
        if s.isop('++','--'): o=s.next(); return Node('IncDecStmt',x.pos,o.end,x=x,op=o.v)
        return Node('ExprStmt',x.pos,x.end,x=x)
    def stmt(s):
        t=s.t
        if s.isop(';'): return Node('EmptyStmt',t.pos,t.end,implicit=False) if t.k=='op' else None
        if s.iskw('var','const','type'): d=s.gendecl(); return Node('DeclStmt',d.pos,d.end,decl=d)
        if s.isop('{'): return s.block()
        if s.iskw('return'):
            s.next(); res=[] if s.isop(';','}') else s.exprlist()
            return Node('ReturnStmt',t.pos,res[-1].end if res else t.end,results=res)
        if s.iskw('go','defer'):
            s.next(); c=s.expr(); return Node('GoStmt' if t.v=='go' else 'DeferStmt',t.pos,c.end,call=c)
        if s.iskw('break','continue','goto','fallthrough'):
            s.next(); l=s.ident() if s.t.k=='ident' else None
            return Node('BranchStmt',t.pos,l.end if l else t.end,label=l)
        if s.iskw('if'): return s.ifstmt()
        if s.iskw('for'): return s.forstmt()
        if s.iskw('switch'): return s.switchstmt()
        if s.iskw('select'):
            s.next(); o=s.expect('{'); cl=[]
            while s.iskw('case','default'):
                k=s.next(); comm=s.simple() if k.v=='case' else None
                c=s.expect(':'); b=s.stmtlist(); cl.append(Node('CommClause',k.pos,b[-1].end if b else c.end,comm=comm,body=b))
            c=s.expect('}'); return Node('SelectStmt',t.pos,c.end,body=Node('BlockStmt',o.pos,c.end,list=cl))
        if t.k=='ident' and s.peek().v==':' and s.peek().k=='op':
            l=s.ident(); s.next()
            if s.isop('}'): st=Node('EmptyStmt',s.t.pos,s.t.pos,implicit=True)
            else:
                while s.t.k=='auto': s.next()
                st=s.stmt()
            return Node('LabeledStmt',l.pos,st.end,label=l,stmt=st)
        return s.simple()
    def ifstmt(s):
        k=s.expect('if'); lev=s.exprlev; s.exprlev=-1; init=cond=None
        if not s.isop(';'): init=s.simple()
        if s.isop(';'): s.next(); cond=s.simple().x
        else: cond=init.x; init=None
        s.exprlev=lev; body=s.block(); els=None
        if s.iskw('else'):
            s.next(); els=s.ifstmt() if s.iskw('if') else s.block()
        return Node('IfStmt',k.pos,(els or body).end,init=init,cond=cond,body=body,els=els)
    def forstmt(s):
        k=s.expect('for'); lev=s.exprlev; s.exprlev=-1; init=cond=post=None; rng=None
        if not s.isop('{'):
            if not s.isop(';'):
                x=s.simple(True)
                if x.kind=='RangeStmt': rng=x
                else: cond=x
            if rng is None and s.isop(';'):
                s.next(); init=cond; cond=None
                if not s.isop(';'): cond=s.simple()
                s.expect(';')
                if not s.isop('{'): post=s.simple()
        s.exprlev=lev; body=s.block()
        if rng: rng.pos=k.pos; rng.end=body.end; rng.body=body; return rng
        return Node('ForStmt',k.pos,body.end,init=init,cond=cond.x if cond else None,post=post,body=body)
    def switchstmt(s):
        k=s.expect('switch'); lev=s.exprlev; s.exprlev=-1; init=tag=None
        if not s.isop('{'):
            if not s.isop(';'): tag=s.simple()
            if s.isop(';'):
                s.next(); init=tag; tag=None
                if not s.isop('{'): tag=s.simple()
        s.exprlev=lev
        def isguard(st):
            if st is None: return False
            if st.kind=='ExprStmt': return st.x.kind=='TypeAssertExpr' and st.x.type is None
            return st.kind=='AssignStmt' and st.tok==':=' and len(st.rhs)==1 and st.rhs[0].kind=='TypeAssertExpr' and st.rhs[0].type is None
        ts=isguard(tag); o=s.expect('{'); cl=[]
        while s.iskw('case','default'):
            c=s.next(); l=[]
            if c.v=='case':
                l=[s.type() if ts else s.expr()]
                while s.isop(','): s.next(); l.append(s.type() if ts else s.expr())
            co=s.expect(':'); b=s.stmtlist(); cl.append(Node('CaseClause',c.pos,b[-1].end if b else co.end,list=l,body=b))
        c=s.expect('}'); body=Node('BlockStmt',o.pos,c.end,list=cl)
        if ts: return Node('TypeSwitchStmt',k.pos,c.end,init=init,assign=tag,body=body)
        return Node('SwitchStmt',k.pos,c.end,init=init,tag=tag.x if tag else None,body=body)

class Obj:
    """ast.Object"""
    def __init__(s,kind,name,decl,ident): s.kind,s.name,s.decl,s.ident=kind,name,decl,ident
class Resolver:
    """go/parser/resolver.go"""
    def __init__(s,f):
        s.pkg={}; s.scopes=[s.pkg]; s.unresolved=[]
        for d in f.decls: s.walk(d)
        for i in s.unresolved:
            if i.name in s.pkg: i.obj=s.pkg[i.name]
    def open(s): s.scopes.append({})
    def close(s): s.scopes.pop()
    def declare(s,decl,kind,idents,scope=None):
        scope=s.scopes[-1] if scope is None else scope
        for i in idents:
            o=Obj(kind,i.name,decl,i); i.obj=o
            if i.name!='_' and i.name not in scope: scope[i.name]=o
    def short(s,decl,lhs):
        sc=s.scopes[-1]
        for x in lhs:
            if x.kind=='Ident':
                o=Obj('var',x.name,decl,x); x.obj=o
                if x.name!='_':
                    if x.name in sc: x.obj=sc[x.name]
                    else: sc[x.name]=o
    def resolve(s,i,collect=True):
        if i.name=='_': return
        for sc in reversed(s.scopes):
            if i.name in sc: i.obj=sc[i.name]; return
        s.unresolved.append(i)   # (keys of composite literals are not collected by go/parser: see walk)
        if not collect: s.unresolved.pop()
    def all(s,l):
        for x in l: s.walk(x)
    def functype(s,ft,recv=None):
        if recv: s.fields(recv)
        s.fields(ft.params)
        if ft.results: s.fields(ft.results)
    def fields(s,fl):
        for f in fl.list: s.walk(f.type)
        for f in fl.list: s.declare(f,'var',f.names)
    def walk(s,n):
        if n is None: return
        k=n.kind
        if k=='Ident': s.resolve(n)
        elif k=='FuncLit': s.open(); s.functype(n.type); s.all(n.body.list); s.close()
        elif k=='SelectorExpr': s.walk(n.x)
        elif k=='StructType':
            for f in n.fields.list: s.walk(f.type)
        elif k=='FuncType': s.open(); s.functype(n); s.close()
        elif k=='InterfaceType':
            for f in n.methods.list: s.walk(f.type)
        elif k=='CompositeLit':
            s.walk(n.type)
            for e in n.elts:
                if e.kind=='KeyValueExpr':
                    if e.key.kind=='Ident': s.resolve(e.key,False)
                    else: s.walk(e.key)
                    s.walk(e.value)
                else: s.walk(e)
        elif k=='LabeledStmt': s.walk(n.stmt)
        elif k=='AssignStmt':
            s.all(n.rhs)
            if n.tok==':=':
                for x in n.lhs:
                    if x.kind!='Ident': s.walk(x)
                s.short(n,n.lhs)
            else: s.all(n.lhs)
        elif k=='BranchStmt': pass
        elif k=='BlockStmt': s.open(); s.all(n.list); s.close()
        elif k=='IfStmt': s.open(); s.walk(n.init); s.walk(n.cond); s.walk(n.body); s.walk(n.els); s.close()
        elif k=='CaseClause': s.all(n.list); s.open(); s.all(n.body); s.close()
        elif k=='SwitchStmt': s.open(); s.walk(n.init); s.walk(n.tag); s.all(n.body.list); s.close()
        elif k=='TypeSwitchStmt': s.open(); s.walk(n.init); s.open(); s.walk(n.assign); s.all(n.body.list); s.close(); s.close()
        elif k=='CommClause': s.open(); s.walk(n.comm); s.all(n.body); s.close()
        elif k=='SelectStmt': s.all(n.body.list)
        elif k=='ForStmt': s.open(); s.walk(n.init); s.walk(n.cond); s.walk(n.post); s.walk(n.body); s.close()
        elif k=='RangeStmt':
            s.open(); s.walk(n.x); lhs=[x for x in(n.key,n.value) if x]
            if n.tok==':=': s.short(n,lhs)
            else: s.all(lhs)
            s.walk(n.body); s.close()
        elif k=='GenDecl':
            if n.tok in('const','var'):
                for sp in n.specs: s.all(sp.values); s.walk(sp.type); s.declare(sp,n.tok,sp.names)
            elif n.tok=='type':
                for sp in n.specs: s.declare(sp,'type',[sp.name]); s.walk(sp.type)
        elif k=='FuncDecl':
            s.open()
            s.functype(n.type,n.recv)
            if n.body: s.all(n.body.list)
            s.close()
            if n.recv is None and n.name.name!='init': s.declare(n,'func',[n.name],s.pkg)
        else: s.all(children(n))
def parse(src):
    p=Parser(src); f=p.file(); Resolver(f); return p,f
