# Generates ExampleLayout's data: the nodes (extent, group or not) and comments of a Go file.
src='''package p

func f(x int) error {
	switch x {
	case 1:
		// Error Codes = a-one
		return g(1)
	case 2:
		return g(2) // Error Codes = a-two
	}
	return g(3) // Error Codes = a-three
}
'''
def line(off): return src.count('\n',0,off)+1
def at(s,n=0):
    i=-1
    for _ in range(n+1): i=src.index(s,i+1)
    return i
nodes=[]
def N(start,end,group): nodes.append((len(nodes)+1,start,end,group))
def T(text,group=0,n=0,base=0):
    i=src.index(text,base); N(i,i+len(text),group)
endf=src.rindex('}')+1
N(0,endf,1)                         # File
N(8,9,0)                            # Ident p
fd=at('func')
N(fd,endf,1)                        # FuncDecl
N(at('f(x'),at('f(x')+1,0)          # Ident f
N(fd,at(' {'),0)                    # FuncType
N(at('(x int'),at(') error')+1,0)   # FieldList
N(at('x int'),at('x int')+5,1)      # Field
N(at('x int'),at('x int')+1,0); N(at('int'),at('int')+3,0)
N(at('error {'),at('error {')+5,0)  # FieldList
N(at('error {'),at('error {')+5,1)  # Field
N(at('error {'),at('error {')+5,0)  # Ident
b=at('{\n\tswitch'); N(b,endf,1)     # Block
sw=at('switch'); swe=at('\n\t}')+3
N(sw,swe,1); N(sw+7,sw+8,0); N(sw+9,swe,1)
ids={}
for k in (1,2):
    c=at('case %d'%k); r=at('return g(%d)'%k); e=r+len('return g(1)')
    N(c,e,1); N(c+5,c+6,0)
    N(r,e,1); ids[k]=len(nodes); N(r+7,e,0); N(r+7,r+8,0); N(r+9,r+10,0)
r=at('return g(3)'); e=r+len('return g(1)')
N(r,e,1); ids[3]=len(nodes); N(r+7,e,0); N(r+7,r+8,0); N(r+9,r+10,0)
P=lambda o:'Place %d %d'%(o,line(o))
import re
print('Definition ly_nodes : list snode := [')
print(';\n'.join('  SNode %d (%s) (%s) %s'%(i,P(s),P(e),'true' if g else 'false') for i,s,e,g in nodes)+'].')
print('Definition ly_comments : list cgroup := [')
print(';\n'.join('  CGroup (%s) (%s) [str "%s"]'%(P(m.start()),P(m.end()),m.group()) for m in re.finditer(r'//[^\n]*',src))+'].')
print('(* returns: %s; clause of the second: %s *)'%(ids,ids[2]-2))
