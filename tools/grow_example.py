"""Generates rocq/theories/ExampleGrow.v: the packages sources/growdep and sources/grow as data, followed by the theorems in sources/grow/theorems.txt."""
import os,sys
here=os.path.dirname(os.path.abspath(__file__)); sys.path.insert(0,here)
import conform
conform.SRC=here+'/sources/'
w=conform.world()
d=conform.load(w,'growdep','t_growdep'); e=conform.load(w,'grow','t_grow')
out='(** * The presuppositions of PropGrow.v are satisfiable: a package, and what its dependency declares.  The data is generated from\n    tools/sources/growdep/growdep.go and tools/sources/grow/grow.go by tools/grow_example.py. *)\n'+conform.HEADER+d.coq()+'\n\n'+e.coq()+'\n\n'+open(here+'/sources/grow/theorems.txt').read()
open(here+'/../rocq/theories/ExampleGrow.v','w').write(out)
