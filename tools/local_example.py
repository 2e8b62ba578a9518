"""Generates rocq/theories/ExampleLocal.v: the package sources/local as data, followed by the theorems in sources/local/theorems.txt."""
import os,sys
here=os.path.dirname(os.path.abspath(__file__)); sys.path.insert(0,here)
import conform
conform.SRC=here+'/sources/'
e=conform.load(conform.world(),'local','t_local')
out='(** * The presuppositions of PropLocal.v are satisfiable: a package one function of which cannot be tracked.  The data is generated from\n    tools/sources/local/local.go by tools/local_example.py. *)\n'+conform.HEADER+e.coq()+'\n\n'+open(here+'/sources/local/theorems.txt').read()
open(here+'/../rocq/theories/ExampleLocal.v','w').write(out)
