"""Generates rocq/theories/ExampleEdited.v: the package sources/edit as data, followed by the theorems in sources/edit/theorems.txt."""
import os,sys
here=os.path.dirname(os.path.abspath(__file__)); sys.path.insert(0,here)
import conform
conform.SRC=here+'/sources/'
e=conform.load(conform.world(),'edit','t_edit')
out='(** * What C48 does not say: an edit may change a report about a conversion elsewhere.  The data is generated from\n    tools/sources/edit/edit.go by tools/edit_example.py. *)\n'+conform.HEADER+e.coq()+'\n\n'+open(here+'/sources/edit/theorems.txt').read()
open(here+'/../rocq/theories/ExampleEdited.v','w').write(out)
