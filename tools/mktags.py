#!/usr/bin/env python3
"""Prints theories/Spec/Tags.v: which class each tag stands for, read off the register(...) calls of /repo with regular expressions (not with tools/translate.py)."""
import re, glob, os
pk={'com/finproto/sample/messages':'sample','com/finproto/risk/bin/messages':'risk','com/finproto/sse/bin/messages':'sse','com/finproto/szse/bin/messages':'szse','com/finproto/bjse/trade/messages':'bjse'}
order=['sample','risk','sse','szse','bjse']
rows=[]; types=[]
for f in sorted(glob.glob('/repo/**/src/main/java/**/*.java',recursive=True)):
    d=os.path.dirname(f).split('/java/')[1]
    if d not in pk: continue
    p=pk[d]; s=open(f).read(); c=os.path.basename(f)[:-5]
    enum=dict((n,int(v)) for n,v in re.findall(r'\b([A-Z][A-Z0-9_]*)\((\d+)\)\s*[,;]',s))
    es=[]
    for m in re.finditer(r'\.(?:register|put)\(\s*(?:(\w+)\.class,\s*)?([^,]+),\s*(\w+)::new\s*\)',s):
        k=m.group(2).strip(); g=re.fullmatch(r'\(\w+\)\s*(-?\d+)',k); q=re.fullmatch(r'"(\w+)"',k); e=re.fullmatch(r'MessageType\.(\w+)\.getValue\(\)',k)
        if g: t='KInt %s'%g.group(1)
        elif q: t='KStr (chars "%s")'%q.group(1)
        elif e:
            t='KInt %d'%enum[e.group(1)]; types.append((e.group(1),enum[e.group(1)],p+'.'+m.group(1)))
        else: raise SystemExit((f,k))
        es.append((t,p+'.'+m.group(3)))
    assert len(es)==s.count('::new)')
    if es: rows.append((order.index(p),p+'.'+c,es))
rows.sort()
print('''(* Which class each tag stands for: the register(...) calls in the static initialisers of the message classes, and the constants of SseBinary.MessageType with the class registered under each.
   Read off /repo by tools/mktags.py, which has nothing in common with the translator of the model. *)
From Coq Require Import ZArith List String.
From Verif.Model Require Import Ast Interp Show Factory.
Import ListNotations.
Open Scope Z_scope.
Open Scope string_scope.

Definition dispatch : list (string * list (key * string)) :=
  [ '''+';\n    '.join('("%s",\n      [ %s ])'%(o,';\n        '.join('(%s, "%s")'%e for e in es)) for _,o,es in rows)+''' ].

Definition sse_types : list (string * Z * string) :=
  [ '''+';\n    '.join('("%s", %d, "%s")'%t for t in types)+' ].')
