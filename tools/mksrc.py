#!/usr/bin/env python3
"""Copies the Java files of /repo into Coq string literals, and says for every message file which tree it should be.

Writes  rocq/theories/Java/Src<Module>.v    the text of each file, verbatim
        rocq/theories/Java/Files<Module>.v  text paired with the tree (Java/Source.v) of the class in Model/Gen<Module>.v
Nothing here is trusted beyond the copying of the text: that text and tree agree is checked in Proofs/JavaText<Module>.v.
"""
import sys, os, re, glob
HERE=os.path.dirname(os.path.abspath(__file__)); sys.path.insert(0,HERE)
sys.argv=sys.argv[:1]+sys.argv[1:]
import translate as tr
OUT=tr.OUT+'/Java'
def coqs(s): return '"'+s.replace('"','""')+'"'
def lst(xs): return '['+'; '.join(xs)+']'
def main():
    for M,mod,d in tr.MODS:
        paths=sorted(glob.glob(f'{tr.REPO}/{d}/src/main/java/**/*.java',recursive=True))
        src=[f'(* GENERATED by tools/mksrc.py: the files of /repo/{d}/src/main/java, verbatim. *)','From Verif.Java Require Import Text.','Open Scope text_scope.','']
        fil=[f'(* GENERATED by tools/mksrc.py: the files of /repo/{d}/src/main/java and the trees they should be. *)','From Coq Require Import List String.',
             f'From Verif.Model Require Import Ast Gen{M}.',f'From Verif.Java Require Import Syntax Source Src{M} Sources.','Import ListNotations.','Open Scope string_scope.','']
        names=[]
        for p in paths:
            t=open(p,encoding='utf-8').read(); rel=os.path.relpath(p,tr.REPO)
            cs=tr.parse_file(p,mod); c=cs[0]; nested=cs[1:]
            src.append(f'(* {rel} *)'); src.append(f'Definition text_{c.id} : text :=\n{coqs(t)}.\n')
            pk=re.search(r'^package ([\w.]+);',t,re.M).group(1).split('.')
            imps=[x.split('.') for x in re.findall(r'^import ([\w.]+);',t,re.M)]
            flip=bool(re.search(r'if \(this\.\w+ != null\)',t))
            if c.enum: ff=f'(FEnumRev {c.id}_factory {c.id}_msgtypes)' if 'reverseMap' in t else f'(FEnum {c.id}_factory)'
            elif c.staticmap: ff=f'(FOwn {c.id}_factory)'
            else: ff='FNone'
            fil.append(f'(* {rel} *)')
            fil.append(f'Definition main_{c.id} : source_class := {{| sc_def := {c.id}; sc_flip := {"true" if flip else "false"}; sc_form := {ff}; sc_mods := ["public"] |}}.')
            ns=[]
            for n in nested:
                fil.append(f'Definition main_{n.id} : source_class := {{| sc_def := {n.id}; sc_flip := false; sc_form := FNone; sc_mods := ["public"; "static"] |}}.')
                ns.append(f'main_{n.id}')
            fil.append(f'Definition file_{c.id} : source := {{| s_text := text_{c.id};\n  s_package := {lst(map(coqs,pk))};\n  s_imports := {lst([lst(map(coqs,i)) for i in imps])};\n  s_main := main_{c.id}; s_nested := {lst(ns)} |}}.\n')
            names.append(f'file_{c.id}')
        fil.append(f'Definition {mod}_files : list source :=\n  [ '+';\n    '.join(names)+' ].')
        open(f'{OUT}/Src{M}.v','w').write('\n'.join(src)+'\n')
        open(f'{OUT}/Files{M}.v','w').write('\n'.join(fil)+'\n')
if __name__=='__main__': main()
