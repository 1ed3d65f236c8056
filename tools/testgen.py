#!/usr/bin/env python3
"""Transcribes the message tests of /repo (src/test/java of the *-bin modules) into scripts for rocq/theories/Tests/Script.v.

Strict: a statement it does not recognise stops it, and so does a script that changes an object after passing it to a setter
(the model's objects are trees, so such a script would mean something else there).
"""
import re, glob, os, struct, sys
REPO=sys.argv[1] if len(sys.argv)>1 else '/repo'
OUT=sys.argv[2] if len(sys.argv)>2 else os.path.join(os.path.dirname(os.path.abspath(__file__)),'..','rocq','theories')
MODS=[('Sample','sample','sample-bin'),('Risk','risk','risk-bin'),('Sse','sse','sse-bin'),('Szse','szse','szse-bin'),('Bjse','bjse','bjse-bin')]

def z(n): return f'(VInt ({n}))' if n<0 else f'(VInt {n})'
def lit(e):
    m=re.fullmatch(r'"([^"\\]*)"',e)
    if m: return '(VStr ['+'; '.join(str(ord(c)) for c in m.group(1))+'])'
    m=re.fullmatch(r'(?:\((?:byte|short|int|long)\) )?(-?\d+)L?',e)
    if m: return z(int(m.group(1)))
    m=re.fullmatch(r'(\d+)F',e)
    if m: return '(VFlt %d)'%struct.unpack('>I',struct.pack('>f',float(m.group(1))))[0]
    m=re.fullmatch(r'(\d+)D',e)
    if m: return '(VFlt %d)'%struct.unpack('>Q',struct.pack('>d',float(m.group(1))))[0]
    return None
def arg(e,vars,used,where):
    l=lit(e)
    if l: return f'(Lit {l})'
    m=re.fullmatch(r'Arrays\.asList\(([^,]*)\)',e)
    if m: return f'(AsList [{arg(m.group(1),vars,used,where)}])'
    if e in vars: used.add(e); return f'(Var "{e}")'
    raise SystemExit(f'{where}: argument {e}')

def one(path,mod):
    src=open(path,encoding='utf-8').read()
    rel=os.path.relpath(path,REPO)
    out=[]
    for m in re.finditer(r'  @Test\n  public void (\w+)\(\) \{\n(.*?)\n  \}\n',src,re.S):
        first=src[:m.start(2)].count('\n')+1; last=first+m.group(2).count('\n')
        body=re.sub(r'\s+',' ',m.group(2))
        vars={}; used=set(); steps=[]; buf=None
        for st in [s.strip() for s in body.split(';') if s.strip()]:
            where=f'{rel} {st}'
            def touch(x):
                if x not in vars or x in used: raise SystemExit(f'{where}: {x} unknown or already passed on')
            a=re.fullmatch(r'([\w.]+) (\w+) = new ([\w.]+)\(\)',st)
            if a:
                assert a.group(1)==a.group(3) and a.group(2) not in vars, where
                vars[a.group(2)]=a.group(1); steps.append(f'New "{a.group(2)}" "{mod}.{a.group(1)}"'); continue
            a=re.fullmatch(r'ByteBuf (\w+) = Unpooled\.buffer\(\)',st)
            if a: assert buf is None, where; buf=a.group(1); continue
            a=re.fullmatch(r'(\w+)\.(encode|decode)\((\w+)\)',st)
            if a:
                touch(a.group(1)); assert a.group(3)==buf, where
                steps.append(f'{a.group(2).capitalize()} "{a.group(1)}"'); continue
            a=re.fullmatch(r'assertEquals\((\w+), (\w+)\)',st)
            if a: assert a.group(1) in vars and a.group(2) in vars, where; steps.append(f'AssertEquals "{a.group(1)}" "{a.group(2)}"'); continue
            a=re.fullmatch(r'(\w+)\.(set\w+)\( ?(.*)\)',st)
            if a: touch(a.group(1)); steps.append(f'Call "{a.group(1)}" "{a.group(2)}" {arg(a.group(3).strip(),vars,used,where)}'); continue
            raise SystemExit(f'{where}: statement')
        out.append((m.group(1),first-1,last+1,steps))
    if len(out)!=src.count('@Test'): raise SystemExit(f'{rel}: tests missed')
    return rel,out

total=0
for M,mod,d in MODS:
    body=[]
    for p in sorted(glob.glob(f'{REPO}/{d}/src/test/java/**/*.java',recursive=True)):
        rel,ts=one(p,mod)
        name=os.path.basename(p)[:-5]
        for (t,l0,l1,steps) in ts:
            total+=1
            body.append(f'(* {rel}:{l0}-{l1} {t} *)\nExample {mod}_{name}_{t} : test_passes\n  [ '+';\n    '.join(steps)+' ]%string = true.\nProof. vm_compute. reflexivity. Qed.\n')
    with open(f'{OUT}/Tests/Tests{M}.v','w') as f:
        f.write(f'(* GENERATED by tools/testgen.py from the tests of {d}.  Do not edit. *)\nFrom Coq Require Import ZArith List String.\nFrom Verif.Model Require Import Ast.\nFrom Verif.Tests Require Import Script.\nImport ListNotations.\nOpen Scope Z_scope.\n\n')
        f.write('\n'.join(body))
print(total,'tests')
