#!/usr/bin/env python3
"""Writes the Java files of /repo/codec as text (Java/SrcCodec.v) and as trees (Java/CodecTrees.v).

Nothing here is trusted beyond the copying of the text: that text and tree agree is checked in Proofs/JavaTextCodec.v.
"""
import os, re, sys, glob
REPO=sys.argv[1] if len(sys.argv)>1 else '/repo'
OUT=os.path.join(sys.argv[2] if len(sys.argv)>2 else os.path.join(os.path.dirname(os.path.abspath(__file__)),'..','rocq','theories'),'Java')
TOK=re.compile(r'''\s+|//[^\n]*|/\*.*?\*/|(?P<num>0x[0-9A-Fa-f]+L?|\d+L?)|(?P<id>[A-Za-z_]\w*)|(?P<str>"[^"\\]*")|(?P<chr>'(?:[^'\\]|\\0)')|(?P<op>::|\+\+|--|&&|\|\||==|!=|<=|>=|\+=|-=|&=|\|=|\^=|<<|[-+*/%&|^~!<>=?:;,.(){}\[\]@])''',re.S)
def q(s): return '"'+s.replace('"','""')+'"'
def L(xs): return '['+'; '.join(xs)+']'
MODS={'public','private','protected','static','final','default','abstract'}
BIN={'||':('OOr',2),'&&':('OAnd',3),'|':('OBOr',4),'^':('OXor',5),'&':('OBAnd',6),'==':('OEq',7),'!=':('ONe',7),'<':('OLt',8),'>':('OGt',8),'<=':('OLe',8),'>=':('OGe',8),
     '<<':('OShl',9),'>>':('OShr',9),'>>>':('OUshr',9),'+':('OAdd',10),'-':('OSub',10),'*':('OMul',11),'%':('ORem',11)}
ASG={'=':'ASet','|=':'(AOp OBOr)','&=':'(AOp OBAnd)','^=':'(AOp OXor)','+=':'(AOp OAdd)','-=':'(AOp OSub)','>>>=':'(AOp OUshr)'}
class Parser:
    def __init__(self,t):
        self.t=[]; i=0
        while i<len(t):
            m=TOK.match(t,i); assert m,t[i:i+40]
            i=m.end()
            if m.lastgroup: self.t.append((m.lastgroup,m.group()))
        self.i=0
    def p(self,k=0): return self.t[self.i+k][1] if self.i+k<len(self.t) else ''
    def kind(self,k=0): return self.t[self.i+k][0] if self.i+k<len(self.t) else ''
    def n(self): self.i+=1; return self.t[self.i-1][1]
    def e(self,s): assert self.p()==s,(self.p(),s,self.t[self.i-5:self.i+5]); self.i+=1
    def acc(self,s):
        if self.p()==s: self.i+=1; return True
        return False
    def path(self):
        r=[self.n()]
        while self.acc('.'): r.append(self.n())
        return r
    def ty(self):
        if self.acc('?'): return 'TyAny'
        assert self.kind()=='id',self.t[self.i-3:self.i+3]
        n=self.n()
        if self.acc('<'):
            if self.acc('>'): return f'(TyDia {q(n)})'
            a=[self.ty()]
            while self.acc(','): a.append(self.ty())
            self.e('>'); r=f'(Ty {q(n)} {L(a)})'
        else: r=f'(Ty {q(n)} [])'
        while self.p()=='[' and self.p(1)==']': self.i+=2; r=f'(TyArr {r})'
        return r
    def tryty(self):
        j=self.i
        try: return self.ty()
        except AssertionError: self.i=j; return None
    # operators made of several > tokens
    def op(self):
        if self.p()=='>':
            if self.p(1)=='>' and self.p(2)=='>=': return '>>>=',3
            if self.p(1)=='>' and self.p(2)=='>': return '>>>',3
            if self.p(1)=='>': return '>>',2
            return '>',1
        return self.p(),1
    def expr(self):
        l=self.bin(2); o,n=self.op()
        if o in ASG and self.kind()=='op': self.i+=n; return f'(EAsg {ASG[o]} {l} {self.expr()})'
        return l
    def bin(self,lev):
        if lev==12: return self.unary()
        l=self.bin(lev+1)
        while True:
            o,n=self.op()
            if self.kind()=='op' and o in BIN and BIN[o][1]==lev:
                self.i+=n; r=self.bin(lev+1); l=f'(EBin {BIN[o][0]} {l} {r})'
            else: return l
    def unary(self):
        if self.acc('!'): return f'(ENot {self.unary()})'
        if self.acc('~'): return f'(EInv {self.unary()})'
        if self.p()=='(':
            j=self.i; self.i+=1; t=self.tryty()
            if t and self.acc(')') and (self.kind() in('id','num','str') or self.p() in('(','!','~')) and not(re.fullmatch(r'\(Ty "[a-z]\w*" \[\]\)',t) and not re.search(r'"(int|long|byte|short|char)"',t)):
                return f'(ECast {t} {self.unary()})'
            self.i=j
        return self.post()
    def args(self):
        self.e('('); a=[]
        if not self.acc(')'):
            a.append(self.expr())
            while self.acc(','): a.append(self.expr())
            self.e(')')
        return L(a)
    def post(self):
        l=self.prim()
        while True:
            if self.acc('.'):
                m=self.n()
                if m=='class': l=f'(EClass {l[7:-1]})'
                elif self.p()=='(': l=f'(ECall {l} {q(m)} {self.args()})'
                else: l=f'(EField {l} {q(m)})'
            elif self.acc('['): i=self.expr(); self.e(']'); l=f'(EIndex {l} {i})'
            elif self.acc('++'): l=f'(EInc {l})'
            elif self.acc('--'): l=f'(EDec {l})'
            else: return l
    def prim(self):
        k=self.kind(); v=self.n()
        if k=='num':
            if v.endswith('L'): return f'(ELong {int(v[:-1])})'
            return f'(EInt {"true" if v.startswith("0x") else "false"} {int(v,0)})'
        if k=='str': return f'(EStr {v[0]+v[1:-1]+v[-1]})'
        if k=='chr': return f'(EChr {0 if v[1]==chr(92) else ord(v[1])})'
        if v=='(': e=self.expr(); self.e(')'); return f'(EParen {e})'
        if v=='null': return 'ENull'
        if v=='this': return 'EThis'
        if v in('true','false'): return f'(EBool {v})'
        if v=='new':
            t=self.ty()
            if self.acc('['): n=self.expr(); self.e(']'); return f'(ENewArr {t} {n})'
            return f'(ENew {t} {self.args()})'
        assert k=='id',(k,v)
        if self.p()=='::': self.i+=2; return f'(ERef {q(v)})'
        if self.p()=='(': return f'(ECallU {q(v)} {self.args()})'
        return f'(EName {q(v)})'
    def block(self):
        self.e('{'); ss=[]
        while not self.acc('}'): ss.append(self.stmt())
        return L(ss)
    def local(self):
        j=self.i; t=self.tryty()
        if t and self.kind()=='id' and self.p(1) in('=',';',':'): return t,self.n()
        self.i=j; return None
    def stmt(self):
        v=self.p()
        if v=='{': return f'(SBlock {self.block()})'
        if v=='if':
            self.i+=1; self.e('('); e=self.expr(); self.e(')'); a=self.stmt()
            b=f'(Some {self.stmt()})' if self.acc('else') else 'None'
            return f'(SIf {e} {a} {b})'
        if v=='for':
            self.i+=1; self.e('('); t,x=self.local()
            if self.acc(':'): e=self.expr(); self.e(')'); return f'(SEach {t} {q(x)} {e} {self.stmt()})'
            self.e('='); i=self.expr(); self.e(';'); c=self.expr(); self.e(';'); u=self.expr(); self.e(')')
            return f'(SFor {t} {q(x)} {i} {c} {u} {self.stmt()})'
        if v=='while': self.i+=1; self.e('('); c=self.expr(); self.e(')'); return f'(SWhile {c} {self.stmt()})'
        if v=='do': self.i+=1; s=self.stmt(); self.e('while'); self.e('('); c=self.expr(); self.e(')'); self.e(';'); return f'(SDo {s} {c})'
        if v=='return':
            self.i+=1
            if self.acc(';'): return '(SReturn None)'
            e=self.expr(); self.e(';'); return f'(SReturn (Some {e}))'
        if v=='throw': self.i+=1; e=self.expr(); self.e(';'); return f'(SThrow {e})'
        l=self.local()
        if l:
            e=f'(Some {self.expr()})' if self.acc('=') else 'None'
            self.e(';'); return f'(SLocal {l[0]} {q(l[1])} {e})'
        e=self.expr(); self.e(';'); return f'(SExpr {e})'
    def tps(self):
        r=[]
        if self.acc('<'):
            r.append(self.n())
            while self.acc(','): r.append(self.n())
            self.e('>')
        return r
    def params(self):
        self.e('('); r=[]
        while not self.acc(')'):
            t=self.ty(); r.append(f'({t}, {q(self.n())})'); self.acc(',')
        return L(r)
    def cls(self,mods):
        kind=self.n(); name=self.n(); tps=self.tps(); sup=[]
        if self.acc('implements'):
            sup.append(self.ty())
            while self.acc(','): sup.append(self.ty())
        self.e('{'); cs=[]; ms=[]
        if kind=='enum':
            while True:
                c=self.n(); cs.append(f'({q(c)}, {self.args() if self.p()=="(" else "[]"})')
                if not self.acc(','): break
            self.e(';')
        while not self.acc('}'): ms.append(self.member(name))
        return f'(Class {L(map(q,mods))} {q(kind)} {q(name)} {L(map(q,tps))} {L(sup)} {L(cs)}\n  [ '+';\n    '.join(ms)+' ])'
    def member(self,cname):
        notes=[]
        while self.acc('@'):
            a=self.n(); s='None'
            if self.acc('('): s=f'(Some {self.n()})'; self.e(')')
            notes.append(f'({q(a)}, {s})')
        if self.p()=='static' and self.p(1)=='{': self.i+=1; return f'MStatic {self.block()}'
        mods=[]
        while self.p() in MODS: mods.append(self.n())
        if self.p() in('class','enum','interface'): return f'MClass {self.cls(mods)}'
        tps=self.tps()
        if self.p()==cname and self.p(1)=='(':
            self.i+=1; ps=self.params(); return f'MCtor {L(map(q,mods))} {q(cname)} {ps} {self.block()}'
        t=self.ty(); x=self.n()
        if self.p()=='(':
            ps=self.params(); b='None' if self.acc(';') else f'(Some {self.block()})'
            return f'MMethod {L(notes)} {L(map(q,mods))} {L(map(q,tps))} {t} {q(x)} {ps} {b}'
        e=f'(Some {self.expr()})' if self.acc('=') else 'None'
        self.e(';'); return f'MField {L(map(q,mods))} {t} {q(x)} {e}'
    def file(self):
        self.e('package'); pk=self.path(); self.e(';'); im=[]
        while self.acc('import'): im.append(self.path()); self.e(';')
        mods=[]
        while self.p() in MODS: mods.append(self.n())
        return pk,im,self.cls(mods)
def main():
    src=['(* GENERATED by tools/mkcodec.py: the files of /repo/codec/src/main/java, verbatim. *)','From Verif.Java Require Import Text.','Open Scope text_scope.','']
    tre=['(* GENERATED by tools/mkcodec.py: the trees of the files of /repo/codec/src/main/java. *)','From Coq Require Import List ZArith String.','From Verif.Java Require Import Syntax SrcCodec.',
         'Import ListNotations.','Open Scope Z_scope.','Open Scope string_scope.','']
    names=[]
    for p in sorted(glob.glob(f'{REPO}/codec/src/main/java/**/*.java',recursive=True)):
        t=open(p,encoding='utf-8').read(); rel=os.path.relpath(p,REPO); n=os.path.basename(p)[:-5]
        pk,im,c=Parser(t).file()
        src+= [f'(* {rel} *)',f'Definition text_{n} : text :=\n{q(t)}.\n']
        tre+= [f'(* {rel} *)',f'Definition class_{n} : jclass :=\n {c}.',
               f'Definition file_{n} : file := {{| f_package := {L(map(q,pk))}; f_imports := {L([L(map(q,i)) for i in im])}; f_class := class_{n} |}}.\n']
        names.append(n)
    tre.append('Definition codec_files : list (Text.text * file) :=\n  [ '+';\n    '.join(f'(text_{n}, file_{n})' for n in names)+' ].')
    tre.append('Definition codec_classes : list (string * jclass) :=\n  [ '+';\n    '.join(f'({q(n)}, class_{n})' for n in names)+' ].')
    open(f'{OUT}/SrcCodec.v','w').write('\n'.join(src)+'\n'); open(f'{OUT}/CodecTrees.v','w').write('\n'.join(tre)+'\n')
if __name__=='__main__': main()
