#!/usr/bin/env python3
"""Translates the generated Java message classes of /repo into Gallina data.

Reads   /repo/*-bin/src/main/java/**/*.java
Writes  /verif/rocq/theories/Model/Gen<Module>.v     (the classes: fields, encode, decode, equals, hashCode, factories)
        /verif/rocq/theories/Spec/Layout<Module>.v   (the wire layouts the specification talks about)

The translator is strict: a line it does not recognise as one of the templates below stops it, so
nothing of an encode/decode/equals/hashCode/factory body is silently skipped.
"""
import re, glob, os, sys
REPO=sys.argv[1] if len(sys.argv)>1 else '/repo'
OUT=sys.argv[2] if len(sys.argv)>2 else os.path.join(os.path.dirname(os.path.abspath(__file__)),'..','rocq','theories')
MODS=[('Sample','sample','sample-bin'),('Risk','risk','risk-bin'),('Sse','sse','sse-bin'),
      ('Szse','szse','szse-bin'),('Bjse','bjse','bjse-bin')]

class Err(Exception): pass
def die(*a): raise Err(' '.join(map(str,a)))

def norm(s):
    s=re.sub(r'//[^\n]*','',s)
    s=re.sub(r'\s+',' ',s).strip()
    s=re.sub(r' \.','.',s); s=re.sub(r'\( ','(',s); s=re.sub(r' \)',')',s)
    return s

class Cls: pass

def parse_file(path, mod):
    lines=open(path,encoding='utf-8').read().split('\n')
    classes=[]
    hdr=re.compile(r'^( *)public (?:static )?class (\w+) implements BinaryCodec \{$')
    starts=[(i,m) for i,l in enumerate(lines) for m in [hdr.match(l)] if m]
    rel=os.path.relpath(path,REPO)
    outer=None
    for i,m in starts:
        ind=len(m.group(1)); name=m.group(2)
        end=next(j for j in range(i+1,len(lines)) if lines[j]==' '*ind+'}')
        c=Cls(); c.rel=rel; c.l0=i+1; c.l1=end+1; c.mod=mod; c.name=name
        c.fields=[]; c.methods={}; c.static=None; c.enum=None; c.staticmap=None
        if ind==0: outer=name; c.q=f'{mod}.{name}'; c.outer=None
        else: c.q=f'{mod}.{outer}.{name}'; c.outer=outer
        c.id=c.q.replace('.','_')
        j=i+1; mi=' '*(ind+2)
        while j<end:
            l=lines[j]
            if l.strip()=='' or l.strip().startswith('//'): j+=1; continue
            if not l.startswith(mi) or l[len(mi)]==' ': die(rel,j+1,'unexpected indentation',l)
            t=l.strip()
            if t=='@Override': j+=1; continue
            f=re.match(r'private ([\w<>]+) (\w+);$',t)
            if f: c.fields.append((f.group(2),f.group(1),j+1)); j+=1; continue
            f=re.match(r'private static final Map<String, Supplier<BinaryCodec>> (\w+) = new HashMap<>\(\);$',t)
            if f: c.staticmap=f.group(1); j+=1; continue
            h=j
            while t.endswith('(') or (lines[h].startswith(mi+'    ') and not t.endswith('{')): h+=1; t=norm(t+' '+lines[h])
            if t.endswith('{'):
                k=next(x for x in range(h+1,len(lines)) if lines[x]==mi+'}')
                body='\n'.join(lines[h+1:k]); rng=(j+1,k+1)
            elif re.match(r'public void (encode|decode)\(ByteBuf byteBuf\) \{\}$',t):
                k=j; body=''; rng=(j+1,j+1); t=t[:-1]
            else: die(rel,j+1,'unrecognised member',l)
            if re.match(r'public static class ',t): pass       # nested class, handled by its own header
            elif re.match(r'public static enum (\w+) \{$',t): c.enum=(re.match(r'public static enum (\w+)',t).group(1),body,rng)
            elif t=='static {': c.static=(body,rng)
            else:
                mm=re.match(r'(?:public|private) ([\w<>]+) (\w+)\((.*)\) \{$',t)
                if not mm: die(rel,j+1,'unrecognised method',l)
                if mm.group(2) in c.methods: die(rel,j+1,'overloaded method',mm.group(2))
                c.methods[mm.group(2)]=(mm.group(1),mm.group(3),norm(body),rng)
            j=k+1
        classes.append(c)
    return classes

WR={'Byte':(1,'BE'),'Short':(2,'BE'),'Int':(4,'BE'),'Long':(8,'BE'),'ShortLE':(2,'LE'),'IntLE':(4,'LE'),'LongLE':(8,'LE')}
FL={'FloatLE':(4,'LE'),'DoubleLE':(8,'LE'),'Float':(4,'BE'),'Double':(8,'BE')}
CH={"' '":32,"'0'":48,"'\\0'":0}
PADARG=r"(?:, ('(?:\\?.)'), (true|false))?"
def pad(m,i):
    if m.group(i) is None: return (32,False)   # BinaryCodec.java:13-15, 57-59: default pad ' ' on the right
    return (CH[m.group(i)], m.group(i+1)=='true')
INTW='(Byte|ShortLE|IntLE|LongLE|Short|Int|Long)'
FLW='(FloatLE|DoubleLE)'

def parse_enc(c, resolve):
    s=c.methods['encode'][2]; out=[]
    def elem(f,body):
        e=re.escape(f'this.{f}.get(i)')
        m=re.fullmatch(r'byteBuf\.write'+INTW+r'\('+e+r'\);',body)
        if m: return ('XInt',)+WR[m.group(1)]
        m=re.fullmatch(r'byteBuf\.write'+FLW+r'\('+e+r'\);',body)
        if m: return ('XFlt',)+FL[m.group(1)]
        m=re.fullmatch(r'writeFixedString\(byteBuf, '+e+r', (\d+)'+PADARG+r'\);',body)
        if m: return ('XFix',int(m.group(1)))+pad(m,2)
        m=re.fullmatch(r'if \(StringUtil\.isNullOrEmpty\('+e+r'\)\) \{ byteBuf\.write'+INTW+r'\(0\); \} else \{ byte\[\] bytes = '+e+r'\.getBytes\(StandardCharsets\.UTF_8\); byteBuf\.write'+INTW+r'\(bytes\.length\); byteBuf\.writeBytes\(bytes\); \}',body)
        if m: return ('XDyn',)+WR[m.group(1)]+WR[m.group(2)]
        if body==f'this.{f}.get(i).encode(byteBuf);': return ('XObj',)
        die(c.rel,'encode element',body)
    pats=[
     (r'byteBuf\.write'+INTW+r'\(this\.(\w+)\);', lambda m:('EWrite',)+WR[m.group(1)]+(m.group(2),)),
     (r'byteBuf\.write'+FLW+r'\(this\.(\w+)\);', lambda m:('EWriteF',)+FL[m.group(1)]+(m.group(2),)),
     (r'writeFixedString\(byteBuf, this\.(\w+), (\d+)'+PADARG+r'\);', lambda m:('EFix',m.group(1),int(m.group(2)))+pad(m,3)),
     (r'if \(StringUtil\.isNullOrEmpty\(this\.(\w+)\)\) \{ byteBuf\.write'+INTW+r'\(0\); \} else \{ byte\[\] bytes = this\.\1\.getBytes\(StandardCharsets\.UTF_8\); byteBuf\.write'+INTW+r'\(bytes\.length\); byteBuf\.writeBytes\(bytes\); \}',
        lambda m:('EDyn',m.group(1))+WR[m.group(2)]+WR[m.group(3)]),
     (r'if \(null == this\.(\w+) \|\| this\.\1\.size\(\) == 0\) \{ byteBuf\.write'+INTW+r'\(0\); \} else \{ byteBuf\.write'+INTW+r'\(\((short|int)\) this\.\1\.size\(\)\); for \(int i = 0; i < this\.\1\.size\(\); i\+\+\) \{ (.*?) \} \}(?= (?!\})|$)',
        lambda m:('EList',m.group(1))+WR[m.group(2)]+({'short':16,'int':32}[m.group(4)],)+WR[m.group(3)]+(elem(m.group(1),m.group(5)),)),
     (r'if \((?:null != this\.(\w+)|this\.(\w+) != null)\) \{ this\.(\w+)\.encode\(byteBuf\); \}', lambda m:('EObjOpt',chk(m.group(1) or m.group(2),m.group(3)))),
     (r'this\.(\w+)\.encode\(byteBuf\);', lambda m:('EObj',m.group(1))),
     (r'int (\w+) = byteBuf\.writerIndex\(\);', lambda m:('EMark',m.group(1))),
     (r'byteBuf\.write'+INTW+r'\(0\);', lambda m:('EZero',)+WR[m.group(1)]),
     (r'this\.(\w+) = \(int\) \((\w+) - (\w+)\);', lambda m:('EDiff',m.group(1),m.group(2),m.group(3))),
     (r'byteBuf\.set'+INTW+r'\((\w+), this\.(\w+)\);', lambda m:('EPatch',)+WR[m.group(1)]+(m.group(2),m.group(3))),
     (r'ChecksumService<ByteBuf, Integer> checksumService = ChecksumServiceFactory\.getInstance\(\)\.getChecksumService\("(\w+)"\); if \(checksumService != null\) \{ this\.(\w+) = \(int\) checksumService\.calc\(byteBuf\); \}',
        lambda m:('ESum',m.group(1),m.group(2))),
    ]
    def chk(a,b):
        if a!=b: die(c.rel,'guard/use mismatch',a,b)
        return a
    while s:
        for rx,fn in pats:
            m=re.match(rx,s)
            if m: out.append(fn(m)); s=s[m.end():].strip(); break
        else: die(c.rel,c.name,'encode: cannot parse',s[:200])
    return out

def parse_dec(c, resolve):
    s=c.methods['decode'][2]; out=[]
    def elem(f,body):
        e=re.escape(f'this.{f}.add(')
        m=re.fullmatch(e+r'byteBuf\.read'+INTW+r'\(\)\);',body)
        if m: return ('YInt',)+WR[m.group(1)]
        m=re.fullmatch(e+r'byteBuf\.read'+FLW+r'\(\)\);',body)
        if m: return ('YFlt',)+FL[m.group(1)]
        m=re.fullmatch(e+r'readFixedString\(byteBuf, (\d+)'+PADARG+r'\)\);',body)
        if m: return ('YFix',int(m.group(1)))+pad(m,2)
        m=re.fullmatch(r'(short|int) (\w+) = byteBuf\.read'+INTW+r'\(\); if \(\2 > 0\) \{ '+e+r'byteBuf\.readCharSequence\(\2, StandardCharsets\.UTF_8\)\.toString\(\)\); \}',body)
        if m: return ('YDyn',)+WR[m.group(3)]
        m=re.fullmatch(r'(\w+) (\w+) = new \1\(\); \2\.decode\(byteBuf\); '+e+r'\2\);',body)
        if m: return ('YObj',resolve(c,m.group(1)))
        die(c.rel,'decode element',body)
    def jt(t,w):
        if {'short':2,'int':4}[t]!=WR[w][0]: die(c.rel,'local width',t,w)
        return WR[w]
    pats=[
     (r'this\.(\w+) = byteBuf\.read'+INTW+r'\(\);', lambda m:('DRead',)+WR[m.group(2)]+(m.group(1),)),
     (r'this\.(\w+) = byteBuf\.read'+FLW+r'\(\);', lambda m:('DReadF',)+FL[m.group(2)]+(m.group(1),)),
     (r'this\.(\w+) = readFixedString\(byteBuf, (\d+)'+PADARG+r'\);', lambda m:('DFix',m.group(1),int(m.group(2)))+pad(m,3)),
     (r'(short|int) (\w+) = byteBuf\.read'+INTW+r'\(\); if \(\2 > 0\) \{ this\.(\w+) = byteBuf\.readCharSequence\(\2, StandardCharsets\.UTF_8\)\.toString\(\); \}',
        lambda m:('DDyn',m.group(4))+jt(m.group(1),m.group(3))),
     (r'(short|int) (\w+) = byteBuf\.read'+INTW+r'\(\); if \(\2 > 0\) \{ this\.(\w+) = new ArrayList<>\(\); for \(int i = 0; i < \2; i\+\+\) \{ (.*?) \} \}(?= (?!\})|$)',
        lambda m:('DList',m.group(4))+jt(m.group(1),m.group(3))+(elem(m.group(4),m.group(5)),)),
     (r'if \(null == this\.(\w+)\) \{ this\.\1 = new (\w+)\(\); \}', lambda m:('DNewIfNull',m.group(1),resolve(c,m.group(2)))),
     (r'this\.(\w+)\.decode\(byteBuf\);', lambda m:('DObj',m.group(1))),
     (r'this\.(\w+) = (?:\w+MessageFactory\.getInstance\(\)\.create|createApplExtend)\(this\.(\w+)\);', lambda m:('DCreate',m.group(1),m.group(2))),
    ]
    while s:
        for rx,fn in pats:
            m=re.match(rx,s)
            if m: out.append(fn(m)); s=s[m.end():].strip(); break
        else: die(c.rel,c.name,'decode: cannot parse',s[:200])
    return out

def parse_eq(c):
    s=c.methods['equals'][2]
    pre='if (this == obj) { return true; } if (null == obj || getClass() != obj.getClass()) { return false; } '
    if not s.startswith(pre): die(c.rel,'equals prefix',s)
    s=s[len(pre):]
    if s=='return true;': return []
    m=re.fullmatch(r'(\w+) orther_ = \((\w+)\) obj; return (.*);',s)
    if not m or m.group(1)!=c.name or m.group(2)!=c.name: die(c.rel,'equals',s)
    fs=[]
    for part in m.group(3).split(' && '):
        k=re.fullmatch(r'Objects\.equals\((\w+), orther_\.\1\)',part)
        if not k: die(c.rel,'equals part',part)
        fs.append(k.group(1))
    return fs
def parse_hash(c):
    s=c.methods['hashCode'][2]
    if s=='return this.hashCode();': return None
    m=re.fullmatch(r'return Objects\.hash\((.*)\);',s)
    if not m: die(c.rel,'hash',s)
    return [x.strip() for x in m.group(1).split(',')]
def parse_tostring(c):
    s=c.methods['toString'][2]
    m=re.fullmatch(r'return "(\w+) \["(.*) \+ "\]";',s)
    if not m:
        m=re.fullmatch(r'return "(\w+) \[\]";',s)
        if m: c.tag=m.group(1); return []
        die(c.rel,'toString',s)
    c.tag=m.group(1)
    out=[]
    rest=m.group(2)
    while rest:
        k=re.match(r' \+ "((?:, )?)(\w+)=" \+ this\.(\w+)',rest)
        if not k: die(c.rel,'toString part',rest[:80])
        if bool(k.group(1)) != bool(out): die(c.rel,'toString comma')
        out.append((k.group(2),k.group(3))); rest=rest[k.end():]
    return out

def parse_accessors(c):
    """getters  T getX() { return this.f; }  and setters  void setX(T p) { this.f = p; }; anything else stops the translator"""
    c.get=[]; c.set=[]
    ft={f:t for f,t,_ in c.fields}
    for n,(rt,args,body,_) in c.methods.items():
        if n in ('encode','decode','hashCode','equals','toString','createApplExtend'): continue
        g=re.fullmatch(r'return this\.(\w+);',body)
        if n.startswith('get') and args=='' and g and ft.get(g.group(1))==rt: c.get.append((n,g.group(1))); continue
        a=re.fullmatch(r'([\w<>]+) (\w+)',args); t=re.fullmatch(r'this\.(\w+) = (\w+);',body)
        if n.startswith('set') and rt=='void' and a and t and t.group(2)==a.group(2) and ft.get(t.group(1))==a.group(1): c.set.append((n,t.group(1))); continue
        die(c.rel,'method',n,args,body)

def parse_factory(c, resolve):
    """returns (keytype, [(key, class)], (l0,l1), reverse table or None)"""
    if c.enum:
        name,body,rng=c.enum
        t=norm(body)
        m=re.match(r'INSTANCE; private final Map<(Short|Integer|String), Supplier<BinaryCodec>> (\w+) = new HashMap<>\(\); (.*)$',t)
        if not m: die(c.rel,'factory head',t[:200])
        kt,mp,rest=m.groups(); entries=[]; rev=None; enumvals=None
        if rest.startswith('private final Map<Class<?>, Integer> reverseMap = new HashMap<>();'):
            rev=[]
            k=re.match(r'private final Map<Class<\?>, Integer> reverseMap = new HashMap<>\(\); public enum MessageType \{ (.*?); private final int value; MessageType\(int value\) \{ this\.value = value; \} public int getValue\(\) \{ return value; \} public static MessageType fromValue\(int value\) \{ for \(MessageType type : values\(\)\) \{ if \(type\.value == value\) \{ return type; \} \} throw new IllegalArgumentException\("Unknown MessageType value: " \+ value\); \} \} ',rest)
            if not k: die(c.rel,'SSE MessageType')
            enumvals=[]
            for e in k.group(1).split(', '):
                q=re.fullmatch(r'(\w+)\((\d+)\)',e); enumvals.append((q.group(1),int(q.group(2))))
            rest=rest[k.end():]
        k=re.match(r'static \{ (.*?) \} public BinaryCodec create\(',rest)
        if not k: die(c.rel,'static',rest[:100])
        for st in re.split(r'(?<=;) ',k.group(1)):
            q=re.fullmatch(r'getInstance\(\)\.register\((?:\((?:short|int)\) (-?\d+)|"([^"]*)"), (\w+)::new\);',st)
            if q:
                key=int(q.group(1)) if q.group(1) else q.group(2)
                entries.append((key,resolve(c,q.group(3)))); continue
            q=re.fullmatch(r'getInstance\(\)\.register\((\w+)\.class, MessageType\.(\w+)\.getValue\(\), (\w+)::new\);',st)
            if q:
                key=dict(enumvals)[q.group(2)]
                entries.append((key,resolve(c,q.group(3)))); rev.append((resolve(c,q.group(1)),key)); continue
            die(c.rel,'register',st)
        rest=rest[k.end()-len('public BinaryCodec create('):]
        kn={'Short':'msgType','Integer':'msgType'}.get(kt,'applId'); lab={'msgType':'MsgType','applId':'ApplID'}[kn]
        std=f'public BinaryCodec create({kt} {kn}) {{ Supplier<BinaryCodec> supplier = {mp}.get({kn}); if (null == supplier) {{ throw new IllegalArgumentException("Unsupported {lab}:" + {kn}); }} return supplier.get(); }} '
        if not rest.startswith(std): die(c.rel,'create',rest[:300])
        rest=rest[len(std):]
        if rev is None: std=f'public void register({kt} {kn}, Supplier<BinaryCodec> supplier) {{ {mp}.put({kn}, supplier); }} public boolean remove({kt} {kn}) {{ return null != {mp}.remove({kn}); }} public static {name} getInstance() {{ return INSTANCE; }}'
        else: std=f'public void register(Class<?> clazz, Integer msgType, Supplier<BinaryCodec> supplier) {{ {mp}.put(msgType, supplier); reverseMap.put(clazz, msgType); }} public boolean remove(Integer msgType) {{ return null != {mp}.remove(msgType); }} public Integer getMsgType(Class<?> clazz) {{ return reverseMap.get(clazz); }} public static {name} getInstance() {{ return INSTANCE; }}'
        if rest!=std: die(c.rel,'factory tail',rest)
        return kt,entries,rng,(rev,enumvals) if rev is not None else None
    if c.staticmap:
        body,rng=c.static; entries=[]
        for st in re.split(r'(?<=;) ',norm(body)):
            q=re.fullmatch(c.staticmap+r'\.put\("([^"]*)", (\w+)::new\);',st)
            if not q: die(c.rel,'static put',st)
            entries.append((q.group(1),resolve(c,q.group(2))))
        cm=c.methods['createApplExtend']
        if cm[2]!=f'Supplier<BinaryCodec> supplier = {c.staticmap}.get(applId); if (null == supplier) {{ throw new IllegalArgumentException("Unsupported ApplID:" + applId); }} return supplier.get();': die('createApplExtend')
        return 'String',entries,rng,None
    return None

FT={'byte':'TByte','short':'TShort','int':'TInt','long':'TLong','float':'TFloat','double':'TDouble','String':'TStr',
    'Byte':'TByte','Short':'TShort','Integer':'TInt','Long':'TLong','Float':'TFloat','Double':'TDouble','BinaryCodec':'TCodec'}
def ftype(c,t,resolve):
    m=re.fullmatch(r'List<(\w+)>',t)
    if m: return f'(TList {ftype(c,m.group(1),resolve)})'
    if t in FT: return FT[t]
    return f'(TObj "{resolve(c,t)}")'

# ---------- printing
def b(x): return 'true' if x else 'false'
def q(s): return '"%s"'%s
def pelem(e):
    k=e[0]
    if k in('XInt','XFlt','YInt','YFlt'): return f'({k} {e[1]} {e[2]})'
    if k in('XFix','YFix'): return f'({k} {e[1]} {e[2]} {b(e[3])})'
    if k=='XDyn': return f'(XDyn {e[1]} {e[2]} {e[3]} {e[4]})'
    if k=='YDyn': return f'(YDyn {e[1]} {e[2]})'
    if k=='YObj': return f'(YObj {q(e[1])})'
    if k=='XObj': return 'XObj'
    die('pelem',e)
def pst(s):
    k=s[0]
    if k in('EWrite','EWriteF','DRead','DReadF'): return f'{k} {s[1]} {s[2]} {q(s[3])}'
    if k in('EFix','DFix'): return f'{k} {q(s[1])} {s[2]} {s[3]} {b(s[4])}'
    if k=='EDyn': return f'EDyn {q(s[1])} {s[2]} {s[3]} {s[4]} {s[5]}'
    if k=='DDyn': return f'DDyn {q(s[1])} {s[2]} {s[3]}'
    if k=='EList': return f'EList {q(s[1])} {s[2]} {s[3]} {s[4]} {s[5]} {s[6]} {pelem(s[7])}'
    if k=='DList': return f'DList {q(s[1])} {s[2]} {s[3]} {pelem(s[4])}'
    if k in('EObj','EObjOpt','EMark','DObj'): return f'{k} {q(s[1])}'
    if k=='EZero': return f'EZero {s[1]} {s[2]}'
    if k=='EDiff': return f'EDiff {q(s[1])} {q(s[2])} {q(s[3])}'
    if k=='EPatch': return f'EPatch {s[1]} {s[2]} {q(s[3])} {q(s[4])}'
    if k in('ESum','DNewIfNull','DCreate'): return f'{k} {q(s[1])} {q(s[2])}'
    die('pst',s)
def plist(xs,ind='      '):
    if not xs: return '[]'
    return '[ '+(';\n'+ind+'  ').join(xs)+' ]'

def layout(c):
    """wire layout, read off decode; encode is consulted only for what decode cannot show (length and checksum fields)"""
    diff={s[1] for s in c.enc if s[0]=='EDiff'}; summ={s[2]:s[1] for s in c.enc if s[0]=='ESum'}
    L=[]; pend=None
    for s in c.dec:
        k=s[0]
        if k=='DRead':
            n,o,f=s[1:]
            if f in diff: L.append((f,f'WLen {n} {o}'))
            elif f in summ: L.append((f,f'WSum {n} {o} {q(summ[f])}'))
            else: L.append((f,f'WInt {n} {o}'))
        elif k=='DReadF': L.append((s[3],f'WFlt {s[1]} {s[2]}'))
        elif k=='DFix': L.append((s[1],f'WFix {s[2]} {s[3]} {b(s[4])}'))
        elif k=='DDyn': L.append((s[1],f'WDyn {s[2]} {s[3]}'))
        elif k=='DList':
            e=s[4]
            w={'YInt':lambda:f'WInt {e[1]} {e[2]}','YFlt':lambda:f'WFlt {e[1]} {e[2]}','YFix':lambda:f'WFix {e[1]} {e[2]} {b(e[3])}','YDyn':lambda:f'WDyn {e[1]} {e[2]}','YObj':lambda:f'WObj {q(e[1])}'}[e[0]]()
            L.append((s[1],f'WList {s[2]} {s[3]} ({w})'))
        elif k=='DNewIfNull': pend=(s[1],f'WObj {q(s[2])}')
        elif k=='DCreate': pend=(s[1],f'WBody {q(s[2])}')
        elif k=='DObj':
            if not pend or pend[0]!=s[1]: die('layout DObj',c.q)
            L.append(pend); pend=None
    return L

def main():
    allc=[]; bymod={}
    for M,mod,d in MODS:
        cs=[]
        for p in sorted(glob.glob(f'{REPO}/{d}/src/main/java/**/*.java',recursive=True)): cs+=parse_file(p,mod)
        bymod[M]=cs; allc+=cs
    names={c.q for c in allc}
    def resolve(c,t):
        for cand in (f'{c.q}.{t}', f'{c.mod}.{c.outer}.{t}' if c.outer else None, f'{c.mod}.{t}'):
            if cand in names: return cand
        die(c.rel,'cannot resolve class',t)
    for c in allc:
        c.enc=parse_enc(c,resolve); c.dec=parse_dec(c,resolve); c.eq=parse_eq(c); c.hash=parse_hash(c); c.str=parse_tostring(c)
        parse_accessors(c); c.fac=parse_factory(c,resolve)
        for s in c.dec:
            if s[0]=='DCreate' and not c.fac: die('no factory',c.q)
    os.makedirs(OUT+'/Model',exist_ok=True); os.makedirs(OUT+'/Spec',exist_ok=True)
    for M,mod,d in MODS:
        o=[f'(* GENERATED by tools/translate.py from /repo/{d}/src/main/java: do not edit by hand.',
           '   One definition per Java message class; each comment cites the file and the line ranges. *)',
           'From Coq Require Import String ZArith List.','From Verif.Model Require Import JavaPrim Ast.','Import ListNotations.','Open Scope string_scope.','']
        for c in bymod[M]:
            mr=lambda n:'%d-%d'%c.methods[n][3]
            o.append(f'(* {c.rel}:{c.l0}-{c.l1}  class {c.name}; fields '+(f'{c.fields[0][2]}-{c.fields[-1][2]}' if c.fields else 'none')+f'; encode {mr("encode")}; decode {mr("decode")}; hashCode {mr("hashCode")}; equals {mr("equals")}; toString {mr("toString")}; the rest: getters and setters *)')
            o.append(f'Definition {c.id} : class_def := {{|')
            o.append(f'  c_name := {q(c.q)};')
            o.append('  c_fields :=\n      '+plist([f'({q(f)}, {ftype(c,t,resolve)})' for f,t,_ in c.fields])+';')
            o.append('  c_enc :=\n      '+plist([pst(s) for s in c.enc])+';')
            o.append('  c_dec :=\n      '+plist([pst(s) for s in c.dec])+';')
            o.append('  c_eq :=\n      '+plist([q(f) for f in c.eq])+';')
            o.append('  c_hash := '+('HashSelf' if c.hash is None else '\n      HashFields '+plist([q(f) for f in c.hash]))+';')
            o.append(f'  c_tag := {q(c.tag)};')
            o.append('  c_str :=\n      '+plist([f'({q(a)}, {q(f)})' for a,f in c.str])+';')
            o.append('  c_get :=\n      '+plist([f'({q(a)}, {q(f)})' for a,f in c.get])+';')
            o.append('  c_set :=\n      '+plist([f'({q(a)}, {q(f)})' for a,f in c.set])+' |}.\n')
        o.append(f'Definition {mod}_classes : list class_def :=\n      '+plist([c.id for c in bymod[M]])+'.\n')
        for c in bymod[M]:
            if not c.fac: continue
            kt,es,rng,rev=c.fac
            o.append(f'(* {c.rel}:{rng[0]}-{rng[1]}  factory of {c.name} (key type {kt}): registrations of its static initialiser, in order *)')
            pk=(lambda k: f'KStr (chars {q(k)})') if kt=='String' else (lambda k: f'KInt {k}')
            o.append(f'Definition {c.id}_factory : list (key * string) :=\n      '+plist([f'({pk(k)}, {q(v)})' for k,v in es])+'.\n')
            if rev:
                r,ev=rev
                o.append(f'(* {c.rel}: reverseMap registrations, in order *)')
                o.append(f'Definition {c.id}_reverse : list (string * Z) :=\n      '+plist([f'({q(a)}, {k}%Z)' for a,k in r])+'.\n')
                o.append(f'(* {c.rel}: enum MessageType, constants in declaration order *)')
                o.append(f'Definition {c.id}_msgtypes : list (string * Z) :=\n      '+plist([f'({q(a)}, {k}%Z)' for a,k in ev])+'.\n')
        o.append(f'Definition {mod}_factories : list (string * list (key * string)) :=\n      '+plist([f'({q(c.q)}, {c.id}_factory)' for c in bymod[M] if c.fac])+'.')
        open(f'{OUT}/Model/Gen{M}.v','w').write('\n'.join(o)+'\n')
        o=[f'(* GENERATED by tools/translate.py: the wire layout of each message class of {d}, i.e. its fields in wire',
           '   order with their formats.  This is specification data (what the messages look like on the wire);',
           f'   that the translated Java code follows it is proved in Proofs/Conform.v. *)',
           'From Coq Require Import String ZArith List.','From Verif.Model Require Import JavaPrim Ast.','From Verif.Spec Require Import Wire.','Import ListNotations.','Open Scope string_scope.','']
        for c in bymod[M]:
            o.append(f'(* {c.rel}:{c.l0}-{c.l1} *)')
            o.append(f'Definition {c.id}_layout : layout :=\n      '+plist([f'({q(f)}, {w})' for f,w in layout(c)])+'.\n')
        o.append(f'Definition {mod}_layouts : list (string * layout) :=\n      '+plist([f'({q(c.q)}, {c.id}_layout)' for c in bymod[M]])+'.')
        open(f'{OUT}/Spec/Layout{M}.v','w').write('\n'.join(o)+'\n')
        print(M,len(bymod[M]),'classes')
    return allc
if __name__=='__main__': main()
