import re, sys
class Tok:
    __slots__=('k','v','x')
    def __init__(s,k,v,x=None): s.k=k; s.v=v; s.x=x
    def __repr__(s): return '%s:%r'%(s.k,s.v)
PUNCT=['<<=','>>=','...','..=','::','->','=>','==','!=','<=','>=','&&','||','+=','-=','*=','/=','%=','^=','&=','|=','..']
def unesc(s):
    out='';i=0
    while i<len(s):
        c=s[i]
        if c=='\\':
            n=s[i+1]
            if n=='n': out+='\n'
            elif n=='t': out+='\t'
            elif n=='r': out+='\r'
            elif n=='0': out+='\0'
            elif n in '\\"\'': out+=n
            elif n=='x': out+=chr(int(s[i+2:i+4],16)); i+=2
            elif n=='u':
                j=s.index('}',i); out+=chr(int(s[i+3:j].replace('_',''),16)); i=j-1
            elif n=='\n':
                i+=2
                while i<len(s) and s[i] in ' \t\n\r': i+=1
                continue
            else: raise Exception('esc '+n)
            i+=2
        else: out+=c; i+=1
    return out
def lex(s):
    ts=[];i=0;n=len(s)
    while i<n:
        c=s[i]
        if c.isspace(): i+=1; continue
        if s.startswith('//',i):
            j=s.find('\n',i); j=n if j<0 else j
            l=s[i:j].rstrip('\r')
            if l.startswith('///') and not l.startswith('////'): ts.append(Tok('doc',l[3:],True))
            elif l.startswith('//!'): ts.append(Tok('doc',l[3:],False))
            i=j; continue
        if s.startswith('/*',i):
            d=1;j=i+2
            while d:
                if s.startswith('/*',j): d+=1; j+=2
                elif s.startswith('*/',j): d-=1; j+=2
                else: j+=1
            l=s[i:j]
            if l.startswith('/**') and not l.startswith('/***') and len(l)>4: ts.append(Tok('doc',l[3:-2],True))
            elif l.startswith('/*!'): ts.append(Tok('doc',l[3:-2],False))
            i=j; continue
        m=re.compile(r'(b|c)?r(#*)"').match(s,i)
        if m:
            e='"'+m.group(2); j=s.index(e,m.end()); ts.append(Tok('bstr' if m.group(1) else 'str',s[m.end():j])); i=j+len(e); continue
        m=re.compile(r'b?"((?:[^"\\]|\\.|\\\n)*)"',re.S).match(s,i)
        if m:
            ts.append(Tok('bstr' if c=='b' else 'str',unesc(m.group(1)))); i=m.end(); continue
        m=re.compile(r"(b?)'((?:[^'\\]|\\x..|\\u\{[^}]*\}|\\.))'").match(s,i)
        if m:
            ts.append(Tok('byte' if m.group(1) else 'char',ord(unesc(m.group(2))))); i=m.end(); continue
        m=re.compile(r"'[A-Za-z_]\w*").match(s,i)
        if m: ts.append(Tok('life',m.group(0))); i=m.end(); continue
        m=re.compile(r'r#[A-Za-z_]\w*|[A-Za-z_]\w*').match(s,i)
        if m: ts.append(Tok('id',m.group(0))); i=m.end(); continue
        m=re.compile(r'0x[0-9a-fA-F_]+|0b[01_]+|0o[0-7_]+|[0-9][0-9_]*(\.[0-9][0-9_]*|\.(?![\w.]))?([eE][+-]?[0-9_]+)?').match(s,i)
        if m:
            t=m.group(0); j=m.end()
            mm=re.compile(r'_?(u8|u16|u32|u64|u128|usize|i8|i16|i32|i64|i128|isize|f32|f64)').match(s,j)
            suf=''
            isf = not t.startswith('0x') and not t.startswith('0b') and not t.startswith('0o') and ('.' in t or 'e' in t or 'E' in t)
            if mm: suf=mm.group(1); j=mm.end()
            if t.startswith('0b') or t.startswith('0o') or t.startswith('0x') or not isf:
                if suf in('f32','f64'): ts.append(Tok('float',t.replace('_',''),suf))
                else: ts.append(Tok('int',int(t.replace('_',''),0) if t[:2] in('0x','0b','0o') else int(t.replace('_','')),suf))
            else: ts.append(Tok('float',t.replace('_',''),suf))
            i=j; continue
        for p in PUNCT:
            if s.startswith(p,i): ts.append(Tok('p',p)); i+=len(p); break
        else: ts.append(Tok('p',c)); i+=1
    return ts
def q(s):
    # Coq string; bytes in utf8
    b=s.encode()
    if all(32<=x<127 or x in(10,) or x>=128 for x in b): return '"'+s.replace('"','""')+'"'
    parts=[];cur=''
    for ch in s:
        if ord(ch)<32 and ch!='\n': parts.append('"'+cur.replace('"','""')+'"'); parts.append('(String (ascii_of_nat %d) "")'%ord(ch)); cur=''
        else: cur+=ch
    parts.append('"'+cur.replace('"','""')+'"')
    return '('+' ++ '.join(parts)+')'
def opt(x): return 'None' if x is None else '(Some %s)'%x
def lst(l): return '['+'; '.join(l)+']'
def bl(b): return 'true' if b else 'false'
KW=set('as break const continue crate else enum extern false fn for if impl in let loop match mod move mut pub ref return self Self static struct super trait true type unsafe use where while'.split())
class P:
    def __init__(s,ts): s.ts=ts; s.i=0
    def pk(s,n=0): return s.ts[s.i+n] if s.i+n<len(s.ts) else Tok('eof','')
    def isp(s,v,n=0): t=s.pk(n); return t.k=='p' and t.v==v
    def isid(s,v,n=0): t=s.pk(n); return t.k=='id' and t.v==v
    def nx(s): t=s.pk(); s.i+=1; return t
    def split(s,v):
        t=s.pk()
        if t.k=='p' and t.v!=v and t.v.startswith(v): s.ts[s.i:s.i+1]=[Tok('p',v),Tok('p',t.v[len(v):])]
    def exp(s,v):
        s.split(v); t=s.nx()
        if t.k not in('p','id') or t.v!=v: raise Exception('expected %s got %r at %d: %r'%(v,t,s.i,s.ts[max(0,s.i-8):s.i+4]))
    def acc(s,v):
        if s.isp(v) or s.isid(v): s.i+=1; return True
        return False
    def accs(s,v):
        s.split(v)
        return s.acc(v)
    def ident(s):
        t=s.nx()
        if t.k!='id': raise Exception('ident got %r %r'%(t,s.ts[max(0,s.i-8):s.i+4]))
        return t.v
    def skip_group(s):
        # at an opening bracket
        d=0
        while True:
            t=s.nx()
            if t.k=='eof': raise Exception('eof')
            if t.k=='p' and t.v in '([{' and len(t.v)==1: d+=1
            if t.k=='p' and t.v in ')]}' and len(t.v)==1:
                d-=1
                if d==0: return
    # attributes
    def attrs(s,inner=False):
        out=[]
        while True:
            t=s.pk()
            if t.k=='doc' and (t.x or inner): s.i+=1; out.append('{| at_meta := ANameValue (Some "doc") (Some %s); at_outer := %s |}'%(q(t.v),bl(t.x))); continue
            if t.k=='doc' and not t.x: s.i+=1; continue
            if s.isp('#') and s.isp('[',1): 
                s.i+=2; m=s.meta(); s.exp(']'); out.append('{| at_meta := %s; at_outer := true |}'%m); continue
            if s.isp('#') and s.isp('!',1) and s.isp('[',2):
                s.i+=3; m=s.meta(); s.exp(']')
                if inner: out.append('{| at_meta := %s; at_outer := false |}'%m)
                continue
            return out
    def meta(s):
        segs=[]
        s.acc('::')
        segs.append(s.ident())
        while s.isp('::'): s.i+=1; segs.append(s.ident())
        i=opt(q(segs[0])) if len(segs)==1 else 'None'
        if s.acc('='):
            if s.pk().k=='str' and not(s.pk(1).k=='p' and s.pk(1).v not in(']',')',',')): v=opt(q(s.nx().v))
            else: s.expr(); v='None'
            return '(ANameValue %s %s)'%(i,v)
        if s.isp('('):
            s.i+=1; args=[]
            while not s.isp(')'):
                args.append(s.arg())
                if not s.acc(','): break
            s.exp(')')
            return '(AList %s %s)'%(i,lst(args))
        if s.isp('[') or s.isp('{'): s.skip_group(); return '(AList %s [AOther])'%i
        return '(APath %s)'%i
    def arg(s):
        t=s.pk()
        if t.k=='int': s.i+=1; return '(AInt %s)'%q(str(t.v))
        if t.k=='id':
            save=s.i
            m=s.meta()
            if s.isp(',') or s.isp(')'): return m
            s.i=save
        d=0
        while not (d==0 and (s.isp(',') or s.isp(')'))):
            if s.isp('(') or s.isp('[') or s.isp('{'): s.skip_group()
            else: s.i+=1
        return 'AOther'
    # types
    def ty(s):
        s.split('&')
        if s.acc('&'):
            if s.pk().k=='life': s.i+=1
            m=s.acc('mut'); return '(SRef %s %s)'%(bl(m),s.ty())
        if s.acc('*'):
            if s.acc('const'): m=False
            else: s.exp('mut'); m=True
            return '(SPtr %s %s)'%(bl(m),s.ty())
        if s.acc('['):
            t=s.ty()
            if s.acc(']'): return 'SOtherType'
            s.exp(';'); e=s.expr(); s.exp(']'); return '(SArray %s %s)'%(t,e)
        if s.acc('!'): return 'SNever'
        if s.acc('...'): return 'SEllipsis'
        if s.acc('('):
            l=[]
            comma=False
            while not s.isp(')'):
                l.append(s.ty()); comma=s.acc(',')
                if not comma: break
            s.exp(')')
            if len(l)==1 and not comma: return '(SParen %s)'%l[0]
            return '(STuple %s)'%lst(l)
        if s.isid('for'): s.i+=1; s.generics()
        if s.isid('unsafe') or s.isid('extern') or s.isid('fn'):
            s.acc('unsafe')
            if s.acc('extern'):
                if s.pk().k=='str': s.i+=1
            s.exp('fn'); s.exp('(')
            ins=[]; var=False
            while not s.isp(')'):
                s.attrs()
                if s.acc('...'): var=True; s.acc(','); continue
                nm='None'
                if s.pk().k=='id' and s.isp(':',1): nm=opt(q(s.ident())); s.exp(':')
                if s.acc('...'): var=True; s.acc(','); continue
                ins.append('(%s, %s)'%(nm,s.ty()))
                if not s.acc(','): break
            s.exp(')')
            out='None'
            if s.acc('->'): out=opt(s.ty())
            return '(SFnPtr %s %s %s)'%(lst(ins),bl(var),out)
        if s.isid('impl') or s.isid('dyn'):
            s.i+=1; s.bounds(); return 'SOtherType'
        if s.isp('<') or s.isp('<<'):
            s.split('<'); s.i+=1; s.ty()
            if s.acc('as'): s.path(True)
            s.exp('>'); s.exp('::')
            p=s.path(True)
            return '(SPath %s)'%p
        p=s.path(True)
        if s.isp('!'): s.i+=1; s.skip_group(); return 'SOtherType'
        return '(SPath %s)'%p
    def bounds(s):
        while True:
            if s.pk().k=='life': s.i+=1
            else:
                s.acc('?'); s.acc('(')
                if s.isid('for'): s.i+=1; s.generics()
                s.path(True); s.acc(')')
            if not s.acc('+'): return
    def path(s,intype):
        s.acc('::')
        before=[]; 
        while True:
            idn=s.ident(); args='NoArgs'
            if intype:
                if s.isp('::') and s.isp('<',1): s.i+=1
                if s.isp('<') or s.isp('<<'):
                    args=s.gargs()
                elif s.isp('('):
                    s.skip_group(); args='ParenArgs'
                    if s.acc('->'): s.ty()
            else:
                if s.isp('::') and (s.isp('<',1) or s.isp('<<',1)):
                    s.i+=1; args=s.gargs()
            if s.isp('::') and s.pk(1).k=='id': s.i+=1; before.append(idn); continue
            return '(SegPath %s %s %s)'%(lst([q(b) for b in before]),q(idn),args)
    def gargs(s):
        s.split('<'); s.exp('<'); l=[]
        while not (s.pk().k=='p' and s.pk().v[0]=='>'):
            t=s.pk()
            if t.k=='life': s.i+=1; l.append('ArgLifetime')
            elif t.k in('int','char','byte','str','bstr','float') or s.isp('{') or s.isp('-') or s.isid('true') or s.isid('false'):
                if s.isp('{'):
                    s.i+=1; e=s.expr(); s.exp('}'); l.append('(ArgConst XOther)')
                else: l.append('(ArgConst %s)'%s.expr(unary=True))
            elif t.k=='id' and s.isp('=',1): s.i+=2; s.ty(); l.append('ArgOther')
            else: l.append('(ArgType %s)'%s.ty())
            s.split('>')
            if not s.acc(','): break
        s.exp('>')
        return '(AngleArgs %s)'%lst(l)
    def generics(s):
        l=[]
        if not s.isp('<'): return l
        s.i+=1
        while not (s.pk().k=='p' and s.pk().v[0]=='>'):
            s.attrs()
            if s.pk().k=='life':
                s.i+=1
                if s.acc(':'): s.bounds()
                l.append('SGLifetime')
            elif s.acc('const'):
                n=s.ident(); s.exp(':'); t=s.ty(); d='None'
                if s.acc('='):
                    if s.acc('{'): s.expr(); s.exp('}'); d=opt('XOther')
                    else: d=opt(s.expr(unary=True))
                l.append('(SGConst %s %s %s)'%(q(n),t,d))
            else:
                n=s.ident(); d='None'
                if s.acc(':'):
                    if not(s.isp(',') or s.isp('>') or s.isp('=')): s.bounds()
                if s.acc('='): d=opt(s.ty())
                l.append('(SGType %s %s)'%(q(n),d))
            s.split('>')
            if not s.acc(','): break
        s.exp('>'); return l
    def where(s):
        if s.acc('where'):
            while not(s.isp('{') or s.isp(';')): 
                s.i+=1
    # expressions
    BIN={'*':(11,'Mul'),'/':(11,'Div'),'%':(11,'Rem'),'+':(10,'Add'),'-':(10,'Sub'),'<<':(9,'Shl'),'>>':(9,'Shr'),'&':(8,'BitAnd'),'^':(7,'BitXor'),'|':(6,'BitOr'),'==':(5,'Eq'),'!=':(5,'Ne'),'<':(5,'Lt'),'>':(5,'Gt'),'<=':(5,'Le'),'>=':(5,'Ge'),'&&':(4,'And'),'||':(3,'Or')}
    def binop(s):
        t=s.pk()
        if t.k!='p': return None
        if t.v=='>' and s.isp('>',1): return ('>>',2)
        if t.v=='<' and s.isp('<',1): return ('<<',2)
        if t.v in s.BIN: return (t.v,1)
        return None
    def expr(s,minp=0,unary=False):
        l=s.unary()
        if unary: return l
        while True:
            if s.isid('as') and minp<=12:
                s.i+=1; l='(XCast %s %s)'%(l,s.ty()); continue
            b=s.binop()
            if b:
                p,n=s.BIN[b[0]]
                if p<minp: return l
                s.i+=b[1]; r=s.expr(p+1); l='(XBinary %s %s %s)'%(n,l,r); continue
            if (s.isp('..') or s.isp('..=')) and minp<=2:
                s.i+=1
                if not(s.isp(']') or s.isp(')') or s.isp(';')): s.expr(3)
                l='XOther'; continue
            return l
    def unary(s):
        if s.acc('-'): return '(XUnary Neg %s)'%s.unary()
        if s.acc('!'): return '(XUnary Not %s)'%s.unary()
        if s.acc('*'): return '(XUnary Deref %s)'%s.unary()
        s.split('&')
        if s.acc('&'):
            s.acc('mut'); s.unary(); return 'XOther'
        return s.postfix(s.prim())
    def args(s,c):
        l=[]
        while not s.isp(c):
            s.attrs(); l.append(s.expr())
            if not s.acc(','): break
        s.exp(c); return l
    def postfix(s,e):
        while True:
            if s.isp('.'):
                s.i+=1; t=s.nx()
                if t.k=='int': e='(XField %s (Unnamed %d))'%(e,t.v)
                else:
                    if s.isp('::'): s.i+=1; s.gargs()
                    if s.acc('('): e='(XMethod %s %s %s)'%(e,q(t.v),lst(s.args(')')))
                    else: e='(XField %s (Named %s))'%(e,q(t.v))
            elif s.acc('('): e='(XCall %s %s)'%(e,lst(s.args(')')))
            elif s.isp('['): s.i+=1; s.args(']'); e='XOther'
            elif s.isp('?'): s.i+=1; e='XOther'
            else: return e
    def prim(s):
        t=s.pk()
        if t.k=='int': s.i+=1; return '(XLit (LitInt %d %s))'%(t.v,q(t.x))
        if t.k=='float': s.i+=1; return '(XLit (LitFloat %s))'%q(t.v)
        if t.k=='byte': s.i+=1; return '(XLit (LitByte %d))'%t.v
        if t.k=='char': s.i+=1; return '(XLit (LitChar %d))'%t.v
        if t.k in('str','bstr'): s.i+=1; return '(XLit LitOther)'
        if s.isid('true') or s.isid('false'): s.i+=1; return '(XLit (LitBool %s))'%t.v
        if s.acc('('):
            l=[];comma=False
            while not s.isp(')'):
                l.append(s.expr()); comma=s.acc(',')
                if not comma: break
            s.exp(')')
            if len(l)==1 and not comma: return '(XParen %s)'%l[0]
            return 'XOther'
        if s.acc('['):
            l=[]
            while not s.isp(']'):
                l.append(s.expr())
                if s.acc(';'): s.expr(); s.exp(']'); return 'XOther'
                if not s.acc(','): break
            s.exp(']'); return '(XArray %s)'%lst(l)
        if s.isp('{'): s.skip_group(); return 'XOther'
        if s.isid('unsafe') or (s.isid('if') or s.isid('match') or s.isid('loop')):
            while not s.isp('{'): s.i+=1
            s.skip_group()
            while s.acc('else'):
                while not s.isp('{'): s.i+=1
                s.skip_group()
            return 'XOther'
        if s.isp('<') or s.isp('<<'):
            s.split('<'); s.i+=1; s.ty()
            if s.acc('as'): s.path(True)
            s.exp('>'); s.exp('::'); p=s.path(False)
            return '(XPath %s)'%p
        p=s.path(False)
        if s.isp('!'): s.i+=1; s.skip_group(); return 'XOther'
        if s.isp('{'):
            s.i+=1; fs=[]; rest='None'
            while not s.isp('}'):
                a=s.attrs()
                if s.acc('..'): rest=opt(s.expr()); break
                t=s.nx()
                m='(Named %s)'%q(t.v) if t.k=='id' else '(Unnamed %d)'%t.v
                if s.acc(':'): e=s.expr()
                else: e='(XPath (SegPath [] %s NoArgs))'%q(t.v)
                fs.append('(%s, %s, %s)'%(lst(a),m,e))
                if not s.acc(','): break
            s.exp('}')
            return '(XStruct %s %s %s)'%(p,lst(fs),rest)
        return '(XPath %s)'%p
    # items
    def vis(s):
        if s.isid('pub'):
            s.i+=1
            if s.isp('(') and s.pk(1).k=='id' and s.pk(1).v in('crate','super','self','in'): s.skip_group(); return False
            return True
        if s.isid('crate') and not s.isp('::',1): s.i+=1; return False
        return False
    def field(s,named):
        a=s.attrs(); s.vis()
        n='None'
        if named: n=opt(q(s.ident())); s.exp(':')
        return '{| sf_attrs := %s; sf_ident := %s; sf_ty := %s |}'%(lst(a),n,s.ty())
    def fields(s,named):
        s.i+=1; l=[]; c='}' if named else ')'
        while not s.isp(c):
            l.append(s.field(named))
            if not s.acc(','): break
        s.attrs(); s.exp(c); return l
    def sig(s):
        # at [const] [async] [unsafe] [extern "x"] fn
        abi='None'
        while not s.isid('fn'):
            if s.acc('extern'):
                if s.pk().k=='str': abi='(Some %s)'%opt(q(s.nx().v))
                else: abi='(Some None)'
            else: s.i+=1
        s.i+=1
        n=s.ident(); s.generics(); s.exp('(')
        ins=[]; var=False
        while not s.isp(')'):
            s.attrs()
            if s.acc('...'): var=True; s.acc(','); continue
            save=s.i
            # receiver
            r=None
            if s.acc('&'):
                if s.pk().k=='life': s.i+=1
                m=s.acc('mut')
                if s.isid('self') and (s.isp(',',1) or s.isp(')',1)): s.i+=1; r='(FnReceiver (RecvRef %s))'%bl(m)
                else: s.i=save
            if r is None:
                s.acc('mut')
                if s.isid('self'):
                    s.i+=1
                    if s.acc(':'): r='(FnReceiver (RecvTyped %s))'%s.ty()
                    else: r='(FnReceiver RecvValue)'
                else: s.i=save
            if r is None:
                if s.acc('_'): p='PatWild'
                elif s.isid('_'): s.i+=1; p='PatWild'
                else:
                    s.acc('ref'); s.acc('mut')
                    if s.pk().k=='id' and s.isp(':',1): p='(PatIdent %s)'%q(s.ident())
                    else:
                        while not s.isp(':'):
                            if s.isp('(') or s.isp('['): s.skip_group()
                            else: s.i+=1
                        p='PatOther'
                s.exp(':')
                if s.acc('...'): var=True; s.acc(','); continue
                r='(FnTyped %s %s)'%(p,s.ty())
            ins.append(r)
            if not s.acc(','): break
        s.exp(')')
        out='None'
        if s.acc('->'): out=opt(s.ty())
        s.where()
        return '{| sg_ident := %s; sg_abi := %s; sg_inputs := %s; sg_variadic := %s; sg_output := %s |}'%(q(n),abi,lst(ins),bl(var),out)
    def body(s):
        if s.isp('{'): s.skip_group()
        else: s.exp(';')
    def isfn(s):
        j=0
        while True:
            t=s.pk(j)
            if t.k=='id' and t.v=='fn': return True
            if t.k=='id' and t.v in('const','async','unsafe','extern','default','safe'): j+=1; continue
            if t.k=='str' and j>0: j+=1; continue
            return False
    def skip_semi(s):
        while not s.isp(';'):
            if s.isp('{') or s.isp('(') or s.isp('['): s.skip_group()
            else: s.i+=1
        s.i+=1
    def items(s,end):
        l=[]
        while True:
            if end and s.isp('}'): return l
            if s.pk().k=='eof': return l
            if s.acc(';'): continue
            l.append(s.item())
    def attr_item(s): pass
    def item(s):
        a=s.attrs()
        if s.pk().k=='eof' or s.isp('}'): return '(ItemOther [])'
        A=lst(a)
        pub=s.vis()
        if s.isfn():
            g=s.sig(); s.body(); return '(ItemFn %s %s %s)'%(A,bl(pub),g)
        if s.isid('use'): s.skip_semi(); return '(ItemOther %s)'%A
        if s.isid('extern') and s.isid('crate',1): s.skip_semi(); return '(ItemOther %s)'%A
        if s.isid('extern') or (s.isid('unsafe') and s.isid('extern',1)):
            s.acc('unsafe'); s.i+=1; abi='None'
            if s.pk().k=='str': abi=opt(q(s.nx().v))
            s.exp('{'); its=[]
            s.attrs(True)
            while not s.isp('}'):
                fa=s.attrs(); s.vis()
                if s.isfn():
                    g=s.sig(); s.exp(';'); its.append('(Some (%s, %s))'%(lst(fa),g))
                else: s.skip_semi(); its.append('None')
            s.exp('}')
            return '(ItemForeignMod %s %s %s)'%(A,abi,lst(its))
        if s.isid('mod') or (s.isid('unsafe') and s.isid('mod',1)):
            s.acc('unsafe'); s.i+=1; n=s.ident()
            if s.acc(';'): return '(ItemMod %s %s None)'%(A,q(n))
            s.exp('{'); ia=s.attrs(True) if (s.pk().k=='doc' and not s.pk().x) or (s.isp('#') and s.isp('!',1)) else []
            its=s.items(True); s.exp('}')
            return '(ItemMod %s %s (Some %s))'%(lst(a+ia),q(n),lst(its))
        if s.isid('const'):
            s.i+=1; n=s.ident(); s.exp(':'); t=s.ty()
            s.exp('='); e=s.expr(); s.exp(';')
            return '(ItemConst %s %s %s %s %s)'%(A,bl(pub),q(n),t,e)
        if s.isid('static'):
            s.i+=1; m=s.acc('mut'); n=s.ident(); s.exp(':'); t=s.ty(); s.skip_semi()
            return '(ItemStatic %s %s %s %s)'%(A,q(n),bl(m),t)
        if s.isid('struct'):
            s.i+=1; n=s.ident(); g=s.generics(); s.where()
            if s.acc(';'): f='FieldsUnit'
            elif s.isp('{'): f='(FieldsNamed %s)'%lst(s.fields(True))
            else: f='(FieldsUnnamed %s)'%lst(s.fields(False)); s.where(); s.exp(';')
            return '(ItemStruct %s %s %s %s)'%(A,q(n),lst(g),f)
        if s.isid('union') and s.pk(1).k=='id':
            s.i+=1; n=s.ident(); g=s.generics(); s.where()
            return '(ItemUnion %s %s %s %s)'%(A,q(n),lst(g),lst(s.fields(True)))
        if s.isid('enum'):
            s.i+=1; n=s.ident(); g=s.generics(); s.where(); s.exp('{'); vs=[]
            while not s.isp('}'):
                va=s.attrs()
                if s.isp('}'): break
                vn=s.ident()
                if s.isp('{'): f='(FieldsNamed %s)'%lst(s.fields(True))
                elif s.isp('('): f='(FieldsUnnamed %s)'%lst(s.fields(False))
                else: f='FieldsUnit'
                d='None'
                if s.acc('='): d=opt(s.expr())
                vs.append('{| sv_attrs := %s; sv_ident := %s; sv_fields := %s; sv_discriminant := %s |}'%(lst(va),q(vn),f,d))
                if not s.acc(','): break
            s.exp('}')
            return '(ItemEnum %s %s %s %s)'%(A,q(n),lst(g),lst(vs))
        if s.isid('type'):
            s.i+=1; n=s.ident(); g=s.generics(); s.where(); s.exp('='); t=s.ty(); s.where(); s.exp(';')
            return '(ItemType %s %s %s %s)'%(A,q(n),lst(g),t)
        if s.isid('impl') or (s.isid('unsafe') and s.isid('impl',1)):
            s.acc('unsafe'); s.i+=1; s.generics(); s.acc('!'); t=s.ty()
            if s.acc('for'): t=s.ty()
            s.where(); s.exp('{'); its=[]
            s.attrs(True) if s.isp('#') and s.isp('!',1) else None
            while not s.isp('}'):
                ia=s.attrs()
                if s.isp('}'): break
                ip=s.vis()
                if s.isfn(): g=s.sig(); s.body(); its.append('(ImplFn %s %s %s)'%(lst(ia),bl(ip),g))
                elif s.isid('const'):
                    s.i+=1; n=s.ident(); s.exp(':'); ct=s.ty(); s.exp('='); e=s.expr(); s.exp(';')
                    its.append('(ImplConst %s %s %s %s %s)'%(lst(ia),bl(ip),q(n),ct,e))
                elif s.isid('type'): s.skip_semi(); its.append('ImplOther')
                else: s.path(False); s.exp('!'); brace=s.isp('{'); s.skip_group(); (None if brace else s.acc(';')); its.append('ImplOther')
            s.exp('}')
            return '(ItemImpl %s %s %s)'%(A,t,lst(its))
        if s.isid('trait') or (s.isid('unsafe') and s.isid('trait',1)) :
            while not s.isp('{'): s.i+=1
            s.skip_group(); return '(ItemOther %s)'%A
        # macro
        if s.pk().k=='id':
            before=[]; s.acc('::'); n=s.ident()
            while s.acc('::'): n=None if False else s.ident(); before.append(n)
            s.exp('!')
            if n=='macro_rules': s.ident()
            brace=s.isp('{'); start=s.i; s.skip_group(); end=s.i-1
            if not brace: s.acc(';')
            fl='None'
            nm=n if not before else ''
            if n=='bitflags':
                sub=P(s.ts[start+1:end]); fl=opt(sub.bitflags()); 
                if sub.pk().k!='eof': fl='None'
            return '(ItemMacro %s %s %s)'%(A,q(n),fl)
        raise Exception('item %r'%s.ts[s.i:s.i+6])
    def bitflags(s):
        if s.acc('impl'): at='None'
        else: at=opt(lst(s.attrs())); s.vis(); s.exp('struct')
        n=s.ident(); s.exp(':'); t=s.ty(); s.exp('{'); fs=[]
        while not s.isp('}'):
            a=s.attrs(); s.exp('const'); fnm=s.ident(); s.exp('='); e=s.expr(); s.exp(';')
            fs.append('(%s, %s, %s)'%(lst(a),q(fnm),e))
        s.exp('}')
        return '{| bf_attrs := %s; bf_name := %s; bf_repr := %s; bf_flags := %s |}'%(at,q(n),t,lst(fs))
def translate(text):
    p=P(lex(text))
    if p.pk().k=='doc' and not p.pk().x: pass
    its=p.items(False)
    return [i for i in its if i!='(ItemOther [])' or True]
if __name__=='__main__':
    import glob
    ok=0
    for f in sorted(glob.glob('/repo/tests/rust/*.rs')):
        try: translate(open(f).read()); ok+=1
        except Exception as e: print(f.split('/')[-1],repr(e)[:300])
    print(ok)
