"""A small parser for the subset of Go used by twuillemin/modes (untrusted helper)."""
import re

KEYWORDS = {"break","case","const","continue","default","else","for","func","if","import",
            "interface","map","package","range","return","struct","switch","type","var"}
OPS = ["<<=",">>=","&^=","...","&&","||","<<",">>","==","!=","<=",">=",":=","+=","-=","*=","/=","%=",
       "&=","|=","^=","++","--","&^","+","-","*","/","%","&","|","^","<",">","=","!","(",")","[","]",
       "{","}",",",";",".",":"]

class Tok:
    __slots__=("k","v","line")
    def __init__(s,k,v,line): s.k=k; s.v=v; s.line=line
    def __repr__(s): return f"{s.k}:{s.v}@{s.line}"

def lex(src):
    toks=[]; i=0; line=1; n=len(src)
    def need_semi():
        if not toks: return False
        t=toks[-1]
        if t.k in ("id","int","float","str","char"): return True
        if t.k=="kw" and t.v in ("break","continue","return"): return True
        if t.k=="op" and t.v in (")","]","}","++","--"): return True
        return False
    while i<n:
        c=src[i]
        if c=="\n":
            if need_semi(): toks.append(Tok("op",";",line))
            line+=1; i+=1; continue
        if c in " \t\r": i+=1; continue
        if src.startswith("//",i):
            while i<n and src[i]!="\n": i+=1
            continue
        if src.startswith("/*",i):
            j=src.index("*/",i); line+=src.count("\n",i,j); i=j+2; continue
        if c.isalpha() or c=="_":
            j=i
            while j<n and (src[j].isalnum() or src[j]=="_"): j+=1
            w=src[i:j]; toks.append(Tok("kw" if w in KEYWORDS else "id",w,line)); i=j; continue
        if c.isdigit():
            m=re.compile(r"0[xX][0-9a-fA-F]+|\d+\.\d*([eE][+-]?\d+)?|\d+[eE][+-]?\d+|\d+").match(src,i)
            w=m.group(0)
            if w[:2].lower()=="0x": toks.append(Tok("int",int(w,16),line))
            elif re.fullmatch(r"\d+",w): toks.append(Tok("int",int(w),line))
            else: toks.append(Tok("float",w,line))
            i=m.end(); continue
        if c=='"':
            j=i+1; s=""
            while src[j]!='"':
                if src[j]=="\\":
                    e=src[j+1]; s+={"n":"\n","t":"\t",'"':'"',"\\":"\\","r":"\r"}[e]; j+=2
                else: s+=src[j]; j+=1
            toks.append(Tok("str",s,line)); i=j+1; continue
        if c=="'":
            assert src[i+2]=="'"
            toks.append(Tok("char",ord(src[i+1]),line)); i+=3; continue
        for o in OPS:
            if src.startswith(o,i):
                toks.append(Tok("op",o,line)); i+=len(o); break
        else: raise Exception(f"lex {line}: {src[i:i+20]!r}")
    if need_semi(): toks.append(Tok("op",";",line))
    toks.append(Tok("eof","",line))
    return toks

# AST: tuples (kind, ..., line)
class P:
    def __init__(s,src): s.t=lex(src); s.i=0
    def peek(s,k=0): return s.t[min(s.i+k,len(s.t)-1)]
    def isop(s,v,k=0): t=s.peek(k); return t.k=="op" and t.v==v
    def iskw(s,v): t=s.peek(); return t.k=="kw" and t.v==v
    def nxt(s): t=s.t[s.i]; s.i+=1; return t
    def op(s,v):
        t=s.nxt()
        if not(t.k=="op" and t.v==v): raise Exception(f"expected {v} got {t}")
        return t
    def kw(s,v):
        t=s.nxt()
        if not(t.k=="kw" and t.v==v): raise Exception(f"expected {v} got {t}")
        return t
    def ident(s):
        t=s.nxt()
        if t.k!="id": raise Exception(f"expected ident got {t}")
        return t.v
    def semi(s):
        if s.isop(";"): s.nxt()
    def file(s):
        s.kw("package"); pkg=s.ident(); s.semi()
        imports={}; decls=[]
        while s.iskw("import"):
            s.nxt()
            def spec():
                al=None
                if s.peek().k=="id": al=s.ident()
                p=s.nxt().v; imports[al or p.split("/")[-1]]=p; s.semi()
            if s.isop("("):
                s.nxt()
                while not s.isop(")"): spec()
                s.nxt(); s.semi()
            else: spec()
        while s.peek().k!="eof":
            t=s.peek()
            if t.k=="op" and t.v==";": s.nxt(); continue
            if t.k=="kw" and t.v=="type": decls+=s.group(s.typespec)
            elif t.k=="kw" and t.v=="const": decls+=s.group(s.constspec)
            elif t.k=="kw" and t.v=="var": decls+=s.group(s.varspec)
            elif t.k=="kw" and t.v=="func": decls.append(s.func())
            else: raise Exception(f"decl {t}")
        return pkg,imports,decls
    def group(s,f):
        s.nxt(); out=[]
        if s.isop("("):
            s.nxt()
            while not s.isop(")"): out.append(f()); s.semi()
            s.nxt()
        else: out.append(f())
        s.semi()
        return out
    def typespec(s):
        l=s.peek().line; n=s.ident(); ty=s.type(); return ("type",n,ty,l,s.t[s.i-1].line)
    def constspec(s):
        l=s.peek().line; n=s.ident(); ty=None
        if not s.isop("="): ty=s.type()
        s.op("="); e=s.expr(); return ("const",n,ty,e,l)
    def varspec(s):
        l=s.peek().line; ns=[s.ident()]
        while s.isop(","): s.nxt(); ns.append(s.ident())
        ty=None; e=None
        if not s.isop("=") and not s.isop(";"): ty=s.type()
        if s.isop("="): s.nxt(); e=s.expr()
        return ("var",ns,ty,e,l,s.t[s.i-1].line)
    def type(s):
        if s.isop("*"): s.nxt(); return ("ptr",s.type())
        if s.isop("["):
            s.nxt()
            if s.isop("]"): s.nxt(); return ("slice",s.type())
            n=s.expr(); s.op("]"); return ("array",n,s.type())
        if s.iskw("map"):
            s.nxt(); s.op("["); k=s.type(); s.op("]"); return ("map",k,s.type())
        if s.iskw("struct"):
            s.nxt(); s.op("{"); fs=[]
            while not s.isop("}"):
                if s.isop(";"): s.nxt(); continue
                # embedded?
                if s.isop(";",1) or (s.isop(".",1) ):
                    ty=s.type(); fs.append((ty[-1],ty,True)); s.semi(); continue
                ns=[s.ident()]
                while s.isop(","): s.nxt(); ns.append(s.ident())
                ty=s.type()
                for n in ns: fs.append((n,ty,False))
                s.semi()
            s.nxt(); return ("struct",fs)
        if s.iskw("interface"):
            s.nxt(); s.op("{"); ms=[]
            while not s.isop("}"):
                if s.isop(";"): s.nxt(); continue
                if s.isop("(",1):
                    n=s.ident(); sig=s.sig(); ms.append(("m",n,sig))
                else: ms.append(("embed",s.type()))
                s.semi()
            s.nxt(); return ("interface",ms)
        if s.isop("("):
            s.nxt(); t=s.type(); s.op(")"); return t
        n=s.ident()
        if s.isop("."): s.nxt(); return ("name",n,s.ident())
        return ("name",None,n)
    def sig(s):
        s.op("("); ps=[]
        groups=[]
        while not s.isop(")"):
            # parse: either name list type or type
            names=[]
            save=s.i
            names.append(s.ident())
            while s.isop(","): 
                s.nxt(); names.append(s.ident())
                if not (s.isop(",") ): break
            if s.isop(",") or s.isop(")"):
                raise Exception("unnamed params unsupported")
            ty=s.type()
            for n in names: ps.append((n,ty))
            if s.isop(","): s.nxt()
        s.nxt()
        res=[]
        if s.isop("("):
            s.nxt()
            while not s.isop(")"):
                res.append(s.type())
                if s.isop(","): s.nxt()
            s.nxt()
        elif not s.isop("{") and not s.isop(";"): res.append(s.type())
        return ps,res
    def func(s):
        l=s.kw("func").line; recv=None
        if s.isop("("):
            s.nxt(); n=s.ident(); ty=s.type(); s.op(")"); recv=(n,ty)
        name=s.ident(); ps,res=s.sig(); body=s.block()
        end=s.t[s.i-1].line; s.semi()
        return ("func",name,recv,ps,res,body,l,end)
    def block(s):
        s.op("{"); out=[]
        while not s.isop("}"):
            if s.isop(";"): s.nxt(); continue
            out.append(s.stmt())
        s.nxt(); return out
    def stmt(s):
        t=s.peek(); l=t.line
        if t.k=="kw":
            if t.v=="return":
                s.nxt(); es=[]
                if not s.isop(";") and not s.isop("}"):
                    es.append(s.expr())
                    while s.isop(","): s.nxt(); es.append(s.expr())
                s.semi(); return ("return",es,l)
            if t.v=="if":
                st=s.ifstmt(); s.semi(); return st
            if t.v=="switch":
                s.nxt(); tag=None
                if not s.isop("{"): tag=s.expr(False)
                s.op("{"); cases=[]
                while not s.isop("}"):
                    if s.iskw("default"): s.nxt(); vals=None
                    else:
                        s.kw("case"); vals=[s.expr()]
                        while s.isop(","): s.nxt(); vals.append(s.expr())
                    s.op(":"); body=[]
                    while not s.isop("}") and not s.iskw("case") and not s.iskw("default"):
                        if s.isop(";"): s.nxt(); continue
                        body.append(s.stmt())
                    cases.append((vals,body))
                s.nxt(); s.semi(); return ("switch",tag,cases,l)
            if t.v=="for":
                s.nxt()
                # range?
                j=s.i; isr=False
                while not (s.t[j].k=="op" and s.t[j].v=="{"):
                    if s.t[j].k=="kw" and s.t[j].v=="range": isr=True
                    j+=1
                if isr:
                    a=s.ident(); b=None
                    if s.isop(","): s.nxt(); b=s.ident()
                    s.op(":="); s.kw("range"); e=s.expr(False); body=s.block(); s.semi()
                    return ("range",a,b,e,body,l)
                init=s.simple(); s.op(";"); c=s.expr(False); s.op(";"); post=s.simple(); body=s.block(); s.semi()
                return ("for",init,c,post,body,l)
            if t.v=="var":
                s.nxt(); v=s.varspec(); s.semi(); return v
            if t.v=="break": s.nxt(); s.semi(); return ("break",l)
            if t.v=="continue": s.nxt(); s.semi(); return ("continue",l)
            raise Exception(f"stmt {t}")
        if t.k=="op" and t.v=="{": 
            b=s.block(); s.semi(); return ("block",b,l)
        st=s.simple(); s.semi(); return st
    def ifstmt(s):
        l=s.kw("if").line; init=None
        c=s.simple(False)
        if s.isop(";"):
            s.nxt(); init=c; c=s.expr(False)
        else: c=c[1]
        th=s.block(); el=None
        if s.iskw("else"):
            s.nxt()
            if s.iskw("if"): el=[s.ifstmt()]
            else: el=s.block()
        return ("if",init,c,th,el,l)
    def simple(s,lit=True):
        l=s.peek().line
        es=[s.expr(lit)]
        while s.isop(","): s.nxt(); es.append(s.expr(lit))
        t=s.peek()
        if t.k=="op" and t.v in (":=","="):
            s.nxt(); rs=[s.expr(lit)]
            while s.isop(","): s.nxt(); rs.append(s.expr(lit))
            return ("define" if t.v==":=" else "assign",es,rs,l)
        if t.k=="op" and t.v in ("+=","-=","*=","/=","%=","&=","|=","^=","<<=",">>="):
            s.nxt(); r=s.expr(lit); return ("assign",es,[("bin",t.v[:-1],es[0],r,l)],l)
        if t.k=="op" and t.v in ("++","--"):
            s.nxt(); return ("assign",es,[("bin",t.v[0],es[0],("int",1,l),l)],l)
        return ("expr",es[0],l)
    PREC={"||":1,"&&":2,"==":3,"!=":3,"<":3,"<=":3,">":3,">=":3,"+":4,"-":4,"|":4,"^":4,
          "*":5,"/":5,"%":5,"<<":5,">>":5,"&":5,"&^":5}
    def expr(s,lit=True,p=1):
        a=s.unary(lit)
        while True:
            t=s.peek()
            if t.k=="op" and t.v in s.PREC and s.PREC[t.v]>=p:
                s.nxt(); b=s.expr(lit,s.PREC[t.v]+1); a=("bin",t.v,a,b,t.line)
            else: return a
    def unary(s,lit):
        t=s.peek()
        if t.k=="op" and t.v in ("-","!","^","&","*","+"):
            s.nxt(); return ("un",t.v,s.unary(lit),t.line)
        return s.postfix(lit)
    def postfix(s,lit):
        e=s.primary(lit)
        while True:
            t=s.peek()
            if t.k!="op": return e
            if t.v=="." and s.isop("(",1):
                s.nxt(); s.nxt(); ty=s.type(); s.op(")"); e=("tassert",e,ty,t.line)
            elif t.v==".": s.nxt(); e=("sel",e,s.ident(),t.line)
            elif t.v=="(":
                s.nxt(); args=[]
                while not s.isop(")"):
                    if s.isop("[") and s.isop("]",1): args.append(("type",s.type()))
                    elif s.iskw("map"): args.append(("type",s.type()))
                    else: args.append(s.expr())
                    if s.isop(","): s.nxt()
                s.nxt(); e=("call",e,args,t.line)
            elif t.v=="[":
                s.nxt()
                lo=None
                if not s.isop(":"): lo=s.expr()
                if s.isop(":"):
                    s.nxt(); hi=None
                    if not s.isop("]"): hi=s.expr()
                    s.op("]"); e=("slice",e,lo,hi,t.line)
                else: s.op("]"); e=("index",e,lo,t.line)
            elif t.v=="{" and lit and e[0] in ("id","sel"):
                e=("lit",e,s.litbody(),t.line)
            else: return e
    def litbody(s):
        s.op("{"); out=[]
        while not s.isop("}"):
            if s.isop(";"): s.nxt(); continue
            k=None; v=s.expr()
            if s.isop(":"): s.nxt(); k=v; v=s.expr()
            out.append((k,v))
            if s.isop(","): s.nxt()
        s.nxt(); return out
    def primary(s,lit):
        t=s.nxt()
        if t.k=="id": return ("id",t.v,t.line)
        if t.k=="int": return ("int",t.v,t.line)
        if t.k=="float": return ("float",t.v,t.line)
        if t.k=="str": return ("str",t.v,t.line)
        if t.k=="char": return ("char",t.v,t.line)
        if t.k=="op" and t.v=="(":
            e=s.expr(); s.op(")"); return ("paren",e,t.line)
        if t.k=="op" and t.v=="[":
            s.i-=1; ty=s.type(); return ("slit",ty,s.litbody(),t.line)
        raise Exception(f"primary {t}")
