"""Go-subset -> Gallina translator for twuillemin/modes (untrusted helper; the generated .v files
are the model and are what must be compared with the Go source).

usage: go2coq.py OUTDIR
"""
import os,sys,glob,re
from fractions import Fraction
from goparse import P

ROOT="/repo/pkg/"
MOD="github.com/twuillemin/modes/pkg/"
OUT=sys.argv[1] if len(sys.argv)>1 else "/tmp/gen"

def coqpkg(path):
    if path.startswith("bds/bds"): path=path[4:]
    return path.replace("/","_")

# packages translated, in dependency order (computed below); reader/geo/commb/main are hand-modelled
PKGS=["bitutils","bds/register","bds/encoding","modes/common","modes/fields","modes/messages",
 "acas/ra/fields","acas/ra","adsb",
 "bds/bds00","bds/bds05/fields","bds/bds05","bds/bds06/fields","bds/bds06","bds/bds07/fields","bds/bds07",
 "bds/bds08/fields","bds/bds08","bds/bds09/fields","bds/bds09","bds/bds10/fields","bds/bds10","bds/bds17",
 "bds/bds20","bds/bds30","bds/bds40/fields","bds/bds40","bds/bds44/fields","bds/bds44","bds/bds45/fields","bds/bds45",
 "bds/bds50/fields","bds/bds50","bds/bds60/fields","bds/bds60","bds/bds61/fields","bds/bds61",
 "bds/bds62/fields","bds/bds62","bds/bds65/fields","bds/bds65",
 "adsb/airborne_position/fields","adsb/airborne_position","adsb/surface_position/fields","adsb/surface_position",
 "adsb/airborne_velocity","adsb/aircraft_identification_and_category","adsb/aircraft_operational_status",
 "adsb/aircraft_status","adsb/no_position_information","adsb/target_state_and_status"]

# interface -> implementing types, (pkg,name) -> (coq inductive name, [(pkg,type)])
IFACES={
 ("acas/ra/fields","ActiveResolutionAdvisory"):["ActiveRAMultipleThreatsDifferentSeparation","ActiveRAOneThreatOrSameSeparation","ActiveRANoVerticalRAGenerated"],
 ("bds/bds08/fields","AircraftCategory"):["AircraftCategorySetA","AircraftCategorySetB","AircraftCategorySetC","AircraftCategorySetD"],
 ("bds/bds09","AirborneVelocity"):["AirborneVelocityGroundSpeedNormal","AirborneVelocityGroundSpeedSupersonic","AirborneVelocityAirSpeedNormal","AirborneVelocityAirSpeedSupersonic"],
 ("bds/bds44","MeteorologicalRoutineAirReport"):["MeteorologicalRoutineAirReportV0","MeteorologicalRoutineAirReportV1","MeteorologicalRoutineAirReportV2"],
 ("bds/bds45","MeteorologicalHazardReport"):["MeteorologicalHazardReportV0","MeteorologicalHazardReportV1"],
 ("bds/bds61","AircraftStatus"):["AircraftStatusNoInformation","AircraftStatusEmergency","AircraftStatusACAS"],
 ("bds/bds62","TargetStateAndStatus"):["TargetStateAndStatus0","TargetStateAndStatus1"],
 ("bds/bds65","AircraftOperationalStatus"):["AircraftOperationalStatusADSB0","AircraftOperationalStatusAirborneADSB1","AircraftOperationalStatusAirborneADSB2","AircraftOperationalStatusSurfaceADSB1","AircraftOperationalStatusSurfaceADSB2"],
 ("adsb/airborne_position","Message"):["AirbornePositionType0","AirbornePositionV0","AirbornePositionV1","AirbornePositionV2"],
 ("adsb/surface_position","Message"):["SurfacePositionV0","SurfacePositionV1","SurfacePositionV2"],
}
# functions modelled by hand elsewhere or deliberately not modelled: (pkg, coqname) -> reason
SKIP={}

INTS={"byte":(0,255,"u8"),"uint8":(0,255,"u8"),"uint16":(0,65535,"u16"),"uint32":(0,2**32-1,"u32"),
      "uint64":(0,2**64-1,"u64"),"uint":(0,2**64-1,"u64"),"int":(-2**63,2**63-1,"i64"),
      "int8":(-128,127,"i8"),"int16":(-2**15,2**15-1,"i16"),"int32":(-2**31,2**31-1,"i32"),"int64":(-2**63,2**63-1,"i64")}
COQRES={"end","at","as","in","match","with","fun","let","if","then","else","return","Type","Set","Prop","fix","bit","format","exists"}

ORC=["ffmt","matan2"]
class Unsupported(Exception): pass

class Pkg:
    def __init__(s,path):
        s.path=path; s.coq=coqpkg(path); s.types={}; s.consts={}; s.vars={}; s.funcs={}; s.order=[]; s.file_imports={}
        for f in sorted(glob.glob(ROOT+path+"/*.go")):
            if f.endswith("_test.go"): continue
            rel=f[len("/repo/"):]
            _,imps,decls=P(open(f).read()).file()
            for d in decls:
                if d[0]=="type": s.types[d[1]]=(d[2],rel,imps,d[3],d[4]); s.order.append(("type",d[1]))
                elif d[0]=="const": s.consts[d[1]]=(d[2],d[3],rel,imps,d[4]); s.order.append(("const",d[1]))
                elif d[0]=="var":
                    assert len(d[1])==1
                    s.vars[d[1][0]]=(d[2],d[3],rel,imps,d[4],d[5]); s.order.append(("var",d[1][0]))
                elif d[0]=="func":
                    name=d[1]
                    if d[2]:
                        t=d[2][1]; t=t[1] if t[0]=="ptr" else t
                        name=t[2]+"_"+d[1]
                    s.funcs[name]=dict(name=name,recv=d[2],params=d[3],res=d[4],body=d[5],l0=d[6],l1=d[7],file=rel,imps=imps,pkg=s)
                    s.order.append(("func",name))

PK={p:Pkg(p) for p in PKGS}
def imp2pkg(imps,alias):
    p=imps.get(alias)
    if p is None: return None
    if p.startswith(MOD): return p[len(MOD):]
    return "ext:"+p

# ---------- types
# semantic types: ("int",name) | ("named",pkg,name) | ("bool",) | ("string",) | ("f32",)|("f64",)|("error",)|("slice",T)|("ptr",T)|("optptr",T)|("tuple",[..])|("ucint",v)|("ucfloat",v)|("nil",)
def rtype(t,pkg,imps,field=False):
    if t[0]=="name":
        q,n=t[1],t[2]
        if q is None:
            if n in INTS: return ("int",n if n!="uint8" else "byte")
            if n=="bool": return ("bool",)
            if n=="string": return ("string",)
            if n=="float32": return ("f32",)
            if n=="float64": return ("f64",)
            if n=="error": return ("error",)
            if n in pkg.types or (pkg.path,n) in IFACES: return ("named",pkg.path,n)
            raise Unsupported(f"type {n}")
        p=imp2pkg(imps,q)
        if p=="adsb" and n=="Message": return ("named",pkg.path,"Message")
        if p not in PK: raise Unsupported(f"type {q}.{n}")
        return ("named",p,n)
    if t[0]=="ptr": return ("optptr" if field else "ptr",rtype(t[1],pkg,imps))
    if t[0]=="slice": return ("slice",rtype(t[1],pkg,imps))
    raise Unsupported(f"type {t}")
def under(t):
    while t[0]=="named":
        if (t[1],t[2]) in IFACES: return ("iface",t[1],t[2])
        d=PK[t[1]].types[t[2]]
        if d[0][0]=="struct": return ("struct",t[1],t[2])
        if d[0][0]=="interface": return ("iface",t[1],t[2])
        t=rtype(d[0],PK[t[1]],d[2])
    return t
def fields(t):
    d=PK[t[1]].types[t[2]]; out=[]
    for (n,ty,emb) in d[0][1]: out.append((n,rtype(ty,PK[t[1]],d[2],True),emb))
    return out
def coqt(t,pkg):
    if t[0]=="int": return "Z"
    if t[0]=="bool": return "bool"
    if t[0]=="string": return "string"
    if t[0]=="f32": return "f32"
    if t[0]=="f64": return "f64"
    if t[0]=="slice": return "list "+par(coqt(t[1],pkg))
    if t[0]=="ptr": return coqt(t[1],pkg)
    if t[0]=="optptr": return "option "+par(coqt(t[1],pkg))
    if t[0]=="named": return q(pkg,t[1],t[2])
    if t[0]=="tuple": return "("+" * ".join(par(coqt(x,pkg)) for x in t[1])+")" if len(t[1])!=1 else coqt(t[1][0],pkg)
    raise Unsupported(f"coqt {t}")
def q(pkg,p,n):
    return n if p==pkg.path else PK[p].coq+"."+n
def par(s):
    return "("+s+")" if " " in s and not (s.startswith("(") and matching(s)) else s
def matching(s):
    d=0
    for i,c in enumerate(s):
        if c=="(": d+=1
        elif c==")":
            d-=1
            if d==0 and i<len(s)-1: return False
    return True
def cstr(s):
    parts=s.split("\n"); out=[]
    for i,p in enumerate(parts):
        if i>0: out.append("nl")
        # coqdep does not know strings: keep ". From" out of a literal
        if p: out.append('"'+p.replace('"','""').replace('. From ','." ++ " From ')+'"')
    if not out: return '""%string'
    return "("+" ++ ".join(out)+")%string" if len(out)>1 else out[0]+"%string"
def zlit(v,hexa=False):
    s=(hex(v) if hexa and v>9 else str(v)) if v>=0 else f"({v})"
    return s

# ---------- effect analysis
FI={}   # (pkg,name) -> info
def finfo(p,n):
    return FI.get((p,n))
def calls_of(fn):
    """syntactic scan: yields ('eff') or callee keys; imprecise but conservative, uses method name lookup"""
def has_index(node):
    if isinstance(node,tuple):
        if node and node[0] in ("index","slice"): return True
        return any(has_index(x) for x in node)
    if isinstance(node,list): return any(has_index(x) for x in node)
    return False

class Env:
    def __init__(s): s.v={}; s.err={}; s.arr={}; s.idx={}; s.const={}
    def copy(s):
        e=Env(); e.v=dict(s.v); e.err=dict(s.err); e.arr={k:list(x) for k,x in s.arr.items()}; e.idx=dict(s.idx); e.const=dict(s.const); return e

class FT:
    """translate one function"""
    def __init__(s,pkg,f):
        s.pkg=pkg; s.f=f; s.imps=f["imps"]; s.fresh={}; s.eff=False; s.orc=set(); s.assumed_eff=FI.get((pkg.path,f["name"]),{}).get("eff",False)
        s.res=[rtype(t,pkg,s.imps) for t in f["res"]]
        s.errret=bool(s.res) and s.res[-1]==("error",)
        s.vals=s.res[:-1] if s.errret else s.res
        s.goids=set()
        def walk(x):
            if isinstance(x,tuple):
                if len(x)>1 and x[0]=="id": s.goids.add(x[1])
                for y in x: walk(y)
            elif isinstance(x,list):
                for y in x: walk(y)
        walk(f["body"])
        for n,_ in f["params"]: s.goids.add(n)
        if f["recv"]: s.goids.add(f["recv"][0])
        s.deps=[]
    def gname(s,base):
        """Coq name of a Go variable (re-assignment shadows)"""
        if base in COQRES or base in ("O","S"): base+="_"
        return base
    def fname(s,base):
        """fresh temporary, distinct from every Go identifier of the function"""
        base=re.sub(r"\W","_",base)
        while True:
            n=s.fresh.get(base,0); s.fresh[base]=n+1
            r=base if n==0 else f"{base}_{n}"
            if r not in s.goids and r not in COQRES: return r
    # --- expressions. returns (text,type). binds appended to s.b
    def const(s,e,env):
        """compile-time constant value or None: returns (value,type-or-None)"""
        k=e[0]
        if k=="int": return (Fraction(e[1]),None)
        if k=="float": return (Fraction(e[1]),("ucfloat",))
        if k=="char": return (Fraction(e[1]),None)
        if k=="paren": return s.const(e[1],env)
        if k=="un" and e[1]=="-":
            c=s.const(e[2],env)
            return (-c[0],c[1]) if c else None
        if k=="id" and e[1] in env.const: return env.const[e[1]]
        if k=="sel" and e[1][0]=="id" and e[1][1]=="math" and e[2]=="Pi":
            return (Fraction("3.14159265358979323846264338327950288419716939937510582097494459"),("ucfloat",))
        if k=="bin":
            a=s.const(e[2],env); b=s.const(e[3],env)
            if a is None or b is None: return None
            t=a[1] if (a[1] and a[1]!=("ucfloat",)) else (b[1] if (b[1] and b[1]!=("ucfloat",)) else (a[1] or b[1]))
            x,y=a[0],b[0]
            if t is None:
                ops={"+":x+y,"-":x-y,"*":x*y}
                if e[1] in ops: return (ops[e[1]],t)
                if e[1]=="/": return (Fraction(int(x)//int(y)),t)
                if e[1]=="<<": return (Fraction(int(x)<<int(y)),t)
            if t==("ucfloat",):
                ops={"+":x+y,"-":x-y,"*":x*y}
                if e[1] in ops: return (ops[e[1]],t)
                if e[1]=="/": return (x/y,t)
            return None
        if k=="call" and e[1][0]=="id" and e[1][1] in ("uint","int","byte","uint16") and len(e[2])==1:
            c=s.const(e[2][0],env)
            if c: return (c[0],("int",e[1][1]))
        return None
    def conv(s,txt,t,want):
        """coerce a value of type t to type want (assignability: untyped consts, iface injection)"""
        if want is None or t==want: return txt
        if t[0]=="ucint":
            u=under(want)
            if u[0]=="int": return zlit(t[1])
            if u[0] in ("f32","f64"): return f"({u[0]}_lit {zlit(t[1])} 1)"
        if t[0]=="ucfloat":
            u=under(want)
            if u[0] in ("f32","f64"):
                fr=t[1]; lim=2**24 if u[0]=="f32" else 2**53
                if abs(fr.numerator)<=lim and fr.denominator<=lim: return f"({u[0]}_lit {zlit(fr.numerator)} {fr.denominator})"
                if u[0]=="f64":
                    x=Fraction(float(fr)); m=x.numerator; d=x.denominator.bit_length()-1
                    while m.bit_length()<53: m*=2; d+=1
                    return f"(S754_finite false {m} (-{d}))"
                raise Unsupported("f32 const")
            raise Unsupported(f"float const to {want}")
        if t[0]=="nil" and want[0]=="optptr": return "None"
        uw=under(want)
        if uw[0]=="iface":
            b=t[1] if t[0]=="ptr" else t
            if b==want: return txt
            if b[0]=="named" and (uw[1],uw[2]) in IFACES and b[2] in IFACES[(uw[1],uw[2])]:
                return f"({q(s.pkg,uw[1],'I'+uw[2]+'_'+b[2])} {par(txt)})"
            raise Unsupported(f"iface conv {t} to {want}")
        if t[0]=="ptr" and want[0]=="optptr": return f"(Some {par(txt)})"
        if want[0]=="ptr" and t==want[1]: return txt
        if under(t)==under(want) and (t[0]!="named" or want[0]!="named"): return txt
        raise Unsupported(f"conv {t} to {want}")
    def ex(s,e,env,want=None):
        txt,t=s.ex0(e,env,want)
        return s.conv(txt,t,want), (want if want is not None and t!=want else t)
    def bind(s,base,txt):
        s.eff=True
        n=s.fname(base); s.b.append(("bind",n,txt)); return n
    def ex0(s,e,env,want):
        c=s.const(e,env)
        if c is not None:
            v,t=c
            if t is None:
                return zlit(int(v)),("ucint",int(v))
            if t==("ucfloat",):
                return "?",("ucfloat",v)
            return zlit(int(v)),t
        k=e[0]
        if k=="paren": return s.ex0(e[1],env,want)
        if k=="str": return cstr(e[1]),("string",)
        if k=="id":
            n=e[1]
            if n=="true": return "true",("bool",)
            if n=="false": return "false",("bool",)
            if n=="nil": return "None",("nil",)
            if n in env.arr:
                return "["+"; ".join(env.arr[n])+"]",env.v[n][1]
            if n in env.v: return env.v[n]
            if n in s.pkg.consts: return s.constref(s.pkg,n)
            if n in s.pkg.vars: return s.varref(s.pkg,n)
            raise Unsupported(f"id {n}")
        if k=="sel":
            if e[1][0]=="id" and e[1][1] not in env.v:
                p=imp2pkg(s.imps,e[1][1])
                if p and p in PK:
                    if e[2] in PK[p].consts: return s.constref(PK[p],e[2])
                    if e[2] in PK[p].vars: return s.varref(PK[p],e[2])
                raise Unsupported(f"sel {e[1][1]}.{e[2]}")
            txt,t=s.ex0(e[1],env,None)
            return s.field(txt,t,e[2])
        if k=="un":
            if e[1]=="!":
                a,_=s.ex(e[2],env,("bool",)); return f"(negb {par(a)})",("bool",)
            if e[1]=="-":
                a,t=s.ex(e[2],env); u=under(t)
                if u[0] in("f32","f64"): return f"(SFopp {par(a)})",t
                return f"({INTS[u[1]][2]} (- {par(a)}))",t
            if e[1]=="&":
                if e[2][0]=="lit": a,t=s.ex0(e[2],env,None); return a,("ptr",t)
                a,t=s.ex0(e[2],env,None); return a,("ptr",t)
            if e[1]=="*":
                a,t=s.ex0(e[2],env,None)
                if t[0]=="ptr": return a,t[1]
                raise Unsupported("deref")
            if e[1]=="^":
                a,t=s.ex(e[2],env); u=under(t); return f"({INTS[u[1]][2]} (Z.lnot {par(a)}))",t
        if k=="bin": return s.binop(e,env,want)
        if k=="index":
            base=e[1]
            if base[0]=="id" and base[1] in env.arr:
                c=s.const(e[2],env)
                if c is None: raise Unsupported("dynamic index in local array")
                return env.arr[base[1]][int(c[0])],env.v[base[1]][1][1]
            c=s.const(e[2],env)
            a,t=s.ex0(base,env,None); u=under(t)
            if u[0]!="slice": raise Unsupported("index of "+str(u))
            if c is not None:
                key=(a,int(c[0]))
                if key in env.idx: return env.idx[key],u[1]
                nm=s.bind((base[1] if base[0]=="id" else base[2] if base[0]=="sel" else "x")+str(int(c[0])),f"idx {par(a)} {int(c[0])}")
                env.idx[key]=nm
                return nm,u[1]
            i,_=s.ex(e[2],env)
            return s.bind("elt",f"idx {par(a)} {par(i)}"),u[1]
        if k=="slice":
            a,t=s.ex0(e[1],env,None)
            lo="0" if e[2] is None else s.ex(e[2],env)[0]
            hi=f"(len {par(a)})" if e[3] is None else s.ex(e[3],env)[0]
            return s.bind("sub",f"slice {par(a)} {par(lo)} {par(hi)}"),t
        if k=="lit": return s.lit(e,env)
        if k=="slit":
            t=rtype(e[1],s.pkg,s.imps)
            return "["+"; ".join(s.ex(v,env,t[1])[0] for (_,v) in e[2])+"]",t
        if k=="call": return s.call(e,env,want)
        raise Unsupported(f"expr {k}")
    def constref(s,p,n):
        t,ce,_,imps,_=p.consts[n]
        s.deps.append((p.path,n))
        if t is None:
            v=int(s.const(ce,Env())[0])
            return q(s.pkg,p.path,n),("ucint",v)
        return q(s.pkg,p.path,n),rtype(t,p,imps)
    def varref(s,p,n):
        t,ce,_,imps,_,_=p.vars[n]
        s.deps.append((p.path,n))
        if t is None and ce[0]=="str": ty=("string",)
        elif t is None and ce[0]=="lit": ty=rtype(("name",None,ce[1][1]),p,imps)
        else: ty=rtype(ce[1] if t is None else t,p,imps)
        return q(s.pkg,p.path,n),ty
    def field(s,txt,t,name):
        b=t[1] if t[0]=="ptr" else t
        u=under(b)
        if u[0]!="struct": raise Unsupported(f"field {name} of {t}")
        for (n,ft,emb) in fields(u):
            if n==name: return f"{par(txt)}.({q(s.pkg,u[1],u[2]+'_'+n)})",ft
        for (n,ft,emb) in fields(u):
            if emb and under(ft)[0]=="struct":
                try: return s.field(f"{par(txt)}.({q(s.pkg,u[1],u[2]+'_'+n)})",ft,name)
                except Unsupported: pass
        raise Unsupported(f"no field {name} in {t}")
    def lit(s,e,env):
        tn=e[1]
        t=("name",None,tn[1]) if tn[0]=="id" else ("name",tn[1][1],tn[2])
        ty=rtype(t,s.pkg,s.imps); u=under(ty)
        fs=fields(u); vals={}
        if e[2] and e[2][0][0] is None:
            for (n,ft,_),(_,v) in zip(fs,e[2]): vals[n]=s.ex(v,env,ft)[0]
        else:
            for (kk,v) in e[2]:
                n=kk[1]; ft=[x for x in fs if x[0]==n][0][1]
                vals[n]=s.ex(v,env,ft)[0]
        s.deps.append((u[1],u[2]))
        mk=q(s.pkg,u[1],"mk"+u[2])
        if not fs: return mk,ty
        pre=q(s.pkg,u[1],u[2])
        body="; ".join(f"{pre}_{n} := {vals[n] if n in vals else s.zero(ft)}" for (n,ft,_) in fs)
        return "{| "+body+" |}",ty
    def zero(s,t):
        u=under(t)
        if u[0]=="int": return "0"
        if u[0]=="bool": return "false"
        if u[0]=="string": return '""%string'
        if u[0]=="optptr": return "None"
        if u[0] in ("f32","f64"): return f"({u[0]}_lit 0 1)"
        if u[0]=="struct":
            return f"({q(s.pkg,u[1],'mk'+u[2])} "+" ".join(s.zero(ft) for (_,ft,_) in fields(u))+")"
        raise Unsupported(f"zero {t}")
    def binop(s,e,env,want):
        op=e[1]
        if op in ("&&","||"):
            a,_=s.ex(e[2],env,("bool",))
            save=s.b; s.b=[]; senv=env.copy()
            b,_=s.ex(e[3],senv,("bool",)); bb=s.b; s.b=save
            if not bb: return f"({a} {op} {b})",("bool",)
            inner=s.wrapb(bb,f"Ok {par(b)}")
            if op=="||": txt=f"if {a} then Ok true else {inner}"
            else: txt=f"if {a} then {inner} else Ok false"
            return s.bind("cond","("+txt+")"),("bool",)
        if op in ("<<",">>"):
            a,t=s.ex(e[2],env,None)
            if t[0]=="ucint": raise Unsupported("shift of untyped const")
            b,_=s.ex(e[3],env)
            u=under(t); w=INTS[u[1]][2]
            if op=="<<": return f"({w} (Z.shiftl {par(a)} {par(b)}))",t
            return f"(Z.shiftr {par(a)} {par(b)})",t
        ca=s.const(e[2],env); cb=s.const(e[3],env)
        ua=ca is not None and (ca[1] is None or ca[1]==("ucfloat",))
        ub=cb is not None and (cb[1] is None or cb[1]==("ucfloat",))
        if op in ("==","!="):
            # nil comparisons of optptr
            for x,y in ((e[2],e[3]),(e[3],e[2])):
                if y==("id","nil",y[2] if len(y)>2 else 0) or (y[0]=="id" and y[1]=="nil"):
                    a,t=s.ex0(x,env,None)
                    if t[0]!="optptr": raise Unsupported(f"nil compare {t}")
                    return (f"(is_none {par(a)})" if op=="==" else f"(negb (is_none {par(a)}))"),("bool",)
        if ua and not ub:
            b,t=s.ex(e[3],env)
            if t[0]=="ucint": t=want
            a,_=s.ex(e[2],env,t)
        elif ub and not ua:
            a,t=s.ex(e[2],env)
            if t[0]=="ucint": raise Unsupported("uc")
            b,_=s.ex(e[3],env,t)
        else:
            a,t=s.ex(e[2],env); b,t2=s.ex(e[3],env)
            if t[0]=="ucint": a=s.conv(a,t,t2); t=t2
            elif t2[0]=="ucint": b=s.conv(b,t2,t)
            elif t!=t2: raise Unsupported(f"type mismatch {t} {t2}")
        u=under(t)
        if op in ("==","!=","<","<=",">",">="):
            if u[0]=="int":
                m={"==":"=?","<":"<?","<=":"<=?",">":">?",">=":">=?"}
                r=f"({a} =? {b})" if op in("==","!=") else f"({a} {m[op]} {b})"
            elif u[0]=="string": r=f"(String.eqb {par(a)} {par(b)})"
            elif u[0]=="bool": r=f"(Bool.eqb {par(a)} {par(b)})"
            elif u[0] in ("f32","f64"):
                r={"==":f"(fl_eqb {par(a)} {par(b)})","!=":f"(fl_eqb {par(a)} {par(b)})","<":f"(fl_ltb {par(a)} {par(b)})",">":f"(fl_ltb {par(b)} {par(a)})",
                   "<=":f"(fl_leb {par(a)} {par(b)})",">=":f"(fl_leb {par(b)} {par(a)})"}[op]
            else: raise Unsupported(f"cmp {u}")
            return (f"(negb {r})" if op=="!=" else r),("bool",)
        if u[0] in ("f32","f64"):
            m={"+":"add","-":"sub","*":"mul","/":"div"}[op]
            return f"({u[0]}_{m} {par(a)} {par(b)})",t
        if u[0]=="string" and op=="+": return f"({a} ++ {b})%string",t
        if u[0]=="int":
            lo,hi,w=INTS[u[1]]
            def hx(x,c): return zlit(int(c[0]),True) if c is not None else par(x)
            if op in ("&","|","^"):
                return f"(Z.{ {'&':'land','|':'lor','^':'lxor'}[op] } {hx(a,ca)} {hx(b,cb)})",t
            if op in ("+","-","*"): return f"({w} ({a} {op} {b}))",t
            if op=="/": return f"(Z.quot {par(a)} {par(b)})",t
            if op=="%": return f"(Z.rem {par(a)} {par(b)})",t
        raise Unsupported(f"binop {op} {u}")
    def callee(s,fn,env):
        """resolve a call target -> (info, receiver expr text or None)"""
        if fn[0]=="id" and fn[1] in s.pkg.funcs: return (s.pkg.path,fn[1]),None
        if fn[0]=="sel":
            if fn[1][0]=="id" and fn[1][1] not in env.v:
                p=imp2pkg(s.imps,fn[1][1])
                if p in PK and fn[2] in PK[p].funcs: return (p,fn[2]),None
                if p is not None and not (p in PK and (fn[1][1],) ): return None
                if p in PK: return None
            a,t=s.ex0(fn[1],env,None)
            return s.method(a,t,fn[2])
        return None
    def method(s,a,t,m):
        b=t[1] if t[0]=="ptr" else t
        if b[0]=="optptr":
            # pointer receiver auto-dereference: nil would panic
            nm=s.bind("pt",f"deref {par(a)}"); a=nm; b=b[1]
        if b[0]!="named": raise Unsupported(f"method {m} on {t}")
        u=under(b)
        if u[0]=="iface":
            impls=IFACES.get((u[1],u[2]))
            if impls is None: raise Unsupported("iface method")
            return (u[1],f"I{u[2]}_{m}"),a
        if b[2]+"_"+m in PK[b[1]].funcs: return (b[1],b[2]+"_"+m),a
        if u[0]=="struct":
            for (n,ft,emb) in fields(u):
                if emb:
                    try: return s.method(f"{par(a)}.({q(s.pkg,u[1],u[2]+'_'+n)})",ft,m)
                    except Unsupported: pass
        raise Unsupported(f"no method {m} on {t}")
    def docall(s,key,recv,args,env):
        fi=FI.get(key)
        if fi is None: raise Unsupported(f"callee {key} not modelled")
        s.deps.append(key)
        a=[]
        if recv is not None: a.append(par(recv))
        for x,pt in zip(args,fi["ptypes"]): a.append(par(s.ex(x,env,pt)[0]))
        txt=q(s.pkg,key[0],key[1])
        for o in ORC:
            if o in fi["orc"]: s.orc.add(o); txt+=" "+o
        if a: txt+=" "+" ".join(a)
        return txt,fi
    def call(s,e,env,want):
        fn,args=e[1],e[2]
        # conversions and builtins
        if fn[0]=="id":
            n=fn[1]
            if n in INTS or n in("float32","float64"): return s.convert(args[0],rtype(("name",None,n),s.pkg,s.imps),env)
            if n=="len":
                if args[0][0]=="id" and args[0][1] in env.arr: return str(len(env.arr[args[0][1]])),("int","int")
                a,_=s.ex(args[0],env); return f"(len {par(a)})",("int","int")
            if n=="string":
                a,_=s.ex(args[0],env); return f"(string_of_bytes {par(a)})",("string",)
            if n in s.pkg.types: return s.convert(args[0],("named",s.pkg.path,n),env)
        if fn[0]=="sel" and fn[1][0]=="id" and fn[1][1] not in env.v:
            p=imp2pkg(s.imps,fn[1][1])
            if p in PK and fn[2] in PK[p].types: return s.convert(args[0],("named",p,fn[2]),env)
            if p=="ext:fmt" and fn[2]=="Sprintf": return s.sprintf(args,env),("string",)
            if p=="ext:strconv" and fn[2]=="Itoa": return f"(dec {par(s.ex(args[0],env)[0])})",("string",)
            if p=="ext:strings" and fn[2]=="ContainsAny" and args[1][0]=="str" and len(args[1][1])==1:
                return f"(contains_any {par(s.ex(args[0],env)[0])} {cstr(args[1][1])})",("bool",)
            if p=="ext:strings" and fn[2]=="Join":
                return f"(String.concat {cstr(args[1][1])} {par(s.ex(args[0],env)[0])})",("string",)
            if p=="common" and fn[2]=="PrefixMultiLine":
                return f"(PrefixMultiLine {par(s.ex(args[0],env)[0])} {par(s.ex(args[1],env)[0])})",("string",)
            if p=="ext:math" and fn[2]=="Sqrt": return f"(f64_sqrt {par(s.ex(args[0],env,('f64',))[0])})",("f64",)
            if p=="ext:math" and fn[2]=="Atan2":
                s.orc.add("matan2")
                return f"(matan2 {par(s.ex(args[0],env,('f64',))[0])} {par(s.ex(args[1],env,('f64',))[0])})",("f64",)
            if p is not None and p.startswith("ext:"): raise Unsupported(f"call {p}.{fn[2]}")
        c=s.callee(fn,env)
        if c is None: raise Unsupported(f"call {fn}")
        key,recv=c
        txt,fi=s.docall(key,recv,args,env)
        if fi["errret"]: raise Unsupported("error-returning call in expression")
        rt=fi["vals"][0] if len(fi["vals"])==1 else ("tuple",fi["vals"])
        if fi["eff"]: return s.bind("r",txt),rt
        return (f"({txt})" if " " in txt else txt),rt
    def convert(s,a,t,env):
        u=under(t)
        c=s.const(a,env)
        if c is not None and u[0] in ("f32","f64"):
            return s.conv("?",("ucfloat",c[0]),t),t
        if c is not None and u[0]=="int": return zlit(int(c[0])),t
        x,tx=s.ex(a,env,None)
        ux=under(tx) if tx[0]!="ucint" else tx
        if u[0]=="int":
            if ux[0]=="ucint": return zlit(ux[1]),t
            if ux[0]=="int":
                lo,hi,w=INTS[u[1]]; l2,h2,_=INTS[ux[1]]
                if lo<=l2 and h2<=hi: return x,t
                return f"({w} {par(x)})",t
            if ux[0]=="f64" and u[1]=="uint32": return f"(u32_of_f64 {par(x)})",t
            raise Unsupported(f"convert {ux} to {u}")
        if u[0] in ("f32","f64"):
            if ux[0]=="int": return f"({u[0]}_of_Z {par(x)})",t
            if ux==u: return x,t
            if u[0]=="f32" and ux[0]=="f64": return f"(f32_of_f64 {par(x)})",t
        raise Unsupported(f"convert {ux} to {u}")
    def sprintf(s,args,env):
        fmts=s.strconst(args[0])
        rest=args[1:]; out=[]; i=0; buf=""; ai=0
        while i<len(fmts):
            if fmts[i]!="%": buf+=fmts[i]; i+=1; continue
            m=re.compile(r"%(%|v|d|s|02X|3d|03d|f|\.\df)").match(fmts,i)
            if not m: raise Unsupported(f"format {fmts[i:i+6]}")
            i=m.end(); v=m.group(1)
            if v=="%": buf+="%"; continue
            if buf: out.append(cstr(buf)); buf=""
            if rest[ai][0]=="id" and rest[ai][1] in env.err:
                out.append(env.err[rest[ai][1]]); ai+=1; continue
            x,t=s.ex(rest[ai],env); ai+=1
            u=under(t) if t[0] not in("ucint",) else ("int","int")
            if v in("v","d","s"):
                if u[0]=="int": out.append(f"dec {par(x)}")
                elif u[0]=="string": out.append(x)
                elif u[0]=="bool": out.append(f"bool_str {par(x)}")
                elif u[0] in("f32","f64"): s.orc.add("ffmt"); out.append(f"ffmt {par(x)}")
                elif u[0]=="slice" and under(u[1])[0]=="int": out.append(f"bytes_str {par(x)}")
                else: raise Unsupported(f"format arg {u}")
            elif v=="02X" and u[0]=="int": out.append(f"hex2 {par(x)}")
            else: raise Unsupported(f"verb {v} for {u}")
        if buf: out.append(cstr(buf))
        if ai!=len(rest): raise Unsupported("sprintf arg count")
        if not out: return '""%string'
        if len(out)==1: return "("+out[0]+")" if " " in out[0] else out[0]
        return "("+" ++ ".join(out)+")%string"
    def strconst(s,e):
        if e[0]=="str": return e[1]
        if e[0]=="bin" and e[1]=="+": return s.strconst(e[2])+s.strconst(e[3])
        if e[0]=="paren": return s.strconst(e[1])
        raise Unsupported("format not constant")
    # --- statements
    def wrapb(s,binds,body):
        for b in reversed(binds):
            if b[0]=="bind": body=f"let* {b[1]} := {b[2]} in\n{body}"
            elif b[0]=="let": body=f"let {b[1]} := {b[2]} in\n{body}"
        return body
    def errtext(s,e,env):
        if e[0]=="id":
            if e[1]=="nil": return None
            st=env.err.get(e[1])
            if st=="nil": return None
            if st: return st
            raise Unsupported("unknown error state")
        if e[0]=="call" and e[1][0]=="sel" and e[1][1][0]=="id":
            p=imp2pkg(s.imps,e[1][1][1])
            if (p,e[1][2]) in (("ext:errors","New"),("ext:fmt","Errorf")):
                if e[1][2]=="Errorf" and len(e[2])>1: return s.sprintf(e[2],env)
                return cstr(s.strconst(e[2][0]))
        return False
    def ok(s,txt):
        return f"Ok {par(txt)}" if s.monadic() else txt
    def monadic(s): return s.errret or s.assumed_eff
    def ret(s,es,env):
        s.b=[]
        if s.errret:
            if len(es)==1 and len(s.vals)>=1:
                # tail call returning (vals, error)
                e=es[0]
                key,recv=s.callee(e[1],env)
                txt,fi=s.docall(key,recv,e[2],env)
                if not fi["errret"]: raise Unsupported("tail call")
                if fi["vals"]!=s.vals:
                    x=s.conv("x__",fi["vals"][0],s.vals[0])
                    txt=f"rmap (fun x__ => {x}) ({txt})" if x!="x__" else txt
                return s.wrapb(s.b,txt)
            er=s.errtext(es[-1],env)
            if er is False:
                # only-error tail call
                if len(es)==1:
                    key,recv=s.callee(es[0][1],env); txt,fi=s.docall(key,recv,es[0][2],env)
                    return s.wrapb(s.b,txt)
                raise Unsupported("error expr")
            if er is not None:
                b=s.b; s.b=[]
                return s.wrapb(b,f"Err {par(er)}" if not er.startswith("(") else f"Err {er}")
            vs=[s.ex(e,env,t)[0] for e,t in zip(es[:-1],s.vals)]
            body="tt" if not vs else (vs[0] if len(vs)==1 else "("+", ".join(vs)+")")
            b=s.b; s.b=[]
            return s.wrapb(b,f"Ok {par(body)}")
        if len(es)==1 and len(s.vals)>1: raise Unsupported("tuple tail call")
        vs=[s.ex(e,env,t)[0] for e,t in zip(es,s.vals)]
        body=vs[0] if len(vs)==1 else "("+", ".join(vs)+")"
        b=s.b; s.b=[]
        return s.wrapb(b,s.ok(body))
    def returns(s,stmts):
        for st in stmts:
            if st[0]=="return": return True
            if st[0]=="if" and (s.returns(st[3]) or (st[4] and s.returns(st[4]))): return True
            if st[0]=="switch" and any(s.returns(b) for _,b in st[2]): return True
            if st[0] in("for","range") and s.returns(st[-2]): return True
            if st[0]=="block" and s.returns(st[1]): return True
        return False
    def always(s,stmts):
        """statement list always returns"""
        if not stmts: return False
        st=stmts[-1]
        if st[0]=="return": return True
        if st[0]=="if": return s.always(st[3]) and bool(st[4]) and s.always(st[4])
        if st[0]=="switch": return any(v is None for v,_ in st[2]) and all(s.always(b) for _,b in st[2])
        return False
    def assigned(s,stmts,env):
        out=[]
        def go(ss,local):
            local=set(local)
            for st in ss:
                if st[0]=="define":
                    for x in st[1]: local.add(x[1])
                elif st[0]=="var":
                    for x in st[1]: local.add(x)
                elif st[0]=="assign":
                    for x in st[1]:
                        n=x[1] if x[0]=="id" else (x[1][1] if x[0]in("index","sel") and x[1][0]=="id" else None)
                        if n is None: raise Unsupported("assign target")
                        if n not in local and n not in out and n!="_": out.append(n)
                elif st[0]=="if":
                    go(st[3],local); go(st[4] or [],local)
                elif st[0]=="switch":
                    for _,b in st[2]: go(b,local)
                elif st[0] in("for","range"): go(st[-2],local)
                elif st[0]=="block": go(st[1],local)
        go(stmts,[])
        return out
    def errcond(s,c,env):
        """static truth value of a condition on an error variable, or None"""
        if c[0]=="paren": return s.errcond(c[1],env)
        if c[0]=="bin" and c[1] in("==","!=") and c[2][0]=="id" and c[2][1] in env.err and c[3][0]=="id" and c[3][1]=="nil":
            isnil=env.err[c[2][1]]=="nil"
            return isnil if c[1]=="==" else not isnil
        return None
    def seq(s,stmts,env,k):
        """translate statements; k(env) gives the continuation text (or raises if falling off)"""
        if not stmts: return k(env)
        st,rest=stmts[0],stmts[1:]
        kk=st[0]
        if kk=="return": return s.ret(st[1],env)
        if kk=="break": return k(env)
        if kk=="block": return s.seq(st[1]+rest,env,k)
        if kk=="var":
            _,ns,ty,e,_,_=st
            if e is None:
                t=rtype(ty,s.pkg,s.imps)
                if t==("error",):
                    env.err[ns[0]]="nil"; return s.seq(rest,env,k)
                env.v[ns[0]]=("<unset>",t); return s.seq(rest,env,k)
            if ty is not None:
                t=rtype(ty,s.pkg,s.imps,True)
                s.b=[]; x,_=s.ex(e,env,t); return s.letin(ns[0],x,t,rest,env,k)
            return s.seq([("define",[("id",n,0) for n in ns],[e],st[4])]+rest,env,k)
        if kk=="define" or kk=="assign":
            return s.assign(st,rest,env,k)
        if kk=="if":
            _,init,c,th,el,_=st
            if init: raise Unsupported("if init")
            ec=s.errcond(c,env)
            if ec is not None:
                return s.seq((th if ec else (el or []))+rest,env,k)
            s.b=[]
            ct,_=s.ex(c,env,("bool",)); b=s.b; s.b=[]
            return s.wrapb(b,s.branch([(ct,th)],el or [],rest,env,k))
        if kk=="switch":
            _,tag,cases,_=st
            s.b=[]
            tt,ty=s.ex(tag,env); b=s.b; s.b=[]
            arms=[]; default=[]
            for vals,body in cases:
                if vals is None: default=body
                else:
                    u=under(ty)
                    conds=[]
                    for v in vals:
                        x,_=s.ex(v,env,ty)
                        conds.append(f"({tt} =? {x})" if u[0]=="int" else f"(String.eqb {tt} {x})")
                    if s.b: raise Unsupported("effects in case")
                    arms.append((" || ".join(conds),body))
            return s.wrapb(b,s.branch(arms,default,rest,env,k))
        if kk=="for":
            _,init,c,post,body,_=st
            # for i := A; i < N; i++ with constant bounds: unrolled
            if init[0]!="define" or c[0]!="bin" or c[1]!="<" or post[0]!="assign": raise Unsupported("for shape")
            i=init[1][0][1]; a=s.const(init[2][0],env); n=s.const(c[3],env)
            if a is None or n is None: raise Unsupported("for bounds")
            ity=a[1] or ("int","int")
            return s.unroll([ (int(j),None) for j in range(int(a[0]),int(n[0]))],i,ity,None,body,rest,env,k)
        if kk=="range":
            _,a,bv,e,body,_=st
            if e[0]!="id" or e[1] not in env.arr: raise Unsupported("range")
            els=env.arr[e[1]]
            return s.unroll(list(enumerate(els)),a,("int","int"),(bv,env.v[e[1]][1][1]),body,rest,env,k)
        raise Unsupported(f"stmt {kk}")
    def unroll(s,items,i,ity,bv,body,rest,env,k):
        if not items:
            env.const.pop(i,None); return s.seq(rest,env,k)
        j,el=items[0]
        env.const[i]=(Fraction(j),ity)
        if bv: env.v[bv[0]]=(el,bv[1])
        return s.seq(body,env,lambda e2: s.unroll(items[1:],i,ity,bv,body,rest,e2,k))
    def branch(s,arms,default,rest,env,k):
        bodies=[b for _,b in arms]+[default]
        def strip(b): return b[:-1] if b and b[-1][0]=="break" else b
        bodies=[strip(b) for b in bodies]
        anyret=any(s.returns(b) for b in bodies)
        if not anyret and rest!=[] or (not anyret):
            # join form
            vs=s.assigned([x for b in bodies for x in b],env)
            vs=[v for v in vs if v in env.v or v in env.err]
            if any(v in env.err for v in vs) or any(v in env.arr for v in vs): raise Unsupported("join over error/array")
            outs=[]; effany=False
            for b in bodies:
                s.noshadow(b,env)
                e2=env.copy()
                saveeff=s.eff; s.eff=False
                def kk(e3,vs=vs):
                    x=[s.conv(e3.v[v][0],e3.v[v][1],env.v[v][1]) for v in vs]
                    if "<unset>" in x: raise Unsupported("unset var at join")
                    return "\x00"+(x[0] if len(x)==1 else "("+", ".join(x)+")")+"\x01"
                outs.append(s.seq(b,e2,kk)); 
                if s.eff: effany=True
                s.eff=s.eff or saveeff
            def fin(t):
                return re.sub("\x00(.*?)\x01",lambda m:(f"Ok {par(m.group(1))}" if effany else m.group(1)),t,flags=re.S)
            outs=[fin(o) for o in outs]
            txt=s.iftext([c for c,_ in arms],outs)
            names=[]
            for v in vs:
                n=s.gname(v); names.append(n); env.v[v]=(n,env.v[v][1])
            pat=names[0] if len(names)==1 else "'("+", ".join(names)+")"
            if not vs: return s.seq(rest,env,k)
            r=s.seq(rest,env,k)
            if effany: return f"let* {pat} := ({txt}) in\n{r}"
            return f"let {pat} := {txt} in\n{r}"
        outs=[]
        for b in bodies:
            s.noshadow(b,env)
            e2=env.copy()
            outs.append(s.seq(b,e2,lambda e3: s.seq(rest,e3,k)))
        return s.iftext([c for c,_ in arms],outs)
    def noshadow(s,b,env):
        for st in b:
            if st[0]=="define" and any(x[1] in env.v for x in st[1]): raise Unsupported("inner-scope shadowing")
            if st[0]=="var" and any(x in env.v for x in st[1]): raise Unsupported("inner-scope shadowing")
    def iftext(s,conds,outs):
        t=""
        for c,o in zip(conds,outs):
            t+=f"if {c} then\n{ind(o)}\nelse "
        last=outs[-1]
        if last.startswith("if "): return t+last
        return t+"\n"+ind(last)
    def letin(s,name,x,t,rest,env,k,raw=False):
        b=s.b; s.b=[]
        n=s.gname(name); env.v[name]=(n,t); env.idx={kk:v for kk,v in env.idx.items() if not re.search(r"\b"+re.escape(n)+r"\b",kk[0])}
        env.arr.pop(name,None)
        r=s.seq(rest,env,k)
        return s.wrapb(b,f"let {n} := {x} in\n{r}")
    def assign(s,st,rest,env,k):
        _,ls,rs,_=st
        s.b=[]
        if len(ls)==1:
            l,r=ls[0],rs[0]
            # make([]T, n)
            if l[0]=="id" and r[0]=="call" and r[1]==("id","make",r[1][2] if r[1][0]=="id" else 0):
                t=rtype(r[2][0][1],s.pkg,s.imps); n=int(s.const(r[2][1],env)[0])
                env.v[l[1]]=("<arr>",t); env.arr[l[1]]=[s.zero(t[1])]*n
                return s.seq(rest,env,k)
            if l[0]=="index" and l[1][0]=="id" and l[1][1] in env.arr:
                c=s.const(l[2],env)
                if c is None: raise Unsupported("dynamic store")
                a=l[1][1]; j=int(c[0])
                x,_=s.ex(r,env,env.v[a][1][1]); b=s.b; s.b=[]
                n=s.fname(f"{a}{j}"); env.arr[a][j]=n
                rr=s.seq(rest,env,k)
                return s.wrapb(b,f"let {n} := {x} in\n{rr}")
            if l[0]=="sel" and l[1][0]=="id" and l[1][1] in env.v:
                # struct field update
                a=l[1][1]; at,ty=env.v[a]; b0=ty[1] if ty[0]=="ptr" else ty; u=under(b0)
                fs=fields(u); ft=[f for f in fs if f[0]==l[2]][0][1]
                x,_=s.ex(r,env,ft)
                pre=q(s.pkg,u[1],u[2])
                body="{| "+"; ".join(f"{pre}_{n} := "+(x if n==l[2] else f"{at}.({pre}_{n})") for (n,_,_) in fs)+" |}"
                return s.letin(a,body,ty,rest,env,k)
            if l[0]=="id":
                if l[1] in env.err or (r[0]=="call" and s.is_errcall(r,env)): return s.errassign([],l[1],r,rest,env,k)
                want=env.v[l[1]][1] if (st[0]=="assign") else None
                x,t=s.ex(r,env,want)
                if t[0]=="ucint": t=("int","int")
                if t[0]=="ucfloat": t=("f64",); x=s.conv(x,("ucfloat",s.const(r,env)[0]),t)
                return s.letin(l[1],x,t,rest,env,k)
            raise Unsupported("assign target")
        # multi-value
        if len(rs)==1 and rs[0][0]=="call":
            key,recv=s.callee(rs[0][1],env)
            fi=FI.get(key)
            if fi is None: raise Unsupported(f"callee {key} not modelled")
            if fi["errret"]: return s.errassign([x[1] for x in ls[:-1]],ls[-1][1],rs[0],rest,env,k)
            txt,fi=s.docall(key,recv,rs[0][2],env)
            b=s.b; s.b=[]
            ns=[]
            for l,t in zip(ls,fi["vals"]):
                if l[1]=="_": ns.append("_"); continue
                n=s.gname(l[1]); env.v[l[1]]=(n,t); ns.append(n)
            r=s.seq(rest,env,k)
            op="let*" if fi["eff"] else "let"
            if fi["eff"]: s.eff=True
            return s.wrapb(b,f"{op} '({', '.join(ns)}) := {txt} in\n{r}")
        raise Unsupported("multi assign")
    def is_errcall(s,r,env):
        try: key,recv=s.callee(r[1],env) or (None,None)
        except Unsupported: return False
        return key in FI and FI[key]["errret"]
    def errassign(s,vs,ev,call,rest,env,k):
        key,recv=s.callee(call[1],env)
        txt,fi=s.docall(key,recv,call[2],env)
        b=s.b; s.b=[]
        s.eff=True
        ns=[]
        e_ok=env.copy(); e_er=env.copy()
        for v,t in zip(vs,fi["vals"]):
            if v=="_": ns.append("_"); continue
            n=s.gname(v); ns.append(n); e_ok.v[v]=(n,t)
            e_er.v[v]=("<undef>",t)
            try: e_er.v[v]=(s.zero(t[1] if t[0]=="ptr" else t),t)
            except Unsupported: pass
        e_ok.err[ev]="nil"; en=s.fname("e"); e_er.err[ev]=en
        rok=s.seq(rest,e_ok,k); rer=s.seq(rest,e_er,k)
        if "<undef>" in rer: raise Unsupported("use of value after error")
        pat="tt" if not ns and not vs else (ns[0] if len(ns)==1 else "("+", ".join(ns)+")")
        return s.wrapb(b,f"match {txt} with\n| Ok {pat} =>\n{ind(rok)}\n| Err {en} =>\n{ind(rer)}\n| Panic => Panic\nend")
    def run(s):
        env=Env(); ps=[]
        if s.f["recv"]:
            n,t=s.f["recv"]; t=rtype(t,s.pkg,s.imps); cn=s.gname(n if n!="_" else "recv"); env.v[n]=(cn,t); ps.append((cn,t))
        for n,t in s.f["params"]:
            t=rtype(t,s.pkg,s.imps); cn=s.gname(n) if n!="_" else s.fname("unused"); 
            if n!="_": env.v[n]=(cn,t)
            ps.append((cn,t))
        def fall(e): raise Unsupported("falls off the end")
        body=s.seq(s.f["body"],env,fall)
        return ps,body

def ind(t): return "\n".join("  "+l for l in t.split("\n"))

def pinfo(pkg,f):
    imps=f["imps"]
    pt=[rtype(t,pkg,imps) for _,t in f["params"]]
    return pt

ORCT={"ffmt":"spec_float -> string","matan2":"f64 -> f64 -> f64"}
def orcp(o): return "".join(f"({x} : {ORCT[x]}) " for x in ORC if x in o)
LOG=[]
def emit(path):
    pkg=PK[path]
    out=[]; done=set(); deps_pk=set()
    # types in dependency order
    emitted=set()
    def need(t):
        if t[0]=="named":
            if t[1]==path: etype(t[2])
            else: deps_pk.add(t[1])
        elif t[0] in("ptr","optptr","slice"): need(t[1])
    def etype(n):
        if n in emitted: return
        emitted.add(n)
        if (path,n) in IFACES:
            impls=IFACES[(path,n)]
            for i in impls: etype(i)
            cite=f"{pkg.types[n][1]}:{pkg.types[n][3]}-{pkg.types[n][4]}" if n in pkg.types else "pkg/adsb/messages.go:8-16 (the implementations returned by this package)"
            out.append(f"(* {cite}\n   Go interface {n}, as the sum of the types that implement it *)\nInductive {n} :=\n"+"\n".join(f"| I{n}_{i} (m : {i})" for i in impls)+".")
            return
        d=pkg.types[n]
        cite=f"(* {d[1]}:{d[3]}-{d[4]} *)" if d[3]!=d[4] else f"(* {d[1]}:{d[3]} *)"
        if d[0][0]=="interface": return
        if d[0][0]=="struct":
            fs=fields(("named",path,n))
            for (_,t,_) in fs: need(t)
            if fs:
                out.append(cite+f"\nRecord {n} := mk{n} {{\n"+";\n".join(f"  {n}_{fn} : {coqt(ft,pkg)}" for (fn,ft,_) in fs)+" }.")
            else:
                out.append(cite+f"\nInductive {n} := mk{n}.")
        else:
            t=rtype(d[0],pkg,d[2]); need(t)
            out.append(cite+f"\nDefinition {n} := {coqt(t,pkg)}.")
    for kind,n in pkg.order:
        if kind=="type":
            try: etype(n)
            except Unsupported as ex: LOG.append((path,n,str(ex)))
    for (p,n) in IFACES:
        if p==path: etype(n)
    for kind,n in pkg.order:
        if kind=="const":
            t,e,rel,imps,l=pkg.consts[n]
            ft=FT.__new__(FT); ft.pkg=pkg; ft.imps=imps
            v=int(FT.const(ft,e,Env())[0])
            ty="Z" if t is None else coqt(rtype(t,pkg,imps),pkg)
            out.append(f"Definition {n} : {ty} := {zlit(v)}. (* {rel}:{l} *)")
        if kind=="var":
            t,e,rel,imps,l,l1=pkg.vars[n]
            if e[0]=="slit" and e[1][0]=="slice":
                ft=FT.__new__(FT); ft.pkg=pkg; ft.imps=imps
                try:
                    vals=[int(FT.const(ft,v,Env())[0]) for (_,v) in e[2]]
                    out.append(f"(* {rel}:{l}-{l1} *)\nDefinition {n} : list Z := ["+"; ".join(map(str,vals))+"].")
                except Exception as ex: LOG.append((path,n,"var "+str(ex)))
            elif e[0] in("str","lit"):
                ft=FT.__new__(FT); ft.pkg=pkg; ft.imps=imps; ft.deps=[]; ft.b=[]
                x,ty=FT.ex(ft,e,Env())
                out.append(f"(* {rel}:{l}-{l1} *)\nDefinition {n} : {coqt(ty,pkg)} := {x}.")
            else: LOG.append((path,n,"package variable not modelled"))
    # functions: iterate until all that can be translated are
    pending=[n for kind,n in pkg.order if kind=="func"]
    reasons={}
    progress=True
    fout={}
    ifm_done=set()
    while progress:
        progress=False
        for n in list(pending):
            f=pkg.funcs[n]
            if (path,n) in SKIP: pending.remove(n); LOG.append((path,n,SKIP[(path,n)])); continue
            try:
                FI[(path,n)]={"eff":False}
                info=None
                for attempt in (False,True):
                    FI[(path,n)]={"eff":attempt}
                    ft=FT(pkg,f); del FI[(path,n)]
                    ps,body=ft.run()
                    if not ft.eff or attempt or ft.errret: break
                ty="unit" if not ft.vals else coqt(("tuple",ft.vals),pkg)
                mon=ft.monadic() 
                rt=f"res {par(ty)}" if mon else ty
                for (_,t) in ps: need(t)
                for t in ft.vals: need(t)
                for d in ft.deps: deps_pk.add(d[0])
                params=orcp(ft.orc)+" ".join(f"({a} : {coqt(t,pkg)})" for a,t in ps)
                note=""
                txt=f"(* {f['file']}:{f['l0']}-{f['l1']}{note} *)\nDefinition {n} {params} : {rt} :=\n{ind(body)}."
                FI[(path,n)]=dict(eff=mon,errret=ft.errret,vals=ft.vals,ptypes=[t for _,t in ps][1 if f["recv"] else 0:],orc=ft.orc)
                out.append(txt); pending.remove(n); progress=True
            except Unsupported as ex:
                FI.pop((path,n),None)
                reasons[n]=str(ex)
        # interface dispatchers
        for (p,iname),impls in IFACES.items():
            if p!=path: continue
            meths=set(m[len(impls[0])+1:] for m in pkg.funcs if m.startswith(impls[0]+"_"))
            for m in sorted(meths):
                keys=[(path,i+"_"+m) for i in impls]
                if (iname,m) in ifm_done or not all(k in FI for k in keys): continue
                ifm_done.add((iname,m))
                fis=[FI[k] for k in keys]
                eff=any(x["eff"] for x in fis); ff=set().union(*[x["orc"] for x in fis]); er=fis[0]["errret"]
                if any(x["ptypes"] for x in fis): continue
                ty="unit" if not fis[0]["vals"] else coqt(("tuple",fis[0]["vals"]),pkg)
                arms=[]
                for i,x in zip(impls,fis):
                    c=f"{i}_{m}"+"".join(" "+o for o in ORC if o in x["orc"])+" x"
                    if eff and not x["eff"]: c=f"Ok ({c})"
                    arms.append(f"  | I{iname}_{i} x => {c}")
                out.append(f"(* dynamic dispatch of method {m} of interface {iname} *)\nDefinition I{iname}_{m} "+orcp(ff)+f"(v : {iname}) : {'res '+par(ty) if eff else ty} :=\n  match v with\n"+"\n".join(arms)+"\n  end.")
                FI[(path,f"I{iname}_{m}")]=dict(eff=eff,errret=er,vals=fis[0]["vals"],ptypes=[],orc=ff)
                progress=True
    for n in pending: LOG.append((path,n,reasons.get(n,"?")))
    skipped=[(n,r) for (p,n,r) in LOG if p==path]
    deps_pk.discard(path)
    hdr=f"(* GENERATED by tools/go2coq.py from /repo/pkg/{path} -- do not edit by hand.\n   One Gallina definition per Go declaration; each is preceded by the file and lines it models.\n   Error values are represented by their text, see DESIGN.md.\n"
    if skipped: hdr+="   Not translated here: "+"; ".join(f"{n} ({r.replace('*)','* )').replace('(*','( *')})" for n,r in skipped)+"\n"
    hdr+="*)\nFrom Verif Require Import GoBase.\n"
    if deps_pk: hdr+="From Verif.Gen Require "+" ".join(sorted(PK[p].coq for p in deps_pk))+".\n"
    hdr+="Local Open Scope Z_scope.\n\n"
    os.makedirs(OUT,exist_ok=True)
    txt="\n\n".join(out)+"\n"
    # one field of a record literal, one line of a multi-line string, per line
    txt="\n".join(l if len(l)<120 else re.sub(r"; (\w+ := )",r";\n      \1",l.replace(" ++ (nl ++ "," ++\n      (nl ++ ")) for l in txt.split("\n"))
    open(f"{OUT}/{pkg.coq}.v","w").write(hdr+txt)

for p in PKGS: emit(p)
for x in LOG: print(*x)
