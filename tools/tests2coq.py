"""Replays the repository's own unit tests (those on literal inputs, outside geo) on the model:
one Example per Go test, checked by vm_compute; math.Atan2 is given the value of atan2(-8,-159).  It validates the translation; it proves nothing
about the properties.  usage: tests2coq.py ../rocq/theories/Proofs/UnitTests.v"""
import sys,glob,os
out_file=sys.argv[1]; sys.argv=[sys.argv[0],'/tmp/gen_tests']
import go2coq as G
from goparse import P
from fractions import Fraction
def unhex(x):
    """encoding/hex.DecodeString: the bytes before the first error"""
    o=[]
    for i in range(0,len(x)-1,2):
        try: o.append(int(x[i:i+2],16))
        except ValueError: break
    return o
class Skip(Exception): pass
class T:
    """a Go test function, turned into a boolean expression"""
    def __init__(s,pkg,imps,funcs): s.pkg=pkg; s.imps=imps; s.funcs=funcs; s.v={}; s.arr={}; s.deps=set(); s.float=False
    def q(s,p,n): s.deps.add(G.PK[p].coq); return G.PK[p].coq+'.'+n
    def zval(s,e):
        k=e[0]
        if k=='int': return e[1]
        if k=='char': return e[1]
        if k=='paren': return s.zval(e[1])
        if k=='un' and e[1]=='-': return -s.zval(e[2])
        if k=='bin':
            a,b=s.zval(e[2]),s.zval(e[3])
            return {'|':lambda:a|b,'<<':lambda:a<<b,'+':lambda:a+b,'&':lambda:a&b}[e[1]]()
        if k=='call' and e[1][0]=='id' and e[1][1] in('byte','uint8','int'): return s.zval(e[2][0])
        if k=='index' and e[1][0]=='id' and e[1][1] in s.arr: return s.arr[e[1][1]][s.zval(e[2])]
        if k=='id' and e[1] in s.v and s.v[e[1]][1]==('const',): return s.v[e[1]][0]
        raise Skip(f'zval {e}')
    def arrlit(s,l): return '['+'; '.join(map(str,l))+']'
    def E(s,e,want=None):
        k=e[0]
        if k=='paren': return s.E(e[1],want)
        if k=='int':
            if want and G.under(want)[0] in('f32','f64'): return f'({G.under(want)[0]}_lit {G.zlit(e[1])} 1)',want
            return str(e[1]),('int','int')
        if k=='float' or (k=='un' and e[1]=='-'):
            neg=k=='un'; x=e[2] if neg else e
            f=Fraction(x[1])*(-1 if neg else 1)
            if want and G.under(want)[0] in('f32','f64'): return f'({G.under(want)[0]}_lit {G.zlit(f.numerator)} {f.denominator})',want
            return G.zlit(int(f)),('int','int')
        if k=='str': return G.cstr(e[1]),('string',)
        if k=='id':
            n=e[1]
            if n in('true','false'): return n,('bool',)
            if n in s.arr: return s.arrlit(s.arr[n]),('slice',('int','byte'))
            if n in s.v:
                x,t=s.v[n]
                if t==('const',): return str(x),('int','byte')
                return x,t
            if n in s.pkg.consts: return s.cref(s.pkg,n)
            if n in s.pkg.vars: return s.vref(s.pkg,n)
            raise Skip('id '+n)
        if k=='sel':
            if e[1][0]=='id' and e[1][1] not in s.v:
                p=G.imp2pkg(s.imps,e[1][1])
                if p in G.PK and e[2] in G.PK[p].consts: return s.cref(G.PK[p],e[2])
                if p in G.PK and e[2] in G.PK[p].vars: return s.vref(G.PK[p],e[2])
                raise Skip(f'sel {e[2]}')
            x,t=s.E(e[1]); return s.field(x,t,e[2])
        if k=='un' and e[1]=='*': 
            x,t=s.E(e[2]); return x,(t[1] if t[0]=='ptr' else t)
        if k=='index':
            x,t=s.E(e[1]); return f'(nth {s.zval(e[2])} {x} 0)',('int','byte')
        if k=='lit':
            tn=e[1]; ty=('named',G.imp2pkg(s.imps,tn[1][1]),tn[2]) if tn[0]=='sel' else ('named',s.pkg.path,tn[1])
            fs=G.fields(G.under(ty)); vals={kk[1]:s.E(v,[f for f in fs if f[0]==kk[1]][0][1])[0] for kk,v in e[2]}
            pre=s.q(ty[1],ty[2])
            return '{| '+'; '.join(f'{pre}_{n} := {vals[n]}' for n,_,_ in fs)+' |}',ty
        if k=='call':
            fn=e[1]
            if fn[0]=='id' and fn[1]=='len':
                x,t=s.E(e[2][0]); return (f'(Z.of_nat (String.length {x}))' if t==('string',) else f'(len {x})'),('int','int')
            if fn[0]=='id' and fn[1] in s.funcs: return s.build(s.funcs[fn[1]])
            if fn[0]=='id' and fn[1] in('byte','uint32','uint16','int'): return str(s.zval(e[2][0])),('int',fn[1])
            txt,fi=s.call(e)
            if fi['errret']: raise Skip('errret call in expr')
            rt=fi['vals'][0]
            if fi['eff']: return f'(match {txt} with Ok x__ => x__ | _ => {s.zero(rt)} end)',rt
            return f'({txt})',rt
        raise Skip(f'expr {k}')
    def zero(s,t):
        u=G.under(t)
        if u[0]=='struct': return '('+s.q(u[1],'mk'+u[2])+' '+' '.join(s.zero(ft) for _,ft,_ in G.fields(u))+')'
        return {'string':'""%string','int':'0','bool':'false'}.get(u[0]) or s.skip(f'zero {t}')
    def skip(s,m): raise Skip(m)
    def cref(s,p,n):
        t=p.consts[n][0]
        return s.q(p.path,n),(('int','int') if t is None else G.rtype(t,p,p.consts[n][3]))
    def vref(s,p,n):
        ce=p.vars[n][1]
        return s.q(p.path,n),G.rtype(('name',None,ce[1][1]),p,p.vars[n][3]) if ce[0]=='lit' else ('string',)
    def field(s,x,t,name):
        b=t[1] if t[0]=='ptr' else t; u=G.under(b)
        if b[0]=='optptr':
            return s.field(f"(match {x} with Some x__ => x__ | None => {s.zero(b[1])} end)",b[1],name)
        if u[0]!='struct': raise Skip(f'field {name} of {t}')
        for n,ft,emb in G.fields(u):
            if n==name: return f"({s.q(u[1],u[2]+'_'+n)} {x})",ft
        for n,ft,emb in G.fields(u):
            if emb and G.under(ft)[0]=='struct':
                try: return s.field(f"({s.q(u[1],u[2]+'_'+n)} {x})",ft,name)
                except Skip: pass
        raise Skip(f'no field {name}')
    def method(s,x,t,m):
        b=t[1] if t[0]=='ptr' else t
        if b[0]=='optptr': return s.method(f"(match {x} with Some x__ => x__ | None => {s.zero(b[1])} end)",b[1],m)
        u=G.under(b)
        if u[0]=='iface': return (u[1],f'I{u[2]}_{m}'),x
        if b[0]=='named' and b[2]+'_'+m in G.PK[b[1]].funcs: return (b[1],b[2]+'_'+m),x
        if u[0]=='struct':
            for n,ft,emb in G.fields(u):
                if emb:
                    try: return s.method(f"({s.q(u[1],u[2]+'_'+n)} {x})",ft,m)
                    except Skip: pass
        raise Skip(f'method {m} on {t}')
    def call(s,e):
        fn=e[1]; recv=None
        if fn[0]=='id' and fn[1] in s.pkg.funcs: key=(s.pkg.path,fn[1])
        elif fn[0]=='sel' and fn[1][0]=='id' and fn[1][1] not in s.v and G.imp2pkg(s.imps,fn[1][1]) in G.PK: key=(G.imp2pkg(s.imps,fn[1][1]),fn[2])
        elif fn[0]=='sel': x,t=s.E(fn[1]); key,recv=s.method(x,t,fn[2])
        else: raise Skip(f'call {fn}')
        fi=G.FI.get(key)
        if fi is None: raise Skip(f'no model of {key}')
        a=[f'({recv})'] if recv else []
        for x,pt in zip(e[2],fi['ptypes']): a.append('('+s.E(x,pt)[0]+')')
        txt=s.q(*key)
        for o in G.ORC:
            if o in fi['orc']: txt+={'ffmt':' (fun _ => ""%string)','matan2':' (fun _ _ => f64_lit (-309132) 100000)'}[o]
        return txt+' '+' '.join(a),fi
    def build(s,f):
        """a data-building function: constants only"""
        sub=T(s.pkg,s.imps,s.funcs); sub.deps=s.deps
        for st in f[5]:
            if st[0]=='return': return sub.E(st[1][0],('slice',('int','byte')))
            sub.const(st)
        raise Skip('builder without return')
    def const(s,st):
        if st[0] in('define','assign') and len(st[1])==1:
            l,r=st[1][0],st[2][0]
            if l[0]=='id' and r[0]=='call' and r[1][0]=='id' and r[1][1]=='make':
                s.arr[l[1]]=[0]*s.zval(r[2][1]); return True
            if l[0]=='index' and l[1][0]=='id' and l[1][1] in s.arr:
                s.arr[l[1][1]][s.zval(l[2])]=s.zval(r); return True
            if l[0]=='id':
                try: s.v[l[1]]=(s.zval(r),('const',)); return True
                except Skip: return False
        if st[0]=='for' and all(x[0]=='assign' and x[2][0][0]=='int' and x[2][0][1]==0 for x in st[-2]): return True # zeroing
        if st[0] in('define','assign') and len(st[1])==2 and st[2][0][0]=='call' and st[2][0][1][0]=='sel' and st[2][0][1][2]=='DecodeString':
            s.arr[st[1][0][1]]=unhex(st[2][0][2][0][1]); return True
        return False
    def neg(s,c):
        """the test fails when c holds: the text of its negation"""
        if c[0]=='paren': return s.neg(c[1])
        op=c[1] if c[0]=='bin' else None
        if op=='||': return f'({s.neg(c[2])} && {s.neg(c[3])})'
        if op in('!=','=='):
            a,b=c[2],c[3]
            if b[0]=='id' and b[1]=='nil':
                if a[0]=='call':
                    txt,fi=s.call(a)
                    if not fi['errret']: raise Skip('nil')
                    r=f'match {txt} with Ok _ => true | _ => false end'
                else:
                    x,t=s.E(a); r=f'match {x} with None => true | Some _ => false end'
                return f'({r})' if op=='!=' else f'(negb ({r}))'
            x,t=s.E(a)
            if t[0]=='optptr': x=f'(match {x} with Some x__ => x__ | None => {s.zero(t[1])} end)'; t=t[1]
            y,t2=s.E(b,t)
            u=G.under(t)
            if u[0]=='iface' and t2[0]=='named' and t2[2] in G.IFACES[(u[1],u[2])]:
                r=f"(match {x} with {s.q(u[1],'I'+u[2]+'_'+t2[2])} x__ => x__ =? {y} | _ => false end)"
                return r if op=='!=' else f'(negb {r})'
            if u[0]=='int': r=f'({x} =? {y})'
            elif u[0]=='bool': r=f'(Bool.eqb {x} {y})'
            elif u==('string',): r=f'(String.eqb {x} {y})'
            elif u[0] in('f32','f64'): r=f'(SFeqb {x} {y})'
            elif u[0]=='struct' and u[2]=='Register': r=f'(String.eqb (bds_register.Register_id {x}) (bds_register.Register_id {y}))'; s.deps.add('bds_register')
            else: raise Skip(f'compare {u}')
            return r if op=='!=' else f'(negb {r})'
        if op in('<','>','<=','>='):
            x,t=s.E(c[2]); y,_=s.E(c[3],t); u=G.under(t)
            if u[0] in('f32','f64'): return {'<':f'(negb (SFltb {x} {y}))','>':f'(negb (SFltb {y} {x}))'}[op]
            return {'<':f'({y} <=? {x})','>':f'({x} <=? {y})','<=':f'({y} <? {x})','>=':f'({x} <? {y})'}[op]
        if c[0]=='un' and c[1]=='!':
            return s.E(c[2])[0]
        raise Skip(f'cond {c}')
    def seq(s,sts):
        if not sts: return 'true'
        st,rest=sts[0],sts[1:]
        if s.const(st): return s.seq(rest)
        if st[0]=='if':
            fails=lambda b: b and all(x[0]=='expr' for x in b)
            if fails(st[3]) and not st[4]: return f'{s.neg(st[2])} &&\n  {s.seq(rest)}'
            if fails(st[3]) and st[4]: # else if: both must not fail
                a=s.neg(st[2]); b=s.seq(st[4]); return f'{a} && ({b}) &&\n  {s.seq(rest)}'
            raise Skip('if')
        if st[0] in('define','assign') and len(st[1])==2:
            n,err=st[1][0][1],st[1][1][1]; r=st[2][0]
            if r[0]=='tassert':
                x,t=s.E(r[1]); u=G.under(t); tn=r[2][1]; b=('named',(s.pkg.path if tn[1] is None else G.imp2pkg(s.imps,tn[1])),tn[2])
                s.v[n]=(n,b)
                if rest and rest[0][0]=='if': rest=rest[1:]
                return f"match {x} with {s.q(u[1],'I'+u[2]+'_'+b[2])} {n} =>\n  {s.seq(rest)}\n  | _ => false end"
            txt,fi=s.call(r)
            if not fi['errret']: raise Skip('no error')
            s.v[n]=(n,fi['vals'][0])
            if rest and rest[0][0]=='if' and rest[0][2][0]=='bin' and rest[0][2][2]==('id',err,rest[0][2][2][-1]):
                if rest[0][2][1]=='==': return f'(match {txt} with Err _ => true | _ => false end) &&\n  {s.seq(rest[1:])}'
                if rest[0][4]: rest=[rest[0]]+rest[0][4]+rest[1:]
                rest=rest[1:]
            elif err!='_': raise Skip('unchecked error')
            pat=n
            return f'match {txt} with Ok {pat} =>\n  {s.seq(rest)}\n  | _ => false end'
        if st[0]=='define' and len(st[1])==1:
            s.v[st[1][0][1]]=s.E(st[2][0]); return s.seq(rest)
        raise Skip(f'stmt {st[0]}')
out=[]; deps=set(); skipped=[]
for p in G.PKGS:
    for f in sorted(glob.glob(G.ROOT+p+'/*_test.go')):
        rel=f[len('/repo/'):]
        try: _,imps,decls=P(open(f).read()).file()
        except Exception as ex: skipped.append(f'{rel}: {ex}'); continue
        funcs={d[1]:d for d in decls if d[0]=='func'}
        for d in decls:
            if d[0]!='func' or not d[1].startswith('Test'): continue
            t=T(G.PK[p],imps,funcs)
            try:
                body=t.seq(d[5]); deps|=t.deps
                out.append(f'(* {rel}:{d[6]}-{d[7]} *)\nExample {d[1]}_{G.PK[p].coq} :\n  ({body}) = true.\nProof. vm_compute. reflexivity. Qed.')
            except Skip as ex: skipped.append(f'{rel} {d[1]}: {ex}')
hdr='(* GENERATED by tools/tests2coq.py: the unit tests of the repository, on the model. *)\nFrom Verif Require Import GoBase.\nFrom Verif.Gen Require '+' '.join(sorted(deps))+'.\nLocal Open Scope Z_scope.\nLocal Open Scope bool_scope.\n\n'
open(out_file,'w').write(hdr+'\n\n'.join(out)+'\n')
print(len(out),'tests;',*skipped,sep='\n')
