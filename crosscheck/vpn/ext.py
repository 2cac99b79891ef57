import ast,sys,os,copy,glob
class Skip(Exception): pass
class Obj:
    def __init__(s,cls,config,native,dsa,extra): s.cls=cls;s.config=copy.deepcopy(config);s.native=native;s.dsa=dsa;s.extra=extra
class Sym:
    def __init__(s,kind,obj,arg=None): s.kind=kind;s.obj=obj;s.arg=arg
class Break_(Exception): pass
class Ret(Exception): pass
BK={"OpenWrt","OpenVpn","Wireguard","VxlanWireguard","ZeroTier","OpenWisp","Raspbian","AirOs"}
class Ev:
    def __init__(s,mod): s.mod=mod; s.checks=[]
    def ev(s,n,env):
        t=type(n)
        if t is ast.Constant: return n.value
        if t is ast.Dict:
            d={}
            for k,v in zip(n.keys,n.values):
                if k is None: d.update(s.ev(v,env))
                else: d[s.ev(k,env)]=s.ev(v,env)
            return d
        if t is ast.List: return [s.ev(x,env) for x in n.elts]
        if t is ast.Tuple: return tuple(s.ev(x,env) for x in n.elts)
        if t is ast.Name:
            if n.id in env: return env[n.id]
            if n.id in s.mod: return s.mod[n.id]
            raise Skip("name "+n.id)
        if t is ast.Attribute:
            if isinstance(n.value,ast.Name) and n.value.id in("self","cls"):
                return s.cattr(n.attr)
            v=s.ev(n.value,env)
            if isinstance(v,Obj):
                if n.attr=="config": return Sym("config",v)
                if n.attr=="intermediate_data": return Sym("inter",v)
                raise Skip("attr "+n.attr)
            if isinstance(v,dict) and v.get('__class__')==1: return v['d'][n.attr]
            raise Skip("attr "+n.attr)
        if t is ast.Subscript:
            v=s.ev(n.value,env); 
            if isinstance(v,(Sym,Obj)): raise Skip("sub")
            if isinstance(n.slice,ast.Slice): raise Skip("slice")
            return v[s.ev(n.slice,env)]
        if t is ast.BinOp and isinstance(n.op,ast.Add):
            a,b=s.ev(n.left,env),s.ev(n.right,env)
            if isinstance(a,(Sym,Obj)) or isinstance(b,(Sym,Obj)): raise Skip("add")
            return a+b
        if t is ast.UnaryOp and isinstance(n.op,ast.USub): return -s.ev(n.operand,env)
        if t is ast.JoinedStr:
            out=""
            for x in n.values:
                if isinstance(x,ast.Constant): out+=x.value
                else: 
                    v=s.ev(x.value,env)
                    if not isinstance(v,(str,int)): raise Skip("fstr")
                    out+=str(v)
            return out
        if t is ast.Call: return s.call(n,env)
        raise Skip("expr "+t.__name__)
    def cattr(s,name):
        if name in s.cls: return s.cls[name]
        raise Skip("self."+name)
    def call(s,n,env):
        f=n.func
        if isinstance(f,ast.Name):
            if f.id in("deepcopy",): return copy.deepcopy(s.ev(n.args[0],env))
            if f.id in ("OrderedDict","dict") :
                d=dict(s.ev(n.args[0],env)) if n.args else {}
                for k in n.keywords: d[k.arg]=s.ev(k.value,env)
                return d
            if f.id in BK:
                kw={k.arg:s.ev(k.value,env) for k in n.keywords}
                args=[s.ev(a,env) for a in n.args]
                for nm,a in zip(["config","native","templates","context"],args): kw[nm]=a
                return Obj(f.id,kw.pop("config",None),kw.pop("native",None),kw.pop("dsa",True),kw)
            if f.id=="len": return len(s.ev(n.args[0],env))
            if f.id=="str": return str(s.ev(n.args[0],env))
            raise Skip("call "+f.id)
        if isinstance(f,ast.Attribute):
            if isinstance(f.value,ast.Name) and f.value.id=="self":
                if f.attr=="_tabs": return s.ev(n.args[0],env).replace("    ","\t")
                if f.attr in("assertEqual","assertDictEqual","assertListEqual","assertIn","assertNotIn"):
                    try:
                        a=s.ev(n.args[0],env);b=s.ev(n.args[1],env)
                    except Skip as e:
                        s.checks.append(("skip",str(e))); return None
                    s.checks.append((f.attr,copy.deepcopy(a) if not isinstance(a,Sym) else a,copy.deepcopy(b) if not isinstance(b,Sym) else b)); return None
                if f.attr in s.funcs:
                    fn=s.funcs[f.attr]
                    e={}
                    ps=[a.arg for a in fn.args.args][1:]
                    ds=fn.args.defaults
                    for p,d in zip(ps[len(ps)-len(ds):],ds): e[p]=s.ev(d,{})
                    for p,a in zip(ps,n.args): e[p]=s.ev(a,env)
                    for k in n.keywords: e[k.arg]=s.ev(k.value,env)
                    try: s.block(fn.body,e)
                    except RetV as r: return r.v
                    return None
                raise Skip("self."+f.attr)
            if isinstance(f.value,ast.Name) and f.value.id=="copy" and f.attr in("deepcopy","copy"): return copy.deepcopy(s.ev(n.args[0],env))
            if isinstance(f.value,ast.Name) and f.value.id in BK and f.attr.endswith("auto_client"):
                kw={k.arg:s.ev(k.value,env) for k in n.keywords if k.arg}
                for k in n.keywords:
                    if k.arg is None: kw.update(s.ev(k.value,env))
                args=[s.ev(a,env) for a in n.args]
                return Sym("auto",(f.value.id,f.attr),(args,kw))
            v=s.ev(f.value,env)
            if isinstance(v,Obj):
                if f.attr=="render":
                    fl=True
                    if n.args: fl=s.ev(n.args[0],env)
                    for k in n.keywords:
                        if k.arg=="files": fl=s.ev(k.value,env)
                    return Sym("render",v,fl)
                if f.attr in("validate","to_intermediate"): return None
                raise Skip("obj."+f.attr)
            if isinstance(v,(Sym)): raise Skip("sym."+f.attr)
            if isinstance(v,(dict,list,str)) and f.attr in("update","append","pop","replace","format","copy","get","strip","remove","insert","items","keys","extend","setdefault","split","join"):
                return getattr(v,f.attr)(*[s.ev(a,env) for a in n.args],**{k.arg:s.ev(k.value,env) for k in n.keywords})
            raise Skip("meth "+f.attr)
        raise Skip("call")
    def assign(s,t,v,env):
        if isinstance(t,ast.Name): env[t.id]=v
        elif isinstance(t,ast.Subscript):
            o=s.ev(t.value,env)
            if isinstance(o,(Sym,Obj)): raise Skip("assign")
            o[s.ev(t.slice,env)]=v
        elif isinstance(t,ast.Tuple):
            for x,y in zip(t.elts,v): s.assign(x,y,env)
        else: raise Skip("assign")
    def block(s,body,env):
        for st in body:
            t=type(st)
            if t is ast.Assign:
                v=s.ev(st.value,env)
                for x in st.targets: s.assign(x,v,env)
            elif t is ast.Expr: 
                s.ev(st.value,env)
            elif t is ast.Delete:
                for x in st.targets:
                    o=s.ev(x.value,env)
                    if isinstance(o,(Sym,Obj)): raise Skip("del")
                    del o[s.ev(x.slice,env)]
            elif t is ast.With:
                c=st.items[0].context_expr
                if isinstance(c,ast.Call) and isinstance(c.func,ast.Attribute) and c.func.attr=="subTest":
                    try: s.block(st.body,env)
                    except Skip as e: s.checks.append(("skip",str(e)))
                else: raise Skip("with")
            elif t is ast.For:
                for v in s.ev(st.iter,env):
                    s.assign(st.target,v,env); s.block(st.body,env)
            elif t is ast.Return: raise RetV(s.ev(st.value,env) if st.value else None)
            elif t is ast.Pass: pass
            else: raise Skip("stmt "+t.__name__)
class RetV(Exception):
    def __init__(s,v): s.v=v
def run(path):
    tree=ast.parse(open(path).read())
    ev=Ev({}); ev.cls={}; ev.funcs={}
    out=[]
    for st in tree.body:
        if isinstance(st,ast.Assign):
            try: ev.block([st],ev.mod)
            except Skip: pass
    for c in tree.body:
        if not isinstance(c,ast.ClassDef): continue
        ev.cls={}; ev.funcs={}
        for st in c.body:
            if isinstance(st,ast.FunctionDef): ev.funcs[st.name]=st
            if isinstance(st,(ast.Assign,ast.Delete,ast.Expr)):
                try: ev.block([st],ev.cls)
                except Skip as e: pass
                except Exception as e: pass
        for st in c.body:
            if isinstance(st,ast.FunctionDef) and st.name.startswith("test"):
                ev.checks=[]
                cls0=copy.deepcopy(ev.cls)
                try: ev.block(st.body,{})
                except Skip as e: ev.checks.append(("skip",str(e)))
                except RetV: pass
                except Exception as e: ev.checks.append(("skip","exc "+repr(e)))
                ev.cls=cls0
                for k,ch in enumerate(ev.checks): out.append((os.path.basename(path)+":"+c.name+"."+st.name+"#"+str(k),ch))
    return out
def cs(x):
    if not isinstance(x,str): raise Skip("notstr")
    if any(ord(c)>255 for c in x): raise Skip("unicode")
    b=x
    # use utf-8 free: only ascii allowed in literals
    if any(ord(c)>126 or (ord(c)<32 and c not in "\n\t") for c in b): raise Skip("nonascii")
    return '"'+b.replace('"','""')+'"'
def cv(v):
    if v is None: return "VNull"
    if v is True: return "(VBool true)"
    if v is False: return "(VBool false)"
    if isinstance(v,int): return "(VInt (%d))"%v
    if isinstance(v,float): return '(VFloat %s)'%cs(repr(v))
    if isinstance(v,str): return "(VStr %s)"%cs(v)
    if isinstance(v,(list,tuple)): return "(VList ["+"; ".join(map(cv,v))+"])"
    if isinstance(v,dict): return "(VDict %s)"%cd(v)
    raise Skip("val")
def cd(d): return "["+"; ".join("(%s, %s)"%(cs(k),cv(v)) for k,v in d.items())+"]"
